(** Concrete cases for C74: a node with the default configuration in a session of eight mixnodes. *)
From Verif Require Import PDefault PExample.
From Verif Require PRequestsEx PRepliesEx PRateEx.

Definition st_config : config := stock (Some (ex_secret 8)).
Definition st_setup : list call :=
  [CallSetStatus (SessionStatus 0 PRequestsToCurrent);
   CallSetMixnodes RCurrent (Ok (map ex_node [8; 16; 24; 32; 40; 48; 56; 64]%N)) ex_r].
Definition st_start (l : list call) : option (list (call * resp) * mixnet) :=
  match mx_new toy_prims st_config with Val m => play m l | Panic => None end.
Lemma st_setup_ok : Forall call_ok st_setup.
Proof. unfold st_setup. constructor; [done|]. constructor; [|done]. cbn. repeat constructor. Qed.
Lemma st_reachable l h m : Forall call_ok l -> st_start l = Some (h, m) -> reachable toy_prims st_config h m.
Proof.
  intros Hc H. split.
  { split; [by vm_compute|]. intros s [= <-]. apply replicate_length. }
  unfold st_start in H. destruct (mx_new toy_prims st_config) as [m0|]; [|done]. exists m0. split; [done|]. by eapply play_run.
Qed.
(** [n] bytes of data. *)
Definition st_data (n : N) : scattered N := sc_from_slice (replicate (N.to_nat n) 5%N).
Lemma st_args n k : (n <= USIZE_MAX)%N -> (k <= USIZE_MAX)%N -> args_ok ex_id (st_data n) k.
Proof.
  intros Hn Hk. split; [apply replicate_length|].
  assert (E : sc_contents (st_data n) = replicate (N.to_nat n) 5%N).
  { unfold st_data, sc_from_slice, sc_contents. cbn [sc_first sc_mids sc_last concat app]. by rewrite ?app_nil_r. }
  unfold sc_wf, data_len. rewrite E, replicate_length, N2Nat.id.
  split; [|by split]. unfold st_data, sc_from_slice. cbn [sc_len]. apply replicate_length.
Qed.
Definition with_stock (f : mixnet -> session -> bool) : bool :=
  match st_start st_setup with
  | Some (_, m) => bool_decide (mx_status m = SessionStatus 0 PRequestsToCurrent) && on_current m (f m)
  | None => false
  end.
Lemma with_stock_spec f :
  with_stock f = true -> exists hist m s, reachable toy_prims st_config hist m /\ usable m 0 RCurrent s /\ f m s = true.
Proof.
  unfold with_stock, on_current. intros H. destruct (st_start st_setup) as [[h m]|] eqn:E; [|discriminate H].
  apply andb_true_iff in H as [H1 H]. apply bool_decide_eq_true in H1.
  destruct (ss_current (mx_sessions m)) as [| | |s] eqn:Es; try discriminate H.
  exists h, m, s. split; [eapply st_reachable; [apply st_setup_ok|exact E]|]. split; [|exact H].
  split; [rewrite H1; constructor; by left|exact Es].
Qed.
Definition st_post (n k : N) (dest : option mixnode_index) : call := CallPostRequest 0 dest ex_id (st_data n) k (ex_ns 8) ex_r.
Definition st_ok (m : mixnet) (c : call) (f : mixnet -> bool) : bool :=
  match exec toy_prims m c with Val (m', RespPost _ (Ok _)) => f m' | _ => false end.
Lemma st_ok_spec m c f :
  st_ok m c f = true -> exists m' dest' mt, exec toy_prims m c = Val (m', RespPost dest' (Ok mt)) /\ f m' = true.
Proof.
  unfold st_ok. intros H. destruct (exec toy_prims m c) as [[m' a]|]; [|discriminate H].
  destruct a as [| | | | |d [mt|]| |]; try discriminate H. by exists m', d, mt.
Qed.
Definition st_surbs : list bytes := replicate 25 (replicate 222 0%N).
Definition st_reply : bytes := replicate 16 1%N.
(** The node is a mixnode with nothing queued; a request of 50625 bytes makes 25 packets, and one of 50626
    bytes would make 26; a request with two SURBs is accepted; a reply of 50625 bytes uses 25 SURBs; a
    request to mixnode 100 panics. *)
Definition st_check (m : mixnet) (s : session) : bool :=
  (tp_is_mixnode (se_topology s) && match aq_queue (se_authored s) with [] => true | _ => false end) &&
  (st_ok m (st_post 50625 0 None) (fun m1 => on_current m1 (fun s1 => length (aq_queue (se_authored s1)) =? 25)) &&
  (match fragment_blueprints ex_id (st_data 50626) 0 with Val (Some bs) => length bs =? 26 | _ => false end &&
  (st_ok m (st_post 1000 2 None) (fun _ => true) &&
  (match post_reply toy_prims m st_surbs 0 st_reply (st_data 50625) with Val (_, [], Ok _) => true | _ => false end &&
   match exec toy_prims m (st_post 10 0 (Some 100%N)) with Panic => true | _ => false end)))).
Lemma st_check_true : with_stock st_check = true.
Proof. by vm_compute. Qed.

Lemma st_call_ok n k : (n <= USIZE_MAX)%N -> (k <= USIZE_MAX)%N -> call_ok (st_post n k None).
Proof. intros Hn Hk. split; [by apply st_args|]. split; [apply replicate_length|]. intros d Hd. discriminate Hd. Qed.
Example C74_example :
  exists hist m s m1 d1 mt1 m2 d2 mt2 m3,
    reachable toy_prims (stock (Some (ex_secret 8))) hist m /\ usable m 0 RCurrent s /\
    tp_is_mixnode (se_topology s) = true /\ aq_queue (se_authored s) = [] /\
    (** requests *)
    call_ok (st_post 50625 0 None) /\ exec toy_prims m (st_post 50625 0 None) = Val (m1, RespPost d1 (Ok mt1)) /\
    on_current m1 (fun s1 => length (aq_queue (se_authored s1)) =? 25) = true /\
    needs (data_len (st_data 50626)) 0 26 /\
    post_request toy_prims m 0 None ex_id (st_data 50626) 0 (ex_ns 8) ex_r = Val (m, None, Err PeTooManyFragments) /\
    call_ok (st_post 1000 2 None) /\ exec toy_prims m (st_post 1000 2 None) = Val (m2, RespPost d2 (Ok mt2)) /\
    (** replies *)
    args_ok st_reply (st_data 50625) 0 /\ (data_len (st_data 50625) <= 50625)%N /\
    post_reply toy_prims m st_surbs 0 st_reply (st_data 50625) = Val (m3, [], Ok tt) /\
    (** panics *)
    exp1_ok (pr_exp1 toy_prims) /\ exec toy_prims m (st_post 10 0 (Some 100%N)) = Panic.
Proof.
  destruct (with_stock_spec _ st_check_true) as (hist & m & s & Hr & Hu & H). unfold st_check in H.
  apply andb_true_iff in H as [H1 H]. apply andb_true_iff in H1 as [Hmix Hq].
  apply andb_true_iff in H as [H2 H]. destruct (st_ok_spec _ _ _ H2) as (m1 & d1 & mt1 & E1 & Hl1). clear H2.
  apply andb_true_iff in H as [H3 H]. apply andb_true_iff in H as [H4 H].
  destruct (st_ok_spec _ _ _ H4) as (m2 & d2 & mt2 & E2 & _). clear H4. apply andb_true_iff in H as [H5 H6].
  destruct (post_reply toy_prims m st_surbs 0 st_reply (st_data 50625)) as [[[m3 [|]] [[]|]]|] eqn:E3; try discriminate H5. clear H5.
  destruct (exec toy_prims m (st_post 10 0 (Some 100%N))) as [|] eqn:E4; [discriminate H6|]. clear H6.
  destruct (st_args 50626 0) as (Hid & Hwf & Hd & Hk); [done|done|].
  destruct (fragment_blueprints ex_id (st_data 50626) 0) as [[bs|]|] eqn:E5; try discriminate H3. apply Nat.eqb_eq in H3.
  assert (Hn : needs (data_len (st_data 50626)) 0 26).
  { rewrite <- H3. eapply needs_blueprints; [exact Hwf|exact Hd|exact Hk|exact E5]. }
  clear E5 H3.
  exists hist, m, s, m1, d1, mt1, m2, d2, mt2, m3.
  split; [exact Hr|]. split; [exact Hu|]. split; [exact Hmix|].
  split; [destruct (aq_queue (se_authored s)); [reflexivity|discriminate Hq]|].
  split; [by apply st_call_ok|]. split; [exact E1|]. split; [exact Hl1|]. split; [exact Hn|].
  split; [eapply (C74_request toy_prims toy_prims_ok (Some (ex_secret 8)) hist m 0 None ex_id (st_data 50626) 0 (ex_ns 8) ex_r 26 Hr);
          [by apply st_args|apply replicate_length|exact Hn|lia]|].
  split; [by apply st_call_ok|]. split; [exact E2|].
  split; [split; [apply replicate_length|]; by apply (st_args 50625 0)|].
  split; [unfold data_len, st_data, sc_from_slice, sc_contents; cbn [sc_first sc_mids sc_last concat app]; rewrite app_nil_r, replicate_length; lia|].
  split; [exact E3|]. split; [exact PRateEx.toy_exp1_ok|exact E4].
Qed.

(** A request that is posted twelve times and given up. *)
Definition sr_calls : list (rm_call N) :=
  [RmUpdate (SessionStatus 1 PRequestsToCurrent); RmInsert 1%N] ++ concat (replicate 30 [RmChanged; RmProcess; RmPop]).
Definition sr_start : request_manager N := (rqm_new PRequestsEx.ex_now default_rm_config 0%N).1.
Definition sr_result := default ([], sr_start, 0%N, [])
  (PRequestsEx.play PRequestsEx.ex_post PRequestsEx.ex_now PRequestsEx.ex_fresh PRequestsEx.ex_delay sr_start 1%N [] sr_calls).
Example C74_requests_example :
  let h := sr_result.1.1.1 in let m := sr_result.1.1.2 in
  rm_reach PRequestsEx.ex_post PRequestsEx.ex_now PRequestsEx.ex_fresh PRequestsEx.ex_delay default_rm_config h m sr_result.2 /\
  inserted h = [1%N] /\ removed h = [] /\ post_errs (rqm_log m) = [] /\ map rst_request (managed m) = [] /\
  posts (fun r => (r =? 1)%N) (rqm_log m) = 12%N.
Proof.
  split; [|by vm_compute]. exists 0%N. apply (PRequestsEx.play_run _ _ _ _ _ 1%N _ sr_calls _ _ 34%N). by vm_compute.
Qed.

(** A reply that is posted twice when the request is completed, not again 5 s later, and twice more
    10 s later. *)
Definition sy_calls : list (N * ym_call) :=
  [(5, YmComplete (PRepliesEx.ey_ctx 1 [11; 12; 13]) [77]);
   (5000000005, YmInsert (PRepliesEx.ey_msg 1 [14; 15]));
   (10000000005, YmInsert (PRepliesEx.ey_msg 1 [16; 17; 18]))]%N.
Notation sy_play := (PRepliesEx.yplay PRepliesEx.ey_post PRepliesEx.ey_now PRepliesEx.ey_fresh).
Notation sy_run := (ym_run PRepliesEx.ey_post PRepliesEx.ey_now PRepliesEx.ey_fresh).
Definition sy_first := default ([], ym_new default_ym_config)
  (sy_play (ym_new default_ym_config) [(1%N, YmInsert (PRepliesEx.ey_msg 1 [11; 12; 13]%N))]).
Definition sy_second := default ([], ym_new default_ym_config) (sy_play sy_first.2 sy_calls).
Lemma sy_reached : ym_reach PRepliesEx.ey_post PRepliesEx.ey_now PRepliesEx.ey_fresh default_ym_config sy_first.1 sy_first.2.
Proof.
  assert (H : sy_run (fun _ => true = true) (ym_new default_ym_config) sy_first.1 sy_first.2).
  { apply (PRepliesEx.yplay_run _ _ _ (fun _ => true) _ [(1%N, YmInsert (PRepliesEx.ey_msg 1 [11; 12; 13]%N))]); [by vm_compute|done]. }
  unfold ym_reach. induction H; [constructor|]. by econstructor.
Qed.
Lemma sy_ran : sy_run (remembers [1%N]) sy_first.2 sy_second.1 sy_second.2.
Proof.
  assert (H : sy_run (fun m => bool_decide ([1%N] ∈ keys m) = true) sy_first.2 sy_second.1 sy_second.2).
  { apply (PRepliesEx.yplay_run _ _ _ _ _ sy_calls); [by vm_compute|]. intros n h1 m1 H.
    destruct n as [|n]; [vm_compute in H; injection H as _ <-; by vm_compute|].
    destruct n as [|n]; [vm_compute in H; injection H as _ <-; by vm_compute|].
    unfold sy_calls in H. cbn [take] in H. rewrite take_nil in H. vm_compute in H. injection H as _ <-. by vm_compute. }
  induction H as [|? ? ? ? ? ? ? ? ? E HP _ IH]; [constructor|]. econstructor; [exact E| |exact IH]. by apply bool_decide_eq_true in HP.
Qed.
Example C74_replies_example :
  exists x h' y,
    ym_reach PRepliesEx.ey_post PRepliesEx.ey_now PRepliesEx.ey_fresh default_ym_config sy_first.1 sy_first.2 /\
    sy_run (remembers [1%N]) sy_first.2 (x :: h' ++ [y]) sy_second.2 /\
    about (yi_call x) = [1%N] /\ about (yi_call y) = [1%N] /\
    map (fun x => (length (made_posts (yi_log x)), times (yi_log x))) (x :: h' ++ [y]) =
      [(2, [5%N]); (0, [5000000005%N]); (2, [10000000005%N])] /\
    Sorted.StronglySorted N.le (all_times (x :: h' ++ [y])).
Proof.
  assert (H : exists x h' y, sy_second.1 = x :: h' ++ [y] /\ about (yi_call x) = [1%N] /\ about (yi_call y) = [1%N] /\
    map (fun x => (length (made_posts (yi_log x)), times (yi_log x))) (x :: h' ++ [y]) =
      [(2, [5%N]); (0, [5000000005%N]); (2, [10000000005%N])] /\
    Sorted.StronglySorted N.le (all_times (x :: h' ++ [y]))).
  { eexists _, [_], _. split; [by vm_compute|]. split; [done|]. split; [done|]. split; [by vm_compute|].
    vm_compute. repeat constructor; discriminate. }
  destruct H as (x & h' & y & E & H). exists x, h', y. split; [exact sy_reached|]. split; [|exact H].
  rewrite <- E. exact sy_ran.
Qed.
