(** The theorems on the reply manager apply to [Mixnet::post_reply]; concrete histories. *)
From stdpp Require Import sorting.
From Verif Require Import MManagers PReplies PPost PScattered.
Local Open Scope N_scope.

(** [Mixnet::post_reply] only takes SURBs off the end, whatever the state of the mixnet and its result. *)
Lemma reply_loop_prefix pr t bs surbs q lft q' res :
  post_reply_loop pr t bs surbs q = Val (lft, q', res) -> lft `prefix_of` surbs.
Proof.
  revert surbs q. induction bs as [|b bs IH]; intros surbs q; cbn [post_reply_loop]; [by intros [= <- <- <-]|].
  destruct (fb_write_except_surbs _ _); cbn [out_bind]; [|done].
  destruct (vec_pop surbs) as [[surb surbs']|] eqn:Ep; cbn [expect out_bind]; [|done].
  assert (Hp : surbs' `prefix_of` surbs).
  { unfold vec_pop in Ep. destruct (list.last surbs) as [x|]; [|done]. injection Ep as <- <-. eexists; symmetry; apply take_drop. }
  destruct (complete_reply_packet _ _ _) as [packet [index|]]; [|by intros [= <- <- <-]].
  destruct (tp_index_to_peer_id _ _); [|by intros [= <- <- <-]].
  destruct (aq_push _ _); cbn [out_bind]; [|done]. intros H%IH. by etrans.
Qed.
Theorem world_takes_from_end pr : takes_from_end (w_post_reply pr).
Proof.
  intros w surbs i id data w' lft res H. unfold w_post_reply, post_reply in H.
  destruct (fragment_blueprints _ _ _) as [[bs|]|]; cbn [out_bind] in H; [|by injection H as <- <- <-|done].
  destruct (_ <? _); [by injection H as <- <- <-|].
  destruct (post_session _ _ _) as [[rel s]|e]; [|by injection H as <- <- <-].
  destruct (aq_check_space _ _); [|by injection H as <- <- <-].
  destruct (post_reply_loop _ _ _ _ _) as [[[lft' q] res']|] eqn:El; cbn [out_bind] in H; [|done].
  injection H as <- <- <-. by eapply reply_loop_prefix.
Qed.

(** With the mixnet, no call panics: the mixnet is in a state that the invariant of all reachable states
    ([mx_posting]) covers, and the replies are no longer than Rust allows. *)
Theorem C48_mixnet_panics pr cf h m w c :
  ym_reach (w_post_reply pr) w_now w_fresh_id cf h m ->
  (forall data, (exists x, x ∈ h /\ completed_with (yi_call x) data) \/ completed_with c data -> N.of_nat (length data) <= USIZE_MAX) ->
  posting_ok (w_mixnet w) ->
  exists m' w' l a, ym_exec (w_post_reply pr) w_now w_fresh_id m (w, []) c = Val (m', (w', l), a) /\ posting_ok (w_mixnet w').
Proof.
  intros Hr Hd Hw.
  apply (C48_panics (w_post_reply pr) w_now w_fresh_id cf h m w c (fun w => posting_ok (w_mixnet w))
    (fun id data => length id = 16%nat /\ N.of_nat (length data) <= USIZE_MAX)); [done| | | |done].
  - intros w0 surbs i id data Hw0 [H1 H2]. unfold w_post_reply.
    destruct (C37_post_reply pr (w_mixnet w0) surbs i id (sc_from_slice data) Hw0) as [(e & -> & _)|(rel & s & bs & used & ps & lft & res & Hu & _ & _ & _ & -> & _)].
    + split; [done|]. split; [apply sc_from_slice_wf|]. unfold data_len, sc_contents, sc_from_slice. cbn. rewrite app_nil_r. by split.
    + by eexists _, _, _.
    + eexists _, _, _. split; [reflexivity|]. cbn. destruct Hw0 as (K1 & K2 & K3). split; [done|]. split; [done|].
      destruct Hu as [_ Hu]. assert (Ht : topo_ok (se_topology s)) by (destruct rel; [exact (K3 RCurrent _ Hu)|exact (K3 RPrev _ Hu)]).
      intros rel' s' Hs'. destruct rel, rel'; cbn in Hs'.
      * injection Hs' as <-. exact Ht.
      * exact (K3 RPrev _ Hs').
      * exact (K3 RCurrent _ Hs').
      * injection Hs' as <-. exact Ht.
  - done.
  - intros w0 data H. split; [done|by apply Hd].
Qed.

(** ** Concrete histories *)
Section play.
  Context {W : Type}.
  Context (post : W -> list bytes -> session_index -> bytes -> bytes -> outcome (W * list bytes * result unit post_err)).
  Context (now : W -> instant * W).
  Context (fresh_id : W -> bytes * W).
  (** Each call is given the world it finds. *)
  Fixpoint yplay (m : reply_manager) (cs : list (W * ym_call)) : option (list ym_item * reply_manager) :=
    match cs with
    | [] => Some ([], m)
    | (w, c) :: cs =>
        match ym_exec post now fresh_id m (w, []) c with
        | Val (m, (w, l), a) => match yplay m cs with Some (h, m) => Some (YmItem c a l :: h, m) | None => None end
        | Panic => None
        end
    end.
  Lemma yplay_run (P : reply_manager -> bool) m cs h m' : yplay m cs = Some (h, m') ->
    (forall n h1 m1, yplay m (take (S n) cs) = Some (h1, m1) -> P m1 = true) -> ym_run post now fresh_id (fun m => P m = true) m h m'.
  Proof.
    revert m h. induction cs as [|[w c] cs IH]; intros m h; cbn; [intros [= <- <-] _; constructor|].
    destruct (ym_exec _ _ _ _ _ c) as [[[m1 [w1 l]] a]|] eqn:E; [|done].
    destruct (yplay m1 cs) as [[h1 m2]|] eqn:E2; [|done]. intros [= <- <-] HP. econstructor; [exact E| |].
    - apply (HP 0%nat [YmItem c a l]). cbn. done.
    - apply IH; [done|]. intros n h2 m3 H. apply (HP (S n) (YmItem c a l :: h2)). cbn [take]. rewrite H. done.
  Qed.
End play.

(** The world is a clock; a reply needs one SURB. *)
Definition ey_post (w : N) (surbs : list bytes) (i : session_index) (id data : bytes)
  : outcome (N * list bytes * result unit post_err) :=
  match reverse surbs with
  | [] => Val (w, surbs, Err PeTooManyFragments)
  | _ :: l => Val (w, reverse l, Ok tt)
  end.
Definition ey_now (w : N) : instant * N := (w, w).
Definition ey_fresh (w : N) : bytes * N := (w :: replicate 15 0, w).
Definition ey_msg (id : N) (surbs : list N) : request_message := RequestMessage 4 [id] [id; id] (map (fun x => [x]) surbs).
Definition ey_ctx (id : N) (surbs : list N) : reply_context := ReplyContext 4 [id] (map (fun x => [x]) surbs).
(** At most two requests are remembered, replies are posted twice, and at most once every 10 units. *)
Definition ey_cf : ym_config := YmConfig 2 2 10.
Definition ey_calls : list (N * ym_call) :=
  [(1, YmInsert (ey_msg 1 [11; 12; 13])); (2, YmInsert (ey_msg 2 [])); (3, YmInsert (ey_msg 1 []));
   (5, YmComplete (ey_ctx 1 [11; 12; 13]) [77])].
Definition ey_later : list (N * ym_call) :=
  [(8, YmInsert (ey_msg 1 [14])); (9, YmAbandon (ey_ctx 2 [])); (15, YmInsert (ey_msg 1 [15])); (16, YmInsert (ey_msg 3 []));
   (20, YmInsert (ey_msg 1 [16])); (25, YmInsert (ey_msg 1 [17; 18]))].
Definition ey_last : list (N * ym_call) := [(26, YmInsert (ey_msg 4 [])); (27, YmInsert (ey_msg 1 []))].
Definition ey_play cs := default ([], ym_new ey_cf) (yplay ey_post ey_now ey_fresh (ym_new ey_cf) cs).
Definition ey_h cs := (ey_play cs).1.
Definition ey_m cs := (ey_play cs).2.
Notation ey_reach := (ym_reach ey_post ey_now ey_fresh ey_cf).
Notation ey_exec := (ym_exec ey_post ey_now ey_fresh).
Lemma ey_reached cs h m : yplay ey_post ey_now ey_fresh (ym_new ey_cf) cs = Some (h, m) -> ey_reach h m.
Proof.
  intros H. unfold ym_reach. pose proof (yplay_run ey_post ey_now ey_fresh (fun _ => true) _ _ _ _ H (fun _ _ _ _ => eq_refl)) as Hr.
  clear H. induction Hr; [constructor|]. by econstructor.
Qed.
Lemma ey_reach1 : ey_reach (ey_h ey_calls) (ey_m ey_calls).
Proof. apply (ey_reached ey_calls). by vm_compute. Qed.
Lemma ey_reach2 : ey_reach (ey_h (ey_calls ++ ey_later ++ ey_last)) (ey_m (ey_calls ++ ey_later ++ ey_last)).
Proof. apply (ey_reached (ey_calls ++ ey_later ++ ey_last)). by vm_compute. Qed.

(** The oldest of three requests is forgotten. *)
Example C48_example :
  ey_reach (ey_h ey_calls) (ey_m ey_calls) /\ keys (ey_m ey_calls) = [[1]; [2]] /\
  (exists m' w', ey_exec (ey_m ey_calls) (9, []) (YmInsert (ey_msg 5 [])) = Val (m', w', Some (ey_ctx 5 [], [5; 5])) /\ keys m' = [[2]; [5]]) /\
  (exists m' w', ey_exec (ey_m ey_calls) (9, []) (YmAbandon (ey_ctx 2 [])) = Val (m', w', None) /\ keys m' = [[1]]) /\
  (exists m' w', ey_exec (ey_m ey_calls) (9, []) (YmAbandon (ey_ctx 1 [])) = Val (m', w', None) /\ keys m' = [[1]; [2]]).
Proof. split; [exact ey_reach1|]. split; [by vm_compute|]. split_and!; eexists _, _; split; by vm_compute. Qed.
Example C48_panics_example :
  (forall w surbs i id data, exists w' lft res, ey_post w surbs i id data = Val (w', lft, res) /\ True).
Proof. intros. unfold ey_post. destruct (reverse surbs); by eexists _, _, _. Qed.
(** Request 1 is handed over again after two other requests were inserted, and request 2 after it was abandoned. *)
Example C49_example : exists m msg1 msg2 c1 c2 l1 l2 h1,
  let h := ey_h (ey_calls ++ ey_later ++ ey_last) in
  ey_reach h m /\ h = ([] ++ YmItem (YmInsert msg1) (Some c1) l1 :: h1 ++ YmItem (YmInsert msg2) (Some c2) l2 :: [])%list /\
  rq_id msg1 = rq_id msg2 /\ rq_id msg1 = [1] /\ forgotten ey_cf [1] h1.
Proof.
  eexists _, _, _, _, _, _, _, _. cbn zeta. split; [exact ey_reach2|].
  assert (Hh : ey_h (ey_calls ++ ey_later ++ ey_last) =
    ([] ++ YmItem (YmInsert (ey_msg 1 [11; 12; 13])) (Some (ey_ctx 1 [11; 12; 13], [1; 1])) [] ::
     take 10 (drop 1 (ey_h (ey_calls ++ ey_later ++ ey_last))) ++ YmItem (YmInsert (ey_msg 1 [])) (Some (ey_ctx 1 [], [1; 1])) [] :: [])%list) by (by vm_compute).
  split; [exact Hh|]. split; [done|]. split; [done|].
  pose proof ey_reach2 as Hr. rewrite Hh in Hr.
  exact (C49_once _ _ _ _ _ _ _ _ _ _ _ _ _ _ Hr eq_refl eq_refl eq_refl eq_refl eq_refl).
Qed.
(** Request 1 is completed at time 5, and repeated at times 8, 15, 20 and 25, while requests 2 and 3 come and go. *)
Definition ey_m3 := ey_m (take 3 ey_calls).
Definition ey_x : ym_item :=
  YmItem (YmComplete (ey_ctx 1 [11; 12; 13]) [77]) None
    [YPost [[11]; [12]; [13]] 4 (5 :: replicate 15 0) [77] [[11]; [12]] true;
     YPost [[11]; [12]] 4 (5 :: replicate 15 0) [77] [[11]] true; YTime 5].
Definition ey_y : ym_item :=
  YmItem (YmInsert (ey_msg 1 [17; 18])) None
    [YTime 25; YPost [[17]; [18]] 4 (5 :: replicate 15 0) [77] [[17]] true;
     YPost [[17]] 4 (5 :: replicate 15 0) [77] [] true].
Definition ey_between : list ym_item := take 5 (drop 4 (ey_h (ey_calls ++ ey_later))).
Lemma ey_run : ym_run ey_post ey_now ey_fresh (remembers [1]) ey_m3 (ey_x :: ey_between ++ [ey_y]) (ey_m (ey_calls ++ ey_later)).
Proof.
  assert (H : ym_run ey_post ey_now ey_fresh (fun m => bool_decide ([1] ∈ keys m) = true) ey_m3 (ey_x :: ey_between ++ [ey_y]) (ey_m (ey_calls ++ ey_later))).
  { apply (yplay_run ey_post ey_now ey_fresh _ _ (drop 3 ey_calls ++ ey_later)); [by vm_compute|]. intros n h1 m1 H.
    do 7 (destruct n as [|n]; [vm_compute in H; injection H as <- <-; by vm_compute|]). vm_compute in H. injection H as <- <-. by vm_compute. }
  induction H as [|? ? ? ? ? ? ? ? ? E HP _ IH]; [constructor|]. econstructor; [exact E| |exact IH]. by apply bool_decide_eq_true in HP.
Qed.
Lemma ey_m3_reached : ey_reach (ey_h (take 3 ey_calls)) ey_m3.
Proof. apply (ey_reached (take 3 ey_calls)). by vm_compute. Qed.
Example C50_example :
  ey_reach (ey_h (take 3 ey_calls)) ey_m3 /\
  ym_run ey_post ey_now ey_fresh (remembers [1]) ey_m3 (ey_x :: ey_between ++ [ey_y]) (ey_m (ey_calls ++ ey_later)) /\
  StronglySorted N.le (all_times (ey_x :: ey_between ++ [ey_y])) /\
  map (fun x => (length (made_posts (yi_log x)), times (yi_log x))) ey_between =
    [(0%nat, [8]); (0%nat, []); (2%nat, [15]); (0%nat, []); (0%nat, [20])] /\
  takes_from_end ey_post.
Proof.
  split; [exact ey_m3_reached|]. split; [exact ey_run|].
  split; [apply Sorted_StronglySorted; [intros ? ? ?; lia|]; vm_compute; repeat constructor; discriminate|]. split; [by vm_compute|].
  intros w surbs i id data w' lft res. unfold ey_post. destruct (reverse surbs) as [|x l] eqn:E; intros [= <- <- <-]; [done|].
  exists [x]. rewrite <-(reverse_involutive surbs), E, reverse_cons. done.
Qed.

Print Assumptions world_takes_from_end.
Print Assumptions C48_bounded.
Print Assumptions C48_order.
Print Assumptions C48_panics.
Print Assumptions C48_mixnet_panics.
Print Assumptions C49_once.
Print Assumptions C49_remembered.
Print Assumptions C49_handed.
Print Assumptions C50_same_reply.
Print Assumptions C50_reply_data.
Print Assumptions C50_cooldown.
Print Assumptions C50_answered.
Print Assumptions C50_copies.
Print Assumptions C50_surbs.
