(** C64: a node with a request manager matches replies with the requests they answer. *)
From Verif Require Export PManaged PProvenance PCalls.
From Verif Require PNet PRequestsEx.
Local Open Scope N_scope.

(** ** Specification *)

(** What is done with a node and a request manager that posts to it: a call on the node, or a call on
    the manager. [hosted pr s d h s' d']: doing [h], without a panic, takes them from [s] to [s']; [d]
    and [d'] are the message ids that the manager has drawn before and after. The clock, the random
    numbers and the network status in each call are arbitrary, and so is what the manager is told of
    the session status. *)
Inductive doing :=
| ByNode (c : call) (a : resp)
| ByManager (c : rm_call user_request) (a : rm_resp user_request).
Inductive hosted (pr : prims) : host -> list bytes -> list doing -> host -> list bytes -> Prop :=
| HdNil s d : hosted pr s d [] s d
| HdNode m rm d c m' a h s2 d2 :
    call_ok c -> exec pr m c = Val (m', a) -> hosted pr (m', rm) d h s2 d2 ->
    hosted pr (m, rm) d (ByNode c a :: h) s2 d2
| HdManager w rm d c rm' w' d' a h s2 d2 :
    length (ns_local_peer_id (w_ns w)) = 32%nat -> acceptable rm c ->
    call_manager pr rm (w, d) c = Val (rm', (w', d'), a) -> hosted pr (w_mixnet w', rm') d' h s2 d2 ->
    hosted pr (w_mixnet w, rm) d (ByManager c a :: h) s2 d2.
(** ... from a new node and a new manager *)
Definition hosted_from_start (pr : prims) (cf : config) (rcf : rm_config) (h : list doing) (s : host) (d : list bytes) : Prop :=
  exists m0 w, config_ok cf /\ mx_new pr cf = Val m0 /\ hosted pr (m0, (rqm_new w_now rcf w).1) [] h s d.
(** Calls on the node itself. *)
Definition own (h : list doing) : list (call * resp) :=
  omap (fun x => match x with ByNode c a => Some (c, a) | _ => None end) h.
(** Calls on the manager. *)
Definition managing (h : list doing) : list (rm_call user_request * rm_resp user_request) :=
  omap (fun x => match x with ByManager c a => Some (c, a) | _ => None end) h.
Definition is_post_request (ns : network_status) (x : call * resp) : Prop :=
  match x.1 with CallPostRequest _ _ _ _ _ ns' _ => ns' = ns | _ => False end.

(** What the calls in a history of a network are, and the worlds that they lead to. *)
Definition posts_of (x : bytes) (tr : list PNet.moment) : list (call * resp) :=
  omap (fun mt => match PNet.mt_event mt with
                  | PNet.EvCall y c a => if decide (y = x) then Some (c, a) else None
                  | _ => None
                  end) tr.
(** Requests handed back under message id [id] *)
Definition matched (id : bytes) (h : list doing) : list user_request :=
  omap (fun x => match x with
                 | ByManager (RmRemove i) (RmRemoved r) => if decide (i = id) then r else None
                 | _ => None
                 end) h.

(** The events of the manager tell of the posts of the node that were accepted, in the same order, with the
    round-trip times estimated from what posting returned. *)
Definition tells (x : call * resp) (e : rm_event user_request) : Prop :=
  match x, e with
  | (CallPostRequest i _ id data k _ _, RespPost d (Ok mt)), EvPosted r id' i' d' _ rtt =>
      id' = id /\ i' = i /\ d' = d /\ rqt_data r = data /\ rqt_num_surbs r = k /\
      estimate_rtt mt (rqt_handling_delay r id) = Val rtt
  | _, _ => False
  end.
Definition is_accepted (x : call * resp) : bool :=
  match x with (CallPostRequest _ _ _ _ _ _ _, RespPost _ (Ok _)) => true | _ => false end.
Definition is_posted (e : rm_event user_request) : bool :=
  match e with EvPosted _ _ _ _ _ _ => true | _ => false end.
Definition told (hist : list (call * resp)) (events : list (rm_event user_request)) : Prop :=
  Forall2 tells (List.filter is_accepted hist) (List.filter is_posted events).

(** ** Proof *)
Lemma told_reported hist events : told hist events -> accepted hist = reported events.
Proof.
  unfold told. intros H.
  assert (E1 : accepted hist = accepted (List.filter is_accepted hist)).
  { clear. induction hist as [|[c a] hist IH]; [done|]. unfold accepted in *. cbn.
    destruct c; cbn; try exact IH. destruct a as [| | | | |? []| |]; cbn; try exact IH. by rewrite IH. }
  assert (E2 : reported events = reported (List.filter is_posted events)).
  { clear. induction events as [|e events IH]; [done|]. unfold reported in *. cbn. destruct e; cbn; try exact IH. by rewrite IH. }
  rewrite E1, E2. clear E1 E2. induction H as [|[c a] e l1 l2 He _ IH]; [done|]. unfold accepted, reported in *. cbn.
  destruct c; try done. destruct a as [| | | | |? []| |]; try done. destruct e; try done.
  destruct He as (-> & -> & -> & <- & <- & _). by rewrite IH.
Qed.
Lemma told_app h1 e1 h2 e2 : told h1 e1 -> told h2 e2 -> told (h1 ++ h2) (e1 ++ e2).
Proof. unfold told. rewrite !List.filter_app. apply Forall2_app. Qed.
Lemma told_in hist events r id i dest t rtt :
  told hist events -> EvPosted r id i dest t rtt ∈ events ->
  exists dest0 ns g mt, (CallPostRequest i dest0 id (rqt_data r) (rqt_num_surbs r) ns g, RespPost dest (Ok mt)) ∈ hist /\
    estimate_rtt mt (rqt_handling_delay r id) = Val rtt.
Proof.
  intros H Hin. apply elem_of_list_In in Hin.
  assert (Hf : EvPosted r id i dest t rtt ∈ List.filter is_posted events) by (apply elem_of_list_In, filter_In; done).
  apply elem_of_list_lookup in Hf as [j Hj]. destruct (Forall2_lookup_r _ _ _ _ _ H Hj) as ([c a] & Hc & Ht).
  apply elem_of_list_lookup_2, elem_of_list_In, filter_In in Hc as [Hc _]. apply elem_of_list_In in Hc.
  destruct c; try done. destruct a as [| | | | |? []| |]; try done. destruct Ht as (-> & -> & -> & <- & <- & Ht).
  by do 4 eexists.
Qed.
Section match_.
  Context (pr : prims) (Hok : prims_ok pr) (cf : config) (Hcf : config_ok cf).

  Notation small := (fun (_ : session_index) (d : mixnode_index) => d <= 65279).
  Section call.
    Context (w0 : world) (rm0 : request_manager user_request).
    Record kept (w : world) (log : list (rm_event user_request)) : Prop := {
      ke_ok : mx_ok pr cf (w_mixnet w);
      ke_ns : length (ns_local_peer_id (w_ns w)) = 32%nat /\ w_ns w = w_ns w0;
      ke_run : exists hist new, run pr (w_mixnet w0) hist (w_mixnet w) /\ Forall (is_post_request (w_ns w0)) hist /\
        log = (rqm_log rm0 ++ new)%list /\ told hist new
    }.
    Lemma post_kept w log i dest id r :
      kept w log -> length id = 16%nat -> request_ok r -> (forall x, dest = Some x -> x <= 65279) ->
      match w_post_request pr w i dest id r with
      | Panic => True
      | Val (w', dest', Ok mt) =>
          ((forall t rtt, estimate_rtt mt (rqt_handling_delay r id) = Val rtt -> kept w' (log ++ [EvPosted r id i dest' t rtt])%list) /\ (0 <= 1)%nat) /\
          (exists d, dest' = Some d /\ (dest = None \/ dest = Some d) /\ d <= 65279) /\
          (estimate_rtt mt (rqt_handling_delay r id) = Panic -> True)
      | Val (w', dest', Err _) => (kept w' log /\ (0 <= 1)%nat) /\ dest' = dest
      end.
    Proof.
      intros [Hm [Hns Hsame] (hist & new & Hr & Hh & -> & Hl)] Hid (Hwf & Hd & Hs & _) Hdest. unfold w_post_request.
      destruct (post_request _ _ _ _ _ _ _ _ _) as [[[m' dest'] res]|] eqn:E; [|done]. cbn [out_bind].
      set (c := CallPostRequest i dest id (rqt_data r) (rqt_num_surbs r) (w_ns w) (w_rng w (w_rng_uses w))).
      assert (Hc : call_ok c) by done.
      assert (He : exec pr (w_mixnet w) c = Val (m', RespPost dest' res)) by (unfold c; cbn [exec]; by rewrite E).
      pose proof (exec_step pr Hok cf _ c _ _ Hcf Hm Hc He) as Hst.
      assert (Hm' : mx_ok pr cf m') by (eapply (step_inv pr Hok cf); done).
      assert (Hrun : run pr (w_mixnet w0) (hist ++ [(c, RespPost dest' res)]) m' /\
        Forall (is_post_request (w_ns w0)) (hist ++ [(c, RespPost dest' res)])).
      { split; [eapply run_join; [done|]; eapply RunCons; [done|exact He|constructor]|]. apply Forall_app. split; [done|]. by constructor. }
      subst c. inversion Hst; subst.
      - split; [|done]. split; [|lia]. split; [done|done|]. eexists _, new. destruct Hrun. split; [done|].
        split; [done|]. split; [done|]. rewrite <- (app_nil_r new). apply told_app; [done|constructor].
      - split; [split; [|lia]|split; [|done]].
        + intros t rtt Hest. split; [done|done|]. eexists _, _. destruct Hrun.
          split; [done|]. split; [done|]. split; [by rewrite <- app_assoc|]. apply told_app; [done|].
          constructor; [|constructor]. by split_and!.
        + match goal with H : posted _ _ _ _ _ _ _ _ _ _ _ _ _ _ _ _ _ |- _ => rename H into Hp end.
          eexists. split; [done|]. destruct (po_dest _ _ _ _ _ _ _ _ _ _ _ _ _ _ _ _ _ Hp) as [Hv Hx]. split; [done|].
          pose proof (usable_get _ _ _ _ (po_usable _ _ _ _ _ _ _ _ _ _ _ _ _ _ _ _ _ Hp)) as Hs'.
          pose proof (so_topology _ _ _ (mx_ok_full _ _ _ _ _ Hm Hs')) as [Hlen _]. unfold valid_index in Hv. lia.
    Qed.
    Lemma manager_kept rcf d c :
      kept w0 (rqm_log rm0) -> Forall (fun id => length id = 16%nat) d ->
      1 <= rmc_num_attempts_per_destination rcf -> 1 <= rmc_num_posts_per_attempt rcf ->
      sound small request_ok rcf rm0 -> acceptable rm0 c ->
      match call_manager pr rm0 (w0, d) c with
      | Val (rm', w', _) => sound small request_ok rcf rm' /\ kept w'.1 (rqm_log rm') /\ Forall (fun id => length id = 16%nat) w'.2
      | Panic => True
      end.
    Proof.
      intros Hk Hd HA HP Hs Hc.
      pose proof (exec_safe (w_post_request pr) w_now w_fresh_id rqt_handling_delay small kept request_ok
        True rcf (fun _ => 0%nat) (2 * pot rm0 + N.to_nat (rmc_num_posts_per_attempt rcf) + 3)) as H.
      refine (_ (H _ _ _ _ rm0 (w0, d) c Hs (conj Hk Hd) _ HA HP Hc)); clear H.
      - destruct (call_manager pr rm0 (w0, d) c) as [[[rm' w'] a]|]; [|done]. by intros [H1 [H2 H3]].
      - intros w log i dest id r H1 _ H2 H3 H4. by apply post_kept.
      - intros w log [? ? ?]. by split.
      - intros w log e [? ? (hist & new & ? & ? & -> & Hl)] He. split; [done|done|]. exists hist, (new ++ [e])%list.
        split; [done|]. split; [done|]. split; [by rewrite <- app_assoc|]. rewrite <- (app_nil_r hist). apply told_app; [done|].
        destruct e; [done|..]; constructor.
      - intros w log [? ? ?]. split; [split; [done|lia]|apply rng_fill_length].
      - cbn. lia.
    Qed.
  End call.

  Record hosted_ok (rcf : rm_config) (s : host) (d : list bytes) : Prop := {
    ho_node : mx_ok pr cf s.1;
    ho_manager : sound small request_ok rcf s.2;
    ho_ids : Forall (fun id => length id = 16%nat) d
  }.
  Lemma hosted_inv rcf s d h s' d' :
    1 <= rmc_num_attempts_per_destination rcf -> 1 <= rmc_num_posts_per_attempt rcf ->
    hosted pr s d h s' d' -> hosted_ok rcf s d ->
    hosted_ok rcf s' d' /\
    (exists hist, run pr s.1 hist s'.1 /\
       (accepted hist ++ reported (rqm_log s.2))%list ≡ₚ (accepted (own h) ++ reported (rqm_log s'.2))%list) /\
    rm_run (w_post_request pr) w_now w_fresh_id rqt_handling_delay s.2 d (managing h) s'.2 d'.
  Proof.
    intros HA HP Hh. induction Hh as [s d|m rm d c m' a h s2 d2 Hc He Hh IH|w rm d c rm' w' d' a h s2 d2 Hns Hc He Hh IH]; intros Hs.
    - split; [done|]. split; [|constructor]. exists []. split; [constructor|]. done.
    - destruct Hs as [H1 H2 H3]. cbn [fst snd] in *.
      destruct IH as (H4 & (hist & Hr & Hp) & Hm).
      { split; cbn; try done. eapply (step_inv pr Hok cf); [done|done|exact Hc|]. by apply (exec_step pr Hok cf). }
      split; [done|]. cbn [fst snd] in *. split; [|done]. exists ((c, a) :: hist). split; [by eapply RunCons|].
      change ((c, a) :: hist) with ([(c, a)] ++ hist)%list.
      assert (Eo : own (ByNode c a :: h) = ([(c, a)] ++ own h)%list) by done. rewrite Eo, !accepted_app.
      rewrite <- !app_assoc. by apply Permutation_app_head.
    - destruct Hs as [H1 H2 H3]. cbn [fst snd] in *.
      pose proof (manager_kept w rm rcf d c) as H. rewrite He in H.
      destruct H as (H4 & [H5 H6 (h1 & new & Hr1 & _ & Hlog & Hl)] & H7); try done.
      { split; try done. exists [], []. split; [constructor|]. split; [done|]. split; [by rewrite app_nil_r|constructor]. }
      destruct IH as (H8 & (hist & Hr & Hp) & Hm); [by split|]. cbn [fst snd] in *.
      split; [done|]. split; [|by econstructor]. exists (h1 ++ hist)%list. split; [by eapply run_join|].
      change (own (ByManager c a :: h)) with (own h). rewrite <- Hp, Hlog, reported_app, <- (told_reported _ _ Hl), accepted_app. solve_Permutation.
  Qed.
  Lemma start_ok rcf m0 w : mx_new pr cf = Val m0 -> hosted_ok rcf (m0, (rqm_new w_now rcf w).1) [].
  Proof.
    intros E. split; [by apply mx_new_ok| |by constructor]. split_and!; [|by constructor|done].
    split; [constructor; cbn; try done; by constructor|by constructor].
  Qed.

  (** ** The posts of the node are those of the manager and those of the application *)

  (** Every request the node accepted was posted by the application itself, or by the manager, which
      has told of it, with the message id, the session, the destination, the data and the number of
      SURBs that the node was given; and the manager tells of nothing else. *)
  Theorem C64_posts rcf h m rm d :
    1 <= rmc_num_attempts_per_destination rcf -> 1 <= rmc_num_posts_per_attempt rcf ->
    hosted_from_start pr cf rcf h (m, rm) d ->
    exists hist, reachable pr cf hist m /\
      accepted hist ≡ₚ (accepted (own h) ++ reported (rqm_log rm))%list.
  Proof.
    intros HA HP (m0 & w & _ & E & Hh).
    destruct (hosted_inv rcf _ _ _ _ _ HA HP Hh (start_ok _ _ _ E)) as (_ & (hist & Hr & Hp) & _). cbn [fst snd] in *.
    exists hist. split; [|by rewrite <- Hp, app_nil_r]. split; [done|]. by exists m0.
  Qed.

  (** ... in a network *)
  Lemma run_history ns (W : PNet.world) x hist m' :
    run pr (PNet.w_node W x) hist m' -> Forall (is_post_request ns) hist ->
    exists tr W', PNet.history pr W tr W' /\ PNet.w_node W' x = m' /\ PNet.w_wire W' = PNet.w_wire W /\
      (forall y, y <> x -> PNet.w_node W' y = PNet.w_node W y) /\ posts_of x tr = hist /\
      length tr = length hist.
  Proof.
    intros Hr Hf. remember (PNet.w_node W x) as m eqn:Em. revert W Em.
    induction Hr as [m|m c a m1 hist m2 Hc He Hr IH]; intros W ->.
    - exists [], W. split; [constructor|]. done.
    - inversion Hf as [|? ? Hp Hf']; subst. cbn in Hp.
      set (W1 := PNet.World (PNet.with_node W x m1) (PNet.w_wire W ++ PNet.sent a)%list).
      assert (Hs : PNet.sent a = []).
      { destruct c; try done. cbn [exec] in He. destruct (post_request _ _ _ _ _ _ _ _ _) as [[[? ?] ?]|]; [|done].
        by injection He as <- <-. }
      destruct (IH Hf' W1) as (tr & W' & H1 & H2 & H3 & H4 & H5 & H6).
      { cbn. by rewrite PNet.with_node_same. }
      exists (PNet.Moment W (PNet.EvCall x c a) W1 :: tr), W'. split.
      { eapply PNet.HiCons; [|exact H1]. apply PNet.HpCall; try done. by destruct c. }
      split; [done|]. split; [rewrite H3; cbn; rewrite Hs; apply app_nil_r|]. split.
      { intros y Hy. rewrite H4 by done. cbn. by apply PNet.with_node_other. }
      split; [|cbn; lia]. unfold posts_of. cbn. rewrite decide_True by done. fold (posts_of x tr). by rewrite H5.
  Qed.
  Theorem C64_network rcf h rm d c rm' w w' d' a (W : PNet.world) x :
    1 <= rmc_num_attempts_per_destination rcf -> 1 <= rmc_num_posts_per_attempt rcf ->
    hosted_from_start pr cf rcf h (w_mixnet w, rm) d -> length (ns_local_peer_id (w_ns w)) = 32%nat -> acceptable rm c ->
    call_manager pr rm (w, d) c = Val (rm', (w', d'), a) ->
    PNet.w_node W x = w_mixnet w ->
    exists tr W', PNet.history pr W tr W' /\ PNet.w_node W' x = w_mixnet w' /\
      PNet.w_wire W' = PNet.w_wire W /\ (forall y, y <> x -> PNet.w_node W' y = PNet.w_node W y) /\
      Forall (is_post_request (w_ns w)) (posts_of x tr) /\ length (posts_of x tr) = length tr /\
      exists new, rqm_log rm' = (rqm_log rm ++ new)%list /\ told (posts_of x tr) new.
  Proof.
    intros HA HP (m0 & w00 & _ & E & Hh) Hns Hc He HW.
    destruct (hosted_inv rcf _ _ _ _ _ HA HP Hh (start_ok _ _ _ E)) as ([H1 H2 H3] & _ & _). cbn [fst snd] in *.
    pose proof (manager_kept w rm rcf d c) as H. rewrite He in H.
    destruct H as (_ & [_ _ (hist & new & Hr & Hf & Hlog & Hl)] & _); try done.
    { split; try done. exists [], []. split; [constructor|]. split; [done|]. split; [by rewrite app_nil_r|constructor]. }
    cbn [fst] in Hr. rewrite <- HW in Hr. destruct (run_history (w_ns w) W x hist _ Hr Hf) as (tr & W' & G1 & G2 & G3 & G4 & G5 & G6).
    exists tr, W'. rewrite G5. split_and!; try done. by exists new.
  Qed.

  (** ** Replies are matched with the requests they answer *)
  Notation mrun := (rm_run (w_post_request pr) w_now w_fresh_id rqt_handling_delay).
  Notation mreach := (rm_reach (w_post_request pr) w_now w_fresh_id rqt_handling_delay).
  Lemma hosted_app s d h s1 d1 h' s2 d2 :
    hosted pr s d h s1 d1 -> hosted pr s1 d1 h' s2 d2 -> hosted pr s d (h ++ h') s2 d2.
  Proof. intros H1. induction H1; intros H3; [done|econstructor; eauto..]. Qed.
  Lemma hosted_reach rcf h s d :
    1 <= rmc_num_attempts_per_destination rcf -> 1 <= rmc_num_posts_per_attempt rcf ->
    hosted_from_start pr cf rcf h s d -> mreach rcf (managing h) s.2 d.
  Proof.
    intros HA HP (m0 & w & _ & E & Hh). destruct (hosted_inv rcf _ _ _ _ _ HA HP Hh (start_ok _ _ _ E)) as (_ & _ & Hr). by exists w.
  Qed.
  Lemma log_step (m : request_manager user_request) d l m' d' :
    rstep (fun _ _ => True) (m, d) l (m', d') -> (exists e, rqm_log m' = (rqm_log m ++ e)%list) /\ exists ids, d' = (d ++ ids)%list.
  Proof.
    intros Hst.
    assert (Hrb : forall (m0 : request_manager user_request) st o d1, reborn m0 d st o d1 -> exists ids, d1 = (d ++ ids)%list).
    { intros m0 st o d1 []; first [by eexists|exists []; by rewrite app_nil_r]. }
    assert (Hset : forall (m0 : request_manager user_request) r o, exists e, rqm_log (settle m0 r o) = (rqm_log m0 ++ e)%list).
    { intros m0 r [[rel st]|]; [exists []; by rewrite app_nil_r|by eexists]. }
    inversion Hst; subst; rewrite ?log_push, ?log_rinsert, ?log_with, ?log_set_retry;
      (split; [try (by eexists); try (exists []; by rewrite app_nil_r); try apply Hset|
               try (exists []; by rewrite app_nil_r); try (by eexists); try (by eapply Hrb)]).
    apply (Hset (rqm_set_retry m rest true)).
  Qed.
  Lemma run_log (m : request_manager user_request) d h m' d' :
    mrun m d h m' d' -> (exists e, rqm_log m' = (rqm_log m ++ e)%list) /\ exists ids, d' = (d ++ ids)%list.
  Proof.
    intros Hr. apply (run_steps _ _ _ _ _ (PRequestsEx.world_post_law pr)) in Hr as (ls & Hs & _).
    remember (m, d) as x eqn:Ex. remember (m', d') as y eqn:Ey. revert m d Ex.
    induction Hs as [x|x [m1 d1] z l ls H1 _ IH]; intros m d ->.
    - injection Ey as -> ->. split; exists []; by rewrite app_nil_r.
    - destruct (IH Ey _ _ eq_refl) as [[e He] [ids Hi]]. apply log_step in H1 as [[e1 He1] [ids1 Hi1]].
      split; eexists; rewrite ?He, ?He1, ?Hi, ?Hi1, <- app_assoc; done.
  Qed.

  Theorem C64_matched rcf h m rm d p now m' q :
    1 <= rmc_num_attempts_per_destination rcf -> 1 <= rmc_num_posts_per_attempt rcf ->
    hosted_from_start pr cf rcf h (m, rm) d -> length p = N.to_nat 2252 ->
    exec pr m (CallHandle p now) = Val (m', RespMessage (Some (MReply q))) ->
    (forall i dest data k, (rp_request_id q, i, dest, data, k) ∉ accepted (own h)) -> NoDup d ->
    exists r i dest t rtt,
      EvPosted r (rp_request_id q) i (Some dest) t rtt ∈ rqm_log rm /\
      forall h' m2 rm2 d2 w2 rm3 w3 a,
        hosted pr (m', rm) d h' (m2, rm2) d2 -> NoDup d2 ->
        call_manager pr rm2 (w2, d2) (RmRemove (rp_request_id q)) = Val (rm3, w3, a) ->
        (a = RmRemoved (Some r) /\ exists st, st ∈ managed rm2 /\ rst_message_id st = rp_request_id q) \/
        (a = RmRemoved None /\ forall st, st ∈ managed rm2 -> rst_message_id st <> rp_request_id q).
  Proof.
    intros HA HP Hst Hp He Hown Hnd. pose proof Hst as (m0 & w & _ & E & Hh).
    destruct (hosted_inv rcf _ _ _ _ _ HA HP Hh (start_ok _ _ _ E)) as (_ & (hist & Hr & Hperm) & _). cbn [fst snd] in *.
    change (reported (rqm_log (rqm_new w_now rcf w).1)) with (@nil (bytes * session_index * option mixnode_index * scattered N * N)) in Hperm.
    rewrite app_nil_r in Hperm.
    destruct (C57_reported pr Hok cf m0 hist m p now m' (MReply q) Hcf E Hr Hp He) as (fs & f & ii & _ & _ & _ & _ & _ & Hrep).
    destruct Hrep as (_ & rel & s & id & pl & v & _ & _ & Hv & Hid).
    destruct (C19_origin pr Hok cf Hcf hist m id v) as (i & dest0 & data & k & ns & r0 & dd & mt & Hin & _); [|done|].
    { split; [done|]. by exists m0. }
    assert (Hacc : (rp_request_id q, i, dd, data, k) ∈ accepted hist).
    { apply elem_of_list_omap. eexists. split; [exact Hin|]. by rewrite Hid. }
    rewrite Hperm in Hacc. apply elem_of_app in Hacc as [Hacc|Hacc]; [by apply Hown in Hacc|].
    apply elem_of_list_omap in Hacc as (e & Hev & Ee). destruct e as [r id' i' dest t rtt| | |]; try done.
    assert (id' = rp_request_id q) as -> by congruence. clear Ee.
    pose proof (hosted_reach rcf _ _ _ HA HP Hst) as Hreach. cbn [snd] in Hreach.
    destruct (C45_one_destination _ _ _ _ _ (PRequestsEx.world_post_law pr) rcf _ _ _ _ _ _ _ _ _ _ _ _ _ _ Hreach Hnd Hev Hev)
      as (_ & _ & _ & Hsome). destruct dest as [dest|]; [|done].
    exists r, i', dest, t, rtt. split; [done|].
    intros h' m2 rm2 d2 w2 rm3 w3 a Hh2 Hnd2 Hrem.
    assert (Hst2 : hosted_from_start pr cf rcf (h ++ ByNode (CallHandle p now) (RespMessage (Some (MReply q))) :: h') (m2, rm2) d2).
    { exists m0, w. split; [done|]. split; [done|]. eapply hosted_app; [exact Hh|]. by econstructor. }
    pose proof (hosted_reach rcf _ _ _ HA HP Hst2) as Hreach2. cbn [snd] in Hreach2.
    assert (Hev2 : EvPosted r (rp_request_id q) i' (Some dest) t rtt ∈ rqm_log rm2).
    { destruct (hosted_inv rcf _ _ _ _ _ HA HP Hh (start_ok _ _ _ E)) as (Hok1 & _ & _).
      destruct (hosted_inv rcf _ _ _ _ _ HA HP Hh2) as (_ & _ & Hr2).
      { destruct Hok1. split; try done. cbn. eapply (step_inv pr Hok cf _ (CallHandle p now)); [done|done|done|]. by apply (exec_step pr Hok cf). }
      apply run_log in Hr2 as [[e Hle] _]. cbn in Hle. rewrite Hle. apply elem_of_app. by left. }
    destruct (C42_remove _ _ _ _ _ _ _ _ _ _ _ Hrem) as [(-> & _ & Hn)|(st & -> & Hst' & Hman)]; [by right|left].
    assert (Hin2 : st ∈ managed rm2) by (rewrite Hman; by left).
    split; [|by exists st].
    destruct (C45_managed _ _ _ _ _ (PRequestsEx.world_post_law pr) rcf _ _ _ Hreach2 Hnd2) as [_ Hm].
    rewrite <- Hst' in Hev2. destruct (Hm _ _ _ _ _ _ Hin2 Hev2) as (-> & _). done.
  Qed.

  (** ** ... once *)
  Notation law := (PRequestsEx.world_post_law pr).
  Definition gone (id : bytes) (x : request_manager user_request * list bytes) : Prop :=
    id ∈ x.2 /\ Forall (fun st => rst_message_id st <> id) (managed x.1).
  Lemma nodup_prefix (d ids : list bytes) : NoDup (d ++ ids) -> NoDup d.
  Proof. rewrite NoDup_app. tauto. Qed.
  Lemma gone_reborn id (m : request_manager user_request) d st o d' r :
    reborn m d st o d' -> NoDup d' -> id ∈ d -> rst_message_id st <> id \/ 0 = rst_attempts_remaining st ->
    Forall (fun st => rst_message_id st <> id) (managed m) ->
    Forall (fun st => rst_message_id st <> id) (managed (settle m r o)).
  Proof.
    intros Hrb Hd Hid Hst Hm.
    destruct Hrb as [E1 E2|? ? E1 E2 E3|E1 E2 E3|? ? E1 E2 E3|? E1 E2 E3 E4]; unfold settle; rewrite ?managed_push, ?managed_emit;
      try done; (constructor; [|done]); cbn.
    - destruct Hst; [done|lia].
    - destruct Hst; [done|lia].
    - intros ->. rewrite NoDup_app in Hd. destruct Hd as (_ & Hd & _). apply (Hd _ Hid). by left.
    - intros ->. rewrite NoDup_app in Hd. destruct Hd as (_ & Hd & _). apply (Hd _ Hid). by left.
  Qed.
  Lemma gone_step id m d l m' d' :
    rstep (fun _ _ => True) (m, d) l (m', d') -> NoDup d' -> gone id (m, d) -> gone id (m', d').
  Proof.
    intros Hst Hnd [Hid IH]. cbn [fst snd] in *. split.
    { cbn. apply log_step in Hst as [_ [ids ->]]. apply elem_of_app. by left. }
    cbn [fst snd] in *.
    inversion Hst as [? ? rel rod i st rest dest t rtt Ht Hq Hs [Hds Hvd] Hn|? ? rel rod i st rest dest t rtt Ht Hq Hs [Hds Hvd] Hn|
      |? ? rel st rest e Hq|? ? r o ? Hsp Hrb|? ? st rest o ? Hq Hn Hrb|? ? rel l1 st l2 Hq|? ? l1 st l2 b Hq Hb|? ? status ids Hne q n Hl|];
      subst l m' d'; subst.
    - rewrite managed_push, managed_emit, managed_with. rewrite (managed_get m rel), Hq in IH. by inversion IH; subst; constructor.
    - rewrite managed_insert, managed_emit, managed_with. rewrite (managed_get m rel), Hq in IH. by inversion IH; subst; constructor.
    - by rewrite managed_emit.
    - rewrite managed_emit, managed_with. rewrite (managed_get m rel), Hq in IH. by inversion IH; subst.
    - eapply gone_reborn; [exact Hrb|done|done|by right|done].
    - rewrite managed_retry_same, Hq in IH. inversion IH; subst.
      eapply gone_reborn; [exact Hrb|done|done|by left|]. by rewrite managed_retry.
    - rewrite managed_with. rewrite (managed_get m rel), Hq in IH. rewrite !Forall_app in *. destruct_and?. repeat split; try done.
      by eapply Forall_inv_tail.
    - rewrite managed_retry. rewrite managed_retry_same, Hq in IH. rewrite !Forall_app in *. destruct_and?. repeat split; try done.
      by eapply Forall_inv_tail.
    - destruct (managed_update m status ids Hl) as (kept & moved & E1 & E2 & E3). update_shape E3. rewrite E3. rewrite E1 in IH.
      rewrite Forall_app in *. destruct IH as [IH1 _]. split; [done|].
      rewrite NoDup_app in Hnd. destruct Hnd as (_ & Hnd & _). specialize (Hnd id Hid). clear -Hnd.
      revert ids Hnd. induction moved as [|st moved IH]; intros [|i ids] Hnd; cbn; try constructor.
      + cbn. intros ->. apply Hnd. by left.
      + apply IH. intros Hin. apply Hnd. by right.
    - done.
  Qed.
  Lemma steps_keep id x ls y :
    rsteps (fun _ _ => True) x ls y -> NoDup y.2 ->
    NoDup x.2 /\ (gone id x -> gone id y) /\
    (ids_ok (managed x.1) (rqm_log x.1) x.2 -> ids_ok (managed y.1) (rqm_log y.1) y.2).
  Proof.
    intros Hs Hnd. induction Hs as [x|[m d] [m1 d1] z l ls H1 _ IH]; [done|]. destruct (IH Hnd) as (Hnd1 & IH1 & IH2).
    cbn [fst snd] in *. pose proof H1 as H1'. apply log_step in H1' as [_ [ids ->]]. split; [by eapply nodup_prefix|]. split.
    - intros Hg. apply IH1. by eapply gone_step.
    - intros Hi. apply IH2. by eapply (ids_step rqt_handling_delay _ m d l m1 (d ++ ids)%list).
  Qed.
  Lemma matched_gone id rcf s d h s' d' :
    1 <= rmc_num_attempts_per_destination rcf -> 1 <= rmc_num_posts_per_attempt rcf ->
    hosted pr s d h s' d' -> hosted_ok rcf s d -> NoDup d' -> ids_ok (managed s.2) (rqm_log s.2) d ->
    (gone id (s.2, d) -> matched id h = []) /\ (length (matched id h) <= 1)%nat.
  Proof.
    intros HA HP Hh. induction Hh as [s d|m rm d c m' a h s2 d2 Hc He Hh IH|w rm d c rm' w' d' a h s2 d2 Hns Hc He Hh IH]; intros Hs Hnd Hi.
    - split; [done|]. cbn. lia.
    - apply IH; [|done|done]. destruct Hs as [H1 H2 H3]. split; try done. cbn in *.
      eapply (step_inv pr Hok cf); [done|done|exact Hc|]. by apply (exec_step pr Hok cf).
    - assert (Hs1 : hosted_ok rcf (w_mixnet w', rm') d').
      { destruct Hs as [H1 H2 H3]. cbn [fst snd] in *.
        pose proof (manager_kept w rm rcf d c) as H. rewrite He in H.
        destruct H as (H4 & [H5 H6 _] & H7); try done.
        split; try done. exists [], []. split; [constructor|]. split; [done|]. split; [by rewrite app_nil_r|constructor]. }
      assert (Hnd1 : NoDup d').
      { destruct (hosted_inv rcf _ _ _ _ _ HA HP Hh Hs1) as (_ & _ & Hr). apply run_log in Hr as [_ [ids ->]]. by eapply nodup_prefix. }
      assert (Hr : mrun rm d [(c, a)] rm' d') by (econstructor; [exact He|constructor]).
      apply (run_steps _ _ _ _ _ law) in Hr as (ls & Hst & _).
      destruct (steps_keep id _ _ _ Hst Hnd1) as (Hnd0 & Hg & Hids). cbn [fst snd] in *.
      destruct (IH Hs1 Hnd (Hids Hi)) as [IH1 IH2]. clear IH.
      assert (Hhd : matched id (ByManager c a :: h) = matched id h \/
                    (exists st, st ∈ managed rm /\ rst_message_id st = id) /\ gone id (rm', d') /\
                    exists r, matched id (ByManager c a :: h) = r :: matched id h).
      { unfold matched. cbn [omap list_omap]. destruct c as [| |i| | |]; try (by left).
        destruct (C42_remove _ _ _ _ _ _ _ _ _ _ _ He) as [(-> & _ & _)|(st & -> & E & Hman)].
        { left. by destruct (decide _). }
        destruct (decide (i = id)) as [->|]; [right|by left]. split; [|split; [|by eexists]].
        - exists st. split; [|done]. rewrite Hman. by left.
        - destruct Hi as (Hi1 & Hi2 & _). rewrite Hman in Hi2. apply NoDup_cons in Hi2 as [Hi2 _].
          destruct (run_log rm d [(RmRemove id, RmRemoved (Some (rst_request st)))] rm' d') as [_ [ids ->]].
          { econstructor; [exact He|constructor]. }
          split; cbn.
          + apply elem_of_app. left. rewrite <- E. apply Hi1. rewrite Hman. by left.
          + apply Forall_forall. intros st' Hin Eid. apply Hi2. rewrite E, <- Eid. by apply elem_of_list_fmap_1. }
      destruct Hhd as [->|((st & Hin & Est) & Hgone & r & ->)].
      + split; [|done]. intros Hg0. apply IH1. by apply Hg.
      + rewrite (IH1 Hgone). split; [|cbn; lia]. intros [_ Hf]. rewrite Forall_forall in Hf. by apply Hf in Hin.
  Qed.
  (** The manager hands back a request at most once for each message id. *)
  Theorem C64_once rcf h s d id :
    1 <= rmc_num_attempts_per_destination rcf -> 1 <= rmc_num_posts_per_attempt rcf ->
    hosted_from_start pr cf rcf h s d -> NoDup d -> (length (matched id h) <= 1)%nat.
  Proof.
    intros HA HP (m0 & w & _ & E & Hh) Hnd.
    refine (proj2 (matched_gone id rcf _ _ _ _ _ HA HP Hh (start_ok _ _ _ E) Hnd _)).
    split; [by intros ? ?%elem_of_nil|]. split; [constructor|]. cbn.
    split; [by intros ? ? ? ? ? ? ?%elem_of_nil|by intros ? ? ? ? ? ? ? ? ? ? ? ?%elem_of_nil].
  Qed.
End match_.
