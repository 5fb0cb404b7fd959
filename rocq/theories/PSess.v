(** A session over a history of calls: replays (C18), its queue (C23, C24). *)
From Verif Require Export PInv.

(** ** Specification: following a session

    A session is in one of two slots. It stays where it is until the status changes. It stays there
    too if the status changes without a change of the index, and it becomes the previous session if
    the index advances by one; a previous session is kept only while the phase needs it. Any other
    change ends it. *)
Definition keeps (st st' : session_status) (rel rel' : rel_session_index) : Prop :=
  (st_current_index st' = st_current_index st /\ rel' = rel \/
   st_current_index st' = (st_current_index st + 1)%N /\ rel = RCurrent /\ rel' = RPrev) /\
  (rel' = RPrev -> st_phase st' <> PDisconnectFromPrev).
Definition carried (m : mixnet) (c : call) (rel rel' : rel_session_index) : Prop :=
  match c with CallSetStatus st' => keeps (mx_status m) st' rel rel' | _ => rel' = rel end.
(** [follows pr m rel hist m' rel']: during [hist] the session in slot [rel] of [m] is kept, and it
    ends up in slot [rel'] of [m']. *)
Inductive follows (pr : prims) : mixnet -> rel_session_index -> list (call * resp) -> mixnet ->
    rel_session_index -> Prop :=
| FollowsNil m rel : follows pr m rel [] m rel
| FollowsCons m rel c a m1 rel1 hist m2 rel2 :
    call_ok c -> exec pr m c = Val (m1, a) -> carried m c rel rel1 ->
    follows pr m1 rel1 hist m2 rel2 -> follows pr m rel ((c, a) :: hist) m2 rel2.

(** What stays the same in a session. *)
Record same_session (s s' : session) : Prop := {
  sm_key : se_kx_pair s' = se_kx_pair s;
  sm_topology : se_topology s' = se_topology s;
  sm_period : se_mean_period s' = se_mean_period s;
  sm_config : aq_config (se_authored s') = aq_config (se_authored s);
  sm_filter_key : rf_key (se_filter s') = rf_key (se_filter s);
  sm_filter : forall p, bit_set (se_filter s) p -> bit_set (se_filter s') p
}.
(** Room for a message of [k] packets. *)
Definition room (s : session) (k : N) : Prop :=
  fits (apc_capacity (aq_config (se_authored s))) (apc_multiple_messages (aq_config (se_authored s)))
       (N.of_nat (length (aq_queue (se_authored s)))) k.
(** What a call does to the queue of a session. *)
Definition queue_step (s : session) (c : call) (a : resp) (s' : session) : Prop :=
  match c with
  | CallPostRequest _ _ _ _ _ _ _ | CallPostReply _ _ _ _ =>
      exists ps, aq_queue (se_authored s') = aq_queue (se_authored s) ++ ps /\
        (ps = [] \/ exists k, N.of_nat (length ps) <= k /\ room s k)%N
  | CallPopAuthored _ _ =>
      aq_queue (se_authored s') = aq_queue (se_authored s) \/
      exists p, a = RespPacket (Some p) /\ aq_queue (se_authored s) = p :: aq_queue (se_authored s')
  | _ => aq_queue (se_authored s') = aq_queue (se_authored s)
  end.

(** The session acts on the packet: it forwards it or takes it as a request. *)
Definition acts (pr : prims) (m : mixnet) (rel : rel_session_index) (s : session) (p : bytes) : Prop :=
  reads pr (mx_sessions m) p rel s /\ is_mixnode s /\
  match content_of pr s p with
  | CtForward _ _ _ => has_room m
  | CtRequest _ => True
  | _ => False
  end.

(** ** Proof *)
Lemma same_session_refl s : same_session s s.
Proof. by constructor. Qed.
Lemma same_session_trans s1 s2 s3 : same_session s1 s2 -> same_session s2 s3 -> same_session s1 s3.
Proof. intros [] []. constructor; try congruence. naive_solver. Qed.
Lemma same_session_queue s q : aq_config q = aq_config (se_authored s) -> same_session s (se_set_authored s q).
Proof. intros H. by constructor. Qed.

Lemma ss_get_set ss rel sl rel' :
  ss_get (ss_set ss rel sl) rel' = if decide (rel = rel') then sl else ss_get ss rel'.
Proof. destruct ss, rel, rel'; done. Qed.
Lemma get_put m rel s rel' :
  ss_get (mx_sessions (mx_put_session m rel s)) rel' =
    if decide (rel = rel') then SlFull s else ss_get (mx_sessions m) rel'.
Proof. apply ss_get_set. Qed.
Lemma get_set_slot m rel sl rel' :
  ss_get (mx_sessions (set_slot m rel sl)) rel' = if decide (rel = rel') then sl else ss_get (mx_sessions m) rel'.
Proof. apply ss_get_set. Qed.

Lemma keeps_slot pr cf m st rel rel' s :
  mx_ok pr cf m -> keeps (mx_status m) st rel rel' -> ss_get (mx_sessions m) rel = SlFull s ->
  ss_get (mx_sessions (set_session_status m st)) rel' = SlFull s.
Proof.
  intros Hm [Hk Hn] Hs. unfold set_session_status.
  destruct (decide (mx_status m = st)) as [<-|Hne].
  { destruct Hk as [[_ ->]|[H _]]; [done|lia]. }
  assert (Hprev : rel' = RPrev -> need_prev (st_phase st) = true /\ (st_current_index st =? 0)%N = false).
  { intros ->. split.
    - specialize (Hn eq_refl). by destruct (st_phase st).
    - apply N.eqb_neq. destruct Hk as [[-> Hr]|[-> _]]; [|lia]. subst rel. intros H0.
      pose proof (mo_prev_disabled _ _ _ Hm (or_introl H0)) as Hd. cbn in Hs. congruence. }
  assert (Hshift : ss_get (mx_sessions (shift_sessions m (st_current_index st))) rel' = SlFull s).
  { unfold shift_sessions. destruct Hk as [[-> ->]|(-> & -> & ->)].
    - by rewrite N.eqb_refl.
    - destruct (N.eqb_spec (st_current_index (mx_status m)) (st_current_index (mx_status m) + 1)); [lia|].
      unfold saturating_sub. replace (st_current_index (mx_status m) + 1 - st_current_index (mx_status m))%N with 1%N by lia.
      done. }
  cbv zeta. set (m1 := shift_sessions m (st_current_index st)) in *. clearbody m1.
  destruct rel'.
  - by destruct (_ || _).
  - destruct (Hprev eq_refl) as [-> ->]. done.
Qed.

Section follow.
  Context (pr : prims) (Hok : prims_ok pr) (cf : config) (Hcf : config_ok cf).

  Lemma noted_same s p :
    same_session s (se_set_filter s (rf_insert (se_filter s) (tag_of pr s p))).
  Proof. constructor; try done. cbn [se_filter se_set_filter]. intros b Hb. apply C17_insert; [apply C17_tag_ok|by left]. Qed.

  Lemma session_step m c a m' rel rel' s :
    mx_ok pr cf m -> step pr m c m' a -> carried m c rel rel' -> ss_get (mx_sessions m) rel = SlFull s ->
    exists s', ss_get (mx_sessions m') rel' = SlFull s' /\ same_session s s' /\ queue_step s c a s'.
  Proof.
    intros Hm Hst Hc Hs.
    assert (Hsame : forall q : session -> Prop, q s -> mx_sessions m' = mx_sessions m -> rel' = rel ->
      exists s', ss_get (mx_sessions m') rel' = SlFull s' /\ same_session s s' /\ q s').
    { intros q Hq E ->. exists s. rewrite E. split_and!; [done|apply same_session_refl|done]. }
    assert (Hnoted : forall rel0 s0 p, ss_get (mx_sessions m) rel0 = SlFull s0 ->
      mx_sessions m' = mx_sessions (noted pr m rel0 s0 p) -> rel' = rel ->
      exists s', ss_get (mx_sessions m') rel' = SlFull s' /\ same_session s s' /\ 
        aq_queue (se_authored s') = aq_queue (se_authored s)).
    { intros rel0 s0 p H0 E ->. rewrite E. unfold noted. rewrite get_put.
      destruct (decide (rel0 = rel)) as [->|_].
      - rewrite Hs in H0. injection H0 as <-. eexists. split; [done|]. split; [by apply noted_same|done].
      - exists s. split_and!; [done|apply same_session_refl|done]. }
    destruct Hst; cbn [carried] in Hc; cbn [queue_step];
      try (by apply Hsame; [cbn; eauto using app_nil_r|done|done]).
    - exists s. split_and!; [by eapply keeps_slot|apply same_session_refl|done].
    - subst rel'. exists s. rewrite get_set_slot. destruct (decide (rel0 = rel)) as [->|_].
      { rewrite Hs in H. destruct H as [?|[? ?]]; done. }
      split_and!; [done|apply same_session_refl|done].
    - subst rel'. exists s. change (mx_sessions (mx_or_events ?x _)) with (mx_sessions x).
      rewrite get_set_slot. destruct (decide (rel0 = rel)) as [->|_].
      { rewrite Hs in H. destruct H as [?|[? ?]]; done. }
      split_and!; [done|apply same_session_refl|done].
    - eapply Hnoted; [by eapply reads_get| |done]. unfold enqueue. by destruct (decide _).
    - by eapply Hnoted; [eapply reads_get|..].
    - by eapply Hnoted; [eapply reads_get|..].
    - subst rel'.
      assert (E : ss_get (mx_sessions (if (aq_pop (se_authored s0)).2 then mx_or_events m1 SPACE_IN_AUTHORED_PACKET_QUEUE else m1)) rel =
        ss_get (mx_sessions m1) rel) by (by destruct (aq_pop (se_authored s0)).2).
      rewrite E. unfold m1. rewrite get_set_slot. change (mx_sessions (mx_or_events ?x _)) with (mx_sessions x).
      destruct (decide (rel0 = rel)) as [->|_].
      + rewrite Hs in H. injection H as <-. eexists. split; [done|]. split; [by apply same_session_queue|].
        right. by exists p.
      + exists s. split_and!; [done|apply same_session_refl|by left].
    - subst rel'. destruct H as [Hu _ _ _ _ [Hfits _] _ _ _ -> _ _ _ _ _]. apply usable_get in Hu.
      rewrite get_put. change (mx_sessions (mx_set_keystore ?x _)) with (mx_sessions x).
      destruct (decide (rel0 = rel)) as [->|_].
      + rewrite Hs in Hu. injection Hu as <-. eexists. split; [done|]. split; [by apply same_session_queue|].
        exists (map mp_packet ps). split; [done|]. right. eexists. split; [|exact Hfits]. rewrite map_length. lia.
      + exists s. split_and!; [done|apply same_session_refl|]. exists []. rewrite app_nil_r. by split; [|left].
    - subst rel'. apply usable_get in H. rewrite get_put. destruct (decide (rel0 = rel)) as [->|_].
      + rewrite Hs in H. injection H as <-. eexists. split; [done|]. split; [by apply same_session_queue|].
        exists packets. split; [done|]. right. exists (N.of_nat (length bs)). split; [destruct res; lia|done].
      + exists s. split_and!; [done|apply same_session_refl|]. exists []. rewrite app_nil_r. by split; [|left].
  Qed.

  Lemma follows_run m rel hist m' rel' : follows pr m rel hist m' rel' -> run pr m hist m'.
  Proof. induction 1; [constructor|by econstructor]. Qed.
  Lemma follows_session m rel hist m' rel' s :
    mx_ok pr cf m -> follows pr m rel hist m' rel' -> ss_get (mx_sessions m) rel = SlFull s ->
    exists s', ss_get (mx_sessions m') rel' = SlFull s' /\ same_session s s'.
  Proof.
    intros Hm H. revert s. induction H as [m rel|m rel c a m1 rel1 hist m2 rel2 Hc He Hcar _ IH]; intros s Hs.
    { exists s. split; [done|apply same_session_refl]. }
    pose proof (exec_step pr Hok cf _ _ _ _ Hcf Hm Hc He) as Hst.
    destruct (session_step _ _ _ _ _ _ _ Hm Hst Hcar Hs) as (s1 & Hs1 & Hsm & _).
    destruct (IH (step_inv pr Hok cf _ _ _ _ Hcf Hm Hc Hst) s1 Hs1) as (s2 & Hs2 & Hsm2).
    exists s2. split; [done|]. by eapply same_session_trans.
  Qed.

  Lemma acts_seen m rel s p now m' a :
    acts pr m rel s p -> length p = N.to_nat 2252 -> exec pr m (CallHandle p now) = Val (m', a) ->
    exists s', ss_get (mx_sessions m') rel = SlFull s' /\ same_session s s' /\ PHandle.seen pr s' p.
  Proof.
    intros (Hr & Hmix & Hact) Hp H. cbn [exec] in H. apply out_bind_Val in H as ([m1 msg] & E & H).
    injection H as <- _.
    assert (Hn : ss_get (mx_sessions m1) rel = ss_get (mx_sessions (noted pr m rel s p)) rel).
    { destruct (handle_packet_spec pr Hok m p now Hp) as [[Hno _]|(rel2 & s2 & Hr2 & E2)]; [by apply Hno in Hr|].
      destruct (reads_unique _ _ _ _ _ _ _ Hr Hr2) as [<- <-]. rewrite E in E2. symmetry in E2. unfold effect in E2.
      destruct (content_of pr s p) as [t d next|data| | |]; try done.
      - rewrite decide_True in E2 by done. destruct (tp_target_to_peer_id (se_topology s) t).
        + apply out_bind_Val in E2 as (dur & _ & E2). injection E2 as <- _. unfold enqueue. by destruct (decide _).
        + by injection E2 as <- _.
      - rewrite decide_True in E2 by done. apply out_bind_Val in E2 as ([fa out] & _ & E2). cbv zeta in E2.
        destruct out; [apply out_bind_Val in E2 as (i & _ & E2)|]; by injection E2 as <- _. }
    rewrite Hn. unfold noted. rewrite get_put, decide_True by done. eexists. split; [done|].
    split; [by apply noted_same|]. unfold PHandle.seen.
    change (tag_of pr (se_set_filter s ?f) p) with (tag_of pr s p). cbn [se_filter se_set_filter].
    apply C17_contains; [apply C17_tag_ok|]. apply Forall_forall. intros b Hb.
    apply C17_insert; [apply C17_tag_ok|by right].
  Qed.
  Lemma seen_kept s s' p p' : same_session s s' -> p_kx p' = p_kx p -> PHandle.seen pr s p -> PHandle.seen pr s' p'.
  Proof.
    intros [Hk _ _ _ Hfk Hf] Ep. unfold PHandle.seen.
    assert (Et : tag_of pr s' p' = tag_of pr s p).
    { unfold tag_of, shared, rf_tag. by rewrite Hk, Hfk, Ep. }
    rewrite Et. rewrite !C17_contains by apply C17_tag_ok. rewrite !Forall_forall. eauto.
  Qed.

  (** ** C18 *)

  (** Once a session has acted on a packet, no session in its place reads any packet with the same
      public key, as long as it is kept: the packet is ignored, unless the previous session is the
      one that acted and the packet makes sense to the new current session. *)
  Theorem C18_once m rel s p now m1 a hist m2 rel2 p' now' :
    mx_ok pr cf m -> length p = N.to_nat 2252 -> length p' = N.to_nat 2252 ->
    acts pr m rel s p -> exec pr m (CallHandle p now) = Val (m1, a) ->
    follows pr m1 rel hist m2 rel2 -> p_kx p' = p_kx p ->
    (exists s2, ss_get (mx_sessions m2) rel2 = SlFull s2 /\ same_session s s2 /\ PHandle.seen pr s2 p') /\
    (forall s', ~ reads pr (mx_sessions m2) p' rel2 s') /\
    (exec pr m2 (CallHandle p' now') = Val (m2, RespMessage None) \/
     rel2 = RPrev /\ exists c, ss_current (mx_sessions m2) = SlFull c /\ opens pr c p').
  Proof.
    intros Hm Hp Hp' Hact He Hfol Ekx.
    destruct (acts_seen _ _ _ _ _ _ _ Hact Hp He) as (s1 & Hs1 & Hsm1 & Hseen1).
    assert (Hm1 : mx_ok pr cf m1).
    { assert (Hc : call_ok (CallHandle p now)) by done.
      eapply (step_inv pr Hok cf); [done|exact Hm|exact Hc|]. by eapply exec_step. }
    destruct (follows_session _ _ _ _ _ _ Hm1 Hfol Hs1) as (s2 & Hs2 & Hsm2).
    pose proof (seen_kept _ _ _ p' Hsm2 Ekx Hseen1) as Hseen2.
    assert (Hno : forall s', ~ reads pr (mx_sessions m2) p' rel2 s').
    { intros s' Hr. pose proof (reads_get _ _ _ _ _ Hr) as Hg. rewrite Hs2 in Hg. injection Hg as <-.
      by destruct (reads_opens _ _ _ _ _ Hr). }
    split; [exists s2; split_and!; [done|by eapply same_session_trans|done]|]. split; [done|].
    destruct (handle_packet_spec pr Hok m2 p' now' Hp') as [[_ E]|(rel3 & s3 & Hr3 & _)].
    - left. cbn [exec]. by rewrite E.
    - right. destruct rel2, rel3; try (by apply Hno in Hr3).
      + inversion Hr3 as [|? Hx Hcur Hy Hz]; subst. by destruct (Hcur s2 Hs2) as [Hns _].
      + split; [done|]. inversion Hr3; subst. eauto.
  Qed.

  (** ** Events stay until they are taken *)
  Definition ev_le (e e' : events) : Prop :=
    (ev_reserved_peers e = true -> ev_reserved_peers e' = true) /\
    (ev_forward_deadline e = true -> ev_forward_deadline e' = true) /\
    (ev_authored_deadline e = true -> ev_authored_deadline e' = true) /\
    (ev_space e = true -> ev_space e' = true).
  Lemma ev_le_refl e : ev_le e e.
  Proof. done. Qed.
  Lemma ev_le_or e e' : ev_le e (ev_or e e').
  Proof. destruct e, e'; unfold ev_le; cbn. split_and!; intros ->; done. Qed.
  Lemma ev_le_trans e1 e2 e3 : ev_le e1 e2 -> ev_le e2 e3 -> ev_le e1 e3.
  Proof. unfold ev_le. naive_solver. Qed.
  Lemma step_events m c m' a : step pr m c m' a -> c <> CallTakeEvents -> ev_le (mx_events m) (mx_events m').
  Proof.
    intros Hst Hc. destruct Hst; try done; try apply ev_le_or.
    - unfold set_session_status. destruct (decide _); [done|]. cbv zeta.
      assert (E : mx_events (shift_sessions m (st_current_index st)) = mx_events m).
      { unfold shift_sessions. by destruct (_ =? _)%N. }
      destruct (_ || _); cbn [mx_events mx_set_status mx_or_events mx_set_sessions]; rewrite E; apply ev_le_or.
    - unfold enqueue. destruct (decide _); [done|apply ev_le_or].
    - destruct (aq_pop (se_authored s)).2; unfold m1; cbn; [|apply ev_le_or].
      eapply ev_le_trans; [|apply ev_le_or]. apply ev_le_or.
    - destruct H as [_ _ _ _ _ _ _ _ _ -> _ _ _ _ _]. done.
  Qed.
  Definition untaken (hist : list (call * resp)) : Prop := Forall (fun ca => ca.1 <> CallTakeEvents) hist.
  Lemma run_events m hist m' :
    mx_ok pr cf m -> run pr m hist m' -> untaken hist -> ev_le (mx_events m) (mx_events m').
  Proof.
    intros Hm H. induction H as [|m c a m1 hist m2 Hc He _ IH]; intros Hu; [done|].
    apply Forall_cons in Hu as [Hu1 Hu]. pose proof (exec_step pr Hok cf _ _ _ _ Hcf Hm Hc He) as Hst.
    eapply ev_le_trans; [by eapply step_events|]. apply IH; [|done]. by eapply (step_inv pr Hok cf).
  Qed.

  (** ** Queue *)
  Lemma fits_check q k :
    aq_check_space q k = Ok tt <->
    fits (apc_capacity (aq_config q)) (apc_multiple_messages (aq_config q)) (N.of_nat (length (aq_queue q))) k.
  Proof.
    pose proof (C23_check_space q k) as H. destruct (aq_check_space q k) as [[]|[]]; [done| |].
    - split; [done|]. intros [H1 _]. lia.
    - split; [done|]. intros H1. by destruct H as [_ H].
  Qed.
  Lemma pop_space m m' ns r a rel s s' k :
    step pr m (CallPopAuthored ns r) m' a ->
    ss_get (mx_sessions m) rel = SlFull s -> ss_get (mx_sessions m') rel = SlFull s' ->
    ~ room s k -> room s' k -> ev_space (mx_events m') = true.
  Proof.
    intros Hst Hs Hs' Hno Hyes. inversion Hst as [| | | | | | | | | | | | | | | |? ? rel0 s0 p rest Hget Hph Hq q m1| | | | | |]; subst.
    - rewrite Hs in Hs'. injection Hs' as <-. done.
    - assert (E : mx_sessions (if (aq_pop (se_authored s0)).2 then mx_or_events m1 SPACE_IN_AUTHORED_PACKET_QUEUE else m1) =
        mx_sessions m1) by (by destruct (aq_pop (se_authored s0)).2).
      rewrite E in Hs'. unfold m1 in Hs'. rewrite get_set_slot in Hs'. cbn [mx_or_events mx_sessions] in Hs'.
      destruct (decide (rel0 = rel)) as [->|_].
      + rewrite Hs in Hget. injection Hget as <-. injection Hs' as <-.
        assert (Hsp : (aq_pop (se_authored s)).2 = true).
        { destruct (aq_pop (se_authored s)) as [[q' a'] sp] eqn:Ep.
          pose proof (C23_pop (se_authored s)) as Hpop. rewrite Ep in Hpop.
          destruct a'; [|destruct Hpop as (_ & Hnil & _); congruence]. destruct Hpop as [Hq' Hc'].
          eapply (C24_space_event (se_authored s) q' _ sp k Ep); [by rewrite fits_check|].
          apply fits_check. rewrite Hc'. rewrite Hq in Hq'. injection Hq' as _ <-. exact Hyes. }
        rewrite Hsp. cbn. by rewrite orb_true_r.
      + rewrite Hs in Hs'. injection Hs' as <-. done.
    - cbn in Hs'. rewrite Hs in Hs'. injection Hs' as <-. done.
  Qed.

  (** Packets returned by [pop_next_authored_packet]. *)
  Definition authored (hist : list (call * resp)) : list addressed_packet :=
    omap (fun ca => match ca with (CallPopAuthored _ _, RespPacket p) => p | _ => None end) hist.
  Definition is_post (c : call) : Prop :=
    match c with CallPostRequest _ _ _ _ _ _ _ | CallPostReply _ _ _ _ => True | _ => False end.

  Theorem C23_fifo m rel hist m' rel' s :
    mx_ok pr cf m -> follows pr m rel hist m' rel' -> ss_get (mx_sessions m) rel = SlFull s ->
    exists s' ins outs, ss_get (mx_sessions m') rel' = SlFull s' /\ same_session s s' /\
      aq_queue (se_authored s) ++ ins = outs ++ aq_queue (se_authored s') /\
      outs `sublist_of` authored hist /\
      (Forall (fun ca => ~ is_post ca.1) hist -> ins = []).
  Proof.
    intros Hm H. revert s. induction H as [m rel|m rel c a m1 rel1 hist m2 rel2 Hc He Hcar _ IH]; intros s Hs.
    { exists s, [], []. rewrite app_nil_r. split_and!; [done|apply same_session_refl|done|done|done]. }
    pose proof (exec_step pr Hok cf _ _ _ _ Hcf Hm Hc He) as Hst.
    destruct (session_step _ _ _ _ _ _ _ Hm Hst Hcar Hs) as (s1 & Hs1 & Hsm & Hq).
    destruct (IH (step_inv pr Hok cf _ _ _ _ Hcf Hm Hc Hst) s1 Hs1) as (s2 & ins & outs & Hs2 & Hsm2 & Eq & Hsub & Hnp).
    assert (Hsub' : outs `sublist_of` authored ((c, a) :: hist)).
    { unfold authored. cbn [omap list_omap]. destruct (match c with CallPopAuthored _ _ => _ | _ => _ end); [|done].
      by apply sublist_cons. }
    assert (Hgoal : forall ps, aq_queue (se_authored s1) = aq_queue (se_authored s) ++ ps -> (~ is_post c -> ps = []) ->
      exists s' ins outs, ss_get (mx_sessions m2) rel2 = SlFull s' /\ same_session s s' /\
      aq_queue (se_authored s) ++ ins = outs ++ aq_queue (se_authored s') /\
      outs `sublist_of` authored ((c, a) :: hist) /\
      (Forall (fun ca => ~ is_post ca.1) ((c, a) :: hist) -> ins = [])).
    { intros ps Eps Hps. exists s2, (ps ++ ins), outs. split_and!; [done|by eapply same_session_trans| |done|].
      - by rewrite app_assoc, <- Eps.
      - intros [Hn1 Hn2]%Forall_cons. by rewrite (Hps Hn1), (Hnp Hn2). }
    destruct c as [| | | | |ns r| | |]; cbn [queue_step] in Hq;
      try (by apply (Hgoal []); [rewrite app_nil_r|]).
    - destruct Hq as [Hq|(p & -> & Hq)]; [by apply (Hgoal []); [rewrite app_nil_r|]|].
      exists s2, ins, (p :: outs). split_and!; [done|by eapply same_session_trans| | |].
      + rewrite Hq. cbn. by rewrite Eq.
      + unfold authored. cbn [omap list_omap]. by apply sublist_skip.
      + intros [_ Hn2]%Forall_cons. by apply Hnp.
    - destruct Hq as (ps & Hq & _). apply (Hgoal ps Hq). intros Hn. by destruct Hn.
    - destruct Hq as (ps & Hq & _). apply (Hgoal ps Hq). intros Hn. by destruct Hn.
  Qed.

  Theorem C24_history m rel hist m' rel' s s' k :
    mx_ok pr cf m -> follows pr m rel hist m' rel' -> untaken hist ->
    ss_get (mx_sessions m) rel = SlFull s -> ss_get (mx_sessions m') rel' = SlFull s' ->
    ~ room s k -> room s' k -> ev_space (mx_events m') = true.
  Proof.
    intros Hm H. revert s. induction H as [m rel|m rel c a m1 rel1 hist m2 rel2 Hc He Hcar Hf IH]; intros s Hu Hs Hs' Hno Hyes.
    { rewrite Hs in Hs'. by injection Hs' as <-. }
    pose proof (exec_step pr Hok cf _ _ _ _ Hcf Hm Hc He) as Hst. apply Forall_cons in Hu as [_ Hu].
    destruct (session_step _ _ _ _ _ _ _ Hm Hst Hcar Hs) as (s1 & Hs1 & Hsm & Hq).
    pose proof (step_inv pr Hok cf _ _ _ _ Hcf Hm Hc Hst) as Hm1.
    assert (Hdec : room s1 k \/ ~ room s1 k).
    { unfold room, fits. destruct (apc_multiple_messages _); lia. }
    destruct Hdec as [Hr1|Hr1]; [|by eapply IH].
    destruct (run_events m1 hist m2 Hm1 (follows_run _ _ _ _ _ Hf) Hu) as (_ & _ & _ & Hle). apply Hle.
    assert (Hgrow : forall ps, aq_queue (se_authored s1) = aq_queue (se_authored s) ++ ps -> False).
    { intros ps E. apply Hno. unfold room, fits in *. rewrite (sm_config _ _ Hsm), E, app_length in Hr1.
      destruct (apc_multiple_messages (aq_config (se_authored s))); lia. }
    destruct c as [| | | | |ns r| | |]; cbn [queue_step] in Hq;
      try (by exfalso; apply (Hgrow []); rewrite app_nil_r).
    - cbn in Hcar. subst rel1. by eapply pop_space.
    - destruct Hq as (ps & Hq & _). by destruct (Hgrow ps).
    - destruct Hq as (ps & Hq & _). by destruct (Hgrow ps).
  Qed.
End follow.
