(** Single calls on reachable nodes: previous session (C32), mixnode lists (C34), bad destinations (C36),
    dispatch of authored packets (C39), origin of SURB keys (C19). *)
From Verif Require Export PNode.

Section calls.
  Context (pr : prims) (Hok : prims_ok pr) (cf : config) (Hcf : config_ok cf).

  (** ** C32 *)
  Theorem C32_prev hist m :
    reachable pr cf hist m -> st_current_index (mx_status m) = 0%N -> ss_prev (mx_sessions m) = SlDisabled.
  Proof. intros H%(reachable_ok pr Hok) E. apply (mo_prev_disabled _ _ _ H). by left. Qed.

  (** ** C34 *)

  (** An established or disabled session is left alone, and the list of mixnodes is not even asked for. *)
  Theorem C34_kept m rel mixnodes r :
    ~ open_slot (ss_get (mx_sessions m) rel) ->
    exec pr m (CallSetMixnodes rel mixnodes r) = Val (m, RespCalled false).
  Proof.
    intros H. cbn [exec]. unfold maybe_set_mixnodes. cbv zeta.
    destruct (ss_get (mx_sessions m) rel) as [|k| |s]; [by destruct H; left|by destruct H; right; eexists|done..].
  Qed.

  (** The key that the node has in the session. *)
  Definition own_public (sl : session_slot) (r : rng) : bytes :=
    kp_public (match sl with SlKxPair k => k | _ => kx_pair_from pr (gen_kx_secret r).1 end).

  Theorem C34_set m rel mixnodes r :
    mx_ok pr cf m -> open_slot (ss_get (mx_sessions m) rel) ->
    call_ok (CallSetMixnodes rel mixnodes r) ->
    exists m', exec pr m (CallSetMixnodes rel mixnodes r) = Val (m', RespCalled true) /\
    match mixnodes with
    | Err MeTransient => m' = m
    | Err MePermanent => m' = set_slot m rel SlDisabled
    | Ok l =>
        (** of more than 65280 mixnodes the first 65280 count *)
        let own := own_public (ss_get (mx_sessions m) rel) r ∈ map mn_kx_public (take (N.to_nat 65280) l) in
        (~ own /\ cf_non_mixnode_session cf = None /\ m' = set_slot m rel SlDisabled) \/
        ((own \/ cf_non_mixnode_session cf <> None) /\
         exists s, fresh_session pr cf (ss_get (mx_sessions m) rel) l r s /\
           m' = mx_or_events (set_slot m rel (SlFull s)) slot_changed)
    end.
  Proof.
    intros Hm Ho Hc. pose proof (C32_set_mixnodes pr cf m rel mixnodes r Hm) as Hnp.
    destruct (exec pr m (CallSetMixnodes rel mixnodes r)) as [[m' a]|] eqn:E; [|done].
    pose proof (exec_step pr Hok cf _ _ _ _ Hcf Hm Hc E) as Hst. rewrite <- (mo_config _ _ _ Hm).
    exists m'. inversion Hst; subst.
    - done.
    - done.
    - split; [done|]. match goal with H : _ \/ _ |- _ => destruct H as [->|(l & -> & Hn & Hk)]; [done|] end.
      left. done.
    - split; [done|]. right. match goal with H : fresh_session _ _ _ _ _ _ |- _ => rename H into Hf end.
      split; [|by exists s]. pose proof (fs_mixnode _ _ _ _ _ _ Hf) as Hmx. pose proof (fs_config _ _ _ _ _ _ Hf) as Hco.
      destruct (tp_is_mixnode (se_topology s)).
      + left. unfold own_public. pose proof (fs_key _ _ _ _ _ _ Hf) as Hk.
        replace (match ss_get (mx_sessions m) rel with SlKxPair k => k | _ => kx_pair_from pr (gen_kx_secret r).1 end)
          with (se_kx_pair s) by (by destruct (ss_get (mx_sessions m) rel)). by apply Hmx.
      + right. destruct Hco as (c & -> & _). done.
  Qed.

  Lemma status_index m st :
    st_current_index (mx_status (set_session_status m st)) = st_current_index st /\
    mx_status (set_session_status m st) = st.
  Proof. unfold set_session_status. destruct (decide _) as [->|]; [done|]. done. Qed.

  (** A slot that is established or disabled stays so while the index of the current session stays. *)
  Lemma closed_step m c m' a rel :
    mx_ok pr cf m -> step pr m c m' a ->
    (forall st, c = CallSetStatus st -> st_current_index st = st_current_index (mx_status m)) ->
    st_current_index (mx_status m') = st_current_index (mx_status m) /\
    (~ open_slot (ss_get (mx_sessions m) rel) -> ~ open_slot (ss_get (mx_sessions m') rel)) /\
    (ss_get (mx_sessions m) rel = SlDisabled -> ss_get (mx_sessions m') rel = SlDisabled).
  Proof.
    intros Hm Hst Hi.
    assert (Hsame : mx_status m' = mx_status m -> mx_sessions m' = mx_sessions m ->
      st_current_index (mx_status m') = st_current_index (mx_status m) /\
      (~ open_slot (ss_get (mx_sessions m) rel) -> ~ open_slot (ss_get (mx_sessions m') rel)) /\
      (ss_get (mx_sessions m) rel = SlDisabled -> ss_get (mx_sessions m') rel = SlDisabled))
      by (by intros -> ->).
    assert (Hput : forall rel' s s', mx_status m' = mx_status m ->
      ss_get (mx_sessions m) rel' = SlFull s -> mx_sessions m' = ss_set (mx_sessions m) rel' (SlFull s') ->
      st_current_index (mx_status m') = st_current_index (mx_status m) /\
      (~ open_slot (ss_get (mx_sessions m) rel) -> ~ open_slot (ss_get (mx_sessions m') rel)) /\
      (ss_get (mx_sessions m) rel = SlDisabled -> ss_get (mx_sessions m') rel = SlDisabled)).
    { intros rel' s s' -> Hs ->. split; [done|].
      assert (Hno : ~ open_slot (SlFull s')) by (intros [?|[? ?]]; done).
      destruct rel, rel'; cbn in Hs |- *; by rewrite ?Hs. }
    assert (Hset : forall rel' sl, mx_status m' = mx_status m ->
      open_slot (ss_get (mx_sessions m) rel') -> mx_sessions m' = ss_set (mx_sessions m) rel' sl ->
      ~ open_slot sl ->
      st_current_index (mx_status m') = st_current_index (mx_status m) /\
      (~ open_slot (ss_get (mx_sessions m) rel) -> ~ open_slot (ss_get (mx_sessions m') rel)) /\
      (ss_get (mx_sessions m) rel = SlDisabled -> ss_get (mx_sessions m') rel = SlDisabled)).
    { intros rel' sl -> Hs -> Hno. split; [done|].
      destruct rel, rel'; cbn in Hs |- *; try done; (split; [done|]); intros E; rewrite E in Hs; by destruct Hs as [?|[? ?]]. }
    destruct Hst; try (by apply Hsame).
    - specialize (Hi st eq_refl). destruct (status_index m st) as [-> _]. split; [done|].
      unfold set_session_status. destruct (decide (mx_status m = st)); [done|]. cbv zeta.
      unfold shift_sessions. rewrite (proj2 (N.eqb_eq _ _) (eq_sym Hi)).
      assert (Hno : ~ open_slot SlDisabled) by (intros [?|[? ?]]; done).
      destruct (_ || _), rel; cbn; done.
    - eapply (Hset rel0 SlDisabled); [done..|]. intros [?|[? ?]]; done.
    - eapply (Hset rel0 (SlFull s)); [done..|]. intros [?|[? ?]]; done.
    - pose proof (reads_get _ _ _ _ _ H) as Hg. eapply (Hput rel0 s); [|exact Hg|].
      + unfold enqueue. by destruct (decide _).
      + unfold enqueue. by destruct (decide _).
    - pose proof (reads_get _ _ _ _ _ H) as Hg. by eapply (Hput rel0 s).
    - pose proof (reads_get _ _ _ _ _ H) as Hg. by eapply (Hput rel0 s).
    - eapply (Hput rel0 s); [|done|].
      + unfold m1. by destruct (aq_pop _).2.
      + unfold m1. by destruct (aq_pop _).2.
    - destruct H as [Hu _ _ _ _ _ _ _ _ -> _ _ _ _ _]. apply usable_get in Hu. by eapply (Hput rel0 s).
    - match goal with H : usable _ _ _ _ |- _ => apply usable_get in H; by eapply (Hput rel0 s) end.
  Qed.

  Definition same_index (m : mixnet) (hist : list (call * resp)) : Prop :=
    forall st a, (CallSetStatus st, a) ∈ hist -> st_current_index st = st_current_index (mx_status m).

  Lemma closed_run m hist m' rel :
    mx_ok pr cf m -> run pr m hist m' -> same_index m hist ->
    mx_ok pr cf m' /\
    (~ open_slot (ss_get (mx_sessions m) rel) -> ~ open_slot (ss_get (mx_sessions m') rel)) /\
    (ss_get (mx_sessions m) rel = SlDisabled -> ss_get (mx_sessions m') rel = SlDisabled).
  Proof.
    intros Hm H. induction H as [|m c a m1 hist m2 Hc He _ IH]; intros Hi; [done|].
    pose proof (exec_step pr Hok cf _ _ _ _ Hcf Hm Hc He) as Hst.
    destruct (closed_step _ _ _ _ rel Hm Hst) as (Ei & H1 & H2).
    { intros st ->. apply (Hi st a). by left. }
    destruct (IH (step_inv pr Hok cf _ _ _ _ Hcf Hm Hc Hst)) as (H3 & H4 & H5).
    { intros st a' Hin. rewrite Ei. apply (Hi st a'). by right. }
    split_and!; auto.
  Qed.

  (** While the index of the current session stays the same, a session is set up or disabled at most once:
      after a call that did not fail transiently, all calls are without effect. *)
  Theorem C34_once m rel mixnodes r m1 b hist m2 mixnodes' r' :
    mx_ok pr cf m -> call_ok (CallSetMixnodes rel mixnodes r) -> mixnodes <> Err MeTransient ->
    exec pr m (CallSetMixnodes rel mixnodes r) = Val (m1, RespCalled b) ->
    run pr m1 hist m2 -> same_index m1 hist ->
    exec pr m2 (CallSetMixnodes rel mixnodes' r') = Val (m2, RespCalled false).
  Proof.
    intros Hm Hc Ht He Hr Hi. pose proof (exec_step pr Hok cf _ _ _ _ Hcf Hm Hc He) as Hst.
    pose proof (step_inv pr Hok cf _ _ _ _ Hcf Hm Hc Hst) as Hm1.
    apply C34_kept. eapply closed_run; [exact Hm1|exact Hr|exact Hi|].
    inversion Hst; subst; try done.
    - destruct rel; cbn; intros [?|[? ?]]; done.
    - destruct rel; cbn; intros [?|[? ?]]; done.
  Qed.
  Theorem C34_disabled m hist m' rel :
    mx_ok pr cf m -> run pr m hist m' -> same_index m hist ->
    ss_get (mx_sessions m) rel = SlDisabled -> ss_get (mx_sessions m') rel = SlDisabled.
  Proof. intros Hm Hr Hi. by eapply closed_run. Qed.

  (** ** C36 *)

  (** Never accepted; C36_refuted (in PExample) shows that it panics. *)
  Theorem C36_not_accepted m index d id data num_surbs ns r rel s m' a :
    mx_ok pr cf m -> call_ok (CallPostRequest index (Some d) id data num_surbs ns r) ->
    usable m index rel s -> ~ (N.to_nat d < length (tp_mixnodes (se_topology s))) ->
    exec pr m (CallPostRequest index (Some d) id data num_surbs ns r) = Val (m', a) ->
    m' = m /\ exists e, a = RespPost (Some d) (Err e).
  Proof.
    intros Hm (Ha & Hns & _) Hu Hv He. cbn [exec] in He. pose proof (mx_posting pr cf m Hcf Hm) as Hp.
    destruct (post_request_invalid pr m index (Some d) id data num_surbs ns r rel s d Hp Ha Hns Hu eq_refl Hv) as [E|[e E]];
      rewrite E in He; [done|]. injection He as <- <-. by split; [|exists e].
  Qed.

  (** ** C39 *)

  Global Instance phase_allows_dec ph rel : Decision (phase_allows ph rel).
  Proof. destruct ph, rel; cbn; apply _. Defined.
  (** A cover packet, or nothing if cover packets are switched off or impossible. *)
  Definition sends_cover (s : session) (ns : network_status) (loop : bool) (p : option addressed_packet) : Prop :=
    match p with
    | Some p => cf_gen_cover_packets cf = true /\ cover_made pr cf s ns loop p
    | None => cf_gen_cover_packets cf = false \/ cover_impossible cf s ns loop
    end.

  (** [pick_session] and [gen_bool] are the two random choices that the call makes. *)
  Theorem C39_pop m ns r m' p :
    mx_ok pr cf m -> length (ns_local_peer_id ns) = 32 ->
    exec pr m (CallPopAuthored ns r) = Val (m', RespPacket p) ->
    (* no session is active *)
    ((forall rel s, ss_get (mx_sessions m) rel <> SlFull s) /\ m' = m /\ p = None) \/
    exists rel s r1 loop r2,
      pick_session m r = Val (Some (rel, s), r1) /\ ss_get (mx_sessions m) rel = SlFull s /\
      gen_bool (cf_loop_cover_proportion cf) r1 = Val (loop, r2) /\
      match loop, aq_queue (se_authored s) with
      | false, q :: rest =>
          if decide (phase_allows (st_phase (mx_status m)) rel) then
            (* the oldest queued packet is sent, nothing else changes *)
            p = Some q /\
            exists m1, m1 = set_slot m rel (SlFull (se_set_authored s (AuthoredQueue (aq_config (se_authored s)) rest))) /\
              (m' = mx_or_events m1 NEXT_AUTHORED_PACKET_DEADLINE_CHANGED \/
               m' = mx_or_events (mx_or_events m1 NEXT_AUTHORED_PACKET_DEADLINE_CHANGED) SPACE_IN_AUTHORED_PACKET_QUEUE)
          else m' = mx_or_events m NEXT_AUTHORED_PACKET_DEADLINE_CHANGED /\ sends_cover s ns false p
      | _, _ => m' = mx_or_events m NEXT_AUTHORED_PACKET_DEADLINE_CHANGED /\ sends_cover s ns loop p
      end.
  Proof.
    intros Hm Hns H. destruct Hcf as [Hh _]. cbn [exec] in H. apply out_bind_Val in H as ([m1 p1] & H & E).
    injection E as -> ->. unfold pop_next_authored_packet in H.
    apply out_bind_Val in H as ([x r1] & Hpick & H). pose proof (pick_session_spec _ _ _ _ Hpick) as Hget.
    destruct x as [[rel s]|].
    2:{ injection H as <- <-. left. split; [|done]. intros rel s Hs. unfold ss_iter in Hget.
        destruct rel; cbn in Hs; rewrite Hs in Hget; cbn in Hget; [done|].
        by destruct (ss_current (mx_sessions m)). }
    right. apply out_bind_Val in H as ([loop r2] & Hloop & H).
    set (m0 := mx_or_events m NEXT_AUTHORED_PACKET_DEADLINE_CHANGED) in *.
    change (mx_config m0) with (mx_config m) in Hloop. rewrite (mo_config _ _ _ Hm) in Hloop.
    exists rel, s, r1, loop, r2. split_and!; [done..|].
    pose proof (mx_ok_full pr cf m rel s Hm Hget) as Hs.
    assert (Hcover : (if negb (cf_gen_cover_packets (mx_config m0)) then Val (m0, None)
            else
              res ← gen_cover_packet pr (se_topology s) ns (if loop then CkLoop else CkDrop) (cf_num_hops (mx_config m0)) r2;
              match res with
              | Ok p => Val (m0, Some p)
              | Err _ => Val (m0, None)
              end) = Val (m', p) -> m' = m0 /\ sends_cover s ns loop p).
    { intros H'. change (mx_config m0) with (mx_config m) in H'. rewrite (mo_config _ _ _ Hm) in H'.
      destruct (cf_gen_cover_packets cf) eqn:Egen; cbn [negb] in H'.
      2:{ injection H' as <- <-. split; [done|]. by left. }
      destruct (gen_cover_spec pr Hok cf s ns (if loop then CkLoop else CkDrop) r2 (so_topology _ _ _ Hs) Hns Hh)
        as (res & E & Hres).
      rewrite E in H'. cbn [out_bind] in H'. destruct res as [q|e]; injection H' as <- <-; (split; [done|]).
      - split; [done|]. by destruct loop.
      - right. by destruct loop. }
    change (st_phase (mx_status m0)) with (st_phase (mx_status m)) in H.
    destruct loop; cbn [negb andb] in H; [by apply Hcover|].
    destruct (allow_requests_and_replies (st_phase (mx_status m)) rel) eqn:Ea.
    - apply phase_allows_spec in Ea. pose proof (C23_pop (se_authored s)) as Hpop.
      destruct (aq_pop (se_authored s)) as [[q packet] space] eqn:Eq. destruct packet as [pk|].
      + destruct Hpop as [Hq Hc]. injection H as <- <-. rewrite Hq, decide_True by done. split; [done|].
        eexists. split; [done|]. rewrite <- Hc. destruct q as [qc ql]. destruct space; [by right|by left].
      + destruct Hpop as (-> & Hq & ->). rewrite Hq. apply Hcover.
        replace (mx_put_session m0 rel (se_set_authored s (se_authored s))) with m0 in H; [done|].
        symmetry. replace (se_set_authored s (se_authored s)) with s by (by destruct s). by apply put_session_same.
    - assert (Hna : ~ phase_allows (st_phase (mx_status m)) rel).
      { intros Hp. apply phase_allows_spec in Hp. congruence. }
      apply Hcover in H. destruct (aq_queue (se_authored s)); [done|]. by rewrite decide_False.
  Qed.

  (** ** C19 *)

  (** Every SURB key in the keystore of a node stems from a request that the node posted before. *)
  Theorem C19_origin hist m id v :
    reachable pr cf hist m -> sk_entry (mx_keystore m) id = Some v ->
    exists index dest data num_surbs ns r d metrics,
      (CallPostRequest index dest (sv_message_id v) data num_surbs ns r, RespPost d (Ok metrics)) ∈ hist /\
      exists j, rng_pos r ≤ j /\ drawn (rng_tape r) j id.
  Proof.
    intros (_ & m0 & E0 & Hr) Hv. pose proof (mx_new_ok pr cf m0 Hcf E0) as Hm0.
    apply entry_elem in Hv. destruct (keystore_run pr Hok cf Hcf _ _ _ _ _ Hm0 Hr Hv) as [H|(c & a & Hin & Hd & Hmade)].
    - unfold mx_new in E0. apply out_bind_Val in E0 as (ks & Hks & E0). injection E0 as <-. cbn [mx_keystore] in H.
      unfold sk_new in Hks. apply out_bind_Val in Hks as (u & _ & Hks). injection Hks as <-. by apply elem_of_nil in H.
    - destruct c; try done. destruct a as [| | | | |d res| |]; try done. destruct res as [metrics|]; [|done]. subst.
      do 8 eexists. split; [exact Hin|exact Hd].
  Qed.
End calls.
