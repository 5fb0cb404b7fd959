(** C77: a call changes nothing but what it is about. *)
From Verif Require Export PSess.
From Verif Require Import LBase.

(** ** Specification *)

(** The parts of a node. *)
Inductive part :=
| PtConfig | PtStatus | PtSlot (rel : rel_session_index) | PtNextKey | PtForward | PtKeystore | PtAssembler | PtEvents.
Definition same_part (p : part) (m m' : mixnet) : Prop :=
  match p with
  | PtConfig => mx_config m' = mx_config m
  | PtStatus => mx_status m' = mx_status m
  | PtSlot RCurrent => ss_current (mx_sessions m') = ss_current (mx_sessions m)
  | PtSlot RPrev => ss_prev (mx_sessions m') = ss_prev (mx_sessions m)
  | PtNextKey => mx_next_kx_pair m' = mx_next_kx_pair m
  | PtForward => mx_forward m' = mx_forward m
  | PtKeystore => mx_keystore m' = mx_keystore m
  | PtAssembler => mx_assembler m' = mx_assembler m
  | PtEvents => mx_events m' = mx_events m
  end.

(** What a received packet may change: a packet to send on is noted in the session and queued; a request
    is noted in the session and goes to the assembler; a reply takes its keys out of the keystore and
    goes to the assembler. Nothing else comes of a packet. *)
Definition packet_about (pr : prims) (m : mixnet) (packet : bytes) (p : part) : Prop :=
  exists rel s, reads pr (mx_sessions m) packet rel s /\
    match content_of pr s packet with
    | CtForward _ _ _ => is_mixnode s /\ has_room m /\ (p = PtSlot rel \/ p = PtForward \/ p = PtEvents)
    | CtRequest _ => is_mixnode s /\ (p = PtSlot rel \/ p = PtAssembler)
    | CtReply id _ => (exists v, sk_entry (mx_keystore m) id = Some v) /\ (p = PtKeystore \/ p = PtAssembler)
    | CtCover _ | CtGarbage => False
    end.
Definition about (pr : prims) (m : mixnet) (c : call) (p : part) : Prop :=
  match c, p with
  | CallSetStatus st, (PtStatus | PtEvents) => st <> mx_status m
  | CallSetStatus st, PtNextKey => st_current_index st <> st_current_index (mx_status m)
  | CallSetStatus st, PtSlot RCurrent => st_current_index st <> st_current_index (mx_status m)
  | CallSetStatus st, PtSlot RPrev =>
      st_current_index st <> st_current_index (mx_status m) \/
      st <> mx_status m /\ (st_phase st = PDisconnectFromPrev \/ st_current_index st = 0%N)
  | CallSetMixnodes rel l _, PtSlot rel' => rel' = rel /\ open_slot (ss_get (mx_sessions m) rel) /\ l <> Err MeTransient
  | CallSetMixnodes rel l _, PtEvents => open_slot (ss_get (mx_sessions m) rel) /\ exists ns, l = Ok ns
  | CallNextKx _, PtNextKey => mx_next_kx_pair m = None
  | CallHandle packet _, _ => packet_about pr m packet p
  | CallPopForward _, (PtForward | PtEvents) => True
  | CallPopAuthored _ _, PtSlot rel =>
      phase_allows (st_phase (mx_status m)) rel /\
      exists s, ss_get (mx_sessions m) rel = SlFull s /\ aq_queue (se_authored s) <> []
  | CallPopAuthored _ _, PtEvents => exists rel s, ss_get (mx_sessions m) rel = SlFull s
  | CallPostRequest index _ _ _ _ _ _, PtSlot rel => exists s, usable m index rel s
  | CallPostRequest index _ _ _ num_surbs _ _, PtKeystore => (0 < num_surbs)%N /\ exists rel s, usable m index rel s
  | CallPostReply _ index _ _, PtSlot rel => exists s, usable m index rel s
  | CallTakeEvents, PtEvents => True
  | _, _ => False
  end.

(** The parts of a session that a call may change: a received packet the filter, posts and sending the
    queue, anything else none. *)
Definition session_part (c : call) (s s' : session) : Prop :=
  se_kx_pair s' = se_kx_pair s /\ se_topology s' = se_topology s /\ se_mean_period s' = se_mean_period s /\
  aq_config (se_authored s') = aq_config (se_authored s) /\
  rf_key (se_filter s') = rf_key (se_filter s) /\
  (match c with CallHandle _ _ => False | _ => True end -> se_filter s' = se_filter s) /\
  (match c with CallPopAuthored _ _ | CallPostRequest _ _ _ _ _ _ _ | CallPostReply _ _ _ _ => False | _ => True end ->
   se_authored s' = se_authored s).

(** ** Proof *)
Lemma same_part_refl p m : same_part p m m.
Proof. by destruct p as [| |[]| | | | |]. Qed.
Lemma same_part_trans p m1 m2 m3 : same_part p m1 m2 -> same_part p m2 m3 -> same_part p m1 m3.
Proof. destruct p as [| |[]| | | | |]; cbn; congruence. Qed.
Lemma part_dec (p q : part) : {p = q} + {p <> q}.
Proof. repeat decide equality. Defined.

Lemma status_frame pr m st p : same_part p m (set_session_status m st) \/ about pr m (CallSetStatus st) p.
Proof.
  unfold set_session_status. case_decide as Hst; [left; apply same_part_refl|].
  assert (Hst' : st <> mx_status m) by congruence.
  destruct (decide (st_current_index st = st_current_index (mx_status m))) as [Ei|Hi].
  - assert (Es : shift_sessions m (st_current_index st) = m) by (unfold shift_sessions; by rewrite Ei, N.eqb_refl).
    cbv zeta. rewrite Es. destruct p as [| |[]| | | | |]; cbn [about]; try (by right); try (by left; case_match).
    destruct (negb (need_prev (st_phase st)) || (st_current_index st =? 0)%N) eqn:E; [|by left].
    right. right. split; [done|]. apply orb_true_iff in E as [E|E]; [|right; by apply N.eqb_eq].
    left. by destruct (st_phase st).
  - destruct p as [| |[]| | | | |]; cbn [about]; try (by right); try (by right; left).
    all: left; unfold shift_sessions; cbv zeta; by repeat case_match.
Qed.

Section frame.
  Context (pr : prims) (Hok : prims_ok pr).

  Lemma put_frame m rel s p : p <> PtSlot rel -> same_part p m (mx_put_session m rel s).
  Proof. destruct p as [| |[]| | | | |], rel; cbn; done. Qed.

  Lemma step_frame cf m c m' a p : config_ok cf -> mx_ok pr cf m -> step pr m c m' a -> same_part p m m' \/ about pr m c p.
  Proof.
    intros Hcf Hm Hst.
    destruct Hst; try (by left; apply same_part_refl).
    - apply status_frame.
    - destruct (part_dec p (PtSlot rel)) as [->|Hne].
      + right. cbn [about]. split; [done|]. split; [done|]. match goal with H : _ \/ _ |- _ => destruct H as [->|(l & -> & _)]; done end.
      + left. by apply (same_part_trans _ _ m); [apply same_part_refl|]; destruct p as [| |[]| | | | |], rel; cbn in *.
    - destruct (part_dec p (PtSlot rel)) as [->|Hne]; [right; by split_and!|].
      destruct (part_dec p PtEvents) as [->|Hne']; [right; by split; [|eexists]|].
      left. by destruct p as [| |[]| | | | |], rel; cbn in *.
    - destruct (part_dec p PtNextKey) as [->|Hne]; [by right|]. left. by destruct p as [| |[]| | | | |].
    - (* forwarded *)
      destruct (part_dec p (PtSlot rel)) as [->|Hne]; [right; exists rel, s; split; [done|]; rewrite H0; naive_solver|].
      destruct (part_dec p PtForward) as [->|Hne1]; [right; exists rel, s; split; [done|]; rewrite H0; naive_solver|].
      destruct (part_dec p PtEvents) as [->|Hne2]; [right; exists rel, s; split; [done|]; rewrite H0; naive_solver|].
      left. apply (same_part_trans _ _ (noted pr m rel s p0)); [by apply put_frame|].
      unfold enqueue. cbv zeta. case_decide; by destruct p as [| |[]| | | | |].
    - destruct (part_dec p (PtSlot rel)) as [->|Hne]; [right; exists rel, s; split; [done|]; rewrite H0; naive_solver|].
      left. by apply put_frame.
    - destruct (part_dec p (PtSlot rel)) as [->|Hne]; [right; exists rel, s; split; [done|]; rewrite H0; naive_solver|].
      destruct (part_dec p PtAssembler) as [->|Hne1]; [right; exists rel, s; split; [done|]; rewrite H0; naive_solver|].
      left. apply (same_part_trans _ _ (noted pr m rel s p0)); [by apply put_frame|]. by destruct p as [| |[]| | | | |].
    - destruct (part_dec p PtKeystore) as [->|Hne]; [right; exists rel, s; split; [done|]; rewrite H0; naive_solver|].
      left. by destruct p as [| |[]| | | | |].
    - destruct (part_dec p PtKeystore) as [->|Hne]; [right; exists rel, s; split; [done|]; rewrite H0; naive_solver|].
      destruct (part_dec p PtAssembler) as [->|Hne1]; [right; exists rel, s; split; [done|]; rewrite H0; naive_solver|].
      left. by destruct p as [| |[]| | | | |].
    - destruct p as [| |[]| | | | |]; cbn [about]; (by left) || (by right).
    - destruct (part_dec p (PtSlot rel)) as [->|Hne].
      { right. cbn [about]. split; [done|]. exists s. split; [done|]. by rewrite H1. }
      destruct (part_dec p PtEvents) as [->|Hne1]; [right; by exists rel, s|].
      left. subst m1. case_match; by destruct p as [| |[]| | | | |], rel; cbn in *.
    - destruct (part_dec p PtEvents) as [->|Hne1]; [right; by exists rel, s|]. left. by destruct p as [| |[]| | | | |].
    - destruct H. subst m'.
      destruct (part_dec p (PtSlot rel)) as [->|Hne]; [right; by exists s|].
      destruct (part_dec p PtKeystore) as [->|Hne1].
      { destruct (decide (num_surbs = 0%N)) as [->|Hn]; [|right; split; [lia|by exists rel, s]].
        left. destruct (all_surbs ps); [done|]. cbn in po_surbs. lia. }
      left. by destruct p as [| |[]| | | | |], rel; cbn in *.
    - destruct (part_dec p (PtSlot rel)) as [->|Hne]; [right; by exists s|]. left. by apply put_frame.
    - destruct (part_dec p PtEvents) as [->|Hne1]; [by right|]. left. by destruct p as [| |[]| | | | |].
  Qed.

  Context (cf : config).

  (** A call changes only the parts it is about. *)
  Theorem C77_frame hist m c m' a p :
    reachable pr cf hist m -> call_ok c -> exec pr m c = Val (m', a) -> same_part p m m' \/ about pr m c p.
  Proof.
    intros Hr Hc He. pose proof (reachable_ok pr Hok _ _ _ Hr) as Hm; pose proof (proj1 Hr) as Hcf.
    eapply step_frame; [done|done|]. by eapply PInv.exec_step.
  Qed.

  (** No call other than a change of the status is about both sessions, and none changes both. *)
  Theorem C77_one_session hist m c m' a :
    reachable pr cf hist m -> call_ok c -> exec pr m c = Val (m', a) ->
    match c with CallSetStatus _ => False | _ => True end ->
    same_part (PtSlot RCurrent) m m' \/ same_part (PtSlot RPrev) m m'.
  Proof.
    intros Hr Hc He Hns. pose proof (reachable_ok pr Hok _ _ _ Hr) as Hm; pose proof (proj1 Hr) as Hcf.
    assert (Hst : step pr m c m' a) by (by eapply PInv.exec_step).
    assert (Hslot : forall rel sl, mx_sessions m' = ss_set (mx_sessions m) rel sl ->
              same_part (PtSlot RCurrent) m m' \/ same_part (PtSlot RPrev) m m').
    { intros rel sl E. cbn. rewrite E. destruct rel; cbn; [by right|by left]. }
    destruct Hst; try done; try (by left); try (by eapply (Hslot rel)).
    - unfold enqueue in *. cbv zeta in *. eapply (Hslot rel). by case_decide.
    - eapply (Hslot rel). subst m1. by case_match.
    - destruct H. subst m'. by eapply (Hslot rel).
  Qed.

  (** A session, for as long as it is kept ([carried]), keeps its keys, topology and settings; received
      packets change nothing of it but the filter, and posts and sending nothing but the queue. *)
  Theorem C77_session hist m c m' a rel rel' s :
    reachable pr cf hist m -> call_ok c -> exec pr m c = Val (m', a) -> carried m c rel rel' ->
    ss_get (mx_sessions m) rel = SlFull s ->
    exists s', ss_get (mx_sessions m') rel' = SlFull s' /\ session_part c s s'.
  Proof.
    intros Hr Hc He Hca Hs. pose proof (reachable_ok pr Hok _ _ _ Hr) as Hm; pose proof (proj1 Hr) as Hcf.
    assert (Hst : step pr m c m' a) by (by eapply PInv.exec_step).
    destruct (session_step pr cf m c a m' rel rel' s Hm Hst Hca Hs) as (s' & Hs' & Hsame & Hq).
    exists s'. split; [done|]. destruct Hsame. do 5 (split; [done|]).
    assert (Hkeep : mx_sessions m' = mx_sessions m -> rel' = rel -> s' = s).
    { intros E ->. rewrite E, Hs in Hs'. by injection Hs'. }
    assert (Hset : forall rel0 s0, mx_sessions m' = ss_set (mx_sessions m) rel0 (SlFull s0) -> rel' = rel ->
              (rel0 = rel /\ s' = s0) \/ s' = s).
    { intros rel0 s0 E ->. rewrite E, ss_get_set in Hs'. case_decide as Hd; [left|right].
      - injection Hs' as <-. done.
      - rewrite Hs in Hs'. by injection Hs'. }
    destruct Hst; cbn [carried] in Hca; try (by rewrite Hkeep).
    - (* status *)
      assert (ss_get (mx_sessions (set_session_status m st)) rel' = SlFull s) as E by (by eapply keeps_slot).
      rewrite E in Hs'. by injection Hs' as <-.
    - subst rel'. rewrite get_set_slot in Hs'. destruct (decide (rel0 = rel)) as [->|_]; [done|].
      rewrite Hs in Hs'. by injection Hs' as <-.
    - destruct (Hset rel0 s0 eq_refl Hca) as [[-> ->]| ->]; [|done].
      exfalso. rewrite Hs in *. match goal with H : open_slot _ |- _ => destruct H as [?|[? ?]] end; done.
    - split; [done|]. intros _. 
      assert (E : mx_sessions (enqueue (noted pr m rel0 s0 p) (ForwardPacket (now + dur) (AddressedPacket peer next))) =
                  ss_set (mx_sessions m) rel0 (SlFull (se_set_filter s0 (rf_insert (se_filter s0) (tag_of pr s0 p))))).
      { unfold enqueue. cbv zeta. by case_decide. }
      destruct (Hset _ _ E Hca) as [[-> ->]| ->]; [|done].
      apply reads_get in H. rewrite Hs in H. by injection H as <-.
    - split; [done|]. intros _. destruct (Hset _ _ eq_refl Hca) as [[-> ->]| ->]; [|done].
      apply reads_get in H. rewrite Hs in H. by injection H as <-.
    - split; [done|]. intros _. destruct (Hset _ _ eq_refl Hca) as [[-> ->]| ->]; [|done].
      apply reads_get in H. rewrite Hs in H. by injection H as <-.
    - split; [|done]. intros _. subst m1.
      match type of Hs' with ss_get (mx_sessions ?x) _ = _ =>
        assert (E : mx_sessions x = ss_set (mx_sessions m) rel0 (SlFull (se_set_authored s0 q))) by (by case_match) end.
      destruct (Hset _ _ E Hca) as [[-> ->]| ->]; [|done]. rewrite Hs in H. by injection H as <-.
    - split; [|done]. intros _. destruct H. subst m'. destruct (Hset _ _ eq_refl Hca) as [[-> ->]| ->]; [|done].
      destruct po_usable as [_ Hu]. assert (Hu' : ss_get (mx_sessions m) rel = SlFull s0) by (by destruct rel).
      rewrite Hs in Hu'. by injection Hu' as <-.
    - split; [|done]. intros _. destruct (Hset _ _ eq_refl Hca) as [[-> ->]| ->]; [|done].
      destruct H as [_ Hu]. assert (Hu' : ss_get (mx_sessions m) rel = SlFull s0) by (by destruct rel).
      rewrite Hs in Hu'. by injection Hu' as <-.
  Qed.

  (** Over a history: a part that no call is about stays as it is. *)
  Theorem C77_untouched hist0 m hist m' p :
    reachable pr cf hist0 m -> run pr m hist m' ->
    (forall h1 c a h2 m1, hist = h1 ++ (c, a) :: h2 -> run pr m h1 m1 -> ~ about pr m1 c p) ->
    same_part p m m'.
  Proof.
    intros Hr Hrun Hno. pose proof (reachable_ok pr Hok _ _ _ Hr) as Hm; pose proof (proj1 Hr) as Hcf. clear Hr.
    induction Hrun as [m|m c a m1 hist m2 Hc He Hrun IH]; [apply same_part_refl|].
    assert (Hst : step pr m c m1 a) by (by eapply PInv.exec_step).
    destruct (step_frame cf m c m1 a p Hcf Hm Hst) as [H|H].
    - apply (same_part_trans _ _ m1); [done|]. apply IH.
      + intros h1 c' a' h2 m3 -> Hr3. apply (Hno ((c, a) :: h1) c' a' h2 m3 eq_refl). by econstructor.
      + by eapply step_inv.
    - exfalso. apply (Hno [] c a hist m eq_refl); [constructor|done].
  Qed.
End frame.
