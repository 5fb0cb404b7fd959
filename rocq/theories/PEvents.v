(** C65: which calls raise which events. *)
From Verif Require Export PNode.

(** ** Specification *)

(** [P] holds of some call made during the history, with the states before and after it. *)
Inductive sometime (pr : prims) (P : mixnet -> call -> mixnet -> Prop) : mixnet -> list (call * resp) -> Prop :=
| SoNow m c a hist m1 : exec pr m c = Val (m1, a) -> P m c m1 -> sometime pr P m ((c, a) :: hist)
| SoLater m c a hist m1 : exec pr m c = Val (m1, a) -> sometime pr P m1 hist -> sometime pr P m ((c, a) :: hist).

(** The status becomes a different one, or the mixnodes of a session become known. *)
Definition session_changes (m : mixnet) (c : call) (m' : mixnet) : Prop :=
  match c with
  | CallSetStatus st => mx_status m' <> mx_status m
  | CallSetMixnodes rel _ _ =>
      (forall s, ss_get (mx_sessions m) rel <> SlFull s) /\ exists s, ss_get (mx_sessions m') rel = SlFull s
  | _ => False
  end.
(** The time at which the next packet is to be forwarded changes on arrival of a packet, or may change
    because a packet is asked for. *)
Definition forward_changes (m : mixnet) (c : call) (m' : mixnet) : Prop :=
  match c with
  | CallHandle _ _ => fq_next_deadline (mx_forward m') <> fq_next_deadline (mx_forward m)
  | CallPopForward _ => True
  | _ => False
  end.
(** A packet is asked for in some session. *)
Definition authored_changes (m : mixnet) (c : call) (m' : mixnet) : Prop :=
  match c with
  | CallPopAuthored _ _ => exists rel s, ss_get (mx_sessions m) rel = SlFull s
  | _ => session_changes m c m'
  end.
(** A packet leaves the queue of a session and then there is space: for a shorter message, or, if the
    queue is for one message at a time, for any. *)
Definition space_made (m : mixnet) (c : call) (m' : mixnet) : Prop :=
  match c with
  | CallPopAuthored _ _ =>
      exists rel s s' p, ss_get (mx_sessions m) rel = SlFull s /\ ss_get (mx_sessions m') rel = SlFull s' /\
        aq_queue (se_authored s) = p :: aq_queue (se_authored s') /\
        (apc_multiple_messages (aq_config (se_authored s)) = true \/ aq_queue (se_authored s') = [])
  | _ => False
  end.

(** ** Proof *)
Section events.
  Context (pr : prims) (Hok : prims_ok pr) (cf : config) (Hcf : config_ok cf).

  Definition raised (e e' : events) (a b c d : Prop) : Prop :=
    (ev_reserved_peers e' = true <-> ev_reserved_peers e = true \/ a) /\
    (ev_forward_deadline e' = true <-> ev_forward_deadline e = true \/ b) /\
    (ev_authored_deadline e' = true <-> ev_authored_deadline e = true \/ c) /\
    (ev_space e' = true <-> ev_space e = true \/ d).
  Lemma or_raised e e0 a b c d :
    (ev_reserved_peers e0 = true <-> a) -> (ev_forward_deadline e0 = true <-> b) ->
    (ev_authored_deadline e0 = true <-> c) -> (ev_space e0 = true <-> d) -> raised e (ev_or e e0) a b c d.
  Proof. intros H1 H2 H3 H4. unfold raised. cbn. rewrite !orb_true_iff. by rewrite H1, H2, H3, H4. Qed.
  Lemma same_raised e a b c d : ~ a -> ~ b -> ~ c -> ~ d -> raised e e a b c d.
  Proof. unfold raised. tauto. Qed.
  Lemma shift_events m i : mx_events (shift_sessions m i) = mx_events m.
  Proof. unfold shift_sessions. by destruct (_ =? _)%N. Qed.
  Lemma own_tail {T} (x : T) l : l <> x :: l.
  Proof. intros H. apply (f_equal length) in H. cbn in H. lia. Qed.

  Lemma step_raised m c m' a :
    step pr m c m' a -> c <> CallTakeEvents ->
    raised (mx_events m) (mx_events m') (session_changes m c m') (forward_changes m c m') (authored_changes m c m') (space_made m c m').
  Proof.
    intros Hst Hc.
    destruct Hst as [st|rel mixnodes r Ho|rel r Ho|rel mixnodes r Ho Hx|rel l r s Ho Hf|k r Hk|r Hk k|p now Hr|p now rel s Hr Hx
      |p now rel s t d next peer dur Hr Hct Hmx Hroom Hl Ht Hd|p now rel s t d next e Hr Hct Hmx Hroom Ht
      |p now rel s data fa out msg Hr Hct Hmx Hl Hfa Hmsg|p now rel s id pl v Hr Hct Hsk Hdec|p now rel s id pl v plain fa out Hr Hct Hsk Hdec Hl Hfa
      |tie q p Hpop|ns r Hn|ns r rel s p rest Hs Hph Hq q m1|ns r rel s p Hs Hcov|index dest id data k ns r e
      |index dest id data k ns r m' d metrics rel s g bs ps Hp|surbs index id data e|surbs index id data rel s bs used packets left bad res Hu Hbs Hfit Hsu H3 Hres|].
    - unfold set_session_status. destruct (decide _) as [E|E].
      + apply same_raised; cbn; tauto.
      + cbv zeta. destruct (_ || _); cbn [mx_events mx_set_status mx_or_events mx_set_sessions mx_status session_changes forward_changes authored_changes space_made];
          rewrite shift_events; apply or_raised; cbn; intuition congruence.
    - apply same_raised; cbn; try tauto; intros [H1 [s H2]]; by apply (H1 s).
    - apply same_raised; cbn; try tauto; intros [H1 [s H2]]; by apply (H1 s).
    - apply same_raised; cbn [session_changes forward_changes authored_changes space_made]; try tauto;
        rewrite get_set_slot; intros [H1 [s H2]]; destruct rel; discriminate H2.
    - apply or_raised; cbn [session_changes forward_changes authored_changes space_made]; try (cbn; intuition congruence).
      + split; [intros _|done]. split; [|exists s; by destruct rel].
        intros s' E. rewrite E in Ho. by destruct Ho as [?|[? ?]].
      + split; [intros _|done]. split; [|exists s; by destruct rel].
        intros s' E. rewrite E in Ho. by destruct Ho as [?|[? ?]].
    - apply same_raised; cbn; tauto.
    - apply same_raised; cbn; tauto.
    - apply same_raised; cbn; tauto.
    - apply same_raised; cbn; tauto.
    - unfold enqueue. destruct (decide _) as [E|E].
      + apply same_raised; cbn [session_changes forward_changes authored_changes space_made]; try tauto.
      + apply or_raised; cbn [session_changes forward_changes authored_changes space_made]; try (cbn; intuition congruence).
    - apply same_raised; cbn; tauto.
    - apply same_raised; cbn; tauto.
    - apply same_raised; cbn; tauto.
    - apply same_raised; cbn; tauto.
    - apply or_raised; cbn; intuition congruence.
    - apply same_raised; cbn [session_changes forward_changes authored_changes space_made]; try tauto.
      + intros (rel & s & Hs). unfold ss_iter in Hn. destruct (mx_sessions m) as [cur prev]. cbn in Hn.
        destruct rel; cbn in Hs; subst; cbn in Hn; [done|]. by destruct (slot_as_option cur).
      + intros (rel & s & s' & p & Hs & Hs' & E & _). rewrite Hs in Hs'. injection Hs' as <-. by apply own_tail in E.
    - assert (Hset : forall e, mx_sessions (mx_or_events m1 e) = mx_sessions m1) by done.
      assert (Hnew : forall m2 r', mx_sessions m2 = mx_sessions m1 -> ss_get (mx_sessions m2) r' =
        if decide (rel = r') then SlFull (se_set_authored s q) else ss_get (mx_sessions m) r').
      { intros m2 r' ->. unfold m1. exact (get_set_slot (mx_or_events m NEXT_AUTHORED_PACKET_DEADLINE_CHANGED) rel _ r'). }
      assert (Hfl : (aq_pop (se_authored s)).2 = true <->
        apc_multiple_messages (aq_config (se_authored s)) = true \/ rest = []).
      { unfold aq_pop. rewrite Hq. cbn. by rewrite orb_true_iff, bool_decide_eq_true. }
      assert (Hsp : forall m2, mx_sessions m2 = mx_sessions m1 ->
        (space_made m (CallPopAuthored ns r) m2 <-> apc_multiple_messages (aq_config (se_authored s)) = true \/ rest = [])).
      { intros m2 E. split.
        - intros (r' & s1 & s2 & p1 & H1 & H2 & H3 & H4). rewrite (Hnew m2 r' E) in H2. destruct (decide (rel = r')) as [<-|].
          + rewrite Hs in H1. injection H1 as <-. injection H2 as <-. cbn in H4. exact H4.
          + rewrite H1 in H2. injection H2 as <-. by apply own_tail in H3.
        - intros H. exists rel, s, (se_set_authored s q), p. split; [done|]. rewrite (Hnew m2 rel E), decide_True by done. done. }
      destruct (aq_pop (se_authored s)).2.
      + change (mx_events (mx_or_events m1 SPACE_IN_AUTHORED_PACKET_QUEUE)) with
          (ev_or (ev_or (mx_events m) NEXT_AUTHORED_PACKET_DEADLINE_CHANGED) SPACE_IN_AUTHORED_PACKET_QUEUE).
        specialize (Hsp (mx_or_events m1 SPACE_IN_AUTHORED_PACKET_QUEUE) eq_refl). unfold raised. rewrite Hsp, <- Hfl.
        cbn [session_changes forward_changes authored_changes]. cbn. rewrite !orb_true_iff.
        split_and!; try (intuition congruence). split; [intros _; right; by exists rel, s|intros _; left; by right].
      + change (mx_events m1) with (ev_or (mx_events m) NEXT_AUTHORED_PACKET_DEADLINE_CHANGED).
        specialize (Hsp m1 eq_refl). unfold raised. rewrite Hsp, <- Hfl.
        cbn [session_changes forward_changes authored_changes]. cbn. rewrite !orb_true_iff.
        split_and!; try (intuition congruence). split; [intros _; right; by exists rel, s|intros _; by right].
    - apply or_raised; cbn [session_changes forward_changes authored_changes space_made]; try (cbn; intuition congruence).
      + split; [intros _; by exists rel, s|done].
      + split; [done|]. intros (rel' & s1 & s2 & p1 & H1 & H2 & E & _). cbn in H2. rewrite H1 in H2. injection H2 as <-. by apply own_tail in E.
    - apply same_raised; cbn; tauto.
    - destruct Hp as [_ _ _ _ _ _ _ _ _ -> _ _ _ _ _]. apply same_raised; cbn; tauto.
    - apply same_raised; cbn; tauto.
    - apply same_raised; cbn; tauto.
    - done.
  Qed.

  Lemma run_raised m hist m' :
    mx_ok pr cf m -> run pr m hist m' -> untaken hist ->
    raised (mx_events m) (mx_events m') (sometime pr session_changes m hist) (sometime pr forward_changes m hist)
      (sometime pr authored_changes m hist) (sometime pr space_made m hist).
  Proof.
    intros Hm H. induction H as [m|m c a m1 hist m2 Hc He Hr IH]; intros Hu.
    { apply same_raised; intros H; inversion H. }
    apply Forall_cons in Hu as [Hu1 Hu]. pose proof (exec_step pr Hok cf _ _ _ _ Hcf Hm Hc He) as Hst.
    pose proof (step_inv pr Hok cf _ _ _ _ Hcf Hm Hc Hst) as Hm1.
    assert (Hso : forall P, sometime pr P m ((c, a) :: hist) <-> P m c m1 \/ sometime pr P m1 hist).
    { intros P. split.
      - intros H. inversion H as [? ? ? ? m1' He' HP|? ? ? ? m1' He' HP]; subst; rewrite He in He'; injection He' as <-; tauto.
      - intros [HP|HP]; [by eapply SoNow|by eapply SoLater]. }
    destruct (step_raised _ _ _ _ Hst Hu1) as (H1 & H2 & H3 & H4). destruct (IH Hm1 Hu) as (I1 & I2 & I3 & I4).
    unfold raised. rewrite !Hso. tauto.
  Qed.

  (** [take_events] returns an event exactly if some call since the last [take_events], or since the
      start, has caused it. *)
  Theorem C65_causes m0 h1 m1 h2 m m' e :
    mx_new pr cf = Val m0 -> run pr m0 h1 m1 ->
    h1 = [] \/ (exists h a, h1 = h ++ [(CallTakeEvents, a)]) ->
    run pr m1 h2 m -> untaken h2 -> exec pr m CallTakeEvents = Val (m', RespEvents e) ->
    (ev_reserved_peers e = true <-> sometime pr session_changes m1 h2) /\
    (ev_forward_deadline e = true <-> sometime pr forward_changes m1 h2) /\
    (ev_authored_deadline e = true <-> sometime pr authored_changes m1 h2) /\
    (ev_space e = true <-> sometime pr space_made m1 h2).
  Proof.
    intros E0 Hr1 Hh1 Hr2 Hu He.
    assert (Hm1 : mx_ok pr cf m1) by (eapply run_ok; [done..| |done]; by apply mx_new_ok).
    assert (Hev : mx_events m1 = Events false false false false).
    { destruct Hh1 as [->|(h & a & ->)].
      - inversion Hr1; subst. unfold mx_new in E0. apply out_bind_Val in E0 as (ks & _ & E0). by injection E0 as <-.
      - clear -Hr1. remember (h ++ [(CallTakeEvents, a)]) as l eqn:El. revert h El.
        induction Hr1 as [m|m c b m2 l m3 Hc He Hr IH]; intros [|x h] El; try done.
        + injection El as -> -> ->. inversion Hr; subst. by injection He as <- _.
        + injection El as _ El. by eapply IH. }
    destruct (run_raised _ _ _ Hm1 Hr2 Hu) as (H1 & H2 & H3 & H4). rewrite Hev in *. cbn in H1, H2, H3, H4.
    cbn in He. injection He as _ <-. intuition congruence.
  Qed.
End events.

(** A concrete case: after the events of the start have been taken, a request is posted and its packet
    taken from the queue. *)
From Verif Require Import Toy PExample.
Definition ev_first : list call := ex_setup ++ [CallTakeEvents].
Definition ev_second : list call := [ex_post 8 (Some 2%N); CallPopAuthored (ex_ns 8) ex_big].
Definition ev_check (k : N) (l1 l2 : list call) (e : events) : bool :=
  match mx_new toy_prims (ex_config k) with
  | Val m0 =>
      match play m0 l1 with
      | Some (_, m1) =>
          match play m1 l2 with
          | Some (_, m) =>
              match exec toy_prims m CallTakeEvents with
              | Val (_, RespEvents (Events a b c d)) =>
                  bool_decide ((a, b, c, d) = (ev_reserved_peers e, ev_forward_deadline e, ev_authored_deadline e, ev_space e))
              | _ => false
              end
          | None => false
          end
      | None => false
      end
  | Panic => false
  end.
Lemma play_calls_of l : forall m h m', play m l = Some (h, m') -> map fst h = l.
Proof.
  induction l as [|c l IH]; intros m h m'; cbn [play]; [by intros [= <- _]|].
  destruct (exec toy_prims m c) as [[m1 a]|]; [|done]. destruct (play m1 l) as [[h' m2]|] eqn:E; [|done].
  intros [= <- <-]. cbn. f_equal. by eapply IH.
Qed.
Lemma ev_check_spec k l1 l2 e :
  Forall call_ok l1 -> Forall call_ok l2 -> ev_check k l1 l2 e = true ->
  exists m0 h1 m1 h2 m m', mx_new toy_prims (ex_config k) = Val m0 /\ run toy_prims m0 h1 m1 /\ map fst h1 = l1 /\
    run toy_prims m1 h2 m /\ map fst h2 = l2 /\ exec toy_prims m CallTakeEvents = Val (m', RespEvents e).
Proof.
  intros H1 H2 H. unfold ev_check in H.
  destruct (mx_new toy_prims (ex_config k)) as [m0|]; [|discriminate H].
  destruct (play m0 l1) as [[h1 m1]|] eqn:E1; [|discriminate H].
  destruct (play m1 l2) as [[h2 m]|] eqn:E2; [|discriminate H].
  destruct (exec toy_prims m CallTakeEvents) as [[m' []]|] eqn:E3; try discriminate H.
  destruct e0 as [a b c d]. apply bool_decide_eq_true in H. destruct e as [a' b' c' d']. cbn in H. injection H as -> -> -> ->.
  exists m0, h1, m1, h2, m, m'. split; [done|]. split; [exact (play_run _ _ _ _ H1 E1)|]. split; [by eapply play_calls_of|].
  split; [exact (play_run _ _ _ _ H2 E2)|]. split; [by eapply play_calls_of|done].
Qed.
Definition not_take (c : call) : bool := match c with CallTakeEvents => false | _ => true end.
Lemma untaken_of h l : map fst h = l -> forallb not_take l = true -> untaken h.
Proof.
  intros <- H. apply Forall_forall. intros [c a] Hin E. cbn in E. subst c. rewrite forallb_forall in H.
  apply elem_of_list_In in Hin. apply (in_map fst) in Hin. by apply H in Hin.
Qed.
(** The node can be told of new mixnodes, of a packet to be forwarded, or of nothing but its own packets. *)
Example C65_example :
  (exists m0 h1 m1 h2 m m', mx_new toy_prims (ex_config 8) = Val m0 /\ run toy_prims m0 h1 m1 /\
    (exists h a, h1 = h ++ [(CallTakeEvents, a)]) /\ run toy_prims m1 h2 m /\ untaken h2 /\ length h2 = 2 /\
    exec toy_prims m CallTakeEvents = Val (m', RespEvents (Events false false true true))) /\
  (exists m0 h1 m1 h2 m m', mx_new toy_prims (ex_config 32) = Val m0 /\ run toy_prims m0 h1 m1 /\
    (exists h a, h1 = h ++ [(CallTakeEvents, a)]) /\ run toy_prims m1 h2 m /\ untaken h2 /\ length h2 = 1 /\
    exec toy_prims m CallTakeEvents = Val (m', RespEvents (Events false true false false))) /\
  (exists m0 h1 m1 h2 m m', mx_new toy_prims (ex_config 8) = Val m0 /\ run toy_prims m0 h1 m1 /\ h1 = [] /\
    run toy_prims m1 h2 m /\ untaken h2 /\ length h2 = 2 /\
    exec toy_prims m CallTakeEvents = Val (m', RespEvents (Events true false true false))).
Proof.
  assert (Hfirst : Forall call_ok ev_first) by (apply Forall_app; split; [exact ex_setup_ok|by constructor]).
  assert (Hlast : forall h1, map fst h1 = ev_first -> exists h (a : resp), h1 = h ++ [(CallTakeEvents, a)]).
  { intros h1 E. destruct h1 as [|[c a] h _] using rev_ind; [discriminate E|]. rewrite map_app in E. unfold ev_first in E.
    cbn [map fst] in E. apply app_inj_tail in E as [_ ->]. by exists h, a. }
  split; [|split].
  - destruct (ev_check_spec 8 ev_first ev_second (Events false false true true)) as (m0 & h1 & m1 & h2 & m & m' & H1 & H2 & H3 & H4 & H5 & H6).
    { exact Hfirst. }
    { constructor; [by apply ex_post_ok|]. constructor; [|done]. apply replicate_length. }
    { vm_compute. reflexivity. }
    exists m0, h1, m1, h2, m, m'. split; [exact H1|]. split; [exact H2|]. split; [by apply Hlast|]. split; [exact H4|].
    split; [by eapply untaken_of|]. split; [by rewrite <- (map_length fst), H5|exact H6].
  - destruct (ev_check_spec 32 ev_first [CallHandle ex_p1 5%N] (Events false true false false)) as (m0 & h1 & m1 & h2 & m & m' & H1 & H2 & H3 & H4 & H5 & H6).
    { exact Hfirst. }
    { constructor; [exact ex_p1_length|done]. }
    { vm_compute. reflexivity. }
    exists m0, h1, m1, h2, m, m'. split; [exact H1|]. split; [exact H2|]. split; [by apply Hlast|]. split; [exact H4|].
    split; [by eapply untaken_of|]. split; [by rewrite <- (map_length fst), H5|exact H6].
  - destruct (ev_check_spec 8 [] ex_setup (Events true false true false)) as (m0 & h1 & m1 & h2 & m & m' & H1 & H2 & H3 & H4 & H5 & H6).
    { constructor. }
    { exact ex_setup_ok. }
    { vm_compute. reflexivity. }
    exists m0, h1, m1, h2, m, m'. split; [exact H1|]. split; [exact H2|]. split; [by destruct h1|]. split; [exact H4|].
    split; [by eapply untaken_of|]. split; [by rewrite <- (map_length fst), H5|exact H6].
Qed.
Print Assumptions C65_causes.
