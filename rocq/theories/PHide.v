(** C71: what a node posts, and the replies it gets, do not show in what others can see of it. *)
From Verif Require Export PNode.

(** ** Specification *)

(** Calls that concern the node's own messages only: posting a request or a reply, and handling a
    packet that is neither forwarded nor a request to this node (a reply to it, a cover packet, or a
    packet it cannot read or has seen). *)
Definition own (pr : prims) (m : mixnet) (c : call) : Prop :=
  match c with
  | CallPostRequest _ _ _ _ _ _ _ | CallPostReply _ _ _ _ => True
  | CallHandle p _ =>
      forall rel s, reads pr (mx_sessions m) p rel s ->
        match content_of pr s p with CtForward _ _ _ | CtRequest _ => False | _ => True end
  | _ => False
  end.
Definition posts (c : call) : Prop :=
  match c with CallPostRequest _ _ _ _ _ _ _ | CallPostReply _ _ _ _ => True | _ => False end.

(** A call in a history, with the state before it and its result. [mo_own] marks calls that are
    private to the history; they are of the above kind. All posts are marked. *)
Record moment := Moment { mt_state : mixnet; mt_call : call; mt_resp : resp; mt_own : bool }.
Inductive history (pr : prims) : mixnet -> list moment -> mixnet -> Prop :=
| HistNil m : history pr m [] m
| HistCons m c a b m1 l m2 :
    call_ok c -> exec pr m c = Val (m1, a) -> (if b : bool then own pr m c else ~ posts c) ->
    history pr m1 l m2 -> history pr m (Moment m c a b :: l) m2.
(** The calls that are not private. *)
Definition common (l : list moment) : list moment := List.filter (fun x => negb (mt_own x)) l.

(** Drop cover packets can be made, whichever session is chosen: they are switched on, and there is a
    route for each destination. *)
Definition steady (m : mixnet) (ns : network_status) : Prop :=
  cf_gen_cover_packets (mx_config m) = true /\
  forall rel s, ss_get (mx_sessions m) rel = SlFull s -> ~ cover_impossible (mx_config m) s ns false.

(** The same call in two histories looks the same from outside. The packets sent on for others, the
    public key, whether mixnodes are asked for, and the events about peers and deadlines are equal. A
    packet of the node's own is sent in both or in neither. What the application gets from received
    packets, and whether there is room for more of its messages, may differ. *)
Definition looks_same (x y : moment) : Prop :=
  mt_call x = mt_call y /\
  match mt_call x with
  | CallPopAuthored ns _ =>
      exists p q, mt_resp x = RespPacket p /\ mt_resp y = RespPacket q /\
        (steady (mt_state x) ns -> (p = None <-> q = None))
  | CallTakeEvents =>
      exists e f, mt_resp x = RespEvents e /\ mt_resp y = RespEvents f /\
        ev_reserved_peers e = ev_reserved_peers f /\ ev_forward_deadline e = ev_forward_deadline f /\
        ev_authored_deadline e = ev_authored_deadline f
  | CallHandle _ _ => True
  | _ => mt_resp x = mt_resp y
  end.
(** What the reading functions show: the status, the peers to connect to, when the next packet is to
    be sent on, and the delay until the next packet of the node's own, for any random number [e]. *)
Definition same_view (m n : mixnet) : Prop :=
  mx_status m = mx_status n /\ reserved_peers m = reserved_peers n /\
  next_forward_packet_deadline m = next_forward_packet_deadline n /\
  forall e, next_authored_packet_delay m e = next_authored_packet_delay n e.

(** ** Proof *)

(** A session without its queue. *)
Definition bare (s : session) : session := se_set_authored s (AuthoredQueue (ApqConfig 0 false) []).
Definition bare_slot (sl : session_slot) : session_slot :=
  match sl with SlFull s => SlFull (bare s) | _ => sl end.
Record alike (m n : mixnet) : Prop := {
  ak_config : mx_config m = mx_config n;
  ak_status : mx_status m = mx_status n;
  ak_current : bare_slot (ss_current (mx_sessions m)) = bare_slot (ss_current (mx_sessions n));
  ak_prev : bare_slot (ss_prev (mx_sessions m)) = bare_slot (ss_prev (mx_sessions n));
  ak_kx : mx_next_kx_pair m = mx_next_kx_pair n;
  ak_forward : mx_forward m = mx_forward n;
  ak_peers : ev_reserved_peers (mx_events m) = ev_reserved_peers (mx_events n);
  ak_fwd : ev_forward_deadline (mx_events m) = ev_forward_deadline (mx_events n);
  ak_auth : ev_authored_deadline (mx_events m) = ev_authored_deadline (mx_events n)
}.
Lemma alike_refl m : alike m m.
Proof. by split. Qed.
Lemma alike_sym m n : alike m n -> alike n m.
Proof. intros []. by split. Qed.
Lemma alike_trans m n o : alike m n -> alike n o -> alike m o.
Proof. intros [] []. split; congruence. Qed.
Lemma alike_slot m n rel : alike m n -> bare_slot (ss_get (mx_sessions m) rel) = bare_slot (ss_get (mx_sessions n) rel).
Proof. intros []. by destruct rel. Qed.
Lemma full_inj s t : bare_slot (SlFull s) = bare_slot (SlFull t) -> bare s = bare t.
Proof. cbn [bare_slot]. congruence. Qed.
Lemma alike_full m n rel s :
  alike m n -> ss_get (mx_sessions m) rel = SlFull s ->
  exists t, ss_get (mx_sessions n) rel = SlFull t /\ bare s = bare t.
Proof.
  intros H E. pose proof (alike_slot _ _ rel H) as Hs. rewrite E in Hs.
  destruct (ss_get (mx_sessions n) rel) as [| | |t]; [done..|]. exists t. split; [done|]. by apply full_inj.
Qed.
Lemma bare_fields s t :
  bare s = bare t -> se_kx_pair s = se_kx_pair t /\ se_topology s = se_topology t /\
    se_mean_period s = se_mean_period t /\ se_filter s = se_filter t.
Proof. destruct s, t. unfold bare, se_set_authored. cbn. by intros [= -> -> -> ->]. Qed.
Lemma alike_put m n rel s t :
  alike m n -> bare s = bare t -> alike (mx_put_session m rel s) (mx_put_session n rel t).
Proof. intros [] Hs. destruct rel; split; cbn [mx_put_session mx_set_sessions ss_set bare_slot mx_config mx_status mx_sessions ss_current ss_prev mx_next_kx_pair mx_forward mx_events]; congruence. Qed.
Lemma put_bare m rel s t :
  ss_get (mx_sessions m) rel = SlFull s -> bare t = bare s -> alike (mx_put_session m rel t) m.
Proof.
  intros E H. destruct rel; cbn [ss_get] in E; split;
    cbn [mx_put_session mx_set_sessions ss_set bare_slot mx_config mx_status mx_sessions ss_current ss_prev mx_next_kx_pair mx_forward mx_events];
    try done; rewrite E; cbn [bare_slot]; by rewrite H.
Qed.
Lemma alike_events m n e : alike m n -> alike (mx_or_events m e) (mx_or_events n e).
Proof. intros []. split; cbn; congruence. Qed.

Section hide.
  Context (pr : prims) (Hok : prims_ok pr).

  Lemma reads_alike ss tt p rel s :
    (forall rel, bare_slot (ss_get ss rel) = bare_slot (ss_get tt rel)) ->
    reads pr ss p rel s -> exists t, reads pr tt p rel t /\ bare s = bare t.
  Proof.
    intros Hb H.
    assert (Hf : forall r0 s0, ss_get ss r0 = SlFull s0 -> exists t0, ss_get tt r0 = SlFull t0 /\ bare s0 = bare t0).
    { intros r0 s0 E. specialize (Hb r0). rewrite E in Hb. destruct (ss_get tt r0) as [| | |t0]; [done..|].
      exists t0. split; [done|]. by apply full_inj. }
    assert (Hg : forall r0 t0, ss_get tt r0 = SlFull t0 -> exists s0, ss_get ss r0 = SlFull s0 /\ bare s0 = bare t0).
    { intros r0 t0 E. specialize (Hb r0). rewrite E in Hb. destruct (ss_get ss r0) as [| | |s0]; [done..|].
      exists s0. split; [done|]. by apply full_inj. }
    assert (Hsh : forall s0 t0, bare s0 = bare t0 -> (PHandle.seen pr s0 p <-> PHandle.seen pr t0 p) /\ (opens pr s0 p <-> opens pr t0 p)).
    { intros s0 t0 (E1 & E2 & E3 & E4)%bare_fields.
      unfold PHandle.seen, opens, tag_of, shared. by rewrite E1, E4. }
    destruct H as [s E Hns Ho|s E Hc Hns Ho].
    - destruct (Hf RCurrent s E) as (t & Et & Hst). exists t. split; [|done].
      destruct (Hsh _ _ Hst) as [H1 H2]. constructor; [done|by rewrite <- H1|by rewrite <- H2].
    - destruct (Hf RPrev s E) as (t & Et & Hst). exists t. split; [|done].
      destruct (Hsh _ _ Hst) as [H1 H2]. constructor; [done| |by rewrite <- H1|by rewrite <- H2].
      intros c Ec. destruct (Hg RCurrent c Ec) as (c0 & Ec0 & Hcc). destruct (Hsh _ _ Hcc) as [G1 G2].
      rewrite <- G1, <- G2. by apply Hc.
  Qed.
  Lemma content_bare s t p : bare s = bare t -> content_of pr s p = content_of pr t p.
  Proof. intros (E1 & _)%bare_fields. unfold content_of, shared. by rewrite E1. Qed.
  Lemma noted_alike m n rel s t p :
    alike m n -> bare s = bare t -> alike (noted pr m rel s p) (noted pr n rel t p).
  Proof.
    intros H Hs. unfold noted. apply alike_put; [done|].
    destruct s, t. unfold bare, se_set_filter, se_set_authored, tag_of, shared in *. cbn in *. by injection Hs as -> -> -> ->.
  Qed.
  Lemma assembler_alike m fa : alike (mx_set_assembler m fa) m.
  Proof. by split. Qed.
  Lemma keystore_alike m ks : alike (mx_set_keystore m ks) m.
  Proof. by split. Qed.

  (** Handling a packet. *)
  Lemma handle_own m p now m' a :
    length p = N.to_nat 2252 -> own pr m (CallHandle p now) ->
    exec pr m (CallHandle p now) = Val (m', a) -> alike m' m.
  Proof.
    intros Hp Ho H. cbn [exec] in H. apply out_bind_Val in H as ([m1 msg] & H & E). injection E as -> _.
    destruct (handle_packet_spec pr Hok m p now Hp) as [[_ E]|(rel & s & Hr & E)]; rewrite E in H; clear E.
    { injection H as <- _. apply alike_refl. }
    specialize (Ho _ _ Hr). unfold effect in H. destruct (content_of pr s p) as [| |id pl| |]; [done..| | |].
    - destruct (sk_entry _ _) as [v|]; [|injection H as <- _; apply alike_refl]. cbv zeta in H.
      destruct (decrypt_reply_payload _ _ _) as [pl' [|]].
      + apply out_bind_Val in H as ([fa out] & _ & H). injection H as <- _.
        eapply alike_trans; [apply assembler_alike|apply keystore_alike].
      + injection H as <- _. apply keystore_alike.
    - injection H as <- _. apply alike_refl.
    - injection H as <- _. apply alike_refl.
  Qed.
  Lemma handle_both m n p now m' a n' b :
    alike m n -> length p = N.to_nat 2252 ->
    exec pr m (CallHandle p now) = Val (m', a) -> exec pr n (CallHandle p now) = Val (n', b) -> alike m' n'.
  Proof.
    intros Ha Hp Hm Hn. cbn [exec] in Hm, Hn.
    apply out_bind_Val in Hm as ([m1 msg1] & Hm & E). injection E as -> _.
    apply out_bind_Val in Hn as ([n1 msg2] & Hn & E). injection E as -> _.
    assert (Hsl : forall rel, bare_slot (ss_get (mx_sessions m) rel) = bare_slot (ss_get (mx_sessions n) rel))
      by (intros; by apply alike_slot).
    destruct (handle_packet_spec pr Hok m p now Hp) as [[Hnr E]|(rel & s & Hr & E)]; rewrite E in Hm; clear E.
    { injection Hm as <- _.
      destruct (handle_packet_spec pr Hok n p now Hp) as [[_ E]|(rel & t & Hr & E)]; rewrite E in Hn; clear E.
      { injection Hn as <- _. done. }
      destruct (reads_alike (mx_sessions n) (mx_sessions m) p rel t) as (s & Hr' & _); [done|done|]. by destruct (Hnr rel s). }
    destruct (reads_alike _ (mx_sessions n) p rel s Hsl Hr) as (t & Hr' & Hst).
    destruct (handle_packet_spec pr Hok n p now Hp) as [[Hnr E]|(rel' & t' & Hr'' & E)]; rewrite E in Hn; clear E.
    { by destruct (Hnr rel t). }
    destruct (reads_unique _ _ _ _ _ _ _ Hr' Hr'') as [<- <-].
    unfold effect in Hm, Hn. rewrite <- (content_bare _ _ p Hst) in Hn.
    destruct (bare_fields _ _ Hst) as (E1 & E2 & E3 & E4).
    assert (Hmix : is_mixnode s <-> is_mixnode t) by (unfold is_mixnode; by rewrite E2).
    assert (Hroom : has_room m <-> has_room n) by (unfold has_room; by rewrite (ak_forward _ _ Ha)).
    destruct (content_of pr s p) as [tg d next|data|id pl| |].
    - destruct (decide (is_mixnode s /\ has_room m)) as [Hc|Hc], (decide (is_mixnode t /\ has_room n)) as [Hc'|Hc']; [|tauto..|].
      + rewrite <- E2, <- (ak_config _ _ Ha) in Hn. destruct (tp_target_to_peer_id _ _).
        * apply out_bind_Val in Hm as (dur & Hd & Hm). rewrite Hd in Hn. cbn [out_bind] in Hn.
          injection Hm as <- _. injection Hn as <- _. pose proof (noted_alike _ _ rel _ _ p Ha Hst) as Hno.
          unfold enqueue. rewrite (ak_forward _ _ Hno). cbv zeta.
          destruct (decide _); [|apply alike_events]; destruct Hno; by split.
        * injection Hm as <- _. injection Hn as <- _. by apply noted_alike.
      + injection Hm as <- _. injection Hn as <- _. done.
    - destruct (decide (is_mixnode s)) as [Hc|Hc], (decide (is_mixnode t)) as [Hc'|Hc']; [|tauto..|].
      + apply out_bind_Val in Hm as ([fa g] & _ & Hm). apply out_bind_Val in Hn as ([fb g'] & _ & Hn). cbv zeta in Hm, Hn.
        assert (m' = mx_set_assembler (noted pr m rel s p) fa) as ->.
        { destruct g; [|by injection Hm as <- _]. apply out_bind_Val in Hm as (? & _ & Hm). by injection Hm as <- _. }
        assert (n' = mx_set_assembler (noted pr n rel t p) fb) as ->.
        { destruct g'; [|by injection Hn as <- _]. apply out_bind_Val in Hn as (? & _ & Hn). by injection Hn as <- _. }
        pose proof (noted_alike _ _ rel _ _ p Ha Hst) as []. by split.
      + injection Hm as <- _. injection Hn as <- _. done.
    - assert (H1 : alike m' m).
      { destruct (sk_entry (mx_keystore m) id); [|injection Hm as <- _; apply alike_refl]. cbv zeta in Hm.
        destruct (decrypt_reply_payload _ _ _) as [pl' [|]].
        - apply out_bind_Val in Hm as ([fa out] & _ & Hm). injection Hm as <- _.
          eapply alike_trans; [apply assembler_alike|apply keystore_alike].
        - injection Hm as <- _. apply keystore_alike. }
      assert (H2 : alike n n').
      { apply alike_sym. destruct (sk_entry (mx_keystore n) id); [|injection Hn as <- _; apply alike_refl]. cbv zeta in Hn.
        destruct (decrypt_reply_payload _ _ _) as [pl' [|]].
        - apply out_bind_Val in Hn as ([fa out] & _ & Hn). injection Hn as <- _.
          eapply alike_trans; [apply assembler_alike|apply keystore_alike].
        - injection Hn as <- _. apply keystore_alike. }
      eapply alike_trans; [exact H1|]. eapply alike_trans; [exact Ha|exact H2].
    - injection Hm as <- _. injection Hn as <- _. done.
    - injection Hm as <- _. injection Hn as <- _. done.
  Qed.

  (** Posting. *)
  Lemma post_session_full ss st index rel s : post_session ss st index = Ok (rel, s) -> ss_get ss rel = SlFull s.
  Proof.
    unfold post_session. destruct (rsi_from_session_index _ _) as [rel'|]; [|done].
    destruct (negb _); [done|]. destruct (ss_get ss rel') eqn:Eg; try done. by intros [= <- <-].
  Qed.
  Lemma post_own m c m' a : posts c -> exec pr m c = Val (m', a) -> alike m' m.
  Proof.
    intros Hc H. destruct c as [| | | | | |index dest id data k ns r|surbs index id data|]; try done; cbn [exec] in H.
    - apply out_bind_Val in H as ([[m1 d] res] & H & E). injection E as -> _. unfold post_request in H.
      apply out_bind_Val in H as ([bs|] & _ & H); [|injection H as <- _ _; apply alike_refl].
      destruct (_ <? _)%N; [injection H as <- _ _; apply alike_refl|].
      destruct (post_session _ _ _) as [[rel s]|e] eqn:Eps; [|injection H as <- _ _; apply alike_refl].
      destruct (aq_check_space _ _); [|injection H as <- _ _; apply alike_refl].
      apply out_bind_Val in H as ([[rb r1]|e] & _ & H); [|injection H as <- _ _; apply alike_refl].
      apply out_bind_Val in H as ([st res'] & _ & H). cbv zeta in H.
      apply post_session_full in Eps.
      assert (Hput : forall q ks, alike (mx_put_session (mx_set_keystore m ks) rel (se_set_authored s q)) m).
      { intros q ks. eapply alike_trans; [|apply (keystore_alike m ks)]. by eapply put_bare. }
      destruct res' as [|e]; [|injection H as <- _ _; apply Hput].
      apply out_bind_Val in H as (fd & _ & H). apply out_bind_Val in H as (qd & _ & H). injection H as <- _ _. apply Hput.
    - apply out_bind_Val in H as ([[m1 d] res] & H & E). injection E as -> _. unfold post_reply in H.
      apply out_bind_Val in H as ([bs|] & _ & H); [|injection H as <- _ _; apply alike_refl].
      destruct (_ <? _)%N; [injection H as <- _ _; apply alike_refl|].
      destruct (post_session _ _ _) as [[rel s]|e] eqn:Eps; [|injection H as <- _ _; apply alike_refl].
      destruct (aq_check_space _ _); [|injection H as <- _ _; apply alike_refl].
      apply out_bind_Val in H as ([[sl q] res'] & _ & H). injection H as <- _ _.
      apply post_session_full in Eps. by eapply put_bare.
  Qed.

  (** The other calls. *)
  Lemma slot_empty_bare sl sl' : bare_slot sl = bare_slot sl' -> slot_is_empty sl = slot_is_empty sl'.
  Proof. by destruct sl, sl'. Qed.
  Lemma status_both m n st : alike m n -> alike (set_session_status m st) (set_session_status n st).
  Proof.
    intros Ha. unfold set_session_status. rewrite (ak_status _ _ Ha). destruct (decide _); [done|].
    assert (Hs : alike (shift_sessions m (st_current_index st)) (shift_sessions n (st_current_index st))).
    { unfold shift_sessions. rewrite (ak_status _ _ Ha), (ak_kx _ _ Ha). destruct (_ =? _)%N; [done|]. cbv zeta.
      unfold ss_is_empty. rewrite (slot_empty_bare _ _ (ak_current _ _ Ha)), (slot_empty_bare _ _ (ak_prev _ _ Ha)).
      destruct Ha. destruct (saturating_sub _ _) as [|[p|[]|]]; try (destruct (negb _ || _)); by split. }
    generalize dependent (shift_sessions m (st_current_index st)). intros m1 Hs. 
    generalize dependent (shift_sessions n (st_current_index st)). intros n1 Hs. cbv zeta.
    assert (Hd : alike (if negb (need_prev (st_phase st)) || (st_current_index st =? 0)%N
               then mx_set_sessions m1 {| ss_current := ss_current (mx_sessions m1); ss_prev := SlDisabled |} else m1)
       (if negb (need_prev (st_phase st)) || (st_current_index st =? 0)%N
               then mx_set_sessions n1 {| ss_current := ss_current (mx_sessions n1); ss_prev := SlDisabled |} else n1)).
    { destruct (_ || _); [|done]. destruct Hs. by split. }
    pose proof (alike_events _ _ (ev_or RESERVED_PEERS_CHANGED NEXT_AUTHORED_PACKET_DEADLINE_CHANGED) Hd) as [].
    by split.
  Qed.
  Lemma mixnodes_both m n rel mixnodes r m' b :
    alike m n -> maybe_set_mixnodes pr m rel mixnodes r = Val (m', b) ->
    exists n', maybe_set_mixnodes pr n rel mixnodes r = Val (n', b) /\ alike m' n'.
  Proof.
    intros Ha. unfold maybe_set_mixnodes. pose proof (alike_slot _ _ rel Ha) as Hs.
    rewrite <- (ak_status _ _ Ha), <- (ak_config _ _ Ha).
    assert (Hset : forall sl, alike (mx_set_sessions m (ss_set (mx_sessions m) rel sl)) (mx_set_sessions n (ss_set (mx_sessions n) rel sl))).
    { intros sl. destruct Ha, rel; by split. }
    assert (Hopen : bare_slot (ss_get (mx_sessions m) rel) = bare_slot (ss_get (mx_sessions n) rel) ->
      ss_get (mx_sessions m) rel = ss_get (mx_sessions n) rel \/
      exists s t, ss_get (mx_sessions m) rel = SlFull s /\ ss_get (mx_sessions n) rel = SlFull t).
    { destruct (ss_get (mx_sessions m) rel), (ss_get (mx_sessions n) rel); try done; try (by left).
      intros _. right. by eexists _, _. }
    destruct (Hopen Hs) as [E|(s & t & E1 & E2)].
    2:{ rewrite E1, E2. intros [= <- <-]. by exists n. }
    rewrite <- E. cbv zeta. clear Hopen Hs.
    destruct (ss_get (mx_sessions m) rel) as [|k| |s]; intros H.
    3,4: injection H as <- <-; by exists n.
    all: apply out_bind_Val in H as (i & -> & H); cbn [out_bind]; destruct mixnodes as [l|[]];
      [|injection H as <- <-; eexists; split; [done|done]|injection H as <- <-; eexists; split; [done|apply Hset]].
    - destruct (kx_pair_gen pr r) as [k r1]. apply out_bind_Val in H as ([t r2] & -> & H). cbn [out_bind].
      destruct (if tp_is_mixnode t then _ else _); [|injection H as <- <-; eexists; split; [done|apply Hset]].
      destruct (rf_new r2) as [f r3]. injection H as <- <-. eexists; split; [done|]. apply alike_events. by apply alike_put.
    - apply out_bind_Val in H as ([t r2] & -> & H). cbn [out_bind].
      destruct (if tp_is_mixnode t then _ else _); [|injection H as <- <-; eexists; split; [done|apply Hset]].
      destruct (rf_new r2) as [f r3]. injection H as <- <-. eexists; split; [done|]. apply alike_events. by apply alike_put.
  Qed.
  Lemma iter_bare m n : alike m n -> Forall2 (fun s t => bare s = bare t) (ss_iter (mx_sessions m)) (ss_iter (mx_sessions n)).
  Proof.
    intros [_ _ Hc Hp _ _ _ _ _]. unfold ss_iter.
    destruct (ss_current (mx_sessions m)), (ss_current (mx_sessions n)); try done;
      destruct (ss_prev (mx_sessions m)), (ss_prev (mx_sessions n)); try done; cbn [omap list_omap slot_as_option];
      repeat constructor; by apply full_inj.
  Qed.
  Lemma alike_view m n : alike m n -> same_view m n.
  Proof.
    intros Ha. pose proof (iter_bare _ _ Ha) as Hi. split_and!.
    - apply (ak_status _ _ Ha).
    - apply reserved_peers_topologies. induction Hi as [|s t l l' (_ & E & _)%bare_fields _ IH]; [done|]. cbn. by rewrite E, IH.
    - unfold next_forward_packet_deadline. by rewrite (ak_forward _ _ Ha).
    - intros e. apply mean_period_same; [apply (ak_status _ _ Ha)|].
      induction Hi as [|s t l l' (_ & _ & E & _)%bare_fields _ IH]; [done|]. cbn. by rewrite E, IH.
  Qed.

  Lemma pick_both m n r x r1 :
    alike m n -> pick_session m r = Val (x, r1) ->
    exists y, pick_session n r = Val (y, r1) /\
      match x, y with
      | Some (rel, s), Some (rel', t) => rel = rel' /\ bare s = bare t
      | None, None => True
      | _, _ => False
      end.
  Proof.
    intros [_ _ Hc Hp _ _ _ _ _]. unfold pick_session, ss_enumerate.
    destruct (ss_current (mx_sessions m)) as [| | |s0], (ss_current (mx_sessions n)) as [| | |t0]; try done;
      destruct (ss_prev (mx_sessions m)) as [| | |s1], (ss_prev (mx_sessions n)) as [| | |t1]; try done;
      cbn [omap list_omap slot_as_option fmap option_fmap option_map snd].
    all: repeat match goal with H : bare_slot (SlFull _) = bare_slot (SlFull _) |- _ => apply full_inj in H end.
    all: try (intros [= <- <-]; eexists; split; [done|]; try done).
    destruct (bare_fields _ _ Hc) as (_ & _ & -> & _), (bare_fields _ _ Hp) as (_ & _ & -> & _).
    intros H. apply out_bind_Val in H as ([b r2] & -> & H). cbn [out_bind]. injection H as <- <-.
    eexists; split; [done|]. by destruct b.
  Qed.
  Lemma pop_both cf m n ns r m' a :
    config_ok cf -> mx_ok pr cf m -> mx_ok pr cf n -> alike m n -> length (ns_local_peer_id ns) = 32 ->
    exec pr m (CallPopAuthored ns r) = Val (m', a) ->
    exists n' p q, exec pr n (CallPopAuthored ns r) = Val (n', RespPacket q) /\ a = RespPacket p /\ alike m' n' /\
      (steady m ns -> (p = None <-> q = None)).
  Proof.
    intros [Hh _] Hm Hn Ha Hns H. cbn [exec] in H |- *. apply out_bind_Val in H as ([m1 p] & H & E). injection E as -> <-.
    unfold pop_next_authored_packet in H |- *. apply out_bind_Val in H as ([x r1] & Hpick & H).
    pose proof (pick_session_spec _ _ _ _ Hpick) as Hget.
    destruct (pick_both _ _ _ _ _ Ha Hpick) as (y & Epick & Hxy). rewrite Epick. cbn [out_bind].
    pose proof (pick_session_spec _ _ _ _ Epick) as Hget'.
    destruct x as [[rel s]|], y as [[rel' t]|]; try done.
    2:{ injection H as <- <-. by exists n, None, None. }
    destruct Hxy as [<- Hst]. cbn in Hget, Hget'.
    assert (Et : se_topology t = se_topology s) by (symmetry; apply (bare_fields _ _ Hst)).
    cbv zeta in H |- *. apply out_bind_Val in H as ([loop r2] & Hloop & H).
    cbn [mx_or_events mx_config] in Hloop |- *. rewrite <- (ak_config _ _ Ha), Hloop. cbn [out_bind].
    pose proof (alike_events _ _ NEXT_AUTHORED_PACKET_DEADLINE_CHANGED Ha) as Ha1.
    (* the cover packet, in either node *)
    destruct (gen_cover_spec pr Hok cf s ns (if loop then CkLoop else CkDrop) r2) as (res & Eres & Hres);
      [apply (so_topology _ _ _ (mx_ok_full _ _ _ _ _ Hm Hget))|done|done|].
    assert (Emc : mx_config m = cf) by apply (mo_config _ _ _ Hm).
    set (m1 := mx_or_events m NEXT_AUTHORED_PACKET_DEADLINE_CHANGED) in *.
    set (n1 := mx_or_events n NEXT_AUTHORED_PACKET_DEADLINE_CHANGED) in *.
    set (cover := fun k : mixnet => if negb (cf_gen_cover_packets cf) then Val (k, None)
            else res ← gen_cover_packet pr (se_topology s) ns (if loop then CkLoop else CkDrop) (cf_num_hops cf) r2;
              match res with Ok p => Val (k, Some p) | Err _ => Val (k, None) end : outcome (mixnet * option addressed_packet)).
    assert (Hcover : exists c, forall k, cover k = Val (k, c)).
    { unfold cover. destruct (cf_gen_cover_packets cf); cbn [negb]; [|exists None; reflexivity]. rewrite Eres. cbn [out_bind].
      destruct res as [q|e]; [by exists (Some q)|by exists None]. }
    assert (Hst' : steady m ns -> loop = false -> forall k c, cover k = Val (k, c) -> c <> None).
    { intros [Hg Hno] -> k c. unfold cover. rewrite <- Emc, Hg. cbn [negb]. rewrite Emc, Eres. cbn [out_bind].
      destruct res as [q|e]; [intros [= <-]; done|]. destruct (Hno rel s Hget). by rewrite Emc. }
    destruct Hcover as [c Hc].
    (* what the node without a packet of its own returns *)
    assert (Hnone : forall k, mx_config k = cf -> (if negb (cf_gen_cover_packets (mx_config k)) then Val (k, None)
            else res ← gen_cover_packet pr (se_topology s) ns (if loop then CkLoop else CkDrop) (cf_num_hops (mx_config k)) r2;
              match res with Ok p => Val (k, Some p) | Err _ => Val (k, None) end) = Val (k, c)).
    { intros k Ek. rewrite Ek. apply Hc. }
    set (sent := fun (k : mixnet) (u : session) =>
          if negb loop && allow_requests_and_replies (st_phase (mx_status k)) rel then
            let '(q, packet, space) := aq_pop (se_authored u) in
            (if space : bool then mx_or_events (mx_put_session k rel (se_set_authored u q)) SPACE_IN_AUTHORED_PACKET_QUEUE
             else mx_put_session k rel (se_set_authored u q), packet)
          else (k, None)).
    assert (Hsent : forall k u, ss_get (mx_sessions k) rel = SlFull u -> mx_config k = cf ->
      alike (sent k u).1 k /\ mx_config (sent k u).1 = cf /\ (loop = true -> (sent k u).2 = None)).
    { intros k u Hu Ek. unfold sent. destruct loop; cbn [negb andb].
      { split; [apply alike_refl|]. done. }
      destruct (allow_requests_and_replies (st_phase (mx_status k)) rel); [|split; [apply alike_refl|done]].
      destruct (aq_pop (se_authored u)) as [[q pk] sp]. cbn [fst snd].
      assert (Hp : alike (mx_put_session k rel (se_set_authored u q)) k) by (by eapply put_bare).
      destruct sp; [|done]. split; [|done]. eapply alike_trans; [|exact Hp]. destruct Hp. split; cbn; try done; by rewrite orb_false_r. }
    assert (Hres1 : forall k u, ss_get (mx_sessions k) rel = SlFull u -> mx_config k = cf -> se_topology u = se_topology s ->
      (let '(k1, packet) := sent k u in
       match packet with
       | Some p => Val (k1, Some p)
       | None => if negb (cf_gen_cover_packets (mx_config k1)) then Val (k1, None)
            else res ← gen_cover_packet pr (se_topology u) ns (if loop then CkLoop else CkDrop) (cf_num_hops (mx_config k1)) r2;
              match res with Ok p => Val (k1, Some p) | Err _ => Val (k1, None) end
       end) = Val ((sent k u).1, match (sent k u).2 with Some p => Some p | None => c end)).
    { intros k u Hu Ek Eu. destruct (Hsent k u Hu Ek) as (_ & Ek1 & _). destruct (sent k u) as [k1 [p1|]]; [done|].
      cbn [fst snd] in *. rewrite Eu. by apply Hnone. }
    change ((let '(k1, packet) := sent m1 s in
       match packet with
       | Some p => Val (k1, Some p)
       | None => if negb (cf_gen_cover_packets (mx_config k1)) then Val (k1, None)
            else res ← gen_cover_packet pr (se_topology s) ns (if loop then CkLoop else CkDrop) (cf_num_hops (mx_config k1)) r2;
              match res with Ok p => Val (k1, Some p) | Err _ => Val (k1, None) end
       end) = Val (m', p)) in H.
    rewrite (Hres1 m1 s Hget Emc eq_refl) in H.
    exists (sent n1 t).1, p, (match (sent n1 t).2 with Some p => Some p | None => c end).
    assert (Enc : mx_config n1 = cf) by (rewrite <- (ak_config _ _ Ha1); exact Emc).
    destruct (Hsent m1 s Hget Emc) as (A1 & _ & L1). destruct (Hsent n1 t Hget' Enc) as (A2 & _ & L2).
    split; [|split; [done|split]].
    - change (('(m0, p0) ← (let '(k1, packet) := sent n1 t in
       match packet with
       | Some p => Val (k1, Some p)
       | None => if negb (cf_gen_cover_packets (mx_config k1)) then Val (k1, None)
            else res ← gen_cover_packet pr (se_topology t) ns (if loop then CkLoop else CkDrop) (cf_num_hops (mx_config k1)) r2;
              match res with Ok p => Val (k1, Some p) | Err _ => Val (k1, None) end
       end); Val (m0, RespPacket p0)) = Val ((sent n1 t).1, RespPacket (match (sent n1 t).2 with Some p => Some p | None => c end))).
      rewrite (Hres1 n1 t Hget' Enc Et). done.
    - injection H as <- _. eapply alike_trans; [exact A1|]. eapply alike_trans; [exact Ha1|]. by apply alike_sym.
    - intros Hs. injection H as _ <-. destruct loop.
      { by rewrite (L1 eq_refl), (L2 eq_refl). }
      pose proof (Hst' Hs eq_refl m c (Hc m)) as Hcn. destruct (sent m1 s).2, (sent n1 t).2; split; try done; by intros ->.
  Qed.

  (** A call that is made in both. *)
  Lemma steady_alike m n ns : alike m n -> steady m ns -> steady n ns.
  Proof.
    intros Ha [Hg Hno]. split; [by rewrite <- (ak_config _ _ Ha)|]. intros rel t Ht Himp.
    destruct (alike_full _ _ rel t (alike_sym _ _ Ha) Ht) as (s & Hs & (_ & E & _)%bare_fields).
    apply (Hno rel s Hs). destruct Himp as (g & Hg1 & Hg2). exists g. by rewrite <- E, (ak_config _ _ Ha).
  Qed.
  Lemma both_possible cf m n c m' a :
    config_ok cf -> mx_ok pr cf m -> mx_ok pr cf n -> alike m n -> call_ok c -> ~ posts c ->
    exec pr m c = Val (m', a) -> exists n' b, exec pr n c = Val (n', b).
  Proof.
    intros Hcf Hm Hn Ha Hc Hp H.
    destruct c as [st|rel mixnodes r|r|p now|tie|ns r|index dest id data k ns r|surbs index id data|]; try done.
    - by eexists _, _.
    - cbn [exec] in H |- *. apply out_bind_Val in H as ([m1 b] & H & _).
      destruct (mixnodes_both _ _ _ _ _ _ _ Ha H) as (n' & -> & _). by eexists _, _.
    - cbn [exec]. destruct (next_kx_public pr n r). by eexists _, _.
    - destruct (exec pr n (CallHandle p now)) as [[n' b]|] eqn:E; [by eexists _, _|].
      destruct (C32_handle pr Hok cf n p now Hn Hc E) as (rel & t & tg & d & next & (Hr & Hmix & Hroom) & Ec & Ed).
      exfalso. cbn [exec] in H. apply out_bind_Val in H as ([m1 msg] & H & _).
      destruct (reads_alike (mx_sessions n) (mx_sessions m) p rel t) as (s & Hr' & Hst); [intros; symmetry; by apply alike_slot|done|].
      destruct (handle_packet_spec pr Hok m p now Hc) as [[Hnr E1]|(rel' & s' & Hr'' & E1)]; [by destruct (Hnr rel s)|].
      destruct (reads_unique _ _ _ _ _ _ _ Hr' Hr'') as [<- <-]. rewrite E1 in H. clear E1 Hr''.
      destruct (handle_packet_spec pr Hok n p now Hc) as [[Hnr E1]|(rel' & t' & Hr'' & E1)]; [by destruct (Hnr rel t)|].
      destruct (reads_unique _ _ _ _ _ _ _ Hr Hr'') as [<- <-]. cbn [exec] in E. rewrite E1 in E. clear E1 Hr''.
      unfold effect in H, E. rewrite <- (content_bare _ _ p Hst), Ec in H. rewrite Ec in E, Hroom.
      destruct (bare_fields _ _ Hst) as (_ & Et & _).
      rewrite decide_True in E by done. rewrite decide_True in H.
      2:{ unfold is_mixnode, has_room in *. by rewrite <- Et, (ak_forward _ _ Ha). }
      rewrite <- Et, (ak_config _ _ Ha) in H. destruct (tp_target_to_peer_id _ _); [|done]. by rewrite Ed in H.
    - cbn [exec]. destruct (pop_next_forward_packet n tie). by eexists _, _.
    - destruct (pop_both cf m n ns r m' a Hcf Hm Hn Ha Hc H) as (n' & p & q & E & _). by eexists _, _.
    - by eexists _, _.
  Qed.

  Lemma both_alike cf m n c m' a n' b :
    config_ok cf -> mx_ok pr cf m -> mx_ok pr cf n -> alike m n -> call_ok c -> ~ posts c ->
    exec pr m c = Val (m', a) -> exec pr n c = Val (n', b) ->
    alike m' n' /\ looks_same (Moment m c a false) (Moment n c b false).
  Proof.
    intros Hcf Hm Hn Ha Hc Hp H G. unfold looks_same. cbn [mt_call mt_resp mt_state].
    destruct c as [st|rel mixnodes r|r|p now|tie|ns r|index dest id data k ns r|surbs index id data|]; try done.
    - cbn [exec] in H, G. injection H as <- <-. injection G as <- <-. split; [|done]. by apply status_both.
    - cbn [exec] in H, G. apply out_bind_Val in H as ([m1 b1] & H & E). injection E as -> <-.
      destruct (mixnodes_both _ _ _ _ _ _ _ Ha H) as (n1 & E & Ha'). rewrite E in G. cbn [out_bind] in G. by injection G as <- <-.
    - cbn [exec] in H, G. unfold next_kx_public in H, G. rewrite (ak_kx _ _ Ha) in H.
      destruct (mx_next_kx_pair n) as [k|]; [injection H as <- <-; by injection G as <- <-|].
      destruct (kx_pair_gen pr r) as [k r1]. injection H as <- <-. injection G as <- <-. split; [|done]. destruct Ha. by split.
    - split; [|done]. by eapply handle_both.
    - cbn [exec] in H, G. unfold pop_next_forward_packet in H, G. cbn [mx_or_events mx_forward] in H, G.
      rewrite (ak_forward _ _ Ha) in H. destruct (fq_pop (mx_forward n) tie) as [q p]. injection H as <- <-. injection G as <- <-.
      split; [|done]. pose proof (alike_events _ _ NEXT_FORWARD_PACKET_DEADLINE_CHANGED Ha) as []. by split.
    - destruct (pop_both cf m n ns r m' a Hcf Hm Hn Ha Hc H) as (n1 & p & q & E & -> & Ha' & Hs). rewrite E in G.
      injection G as <- <-. split; [done|]. split; [done|]. by exists p, q.
    - cbn [exec] in H, G. injection H as <- <-. injection G as <- <-. destruct Ha as [? ? ? ? ? ? E1 E2 E3].
      split; [by split|]. split; [done|]. by eexists _, _.
  Qed.
  Lemma own_alike m c m' a : call_ok c -> own pr m c -> exec pr m c = Val (m', a) -> alike m' m.
  Proof.
    intros Hc Ho H. destruct c; try done.
    - by eapply handle_own.
    - eapply post_own; [|exact H]. done.
    - eapply post_own; [|exact H]. done.
  Qed.
  Lemma history_run m l m' : history pr m l m' -> run pr m (map (fun x => (mt_call x, mt_resp x)) l) m'.
  Proof. induction 1; cbn; [constructor|]. by econstructor. Qed.

  Lemma exec_keeps cf m c m' a :
    config_ok cf -> call_ok c -> exec pr m c = Val (m', a) -> mx_ok pr cf m -> mx_ok pr cf m'.
  Proof. intros Hcf Hc H Hm. apply (step_inv pr Hok cf m c m' a Hcf Hm Hc). by apply (exec_step pr Hok cf). Qed.

  (** Two histories of nodes that start alike, with the same calls apart from private ones, look the
      same. *)
  Lemma histories cf m l m' n l0 n' :
    config_ok cf -> mx_ok pr cf m -> mx_ok pr cf n -> alike m n ->
    history pr m l m' -> history pr n l0 n' -> map mt_call (common l) = map mt_call (common l0) ->
    Forall2 looks_same (common l) (common l0) /\ alike m' n'.
  Proof.
    intros Hcf Hm Hn Ha H. revert n l0 Hn Ha. induction H as [m|m c a b m1 l m2 Hc He Hb H IH]; intros n l0 Hn Ha H0 E.
    - induction H0 as [n|n c a b n1 l0 n2 Hc He Hb H0 IH]; [split; [constructor|done]|].
      unfold common in E. cbn in E. destruct b; [|done]. cbn [negb] in E.
      assert (mx_ok pr cf n1) by (by eapply exec_keeps).
      apply IH; try done. eapply alike_trans; [exact Ha|]. apply alike_sym. by eapply own_alike.
    - assert (Hm1 : mx_ok pr cf m1) by (by eapply exec_keeps). specialize (IH Hm1). destruct b.
      + apply (IH n l0); try done. eapply alike_trans; [by eapply own_alike|done].
      + induction H0 as [n|n c0 a0 b0 n1 l0 n2 Hc0 He0 Hb0 H0 IH0]; [done|].
        assert (Hn1 : mx_ok pr cf n1) by (by eapply exec_keeps). destruct b0.
        * apply IH0; try done. eapply alike_trans; [exact Ha|]. apply alike_sym. by eapply own_alike.
        * cbn in E. injection E as <- E.
          destruct (both_alike cf m n c m1 a n1 a0 Hcf Hm Hn Ha Hc Hb He He0) as [Ha1 Hl].
          destruct (IH n1 l0 Hn1 Ha1 H0 E) as [Hf Ha']. split; [|done]. by constructor.
  Qed.

  (** Two histories of a node that differ in its own messages: what it posts, and the replies (and
      cover packets) it gets. They look the same from outside, at every call and at the end. *)
  Theorem C71_unobservable cf m l1 m1 l2 m2 :
    config_ok cf -> mx_new pr cf = Val m -> history pr m l1 m1 -> history pr m l2 m2 ->
    map mt_call (common l1) = map mt_call (common l2) ->
    Forall2 looks_same (common l1) (common l2) /\ same_view m1 m2.
  Proof.
    intros Hcf Hnew H1 H2 E. pose proof (mx_new_ok pr cf m Hcf Hnew) as Hm.
    destruct (histories cf m l1 m1 m l2 m2 Hcf Hm Hm (alike_refl m) H1 H2 E) as [Hf Ha].
    split; [done|]. by apply alike_view.
  Qed.

  (** Every history has such a companion: the same node without messages of its own. *)
  Theorem C71_silent cf m l m' :
    config_ok cf -> mx_new pr cf = Val m -> history pr m l m' ->
    exists l0 m0, history pr m l0 m0 /\ Forall (fun x => mt_own x = false) l0 /\
      map mt_call l0 = map mt_call (common l) /\ Forall2 looks_same (common l) l0 /\ same_view m' m0.
  Proof.
    intros Hcf Hnew H. pose proof (mx_new_ok pr cf m Hcf Hnew) as Hm.
    assert (Hex : forall n, mx_ok pr cf n -> alike m n -> exists l0 m0, history pr n l0 m0 /\
      Forall (fun x => mt_own x = false) l0 /\ map mt_call l0 = map mt_call (common l)).
    { clear Hnew. induction H as [m|m c a b m1 l m2 Hc He Hb H IH]; intros n Hn Ha.
      - exists [], n. split_and!; [constructor|constructor|done].
      - assert (Hm1 : mx_ok pr cf m1) by (by eapply exec_keeps). specialize (IH Hm1).
        destruct b.
        + apply IH; [done|]. eapply alike_trans; [by eapply own_alike|done].
        + destruct (both_possible cf m n c m1 a Hcf Hm Hn Ha Hc Hb He) as (n1 & b & En).
          destruct (both_alike cf m n c m1 a n1 b Hcf Hm Hn Ha Hc Hb He En) as [Ha1 _].
          assert (Hn1 : mx_ok pr cf n1) by (by eapply exec_keeps).
          destruct (IH n1 Hn1 Ha1) as (l0 & m0 & Hh & Hf & El). exists (Moment n c b false :: l0), m0. split_and!.
          * by econstructor.
          * by constructor.
          * cbn. by rewrite El. }
    destruct (Hex m Hm (alike_refl m)) as (l0 & m0 & Hh & Hf & El). exists l0, m0.
    assert (Ec : common l0 = l0).
    { clear -Hf. induction Hf as [|x l0 Hx _ IH]; [done|]. unfold common in *. cbn. by rewrite Hx, IH. }
    destruct (histories cf m l m' m l0 m0 Hcf Hm Hm (alike_refl m) H Hh) as [Hl Hv%alike_view]; [by rewrite Ec|].
    rewrite Ec in Hl. done.
  Qed.
End hide.
