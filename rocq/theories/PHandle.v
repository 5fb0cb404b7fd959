(** What a node does with an incoming packet: C10 (receiving end), C38, and the description of
    [handle_packet] on which the theorems about histories rest. *)
From Verif Require Export MMixnet PSphinx PReplayFilter PKeystore PQueues PRoute PFragment.

(** ** Specification *)

(** The secret a session shares with the sender of a packet. *)
Definition shared (pr : prims) (s : session) (p : bytes) : bytes :=
  derive_kx_shared_secret pr (p_kx p) (kp_secret (se_kx_pair s)).
Definition tag_of (pr : prims) (s : session) (p : bytes) : replay_tag :=
  rf_tag pr (se_filter s) (shared pr s p).
(** The session's replay filter reports the packet. *)
Definition seen (pr : prims) (s : session) (p : bytes) : Prop :=
  rf_contains (se_filter s) (tag_of pr s p) = true.
(** The packet's header authenticates under the session's key. *)
Definition opens (pr : prims) (s : session) (p : bytes) : Prop := good_mac pr p (shared pr s p).
Global Instance seen_dec pr s p : Decision (seen pr s p).
Proof. unfold seen. apply _. Defined.
Global Instance opens_dec pr s p : Decision (opens pr s p).
Proof. unfold opens. apply _. Defined.

(** The session that reads a packet: the current one if it can, the previous one if it can and the
    packet means nothing to the current one. *)
Inductive reads (pr : prims) (ss : sessions) (p : bytes) : rel_session_index -> session -> Prop :=
| ReadsCurrent s :
    ss_current ss = SlFull s -> ~ seen pr s p -> opens pr s p -> reads pr ss p RCurrent s
| ReadsPrev s :
    ss_prev ss = SlFull s -> (forall c, ss_current ss = SlFull c -> ~ seen pr c p /\ ~ opens pr c p) ->
    ~ seen pr s p -> opens pr s p -> reads pr ss p RPrev s.

(** What the packet contains for the session that reads it. *)
Inductive content :=
| CtForward (t : target) (d : delay) (next : bytes)
| CtRequest (data : bytes)
| CtReply (id payload : bytes)
| CtCover (id : option bytes)
| CtGarbage.
Definition content_of (pr : prims) (s : session) (p : bytes) : content :=
  let k := shared pr s p in
  let code := action_code pr p k in
  let rt := routing pr (p_actions p) k in
  if decide (code = 65281%N) then
    if decide (drop (N.to_nat 2048) (plain_payload pr p k) = replicate 16 0%N)
    then CtRequest (take (N.to_nat 2048) (plain_payload pr p k)) else CtGarbage
  else if decide (code = 65282%N) then CtReply (slice rt 2 16) (p_payload p)
  else if decide (code = 65283%N) then CtCover None
  else if decide (code = 65284%N) then CtCover (Some (slice rt 2 16))
  else if decide (code = 65280%N) then
    CtForward (TPeerId (slice rt 2 32)) (hop_delay pr k) (next_packet pr p k 34)
  else if decide (code <= 65279)%N then
    CtForward (TMixnodeIndex code) (hop_delay pr k) (next_packet pr p k 2)
  else CtGarbage.

Definition is_mixnode (s : session) : Prop := tp_is_mixnode (se_topology s) = true.
Definition has_room (m : mixnet) : Prop :=
  (N.of_nat (length (fq_queue (mx_forward m))) < fq_capacity (mx_forward m))%N.
Global Instance is_mixnode_dec s : Decision (is_mixnode s).
Proof. unfold is_mixnode. apply _. Defined.
Global Instance has_room_dec m : Decision (has_room m).
Proof. unfold has_room. apply _. Defined.

(** The state after the session has noted the packet in its filter. *)
Definition noted (pr : prims) (m : mixnet) (rel : rel_session_index) (s : session) (p : bytes) : mixnet :=
  mx_put_session m rel (se_set_filter s (rf_insert (se_filter s) (tag_of pr s p))).
(** The state after a packet was put in the forward queue. *)
Definition enqueue (m : mixnet) (fp : forward_packet) : mixnet :=
  let q := ForwardQueue (fq_capacity (mx_forward m)) (fq_queue (mx_forward m) ++ [fp]) in
  let m' := mx_set_forward m q in
  if decide (fq_next_deadline q = fq_next_deadline (mx_forward m)) then m'
  else mx_or_events m' NEXT_FORWARD_PACKET_DEADLINE_CHANGED.

(** The effect of the packet once read. *)
Definition effect (pr : prims) (m : mixnet) (rel : rel_session_index) (s : session) (p : bytes)
    (now : instant) : outcome (mixnet * option message) :=
  match content_of pr s p with
  | CtForward t d next =>
      if decide (is_mixnode s /\ has_room m) then
        match tp_target_to_peer_id (se_topology s) t with
        | Ok peer =>
            dur ← delay_to_duration d (cf_mean_forwarding_delay (mx_config m));
            Val (enqueue (noted pr m rel s p)
                   (ForwardPacket (now + dur)%N (AddressedPacket peer next)), None)
        | Err _ => Val (noted pr m rel s p, None)
        end
      else Val (m, None)
  | CtRequest data =>
      if decide (is_mixnode s) then
        '(fa, msg) ← fa_insert (mx_assembler m) data;
        let m' := mx_set_assembler (noted pr m rel s p) fa in
        match msg with
        | None => Val (m', None)
        | Some g =>
            index ← rsi_add rel (st_current_index (mx_status m));
            Val (m', Some (MRequest (RequestMessage index (gm_id g) (gm_data g) (gm_surbs g))))
        end
      else Val (m, None)
  | CtReply id payload =>
      match sk_entry (mx_keystore m) id with
      | None => Val (m, None)
      | Some v =>
          let m1 := mx_set_keystore m (sk_remove (mx_keystore m) id) in
          match decrypt_reply_payload pr payload (sv_keys v) with
          | (pl, Ok _) =>
              '(fa, msg) ← fa_insert (mx_assembler m) (take (N.to_nat 2048) pl);
              Val (mx_set_assembler m1 fa,
                   (fun g => MReply (ReplyMessage (sv_message_id v) (gm_data g))) <$> msg)
          | (_, Err _) => Val (m1, None)
          end
      end
  | CtCover _ | CtGarbage => Val (m, None)
  end.

(** ** Proof *)
Lemma reads_unique pr ss p rel s rel' s' :
  reads pr ss p rel s -> reads pr ss p rel' s' -> rel = rel' /\ s = s'.
Proof.
  intros [s1 H1 H2 H3|s1 H1 H2 H3 H4] H; inversion H as [s2 G1 G2 G3|s2 G1 G2 G3 G4]; subst.
  - split; [done|congruence].
  - destruct (G2 _ H1). done.
  - destruct (H2 _ G1). done.
  - split; [done|congruence].
Qed.
Lemma reads_get pr ss p rel s : reads pr ss p rel s -> ss_get ss rel = SlFull s.
Proof. by intros []. Qed.
Lemma reads_opens pr ss p rel s : reads pr ss p rel s -> ~ seen pr s p /\ opens pr s p.
Proof. by intros []. Qed.

Section handle.
  Context (pr : prims) (Hok : prims_ok pr).

  Lemma try_peel_cons out p rel s l :
    length out = N.to_nat 2252 -> length p = N.to_nat 2252 ->
    try_peel pr out p ((rel, s) :: l) =
      if decide (seen pr s p) then TpErr
      else if decide (opens pr s p) then
        match peel pr out p (shared pr s p) with
        | (out, Ok a) => TpOk out a rel s (tag_of pr s p)
        | (_, Err _) => TpErr
        end
      else try_peel pr out p l.
  Proof.
    intros Ho Hp. cbn [try_peel].
    change (kx_pair_exchange pr (se_kx_pair s) (kx_public p)) with (shared pr s p).
    fold (tag_of pr s p). destruct (decide (seen pr s p)) as [E|E]; unfold seen in E.
    { by rewrite E. }
    apply not_true_is_false in E. rewrite E.
    rewrite (peel_eq pr Hok) by done. cbv zeta.
    destruct (decide (good_mac pr p (shared pr s p))) as [Hm|Hm];
      [rewrite (decide_True (P := opens pr s p)) by done|by rewrite (decide_False (P := opens pr s p))].
    repeat match goal with
    | |- context [if decide ?b then _ else _] => destruct (decide b)
    | |- context [if (?a =? ?b)%N then _ else _] => destruct (a =? b)%N
    | |- context [if (?a <=? ?b)%N then _ else _] => destruct (a <=? b)%N
    end; done.
  Qed.

  Lemma try_peel_sessions out ss p :
    length out = N.to_nat 2252 -> length p = N.to_nat 2252 ->
    let res := try_peel pr out p (ss_enumerate ss) in
    ((forall rel s, ~ reads pr ss p rel s) /\ (res = TpNone \/ res = TpErr)) \/
    (exists rel s, reads pr ss p rel s /\
       res = match peel pr out p (shared pr s p) with
             | (out, Ok a) => TpOk out a rel s (tag_of pr s p)
             | (_, Err _) => TpErr
             end).
  Proof.
    intros Ho Hp res. unfold res, ss_enumerate. clear res.
    assert (Hprev : forall (Hc : forall c, ss_current ss = SlFull c -> ~ seen pr c p /\ ~ opens pr c p),
      let l := omap (fun '(i, sl) => pair i <$> slot_as_option sl) [(RPrev, ss_prev ss)] in
      let res := try_peel pr out p l in
      ((forall rel s, ~ reads pr ss p rel s) /\ (res = TpNone \/ res = TpErr)) \/
      (exists rel s, reads pr ss p rel s /\
         res = match peel pr out p (shared pr s p) with
               | (out, Ok a) => TpOk out a rel s (tag_of pr s p)
               | (_, Err _) => TpErr
               end)).
    { intros Hc. cbn [omap list_omap]. destruct (ss_prev ss) as [|k| |s] eqn:Ep;
        try (left; split; [|by left]; intros rel s [s1 H1 H2 H3|s1 H1 H2 H3 H4];
             [destruct (Hc _ H1); done|congruence]).
      cbn [slot_as_option fmap option_fmap option_map]. rewrite try_peel_cons by done. cbv zeta.
      destruct (decide (seen pr s p)) as [Hs|Hs].
      { left. split; [|by right]. intros rel s' [s1 H1 H2 H3|s1 H1 H2 H3 H4];
          [destruct (Hc _ H1); done|congruence]. }
      destruct (decide (opens pr s p)) as [Hn|Hn].
      { right. exists RPrev, s. split; [|done]. by apply ReadsPrev. }
      left. split; [|by left]. intros rel s' [s1 H1 H2 H3|s1 H1 H2 H3 H4];
          [destruct (Hc _ H1); done|congruence]. }
    cbv zeta in Hprev. cbn [omap list_omap] in Hprev |- *.
    destruct (ss_current ss) as [|k| |s] eqn:Ec; try by apply Hprev.
    cbn [slot_as_option fmap option_fmap option_map]. rewrite try_peel_cons by done. cbv zeta.
    destruct (decide (seen pr s p)) as [Hs|Hs].
    { left. split; [|by right]. intros rel s' [s1 H1 H2 H3|s1 H1 H2 H3 H4]; [congruence|].
      destruct (H2 _ Ec). done. }
    destruct (decide (opens pr s p)) as [Hn|Hn].
    { right. exists RCurrent, s. split; [|done]. by apply ReadsCurrent. }
    apply Hprev. intros c [= <-]. done.
  Qed.

  Lemma peel_content out s p :
    length out = N.to_nat 2252 -> length p = N.to_nat 2252 -> opens pr s p ->
    exists out', 
    match content_of pr s p with
    | CtForward t d next => peel pr out p (shared pr s p) = (next, Ok (AForwardTo t d))
    | CtRequest data => peel pr out p (shared pr s p) = (out', Ok ADeliverRequest) /\
                        slice out' 0 PAYLOAD_DATA_SIZE = data /\ length data = N.to_nat 2048
    | CtReply id pl => peel pr out p (shared pr s p) = (out', Ok (ADeliverReply id)) /\
                       slice out' 0 PAYLOAD_SIZE = pl /\ length pl = N.to_nat 2064
    | CtCover id => peel pr out p (shared pr s p) = (out', Ok (ADeliverCover id))
    | CtGarbage => exists e, peel pr out p (shared pr s p) = (out', Err e)
    end.
  Proof.
    intros Ho Hp Hop. rewrite (peel_eq pr Hok) by done. cbv zeta. unfold content_of.
    rewrite (decide_True (P := good_mac _ _ _)) by done.
    pose proof (plain_payload_length pr Hok p (shared pr s p) Hp) as Hpl.
    pose proof (p_payload_length p Hp) as Hpp. rewrite PAYLOAD_SIZE_eq in Hpp.
    set (code := action_code pr p (shared pr s p)).
    repeat match goal with
    | |- context [decide (code = ?k)] =>
        destruct (N.eqb_spec code k);
          [rewrite (decide_True (P := code = k)) by done|rewrite (decide_False (P := code = k)) by done];
          cbv iota
    | |- context [decide (code <= ?k)%N] =>
        destruct (N.leb_spec code k);
          [rewrite (decide_True (P := (code <= k)%N)) by done|
           rewrite (decide_False (P := (code <= k)%N)) by lia]; cbv iota
    end.
    - destruct (decide (_ = _)); eexists; [|by exists PePayloadTag]. split; [done|].
      unfold slice. rewrite drop_0. change PAYLOAD_DATA_SIZE with (N.to_nat 2048).
      rewrite take_app_le by lia. split; [done|]. rewrite take_length. lia.
    - eexists. split; [done|]. unfold slice. rewrite drop_0, PAYLOAD_SIZE_eq.
      rewrite take_app_le by lia. split; [apply take_ge; lia|done].
    - by eexists.
    - by eexists.
    - by exists [].
    - by exists [].
    - eexists. by exists PeAction.
  Qed.

  (** The whole of [handle_packet]. *)
  Lemma handle_packet_spec m p now :
    length p = N.to_nat 2252 ->
    ((forall rel s, ~ reads pr (mx_sessions m) p rel s) /\ handle_packet pr m p now = Val (m, None)) \/
    (exists rel s, reads pr (mx_sessions m) p rel s /\
                   handle_packet pr m p now = effect pr m rel s p now).
  Proof.
    intros Hp. unfold handle_packet.
    assert (Ho : length (replicate PACKET_SIZE 0%N) = N.to_nat 2252) by (rewrite replicate_length; szlia).
    destruct (try_peel_sessions _ (mx_sessions m) p Ho Hp) as [[Hr [-> | ->]]|(rel & s & Hr & ->)];
      [by left|by left|].
    right. exists rel, s. split; [done|]. destruct (reads_opens _ _ _ _ _ Hr) as [Hns Hop].
    unfold effect. destruct (peel_content _ s p Ho Hp Hop) as (out' & Hc).
    destruct (content_of pr s p) as [t d next|data|id pl|cid|].
    - rewrite Hc. destruct (tp_is_mixnode (se_topology s)) eqn:Em; cbn [negb].
      2:{ rewrite decide_False; [done|]. unfold is_mixnode. intros [? _]. congruence. }
      destruct (fq_has_space (mx_forward m)) eqn:Es.
      + assert (Es' := Es). unfold fq_has_space in Es'. apply N.ltb_lt in Es'.
        rewrite decide_True by done. cbn [negb].
        destruct (tp_target_to_peer_id (se_topology s) t) as [peer|e]; [|done].
        unfold noted. destruct (delay_to_duration d _) as [dur|]; [|done]. cbn [out_bind].
        change (mx_forward (mx_put_session m rel _)) with (mx_forward m) at 1.
        unfold fq_insert. rewrite Es. cbn [assert_or_panic out_bind].
        unfold enqueue. cbn [mx_put_session mx_set_sessions mx_forward].
        match goal with |- context [bool_decide ?P] => destruct (decide P) as [Hd|Hd];
          [rewrite (bool_decide_eq_true_2 _ Hd)|rewrite (bool_decide_eq_false_2 _ Hd)] end.
        * cbn [negb]. done.
        * cbn [negb]. done.
      + unfold fq_has_space in Es. apply N.ltb_ge in Es. rewrite decide_False; [done|].
        unfold has_room. lia.
    - destruct Hc as (-> & -> & _).
      destruct (tp_is_mixnode (se_topology s)) eqn:Em; cbn [negb].
      2:{ rewrite decide_False; [done|]. unfold is_mixnode. congruence. }
      rewrite decide_True by done. cbn [mx_put_session mx_set_sessions mx_assembler].
      destruct (fa_insert _ _) as [[fa msg]|]; [|done]. cbn [out_bind]. by destruct msg.
    - destruct Hc as (-> & -> & _). destruct (sk_entry _ _) as [v|]; [|done].
      destruct (decrypt_reply_payload pr pl (sv_keys v)) as [pl' [|]]; [|done].
      cbn [mx_set_keystore mx_assembler]. unfold slice. by rewrite drop_0.
    - by rewrite Hc.
    - destruct Hc as (e & ->). done.
  Qed.

  (** ** Theorems *)

  (** C10, the node: a cover packet arriving at the end of its path (that is, one a node recognises
      as cover) changes nothing and is not reported. *)
  Theorem C10_no_effect m p now rel s id :
    length p = N.to_nat 2252 -> reads pr (mx_sessions m) p rel s ->
    (exists out, length out = N.to_nat 2252 /\
       (peel pr out p (shared pr s p)).2 = Ok (ADeliverCover id)) ->
    handle_packet pr m p now = Val (m, None).
  Proof.
    intros Hp Hr (out & Ho & Hc).
    destruct (handle_packet_spec m p now Hp) as [[_ ?]|(rel' & s' & Hr' & ->)]; [done|].
    destruct (reads_unique _ _ _ _ _ _ _ Hr' Hr) as [-> ->].
    destruct (peel_content _ s p Ho Hp) as (out' & Hpl); [apply (reads_opens _ _ _ _ _ Hr)|].
    unfold effect.
    destruct (content_of pr s p) as [t d next|data|i pl|cid|]; try done.
    - rewrite Hpl in Hc. done.
    - destruct Hpl as (Hpl & _). rewrite Hpl in Hc. done.
    - destruct Hpl as (Hpl & _). rewrite Hpl in Hc. done.
  Qed.

  (** C38. A session in which the node is not a mixnode: whatever the packet, nothing is queued, no
      request is returned and the filter is not touched; the only possible effect is that of a reply
      to one of the node's own requests. *)
  Theorem C38_non_mixnode m p now rel s m' msg :
    length p = N.to_nat 2252 -> reads pr (mx_sessions m) p rel s ->
    tp_is_mixnode (se_topology s) = false ->
    handle_packet pr m p now = Val (m', msg) ->
    mx_forward m' = mx_forward m /\ mx_sessions m' = mx_sessions m /\ mx_events m' = mx_events m /\
    (forall q, msg <> Some (MRequest q)) /\
    (m' = m /\ msg = None \/ exists id pl v, content_of pr s p = CtReply id pl /\
                                sk_entry (mx_keystore m) id = Some v).
  Proof.
    intros Hp Hr Hm H.
    destruct (handle_packet_spec m p now Hp) as [[Hn _]|(rel' & s' & Hr' & E)].
    { by apply Hn in Hr. }
    destruct (reads_unique _ _ _ _ _ _ _ Hr' Hr) as [-> ->]. rewrite E in H. clear E Hr'.
    unfold effect in H. assert (Hm' : ~ is_mixnode s) by (unfold is_mixnode; congruence).
    destruct (content_of pr s p) as [t d next|data|id pl|cid|].
    - rewrite decide_False in H by naive_solver. injection H as <- <-. split_and!; try done. by left.
    - rewrite decide_False in H by done. injection H as <- <-. split_and!; try done. by left.
    - destruct (sk_entry (mx_keystore m) id) as [v|] eqn:Ek.
      2:{ injection H as <- <-. split_and!; try done. by left. }
      assert (Hex : exists id' pl' v', CtReply id pl = CtReply id' pl' /\
                      sk_entry (mx_keystore m) id' = Some v') by eauto.
      destruct (decrypt_reply_payload pr pl (sv_keys v)) as [pl' [|]].
      + inv_val. split_and!; try done; [|by right].
        intros q. match goal with |- _ <$> ?o <> _ => by destruct o end.
      + injection H as <- <-. split_and!; try done. by right.
    - injection H as <- <-. split_and!; try done. by left.
    - injection H as <- <-. split_and!; try done. by left.
  Qed.
  (** A packet to be forwarded that arrives when the queue is full is dropped without a trace. *)
  Theorem C38_queue_full m p now rel s t d next :
    length p = N.to_nat 2252 -> reads pr (mx_sessions m) p rel s ->
    content_of pr s p = CtForward t d next ->
    (fq_capacity (mx_forward m) <= N.of_nat (length (fq_queue (mx_forward m))))%N ->
    handle_packet pr m p now = Val (m, None).
  Proof.
    intros Hp Hr Hc Hf.
    destruct (handle_packet_spec m p now Hp) as [[_ ?]|(rel' & s' & Hr' & ->)]; [done|].
    destruct (reads_unique _ _ _ _ _ _ _ Hr' Hr) as [-> ->]. unfold effect. rewrite Hc.
    rewrite decide_False; [done|]. unfold has_room. lia.
  Qed.
  (** A packet that no session reads is dropped without a trace. *)
  Theorem C38_unreadable m p now :
    length p = N.to_nat 2252 -> (forall rel s, ~ reads pr (mx_sessions m) p rel s) ->
    handle_packet pr m p now = Val (m, None).
  Proof.
    intros Hp Hn. destruct (handle_packet_spec m p now Hp) as [[_ ?]|(rel & s & Hr & _)]; [done|].
    by apply Hn in Hr.
  Qed.
End handle.
