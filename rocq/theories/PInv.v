(** The steps of a node and the invariant of its reachable states. *)
From Verif Require Export PApi.

(** ** The invariant *)
Definition kx_ok (pr : prims) (k : kx_pair) : Prop :=
  exists secret, length secret = 32 /\ k = kx_pair_from pr secret.
(** A packet for the network: of the right size. *)
Definition wire_ok (p : addressed_packet) : Prop := length (ap_packet p) = N.to_nat 2252.

(** A node that is no mixnode has the configured number of gateways, or all mixnodes if there are fewer. *)
Definition gateways_ok (cf : config) (t : topology) : Prop :=
  forall gs, tp_local_node t = LNonMixnode gs ->
    N.of_nat (length gs) = N.min (cf_num_gateway_mixnodes cf) (N.of_nat (length (tp_mixnodes t))).
Record sess_ok (pr : prims) (cf : config) (s : session) : Prop := {
  so_topology : topo_ok (se_topology s);
  so_mixnodes : Forall mixnode_ok (tp_mixnodes (se_topology s));
  so_key : kx_ok pr (se_kx_pair s);
  so_local : tp_local_kx_public (se_topology s) = kp_public (se_kx_pair s);
  so_config : if tp_is_mixnode (se_topology s)
              then aq_config (se_authored s) = sc_authored (cf_mixnode_session cf) /\
                   se_mean_period s = sc_mean_period (cf_mixnode_session cf)
              else exists c, cf_non_mixnode_session cf = Some c /\
                   aq_config (se_authored s) = sc_authored c /\ se_mean_period s = sc_mean_period c;
  so_authored : (aq_len (se_authored s) <= apc_capacity (aq_config (se_authored s)))%N;
  so_packets : Forall (fun p => wire_ok p /\ exists mn, mn ∈ tp_mixnodes (se_topology s) /\ ap_peer_id p = mn_peer_id mn)
                      (aq_queue (se_authored s));
  so_filter : tp_is_mixnode (se_topology s) = false -> rf_words (se_filter s) = None;
  so_gateways : gateways_ok cf (se_topology s);
  so_filter_key : length (rf_key (se_filter s)) = 32
}.
Definition slot_ok (pr : prims) (cf : config) (sl : session_slot) : Prop :=
  match sl with
  | SlEmpty | SlDisabled => True
  | SlKxPair k => kx_ok pr k
  | SlFull s => sess_ok pr cf s
  end.
Record mx_ok (pr : prims) (cf : config) (m : mixnet) : Prop := {
  mo_config : mx_config m = cf;
  mo_current : slot_ok pr cf (ss_current (mx_sessions m));
  mo_prev : slot_ok pr cf (ss_prev (mx_sessions m));
  mo_prev_disabled : (st_current_index (mx_status m) = 0%N \/ st_phase (mx_status m) = PDisconnectFromPrev) ->
                     ss_prev (mx_sessions m) = SlDisabled;
  mo_next : match mx_next_kx_pair m with Some k => kx_ok pr k | None => True end;
  mo_forward : fq_capacity (mx_forward m) = cf_forward_capacity cf /\
               (N.of_nat (length (fq_queue (mx_forward m))) <= cf_forward_capacity cf)%N /\
               Forall (fun fp => wire_ok (fp_packet fp)) (fq_queue (mx_forward m));
  mo_keystore : ks_ok (mx_keystore m) /\ sk_capacity (mx_keystore m) = cf_surb_keystore_capacity cf;
  mo_assembler : fa_inv (fun _ => True) (mx_assembler m) /\
                 fa_max_messages (mx_assembler m) = cf_max_incomplete_messages cf /\
                 fa_max_fragments (mx_assembler m) = cf_max_incomplete_fragments cf /\
                 fa_max_per_message (mx_assembler m) = cf_max_fragments_per_message cf
}.

(** ** Steps *)

(** The slot waits for mixnodes. *)
Definition open_slot (sl : session_slot) : Prop := sl = SlEmpty \/ exists k, sl = SlKxPair k.
Definition set_slot (m : mixnet) (rel : rel_session_index) (sl : session_slot) : mixnet :=
  mx_set_sessions m (ss_set (mx_sessions m) rel sl).
Lemma rf_new_key r : length (rf_key (rf_new r).1) = 32.
Proof. pose proof (rng_fill_length 32 r) as H. unfold rf_new. destruct (rng_fill 32 r). exact H. Qed.
(** A session as first set up. *)
Record fresh_session (pr : prims) (cf : config) (sl : session_slot) (mixnodes : list mixnode) (r : rng)
    (s : session) : Prop := {
  fs_key : match sl with
           | SlKxPair k => se_kx_pair s = k
           | _ => se_kx_pair s = kx_pair_from pr (gen_kx_secret r).1
           end;
  fs_topology : topo_ok (se_topology s) /\ tp_mixnodes (se_topology s) = take (N.to_nat 65280) mixnodes /\
                tp_local_kx_public (se_topology s) = kp_public (se_kx_pair s);
  fs_mixnode : tp_is_mixnode (se_topology s) = true <->
               kp_public (se_kx_pair s) ∈ map mn_kx_public (take (N.to_nat 65280) mixnodes);
  fs_config : if tp_is_mixnode (se_topology s)
              then aq_config (se_authored s) = sc_authored (cf_mixnode_session cf) /\
                   se_mean_period s = sc_mean_period (cf_mixnode_session cf)
              else exists c, cf_non_mixnode_session cf = Some c /\
                   aq_config (se_authored s) = sc_authored c /\ se_mean_period s = sc_mean_period c;
  fs_queue : aq_queue (se_authored s) = [];
  fs_filter : rf_words (se_filter s) = None;
  fs_gateways : gateways_ok cf (se_topology s);
  fs_filter_key : length (rf_key (se_filter s)) = 32
}.
Definition slot_changed : events := ev_or RESERVED_PEERS_CHANGED NEXT_AUTHORED_PACKET_DEADLINE_CHANGED.

(** Requests and replies are sent in this phase. *)
Definition phase_allows (ph : session_phase) (rel : rel_session_index) : Prop :=
  match rel, ph with
  | RCurrent, (PRequestsToCurrent | PCoverToPrev | PDisconnectFromPrev) => True
  | RPrev, (PCoverToCurrent | PRequestsToCurrent) => True
  | _, _ => False
  end.
(** A cover packet made by a session. *)
Definition cover_made (pr : prims) (cf : config) (s : session) (ns : network_status) (loop : bool)
    (p : addressed_packet) : Prop :=
  exists g kind rt r r' dl, rg_new (se_topology s) ns = Val g /\ gen_ok g /\
    (if loop then kind = RkLoop else exists d, kind = RkToMixnode d /\ valid_index (se_topology s) d /\
       tp_local_node (se_topology s) <> LMixnode d) /\
    route_ok g kind (cf_num_hops cf) rt /\
    tp_index_to_peer_id (se_topology s) (rt_first rt) = Ok (ap_peer_id p) /\
    build_cover_packet pr default_packet (rt_targets rt) (rt_kx_publics rt) None r =
      Val (ap_packet p, dl, r') /\ wire_ok p.
(** No route for a cover packet exists: no gateway is connected, or there are too few mixnodes. *)
Definition cover_impossible (cf : config) (s : session) (ns : network_status) (loop : bool) : Prop :=
  exists g, rg_new (se_topology s) ns = Val g /\
    (no_gateway g \/
     if loop then ~ enough_mixnodes g RkLoop (cf_num_hops cf)
     else length (tp_mixnodes (se_topology s)) ≤ 1 \/
          exists d, valid_index (se_topology s) d /\ ~ enough_mixnodes g (RkToMixnode d) (cf_num_hops cf)).

Inductive step (pr : prims) (m : mixnet) : call -> mixnet -> resp -> Prop :=
| StStatus st : step pr m (CallSetStatus st) (set_session_status m st) RespUnit
| StMixKept rel mixnodes r :
    ~ open_slot (ss_get (mx_sessions m) rel) ->
    step pr m (CallSetMixnodes rel mixnodes r) m (RespCalled false)
| StMixTransient rel r :
    open_slot (ss_get (mx_sessions m) rel) ->
    step pr m (CallSetMixnodes rel (Err MeTransient) r) m (RespCalled true)
| StMixDisabled rel mixnodes r :
    open_slot (ss_get (mx_sessions m) rel) ->
    (mixnodes = Err MePermanent \/
     exists l, mixnodes = Ok l /\ cf_non_mixnode_session (mx_config m) = None /\
       kp_public (match ss_get (mx_sessions m) rel with
                  | SlKxPair k => k
                  | _ => kx_pair_from pr (gen_kx_secret r).1
                  end) ∉ map mn_kx_public (take (N.to_nat 65280) l)) ->
    step pr m (CallSetMixnodes rel mixnodes r) (set_slot m rel SlDisabled) (RespCalled true)
| StMixSet rel l r s :
    open_slot (ss_get (mx_sessions m) rel) ->
    fresh_session pr (mx_config m) (ss_get (mx_sessions m) rel) l r s ->
    step pr m (CallSetMixnodes rel (Ok l) r) (mx_or_events (set_slot m rel (SlFull s)) slot_changed)
         (RespCalled true)
| StNextKxOld k r :
    mx_next_kx_pair m = Some k -> step pr m (CallNextKx r) m (RespKx (kp_public k))
| StNextKxNew r :
    mx_next_kx_pair m = None ->
    let k := kx_pair_from pr (gen_kx_secret r).1 in
    step pr m (CallNextKx r) (mx_set_next_kx_pair m (Some k)) (RespKx (kp_public k))
| StUnread p now :
    (forall rel s, ~ reads pr (mx_sessions m) p rel s) -> step pr m (CallHandle p now) m (RespMessage None)
| StIgnored p now rel s :
    reads pr (mx_sessions m) p rel s ->
    match content_of pr s p with
    | CtForward _ _ _ => ~ (is_mixnode s /\ has_room m)
    | CtRequest _ => ~ is_mixnode s
    | CtReply id _ => sk_entry (mx_keystore m) id = None
    | CtCover _ | CtGarbage => True
    end ->
    step pr m (CallHandle p now) m (RespMessage None)
| StForward p now rel s t d next peer dur :
    reads pr (mx_sessions m) p rel s -> content_of pr s p = CtForward t d next ->
    is_mixnode s -> has_room m -> length next = N.to_nat 2252 ->
    tp_target_to_peer_id (se_topology s) t = Ok peer ->
    delay_to_duration d (cf_mean_forwarding_delay (mx_config m)) = Val dur ->
    step pr m (CallHandle p now)
      (enqueue (noted pr m rel s p) (ForwardPacket (now + dur)%N (AddressedPacket peer next)))
      (RespMessage None)
| StForwardLost p now rel s t d next e :
    reads pr (mx_sessions m) p rel s -> content_of pr s p = CtForward t d next ->
    is_mixnode s -> has_room m -> tp_target_to_peer_id (se_topology s) t = Err e ->
    step pr m (CallHandle p now) (noted pr m rel s p) (RespMessage None)
| StRequest p now rel s data fa out msg :
    reads pr (mx_sessions m) p rel s -> content_of pr s p = CtRequest data -> is_mixnode s ->
    length data = N.to_nat 2048 ->
    fa_insert (mx_assembler m) data = Val (fa, out) ->
    match out with
    | None => msg = None
    | Some g => exists i, rsi_add rel (st_current_index (mx_status m)) = Val i /\
        msg = Some (MRequest (RequestMessage i (gm_id g) (gm_data g) (gm_surbs g)))
    end ->
    step pr m (CallHandle p now) (mx_set_assembler (noted pr m rel s p) fa) (RespMessage msg)
| StReplyBad p now rel s id pl v :
    reads pr (mx_sessions m) p rel s -> content_of pr s p = CtReply id pl ->
    sk_entry (mx_keystore m) id = Some v ->
    (exists e, (decrypt_reply_payload pr pl (sv_keys v)).2 = Err e) ->
    step pr m (CallHandle p now) (mx_set_keystore m (sk_remove (mx_keystore m) id)) (RespMessage None)
| StReply p now rel s id pl v plain fa out :
    reads pr (mx_sessions m) p rel s -> content_of pr s p = CtReply id pl ->
    sk_entry (mx_keystore m) id = Some v ->
    decrypt_reply_payload pr pl (sv_keys v) = (plain, Ok tt) -> length plain = N.to_nat 2064 ->
    fa_insert (mx_assembler m) (take (N.to_nat 2048) plain) = Val (fa, out) ->
    step pr m (CallHandle p now)
      (mx_set_assembler (mx_set_keystore m (sk_remove (mx_keystore m) id)) fa)
      (RespMessage ((fun g => MReply (ReplyMessage (sv_message_id v) (gm_data g))) <$> out))
| StPopForward tie q p :
    fq_pop (mx_forward m) tie = (q, p) ->
    step pr m (CallPopForward tie)
      (mx_set_forward (mx_or_events m NEXT_FORWARD_PACKET_DEADLINE_CHANGED) q) (RespPacket p)
| StPopNone ns r :
    ss_iter (mx_sessions m) = [] -> step pr m (CallPopAuthored ns r) m (RespPacket None)
| StPopQueued ns r rel s p rest :
    ss_get (mx_sessions m) rel = SlFull s ->
    phase_allows (st_phase (mx_status m)) rel ->
    aq_queue (se_authored s) = p :: rest ->
    let q := AuthoredQueue (aq_config (se_authored s)) rest in
    let m1 := set_slot (mx_or_events m NEXT_AUTHORED_PACKET_DEADLINE_CHANGED) rel
                (SlFull (se_set_authored s q)) in
    step pr m (CallPopAuthored ns r)
      (if (aq_pop (se_authored s)).2 then mx_or_events m1 SPACE_IN_AUTHORED_PACKET_QUEUE else m1)
      (RespPacket (Some p))
| StPopCover ns r rel s p :
    ss_get (mx_sessions m) rel = SlFull s ->
    match p with
    | Some p => cf_gen_cover_packets (mx_config m) = true /\ exists loop, cover_made pr (mx_config m) s ns loop p
    | None => True
    end ->
    step pr m (CallPopAuthored ns r) (mx_or_events m NEXT_AUTHORED_PACKET_DEADLINE_CHANGED) (RespPacket p)
| StPostRefused index dest id data num_surbs ns r e :
    step pr m (CallPostRequest index dest id data num_surbs ns r) m (RespPost dest (Err e))
| StPosted index dest id data num_surbs ns r m' d metrics rel s g bs ps :
    posted pr m index dest id data num_surbs ns r m' d metrics rel s g bs ps ->
    step pr m (CallPostRequest index dest id data num_surbs ns r) m' (RespPost (Some d) (Ok metrics))
| StReplyRefused surbs index id data e :
    step pr m (CallPostReply surbs index id data) m (RespReply surbs (Err e))
| StReplied surbs index id data rel s bs used packets left bad res :
    usable m index rel s -> fragment_blueprints id data 0 = Val (Some bs) ->
    fits (apc_capacity (aq_config (se_authored s))) (apc_multiple_messages (aq_config (se_authored s)))
         (N.of_nat (length (aq_queue (se_authored s)))) (N.of_nat (length bs)) ->
    surbs = left ++ bad ++ reverse used ->
    Forall3 (reply_made pr (se_topology s)) (take (length packets) bs) used packets ->
    match res with
    | Ok _ => bad = [] /\ length packets = length bs
    | Err _ => length bad = 1 /\ length packets < length bs
    end ->
    step pr m (CallPostReply surbs index id data)
      (mx_put_session m rel (se_set_authored s (AuthoredQueue (aq_config (se_authored s))
               (aq_queue (se_authored s) ++ packets)))) (RespReply left res)
| StEvents :
    step pr m CallTakeEvents (take_events m).1 (RespEvents (mx_events m)).

(** ** Every call is a step *)
Lemma phase_allows_spec ph rel : allow_requests_and_replies ph rel = true <-> phase_allows ph rel.
Proof. destruct ph, rel; cbn; split; (done || by intros). Qed.

Lemma put_session_same m rel s :
  ss_get (mx_sessions m) rel = SlFull s -> mx_put_session m rel s = m.
Proof. destruct m as [? ? [cur prev] ? ? ? ? ?], rel; cbn; intros ->; done. Qed.

Section exec.
  Context (pr : prims) (Hok : prims_ok pr).

  Lemma content_lengths s p :
    length p = N.to_nat 2252 -> opens pr s p ->
    match content_of pr s p with
    | CtForward _ _ next => length next = N.to_nat 2252
    | CtRequest data => length data = N.to_nat 2048
    | CtReply _ pl => length pl = N.to_nat 2064
    | _ => True
    end.
  Proof.
    intros Hp Ho.
    assert (Hout : length (replicate (N.to_nat 2252) 0%N) = N.to_nat 2252) by apply replicate_length.
    destruct (peel_content pr Hok _ s p Hout Hp Ho) as (out' & H).
    unfold content_of in *. cbv zeta in *.
    repeat match goal with
    | H : context [if decide ?P then _ else _] |- _ => destruct (decide P)
    end; try done; try (by destruct H as (_ & _ & ?)); by apply next_packet_length; [|done|lia].
  Qed.
  Lemma reply_payload_length pl keys :
    length pl = N.to_nat 2064 -> length (decrypt_reply_payload pr pl keys).1 = N.to_nat 2064.
  Proof.
    unfold decrypt_reply_payload. cbn [fst]. revert pl. induction (reverse keys) as [|k ks IH]; intros pl Hp; [done|].
    cbn [foldl]. apply IH. unfold encrypt_payload. pose proof PAYLOAD_SIZE_eq as E.
    rewrite (lioness_encrypt_length pr Hok); [done|]. by rewrite E.
  Qed.

  Lemma gen_cover_spec cf s ns kind r :
    topo_ok (se_topology s) -> length (ns_local_peer_id ns) = 32 -> cf_num_hops cf ≤ 6 ->
    exists res, gen_cover_packet pr (se_topology s) ns kind (cf_num_hops cf) r = Val res /\
      match res with
      | Ok p => cover_made pr cf s ns (match kind with CkLoop => true | CkDrop => false end) p
      | Err _ => cover_impossible cf s ns (match kind with CkLoop => true | CkDrop => false end)
      end.
  Proof.
    intros Ht Hns Hh. unfold gen_cover_packet.
    destruct (C25_generator (se_topology s) ns Ht) as (g & Eg & Hg & Etop & Epeer & _).
    rewrite Eg. cbn [out_bind].
    assert (Hrest : forall rk r1, kind_valid (rg_topology g) rk ->
      (if (match kind with CkLoop => true | CkDrop => false end) then rk = RkLoop
       else exists d, rk = RkToMixnode d /\ valid_index (se_topology s) d /\
              tp_local_node (se_topology s) <> LMixnode d) ->
      exists res, (
        '(route, r) ←? gen_route g rk (cf_num_hops cf) r1;
        match tp_index_to_peer_id (se_topology s) (rt_first route) with
        | Err e => Val (Err e)
        | Ok peer_id =>
            '(packet, _, _) ←
              build_cover_packet pr default_packet (rt_targets route) (rt_kx_publics route) None r;
            Val (Ok {| ap_peer_id := peer_id; ap_packet := packet |})
        end) = Val res /\
      match res with
      | Ok p => cover_made pr cf s ns (match kind with CkLoop => true | CkDrop => false end) p
      | Err _ => cover_impossible cf s ns (match kind with CkLoop => true | CkDrop => false end)
      end).
    { intros rk r1 Hk Hkind.
      destruct (C29_route g rk (cf_num_hops cf) r1 Hg Hk Hh) as (H1 & H2 & H3).
      destruct (decide (tp_is_mixnode (rg_topology g) = false /\ rg_connected g = [])) as [Hng|Hng].
      { rewrite (H1 Hng). cbn [try_bind]. eexists. split; [done|]. exists g. split; [done|]. by left. }
      assert (Hdec : enough_mixnodes g rk (cf_num_hops cf) \/ ~ enough_mixnodes g rk (cf_num_hops cf))
        by (unfold enough_mixnodes; lia).
      destruct Hdec as [Hen|Hen].
      2:{ rewrite (H3 Hng Hen). cbn [try_bind]. eexists. split; [done|]. exists g. split; [done|]. right.
          destruct kind; [|by rewrite Hkind in Hen]. destruct Hkind as (d & -> & Hd & _). right. by exists d. }
      destruct (H2 Hng Hen) as (rt & r2 & Er). rewrite Er. cbn [try_bind].
      pose proof (C25_route _ _ _ _ _ _ Hg Hk Hh Er) as Hrt.
      destruct (route_fits g rk _ rt Hg ltac:(congruence) Hrt) as [Hfit Hfirst].
      destruct (tp_index_to_peer_id (se_topology s) (rt_first rt)) as [peer|] eqn:Ep.
      2:{ unfold tp_index_to_peer_id in Ep. rewrite <- Etop in Ep.
          apply lookup_lt_is_Some_2 in Hfirst as [mn Hmn]. by rewrite Hmn in Ep. }
      destruct (build_cover_any pr Hok default_packet (rt_targets rt) (rt_kx_publics rt) None r2)
        as (p & dl & r3 & E & Hp).
      { apply replicate_length. } { done. } { done. }
      rewrite E. cbn [out_bind]. eexists. split; [done|]. cbn.
      exists g, rk, rt, r2, r3, dl. split_and!; try done. }
    destruct kind.
    - destruct (C29_destination g r Hg) as (Ha & Hb & Hc). cbv zeta in *.
      match type of Hc with ?n ≤ ?k => destruct (decide (n = k)) as [Heq|Hne] end.
      + rewrite (Ha Heq). cbn [try_bind]. eexists. split; [done|]. exists g. split; [done|]. right. left.
        clear Hrest. rewrite <- Etop. destruct (tp_local_node _), (rg_connected g) as [|? [|? ?]]; cbn in *; lia.
      + destruct (Hb ltac:(lia)) as (d & Ed & Hv & Hnf). rewrite Ed. cbn [try_bind].
        apply Hrest; [done|]. exists d. rewrite <- Etop. split_and!; [done|done|].
        intros El. rewrite El in Hnf. apply Hnf. left.
    - cbn [try_bind]. apply Hrest; done.
  Qed.

  Lemma mixnodes_step m rel mixnodes r m' called :
    maybe_set_mixnodes pr m rel mixnodes r = Val (m', called) ->
    step pr m (CallSetMixnodes rel mixnodes r) m' (RespCalled called).
  Proof.
    unfold maybe_set_mixnodes. intros H.
    assert (Hcase : (~ open_slot (ss_get (mx_sessions m) rel) /\ m' = m /\ called = false) \/
      (open_slot (ss_get (mx_sessions m) rel))).
    { destruct (ss_get (mx_sessions m) rel) eqn:E; [right; by left|right; right; by eexists|left|left];
        (split; [intros [?|[? ?]]; done|]); by injection H as <- <-. }
    destruct Hcase as [(Hno & -> & ->)|Hopen]; [by constructor|].
    assert (H2 : (_ ← rsi_add rel (st_current_index (mx_status m));
        match mixnodes with
        | Err MePermanent => Val (mx_set_sessions m (ss_set (mx_sessions m) rel SlDisabled), true)
        | Err MeTransient => Val (m, true)
        | Ok mixnodes =>
            let max_mixnodes := N.to_nat (MAX_MIXNODE_INDEX + 1) in
            let mixnodes :=
              if decide (max_mixnodes < length mixnodes) then take max_mixnodes mixnodes
              else mixnodes in
            let '(kx_pair, r) :=
              match ss_get (mx_sessions m) rel with
              | SlKxPair k => (k, r)
              | _ => kx_pair_gen pr r
              end in
            '(topology, r) ← tp_new mixnodes (kp_public kx_pair)
                                   (cf_num_gateway_mixnodes (mx_config m)) r;
            match (if tp_is_mixnode topology then Some (cf_mixnode_session (mx_config m))
                   else cf_non_mixnode_session (mx_config m)) with
            | None => Val (mx_set_sessions m (ss_set (mx_sessions m) rel SlDisabled), true)
            | Some scf =>
                let '(filter, r) := rf_new r in
                let s := {| se_kx_pair := kx_pair;
                            se_topology := topology;
                            se_authored := aq_new (sc_authored scf);
                            se_mean_period := sc_mean_period scf;
                            se_filter := filter |} in
                Val (mx_or_events (mx_put_session m rel s)
                       (ev_or RESERVED_PEERS_CHANGED NEXT_AUTHORED_PACKET_DEADLINE_CHANGED), true)
            end
        end) = Val (m', called)).
    { destruct (ss_get (mx_sessions m) rel); try exact H; destruct Hopen as [?|[? ?]]; done. }
    clear H. apply out_bind_Val in H2 as (i & _ & H).
    destruct mixnodes as [l|[]].
    2:{ injection H as <- <-. by constructor. }
    2:{ injection H as <- <-. constructor; [done|]. by left. }
    cbv zeta in H.
    assert (El : (if decide (N.to_nat (MAX_MIXNODE_INDEX + 1) < length l)
                  then take (N.to_nat (MAX_MIXNODE_INDEX + 1)) l else l) = take (N.to_nat 65280) l).
    { change (MAX_MIXNODE_INDEX + 1)%N with 65280%N. destruct (decide _); [done|].
      symmetry. apply take_ge. apply Nat.nlt_ge; assumption. }
    rewrite El in H. clear El. set (l' := take (N.to_nat 65280) l) in *.
    set (k := match ss_get (mx_sessions m) rel with
                  | SlKxPair k => k
                  | _ => kx_pair_from pr (gen_kx_secret r).1
                  end).
    assert (Ek : exists r1, match ss_get (mx_sessions m) rel with
              | SlKxPair k => (k, r)
              | _ => kx_pair_gen pr r
              end = (k, r1)).
    { unfold k. destruct (ss_get (mx_sessions m) rel); by eexists. }
    destruct Ek as [r1 Ek]. rewrite Ek in H. clear Ek.
    assert (Hl' : length l' ≤ N.to_nat 65280) by (unfold l'; rewrite take_length; lia).
    destruct (C28_new l' (kp_public k) (cf_num_gateway_mixnodes (mx_config m)) r1 Hl')
      as (t & r2 & Et & Htop & Emix & Eloc & Hloc).
    rewrite Et in H. cbn [out_bind] in H.
    assert (Hmix : tp_is_mixnode t = true <-> kp_public k ∈ map mn_kx_public l').
    { unfold tp_is_mixnode. destruct (tp_local_node t).
      - split; [|done]. intros _. destruct Hloc as (mn & Hmn & <- & _). apply elem_of_list_In, in_map, elem_of_list_In.
        by eapply elem_of_list_lookup_2.
      - split; [done|]. by destruct Hloc as [? _]. }
    destruct (if tp_is_mixnode t then _ else _) as [scf|] eqn:Esc.
    - rewrite (surjective_pairing (rf_new r2)) in H. injection H as <- <-.
      apply StMixSet with (s := Session k t (aq_new (sc_authored scf)) (sc_mean_period scf) (rf_new r2).1); [done|].
      constructor; cbn.
      + unfold k. destruct (ss_get (mx_sessions m) rel); done.
      + done.
      + done.
      + destruct (tp_is_mixnode t); [by injection Esc as <-|]. by exists scf.
      + done.
      + done.
      + intros gs Egs. cbn in Egs |- *. rewrite Egs in Hloc. rewrite Emix. by destruct Hloc as [_ Hn].
      + exact (rf_new_key r2).
    - injection H as <- <-. constructor; [done|]. right. exists l. split; [done|].
      destruct (tp_is_mixnode t) eqn:Em; [done|]. split; [done|]. fold k. fold l'.
      intros Hin. apply Hmix in Hin. done.
  Qed.

  Lemma handle_step cf m p now m' msg :
    mx_ok pr cf m -> length p = N.to_nat 2252 ->
    handle_packet pr m p now = Val (m', msg) -> step pr m (CallHandle p now) m' (RespMessage msg).
  Proof.
    intros Hm Hp H.
    destruct (handle_packet_spec pr Hok m p now Hp) as [[Hr E]|(rel & s & Hr & E)]; rewrite E in H; clear E.
    { injection H as <- <-. by constructor. }
    pose proof (content_lengths s p Hp) as Hlen. specialize (Hlen (proj2 (reads_opens _ _ _ _ _ Hr))).
    unfold effect in H. destruct (content_of pr s p) as [t d next|data|id pl|cid|] eqn:Ec.
    - destruct (decide (is_mixnode s /\ has_room m)) as [[Hmx Hroom]|Hno].
      + destruct (tp_target_to_peer_id (se_topology s) t) as [peer|e] eqn:Ep.
        * apply out_bind_Val in H as (dur & Ed & H). injection H as <- <-. by eapply StForward.
        * injection H as <- <-. by eapply StForwardLost.
      + injection H as <- <-. eapply StIgnored; [done|]. by rewrite Ec.
    - destruct (decide (is_mixnode s)) as [Hmx|Hno].
      + apply out_bind_Val in H as ([fa out] & Ef & H). cbv zeta in H.
        destruct out as [g|].
        * apply out_bind_Val in H as (i & Ei & H). injection H as <- <-.
          eapply StRequest; [done..|]. cbn. by exists i.
        * injection H as <- <-. by eapply StRequest.
      + injection H as <- <-. eapply StIgnored; [done|]. by rewrite Ec.
    - destruct (sk_entry (mx_keystore m) id) as [v|] eqn:Ev.
      + cbv zeta in H. pose proof (reply_payload_length pl (sv_keys v) Hlen) as Hpl.
        destruct (decrypt_reply_payload pr pl (sv_keys v)) as [plain [[]|e]] eqn:Ed.
        * apply out_bind_Val in H as ([fa out] & Ef & H). injection H as <- <-. by eapply StReply.
        * injection H as <- <-. eapply StReplyBad; [done..|]. rewrite Ed. by eexists.
      + injection H as <- <-. eapply StIgnored; [done|]. by rewrite Ec.
    - injection H as <- <-. eapply StIgnored; [done|]. by rewrite Ec.
    - injection H as <- <-. eapply StIgnored; [done|]. by rewrite Ec.
  Qed.

  Lemma pick_session_spec m r x r' :
    pick_session m r = Val (x, r') ->
    match x with
    | Some (rel, s) => ss_get (mx_sessions m) rel = SlFull s
    | None => ss_iter (mx_sessions m) = []
    end.
  Proof.
    unfold pick_session, ss_enumerate, ss_iter.
    destruct (ss_current (mx_sessions m)) eqn:Ec, (ss_prev (mx_sessions m)) eqn:Ep; cbn; intros H;
      try (by injection H as <- <-).
    apply out_bind_Val in H as ([b r1] & _ & H). injection H as <- _. by destruct b.
  Qed.

  Lemma pop_authored_step cf m ns r m' p :
    config_ok cf -> mx_ok pr cf m -> length (ns_local_peer_id ns) = 32 ->
    pop_next_authored_packet pr m ns r = Val (m', p) -> step pr m (CallPopAuthored ns r) m' (RespPacket p).
  Proof.
    intros [Hh _] Hm Hns H. unfold pop_next_authored_packet in H.
    apply out_bind_Val in H as ([x r1] & Hpick & H). apply pick_session_spec in Hpick.
    destruct x as [[rel s]|].
    2:{ injection H as <- <-. by constructor. }
    apply out_bind_Val in H as ([loop r2] & _ & H).
    set (m0 := mx_or_events m NEXT_AUTHORED_PACKET_DEADLINE_CHANGED) in *.
    assert (Hget0 : ss_get (mx_sessions m0) rel = SlFull s) by done.
    assert (Hs : sess_ok pr cf s).
    { destruct Hm. destruct rel; cbn in Hpick; [by rewrite Hpick in mo_current0|by rewrite Hpick in mo_prev0]. }
    assert (Hcover : (if negb (cf_gen_cover_packets (mx_config m0)) then Val (m0, None)
            else
              res ← gen_cover_packet pr (se_topology s) ns (if loop then CkLoop else CkDrop) (cf_num_hops (mx_config m0)) r2;
              match res with
              | Ok p => Val (m0, Some p)
              | Err _ => Val (m0, None)
              end) = Val (m', p) -> step pr m (CallPopAuthored ns r) m' (RespPacket p)).
    { intros H'. change (mx_config m0) with (mx_config m) in H'.
      destruct (cf_gen_cover_packets (mx_config m)) eqn:Egen; cbn [negb] in H'.
      2:{ injection H' as <- <-. by eapply StPopCover. }
      destruct (gen_cover_spec (mx_config m) s ns (if loop then CkLoop else CkDrop) r2) as (res & E & Hres).
      { apply Hs. } { done. } { by rewrite (mo_config _ _ _ Hm). }
      rewrite E in H'. cbn [out_bind] in H'. destruct res as [q|e]; injection H' as <- <-.
      - eapply StPopCover; [done|]. split; [done|]. eexists. exact Hres.
      - by eapply StPopCover. }
    destruct (negb loop && allow_requests_and_replies (st_phase (mx_status m0)) rel) eqn:Ea.
    - apply andb_true_iff in Ea as [_ Ea]. apply phase_allows_spec in Ea.
      pose proof (C23_pop (se_authored s)) as Hpop.
      destruct (aq_pop (se_authored s)) as [[q packet] space] eqn:Eq. destruct packet as [pk|].
      + destruct Hpop as [Hq Hc]. injection H as <- <-.
        pose proof (StPopQueued pr m ns r rel s pk (aq_queue q) Hpick Ea Hq) as Hst. cbv zeta in Hst.
        rewrite Eq in Hst. cbn [snd] in Hst. replace (AuthoredQueue (aq_config (se_authored s)) (aq_queue q)) with q in Hst
          by (rewrite <- Hc; by destruct q). exact Hst.
      + destruct Hpop as (-> & _ & ->).
        replace (mx_put_session m0 rel (se_set_authored s (se_authored s))) with m0 in H.
        2:{ symmetry. replace (se_set_authored s (se_authored s)) with s by (by destruct s). by apply put_session_same. }
        by apply Hcover.
    - by apply Hcover.
  Qed.

  Lemma mx_posting cf m : config_ok cf -> mx_ok pr cf m -> posting_ok m.
  Proof.
    intros [Hh _] [Hc H1 H2 _ _ _ [Hk _] _]. split_and!; [by rewrite Hc|done|].
    intros [] s E; cbn in E; [rewrite E in H1; apply H1|rewrite E in H2; apply H2].
  Qed.

  Theorem exec_step cf m c m' a :
    config_ok cf -> mx_ok pr cf m -> call_ok c -> exec pr m c = Val (m', a) -> step pr m c m' a.
  Proof.
    intros Hcf Hm Hc H. pose proof (mx_posting _ _ Hcf Hm) as Hpost.
    destruct c as [st|rel mixnodes r|r|p now|tie|ns r|index dest id data num_surbs ns r|surbs index id data|]; cbn [exec] in H.
    - injection H as <- <-. constructor.
    - apply out_bind_Val in H as ([m1 b] & E & H). injection H as <- <-. by apply mixnodes_step.
    - unfold next_kx_public in H. destruct (mx_next_kx_pair m) as [k|] eqn:Ek.
      + injection H as <- <-. by constructor.
      + unfold kx_pair_gen in H. rewrite (surjective_pairing (gen_kx_secret r)) in H. injection H as <- <-. by constructor.
    - apply out_bind_Val in H as ([m1 b] & E & H). injection H as <- <-. by eapply handle_step.
    - unfold pop_next_forward_packet in H. destruct (fq_pop _ tie) as [q p] eqn:E. injection H as <- <-. by constructor.
    - apply out_bind_Val in H as ([m1 b] & E & H). injection H as <- <-. by eapply pop_authored_step.
    - apply out_bind_Val in H as ([[m1 b] res] & E & H). injection H as <- <-. destruct Hc as (Ha & Hns & _).
      destruct (post_request_any pr m index dest id data num_surbs ns r Hok Hpost Ha Hns) as
        [E'|[(e & E')|(m2 & d & mt & rel & s & g & bs & ps & E' & Hp)]]; rewrite E' in E; [done| |].
      + injection E as <- <- <-. constructor.
      + injection E as <- <- <-. by eapply StPosted.
    - apply out_bind_Val in H as ([[m1 b] res] & E & H). injection H as <- <-. destruct Hc as (Ha & _).
      destruct (C37_post_reply pr m surbs index id data Hpost Ha) as
        [(e & E' & _)|(rel & s & bs & used & packets & left & res' & Hu & Eb & Hn & (Hfit & _) & E' & Hres)]; rewrite E' in E.
      + injection E as <- <- <-. constructor.
      + injection E as <- <- <-. destruct res' as [[]|e].
        * destruct Hres as [Hs Hf]. assert (length bs = length packets) by (by eapply Forall3_length_lr).
          eapply (StReplied _ _ _ _ _ _ _ _ bs used packets left []); [done..| |done]. rewrite take_ge by lia. done.
        * destruct Hres as (bs1 & b & bs2 & bad & -> & Hs & Hf & _).
          assert (length bs1 = length packets) as Hl by (by eapply Forall3_length_lr).
          eapply (StReplied _ _ _ _ _ _ _ _ (bs1 ++ b :: bs2) used packets left [bad]); [done..| |].
          -- rewrite <- Hl, take_app. done.
          -- rewrite app_length. cbn. lia.
    - injection H as <- <-. constructor.
  Qed.
End exec.
(** ** The invariant holds in every reachable state *)
Section inv.
  Context (pr : prims) (Hok : prims_ok pr) (cf : config).

  Lemma mx_ok_events m e : mx_ok pr cf m -> mx_ok pr cf (mx_or_events m e).
  Proof. intros []. by constructor. Qed.
  Lemma mx_ok_slot m rel sl :
    mx_ok pr cf m -> slot_ok pr cf sl -> ss_get (mx_sessions m) rel <> SlDisabled -> mx_ok pr cf (set_slot m rel sl).
  Proof.
    intros [? ? ? Hdis] Hs Hd. destruct m as [? ? [cur prev] ? ? ? ? ?], rel; cbn in *; constructor; cbn; try done.
    intros H. by apply Hdis in H.
  Qed.
  Lemma mx_ok_full m rel s : mx_ok pr cf m -> ss_get (mx_sessions m) rel = SlFull s -> sess_ok pr cf s.
  Proof. intros Hm E. pose proof (mo_current _ _ _ Hm). pose proof (mo_prev _ _ _ Hm). destruct rel; cbn in E; by rewrite E in *. Qed.
  Lemma mx_ok_put m rel s s' :
    mx_ok pr cf m -> ss_get (mx_sessions m) rel = SlFull s -> sess_ok pr cf s' -> mx_ok pr cf (mx_put_session m rel s').
  Proof. intros Hm E Hs. apply mx_ok_slot; [done|done|by rewrite E]. Qed.
  Lemma sess_ok_filter s f :
    sess_ok pr cf s -> is_mixnode s -> rf_key f = rf_key (se_filter s) -> sess_ok pr cf (se_set_filter s f).
  Proof. intros [] Hm Ek. constructor; cbn; try done; [intros H; unfold is_mixnode in Hm; congruence|by rewrite Ek]. Qed.
  Lemma sess_ok_queue s q :
    sess_ok pr cf s -> (N.of_nat (length q) <= apc_capacity (aq_config (se_authored s)))%N ->
    Forall (fun p => wire_ok p /\ exists mn, mn ∈ tp_mixnodes (se_topology s) /\ ap_peer_id p = mn_peer_id mn) q ->
    sess_ok pr cf (se_set_authored s (AuthoredQueue (aq_config (se_authored s)) q)).
  Proof. intros [] Hl Hq. by constructor. Qed.
  Lemma mx_ok_noted m rel s p :
    mx_ok pr cf m -> ss_get (mx_sessions m) rel = SlFull s -> is_mixnode s -> mx_ok pr cf (noted pr m rel s p).
  Proof.
    intros Hm E Hs. eapply mx_ok_put; [done|done|]. apply sess_ok_filter; [|done|done]. by eapply mx_ok_full.
  Qed.
  Lemma mx_ok_assembler m f fa out :
    mx_ok pr cf m -> length f = N.to_nat 2048 -> fa_insert (mx_assembler m) f = Val (fa, out) ->
    mx_ok pr cf (mx_set_assembler m fa).
  Proof.
    intros [? ? ? ? ? ? ? Hasm] Hf E. destruct Hasm as (Hi & H1 & H2 & H3).
    destruct (fa_insert_case _ _ f Hi Hf I) as (fa' & out' & E' & Hc). rewrite E in E'. injection E' as <- <-.
    destruct (insert_case_limits _ _ _ _ _ Hc) as (? & ? & ?). apply insert_case_inv in Hc; [|done].
    constructor; cbn; try done. split_and!; [done|congruence..].
  Qed.
  Lemma mx_ok_keystore m ks :
    mx_ok pr cf m -> ks_ok ks -> sk_capacity ks = sk_capacity (mx_keystore m) -> mx_ok pr cf (mx_set_keystore m ks).
  Proof. intros [? ? ? ? ? ? Hks ?] Hk Hc. constructor; cbn; try done. split; [done|]. rewrite Hc. apply Hks. Qed.
  Lemma reply_made_wire t b u p :
    length u = 222 -> length (fb_message_id b) = 16 -> reply_made pr t b u p -> wire_ok p.
  Proof.
    intros Hu Hb (_ & pad & i & Hl & E). unfold wire_ok.
    match type of E with complete_reply_packet pr ?X _ = _ => set (x := X) in E end.
    assert (Hx : length x = N.to_nat 2252).
    { unfold x, frag_bytes. rewrite !app_length, !replicate_length, !length_to_le16, Hb. cbn [length reverse concat]. 
      change (length (concat (reverse []))) with 0. lia. }
    clearbody x. unfold complete_reply_packet in E. injection E as <- _. rewrite app_length.
    unfold slice at 1. rewrite take_length, drop_length.
    unfold decrypt_payload. rewrite (lioness_decrypt_length pr Hok).
    - rewrite Hu. change RAW_MIXNODE_INDEX_SIZE with 2. szlia.
    - rewrite put_length; rewrite drop_length; change HEADER_SIZE with 188; [szlia|].
      change (length PAYLOAD_TAG) with 16. change PAYLOAD_DATA_SIZE with (N.to_nat 2048). lia.
  Qed.
  Lemma mx_new_ok m : config_ok cf -> mx_new pr cf = Val m -> mx_ok pr cf m.
  Proof.
    intros [_ Hk] H. unfold mx_new in H. cbv zeta in H. apply out_bind_Val in H as (ks & Eks & H). injection H as <-.
    unfold sk_new in Eks. destruct (N.eqb_spec (cf_surb_keystore_capacity cf) 0) as [|Hc]; [done|].
    cbn in Eks. injection Eks as <-.
    constructor; cbn; try done.
    - destruct (cf_session_0_kx_secret cf) as [k|] eqn:E; [|done]. exists k. split; [by apply Hk|done].
    - split_and!; [done|lia|constructor].
    - split; [|done]. split_and!; cbn; [lia|lia|constructor].
    - split; [apply fa_new_inv|done].
  Qed.
  Lemma set_status_ok m st : mx_ok pr cf m -> mx_ok pr cf (set_session_status m st).
  Proof.
    intros Hm. unfold set_session_status. destruct (decide (mx_status m = st)) as [|Hne]; [done|].
    assert (H1 : forall m1, m1 = shift_sessions m (st_current_index st) ->
      mx_config m1 = cf /\ slot_ok pr cf (ss_current (mx_sessions m1)) /\ slot_ok pr cf (ss_prev (mx_sessions m1)) /\
      match mx_next_kx_pair m1 with Some k => kx_ok pr k | None => True end /\
      mx_forward m1 = mx_forward m /\ mx_keystore m1 = mx_keystore m /\ mx_assembler m1 = mx_assembler m).
    { intros m1 ->. unfold shift_sessions. destruct Hm as [Hcf Hcur Hprev Hdis Hnext Hf Hks Hfa].
      assert (Hnk : slot_ok pr cf (match mx_next_kx_pair m with None => SlEmpty | Some k => SlKxPair k end))
        by (by destruct (mx_next_kx_pair m)).
      destruct (_ =? _)%N; [by split_and!|]. cbn.
      destruct (saturating_sub _ _) as [|[[?|?|]|[?|?|]|]]; cbn;
        repeat match goal with |- context [if ?b then _ else _] => destruct b end; by split_and!. }
    cbv zeta. specialize (H1 _ eq_refl). set (m1 := shift_sessions m (st_current_index st)) in *. clearbody m1.
    destruct H1 as (Hcf & Hcur & Hprev & Hnext & E1 & E2 & E3). destruct Hm as [_ _ _ _ _ Hf Hks Hfa].
    destruct (negb (need_prev (st_phase st)) || (st_current_index st =? 0)%N) eqn:Ed; constructor; cbn;
      try done; rewrite ?E1, ?E2, ?E3; try done.
    intros [H|H]; exfalso.
    - rewrite H in Ed. by rewrite orb_true_r in Ed.
    - by rewrite H in Ed.
  Qed.

  Theorem step_inv m c m' a : config_ok cf -> mx_ok pr cf m -> call_ok c -> step pr m c m' a -> mx_ok pr cf m'.
  Proof.
    intros Hcf Hm Hc H. destruct H; try done.
    - by apply set_status_ok.
    - apply mx_ok_slot; [done|done|]. destruct H as [->|[? ->]]; done.
    - apply mx_ok_events, mx_ok_slot; [done| |destruct H as [->|[? ->]]; done].
      destruct H0 as [Hkey (Ht & Emix & Eloc) Hmix Hconf Hq Hf Hgw Hfk]. rewrite (mo_config _ _ _ Hm) in Hconf, Hgw.
      constructor; try done.
      + rewrite Emix. apply Forall_take. exact Hc.
      + assert (Hnew : kx_ok pr (kx_pair_from pr (gen_kx_secret r).1)).
        { eexists. split; [|done]. apply rng_fill_length. }
        pose proof (mo_current _ _ _ Hm) as Hcur. pose proof (mo_prev _ _ _ Hm) as Hprev.
        destruct H as [E|[k E]]; rewrite E in Hkey; rewrite Hkey; [done|].
        destruct rel; cbn in E; by rewrite E in *.
      + unfold aq_len. rewrite Hq. cbn. lia.
      + rewrite Hq. constructor.
    - destruct Hm. constructor; cbn; try done. eexists. split; [|done]. apply rng_fill_length.
    - assert (Hget : ss_get (mx_sessions m) rel = SlFull s) by (by eapply reads_get).
      pose proof (mx_ok_noted _ _ _ p Hm Hget H1) as Hn. unfold enqueue.
      set (m1 := noted pr m rel s p) in *. assert (Ef : mx_forward m1 = mx_forward m) by done. clearbody m1.
      assert (Hq : forall q, q = ForwardQueue (fq_capacity (mx_forward m1)) (fq_queue (mx_forward m1) ++
         [ForwardPacket (now + dur)%N (AddressedPacket peer next)]) -> mx_ok pr cf (mx_set_forward m1 q)).
      { intros q ->. destruct Hn as [? ? ? ? ? (Hfc & Hfl & Hff) ? ?]. constructor; cbn; try done.
        split_and!; [done| |].
        - rewrite app_length. cbn. unfold has_room in H2. rewrite <- Hfc, Ef. lia.
        - apply Forall_app. split; [done|]. by repeat constructor. }
      destruct (decide _); [by apply Hq|]. by apply mx_ok_events, Hq.
    - apply mx_ok_noted; [done|by eapply reads_get|done].
    - eapply mx_ok_assembler; [|exact H2|].
      + apply mx_ok_noted; [done|by eapply reads_get|done].
      + exact H3.
    - apply mx_ok_keystore; [done|..]; apply C20_remove, Hm.
    - eapply (mx_ok_assembler _ (take (N.to_nat 2048) plain)); [|rewrite take_length; lia|].
      + apply mx_ok_keystore; [done|..]; apply C20_remove, Hm.
      + done.
    - pose proof (C21_pop (mx_forward m) tie) as Hp. rewrite H in Hp.
      destruct Hm as [? ? ? ? ? (Hfc & Hfl & Hff) ? ?]. constructor; cbn; try done.
      destruct p as [a|].
      + destruct Hp as (fp & <- & _ & Hperm & Hcap). rewrite Hperm in Hff. apply Forall_cons in Hff as [_ Hff].
        apply Permutation_length in Hperm. cbn in Hperm. split_and!; [congruence|lia|done].
      + destruct Hp as [-> _]. done.
    - assert (Hm1 : mx_ok pr cf m1).
      { unfold m1. apply mx_ok_slot; [by apply mx_ok_events| |cbn; by rewrite H].
        pose proof (mx_ok_full _ _ _ Hm H) as Hs. apply sess_ok_queue; [done| |].
        - destruct Hs as [_ _ _ _ _ Ha _ _]. unfold aq_len in Ha. rewrite H1 in Ha. cbn in Ha. lia.
        - destruct Hs as [_ _ _ _ _ _ Ha _]. rewrite H1 in Ha. by apply Forall_cons in Ha as [_ ?]. }
      destruct (aq_pop (se_authored s)).2; [by apply mx_ok_events|done].
    - by apply mx_ok_events.
    - destruct H as [Hg [Hgen Hgok] Hdest Hplan Hnum [Hfits _] Hpk Hsu Hids -> Hks _ _ _ _].
      assert (Hget : ss_get (mx_sessions m) rel = SlFull s) by (by eapply usable_get).
      pose proof (mx_ok_full _ _ _ Hm Hget) as Hs.
      eapply mx_ok_put; [|done|].
      + apply mx_ok_keystore; [done|by destruct rel|]. apply ks_pushes_surbs, Hm.
      + apply sess_ok_queue; [done| |].
        * rewrite app_length, map_length. destruct Hfits as [Hf _]. lia.
        * apply Forall_app. split; [apply Hs|]. apply Forall_forall. intros x (p & -> & Hp)%elem_of_list_fmap.
          destruct (C25_generator (se_topology s) ns (so_topology _ _ _ Hs)) as (g' & Eg & _ & Et & _).
          rewrite Hgen in Eg. injection Eg as <-.
          apply elem_of_list_lookup in Hp as [i Hi].
          destruct (Forall2_lookup_r _ _ _ _ _ Hpk Hi) as (b & _ & Hmade).
          destruct Hmade as (_ & _ & _ & _ & Epeer & Hlen & _). split; [exact Hlen|].
          rewrite Et in Epeer. unfold tp_index_to_peer_id in Epeer.
          destruct (tp_mixnodes (se_topology s) !! _) as [mn|] eqn:Emn; [|done]. injection Epeer as Epeer.
          exists mn. split; [by eapply elem_of_list_lookup_2|done].
    - destruct Hc as [Hargs Hsurbs]. assert (Hget : ss_get (mx_sessions m) rel = SlFull s) by (by eapply usable_get).
      pose proof (mx_ok_full _ _ _ Hm Hget) as Hs.
      assert (Hlen : length packets ≤ length bs) by (destruct res; lia).
      eapply mx_ok_put; [done|done|]. apply sess_ok_queue; [done| |].
      + rewrite app_length. destruct H1 as [Hf _]. lia.
      + apply Forall_app. split; [apply Hs|]. apply Forall_lookup. intros i p Hi.
        pose proof (blueprints_ok _ _ _ _ Hargs H0) as Hbs.
        destruct (Forall3_lookup_r _ _ _ _ _ _ H3 Hi) as (b & u & Hb & Hu & Hmade).
        rewrite H2 in Hsurbs. apply Forall_app in Hsurbs as [_ Hsurbs]. apply Forall_app in Hsurbs as [_ Hsurbs].
        apply Forall_reverse in Hsurbs. rewrite reverse_involutive, Forall_lookup in Hsurbs. specialize (Hsurbs i u Hu).
        apply lookup_take_Some in Hb as [Hb _]. rewrite Forall_lookup in Hbs. destruct (Hbs i b Hb) as (_ & Hid & _).
        split; [by eapply reply_made_wire|]. destruct Hmade as [Hfirst _]. unfold first_hop in Hfirst.
        destruct (tp_mixnodes (se_topology s) !! _) as [mn|] eqn:Emn; [|done]. injection Hfirst as Hfirst.
        exists mn. split; [by eapply elem_of_list_lookup_2|done].
    - destruct Hm; by constructor.
  Qed.

  Lemma run_ok m hist m' : config_ok cf -> mx_ok pr cf m -> run pr m hist m' -> mx_ok pr cf m'.
  Proof.
    intros Hcf Hm H. induction H as [|m c a m1 hist m2 Hc He _ IH]; [done|].
    apply IH. eapply step_inv; [done|done|done|]. by eapply exec_step.
  Qed.
  Theorem reachable_ok hist m : reachable pr cf hist m -> mx_ok pr cf m.
  Proof. intros (Hcf & m0 & Hnew & Hrun). eapply run_ok; [done| |done]. by apply mx_new_ok. Qed.
End inv.
