(** Posting requests and replies: C30, C35, C36, C37. *)
From Verif Require Export LPost.

(** ** C30: specification

    The session named by an absolute index can be used: it is the current one, from the phase
    RequestsToCurrent on, or the one before, until the phase RequestsToCurrent, and its mixnodes are
    known. *)
Inductive in_time : session_status -> session_index -> rel_session_index -> Prop :=
| InTimeCurrent i ph :
    ph = PRequestsToCurrent \/ ph = PCoverToPrev \/ ph = PDisconnectFromPrev ->
    in_time (SessionStatus i ph) i RCurrent
| InTimePrev i ph :
    ph = PCoverToCurrent \/ ph = PRequestsToCurrent ->
    in_time (SessionStatus (i + 1) ph) i RPrev.
Definition usable (m : mixnet) (index : session_index) (rel : rel_session_index) (s : session) : Prop :=
  in_time (mx_status m) index rel /\
  match rel with
  | RCurrent => ss_current (mx_sessions m) = SlFull s
  | RPrev => ss_prev (mx_sessions m) = SlFull s
  end.
(** Why it cannot be used. *)
Inductive unusable (m : mixnet) (index : session_index) : post_err -> Prop :=
| UnPast :
    (index + 1 < st_current_index (mx_status m))%N \/
    ((index + 1 = st_current_index (mx_status m))%N /\
     (st_phase (mx_status m) = PCoverToPrev \/ st_phase (mx_status m) = PDisconnectFromPrev)) ->
    unusable m index (PeSessionNoLongerActive index)
| UnFuture :
    (st_current_index (mx_status m) < index)%N \/
    (index = st_current_index (mx_status m) /\ st_phase (mx_status m) = PCoverToCurrent) ->
    unusable m index (PeSessionNotActiveYet index)
| UnNotKnown rel :
    in_time (mx_status m) index rel ->
    (let sl := match rel with RCurrent => ss_current (mx_sessions m) | RPrev => ss_prev (mx_sessions m) end in
     sl = SlEmpty \/ exists k, sl = SlKxPair k) ->
    unusable m index (PeSessionMixnodesNotKnown index)
| UnDisabled rel :
    in_time (mx_status m) index rel ->
    match rel with RCurrent => ss_current (mx_sessions m) | RPrev => ss_prev (mx_sessions m) end = SlDisabled ->
    unusable m index (PeSessionDisabled index).

Lemma in_time_rel st i rel rel' : in_time st i rel -> in_time st i rel' -> rel = rel'.
Proof. intros H H'. inversion H; subst; inversion H'; subst; try done; lia. Qed.

Lemma post_session_spec m index :
  match post_session (mx_sessions m) (mx_status m) index with
  | Ok (rel, s) => usable m index rel s
  | Err e => unusable m index e
  end.
Proof.
  unfold post_session, rsi_from_session_index, checked_sub.
  destruct (mx_status m) as [cur ph] eqn:Est. cbn [st_current_index st_phase].
  destruct (N.leb_spec index cur) as [Hle|Hgt].
  2:{ destruct (N.ltb_spec index cur); [lia|]. constructor. rewrite Est. left. done. }
  destruct (decide (cur - index = 0)%N) as [E0|E0].
  - rewrite E0. assert (index = cur) as -> by lia. cbn [ss_get].
    destruct (decide (ph = PCoverToCurrent)) as [->|Hph].
    { cbn. apply UnFuture. rewrite Est. by right. }
    assert (Ht : in_time (SessionStatus cur ph) cur RCurrent) by (constructor; destruct ph; tauto).
    replace (negb _) with false by (by destruct ph).
    destruct (ss_current (mx_sessions m)) eqn:Es.
    + eapply UnNotKnown with (rel := RCurrent); rewrite ?Est, ?Es; [done|by left].
    + eapply UnNotKnown with (rel := RCurrent); rewrite ?Est, ?Es; [done|right; by eexists].
    + eapply UnDisabled with (rel := RCurrent); by rewrite ?Est, ?Es.
    + split; by rewrite ?Est.
  - destruct (decide (cur - index = 1)%N) as [E1|E1].
    + rewrite E1. assert (cur = (index + 1)%N) as -> by lia. cbn [ss_get].
      destruct (decide (ph = PCoverToPrev \/ ph = PDisconnectFromPrev)) as [Hph|Hph].
      { replace (negb _) with true by (destruct Hph as [-> | ->]; done).
        constructor. rewrite Est. right. done. }
      assert (Ht : in_time (SessionStatus (index + 1) ph) index RPrev) by (constructor; destruct ph; tauto).
      replace (negb _) with false by (destruct ph; (done || tauto)).
      destruct (ss_prev (mx_sessions m)) eqn:Es.
      * eapply UnNotKnown with (rel := RPrev); rewrite ?Est, ?Es; [done|by left].
      * eapply UnNotKnown with (rel := RPrev); rewrite ?Est, ?Es; [done|right; by eexists].
      * eapply UnDisabled with (rel := RPrev); by rewrite ?Est, ?Es.
      * split; by rewrite ?Est.
    + assert ((match (cur - index)%N with 0%N => Some RCurrent | 1%N => Some RPrev | _ => None end) = None) as ->.
      { destruct (cur - index)%N as [|[| |]]; try done. }
      destruct (N.ltb_spec index cur); [|lia]. apply UnPast. rewrite Est. left. cbn. lia.
Qed.

(** The two descriptions exclude each other, and the reason is unique, so that both are exact. *)
Lemma usable_unusable m i rel s e : usable m i rel s -> unusable m i e -> False.
Proof.
  intros [Ht Hs] Hu. inversion Hu as [Hp|Hf|rel' Ht' Hsl|rel' Ht' Hsl]; subst.
  - inversion Ht as [? ? Hph E|? ? Hph E]; subst; rewrite <- E in Hp; cbn in Hp;
      destruct Hp as [Hp|[Hp Hp']]; try lia; destruct Hph as [->|[->| ->]] || destruct Hph as [->| ->];
      by destruct Hp'.
  - inversion Ht as [? ? Hph E|? ? Hph E]; subst; rewrite <- E in Hf; cbn in Hf;
      destruct Hf as [Hp|[Hp Hp']]; try lia.
    destruct Hph as [->|[->| ->]]; done.
  - assert (rel' = rel) as -> by (by eapply in_time_rel). destruct rel; cbn in Hsl; destruct Hsl as [?|[? ?]]; congruence.
  - assert (rel' = rel) as -> by (by eapply in_time_rel). destruct rel; congruence.
Qed.
Lemma unusable_unique m i e e' : unusable m i e -> unusable m i e' -> e = e'.
Proof.
  intros H H'.
  assert (Hto : forall rel, in_time (mx_status m) i rel ->
    ~ ((i + 1 < st_current_index (mx_status m))%N \/
    ((i + 1 = st_current_index (mx_status m))%N /\
     (st_phase (mx_status m) = PCoverToPrev \/ st_phase (mx_status m) = PDisconnectFromPrev))) /\
    ~ ((st_current_index (mx_status m) < i)%N \/
    (i = st_current_index (mx_status m) /\ st_phase (mx_status m) = PCoverToCurrent))).
  { intros rel Ht. inversion Ht as [? ? Hph E|? ? Hph E]; subst; cbn;
      split; (intros [Hp|[Hp Hp']]; [lia|]); try lia; destruct Hph as [->|[->| ->]] || destruct Hph as [->| ->];
      try done; by destruct Hp'. }
  inversion H as [Hp|Hf|rel Ht Hsl|rel Ht Hsl]; subst; inversion H' as [Hp'|Hf'|rel' Ht' Hsl'|rel' Ht' Hsl']; subst;
    try done; try (by edestruct Hto; eauto).
  - destruct Hp as [Hp|[Hp Hp']], Hf' as [Hf'|[Hf' Hf'']]; lia.
  - destruct Hp' as [Hp|[Hp Hp']], Hf as [Hf'|[Hf' Hf'']]; lia.
  - assert (rel' = rel) as -> by (by eapply in_time_rel). destruct rel; cbn in *; destruct Hsl as [?|[? ?]]; congruence.
  - assert (rel' = rel) as -> by (by eapply in_time_rel). destruct rel; cbn in *; destruct Hsl' as [?|[? ?]]; congruence.
Qed.

(** C30: exact conditions for finding a usable session, and exact errors. *)
Theorem C30_post_session (m : mixnet) (index : session_index) :
  (forall rel s, post_session (mx_sessions m) (mx_status m) index = Ok (rel, s) <-> usable m index rel s) /\
  (forall e, post_session (mx_sessions m) (mx_status m) index = Err e <-> unusable m index e).
Proof.
  pose proof (post_session_spec m index) as H.
  destruct (post_session (mx_sessions m) (mx_status m) index) as [[rel s]|e].
  - split.
    + intros rel' s'. split; [intros [= <- <-]; done|]. intros H'.
      assert (rel' = rel) as ->. { destruct H, H'. by eapply in_time_rel. }
      destruct H as [_ H], H' as [_ H']. destruct rel; congruence.
    + intros e. split; [done|]. intros H'. by destruct (usable_unusable _ _ _ _ _ H H').
  - split.
    + intros rel' s'. split; [done|]. intros H'. by destruct (usable_unusable _ _ _ _ _ H' H).
    + intros e'. split; [by intros [= <-]|]. intros H'. by rewrite (unusable_unique _ _ _ _ H H').
Qed.

(** ** C35: specification *)

(** [n] is the number of fragments needed for [d] bytes of data and [s] SURBs: the least possible,
    but at least one. *)
Definition needs (d s : N) (n : nat) : Prop :=
  1 ≤ n /\ (exists l, packs l d s /\ length l = n) /\ forall l, packs l d s -> n ≤ Nat.max (length l) 1.
(** The data length of a message *)
Definition data_len (data : scattered N) : N := N.of_nat (length (sc_contents data)).
(** What the types of the arguments guarantee. *)
Definition args_ok (id : bytes) (data : scattered N) (num_surbs : N) : Prop :=
  length id = 16 /\ sc_wf data /\ (data_len data <= USIZE_MAX)%N /\ (num_surbs <= USIZE_MAX)%N.

(** Why a request is refused. *)
Definition refusal (m : mixnet) (index : session_index) (dest : option mixnode_index)
    (data : scattered N) (num_surbs : N) (ns : network_status) (e : post_err) : Prop :=
  match e with
  | PeTooManyFragments =>
      forall n, needs (data_len data) num_surbs n ->
        (65536 < N.of_nat n)%N \/ (cf_max_fragments_per_message (mx_config m) < N.of_nat n)%N \/
        exists rel s, usable m index rel s /\ (apc_capacity (aq_config (se_authored s)) < N.of_nat n)%N
  | PeNotEnoughSpaceInQueue =>
      exists rel s n, usable m index rel s /\ needs (data_len data) num_surbs n /\
        (N.of_nat n <= apc_capacity (aq_config (se_authored s)))%N /\
        ~ fits (apc_capacity (aq_config (se_authored s))) (apc_multiple_messages (aq_config (se_authored s)))
               (N.of_nat (length (aq_queue (se_authored s)))) (N.of_nat n)
  | PeTopology te =>
      exists rel s g, usable m index rel s /\ rg_new (se_topology s) ns = Val g /\
        match te with
        | TeNoConnectedGatewayMixnodes => no_gateway g
        | TeTooFewMixnodes =>
            (dest = None /\ forall r d r', choose_destination_index g r <> Val (Ok (d, r'))) \/
            exists d, valid_index (se_topology s) d /\ (dest = None \/ dest = Some d) /\
              ~ enough_mixnodes g (RkToMixnode d) (cf_num_hops (mx_config m))
        | TeBadMixnodeIndex _ => False
        end
  | PeBadSurb => False
  | _ => unusable m index e
  end.

(** What a successful request does: [ps] are the packets made. *)
Record posted (pr : prims) (m : mixnet) (index : session_index) (dest : option mixnode_index)
    (id : bytes) (data : scattered N) (num_surbs : N) (ns : network_status) (r : rng)
    (m' : mixnet) (d : mixnode_index) (metrics : request_metrics)
    (rel : rel_session_index) (s : session) (g : route_generator)
    (bs : list fragment_blueprint) (ps : list made_packet) : Prop := {
  po_usable : usable m index rel s;
  po_generator : rg_new (se_topology s) ns = Val g /\ gen_ok g;
  po_dest : valid_index (se_topology s) d /\ (dest = None \/ dest = Some d);
  (** the plan *)
  po_plan : fragment_blueprints id data num_surbs = Val (Some bs);
  po_number : needs (data_len data) num_surbs (length ps);
  po_fits : fits (apc_capacity (aq_config (se_authored s))) (apc_multiple_messages (aq_config (se_authored s)))
              (N.of_nat (length (aq_queue (se_authored s)))) (N.of_nat (length ps)) /\
            (N.of_nat (length ps) <= cf_max_fragments_per_message (mx_config m))%N;
  po_packets : Forall2 (packet_made pr g d (cf_num_hops (mx_config m))) bs ps;
  po_surbs : N.of_nat (length (all_surbs ps)) = num_surbs;
  po_ids : exists r', same_tape r r' /\ ids_drawn r r' (all_surbs ps);
  (** the new state *)
  po_state : m' = mx_put_session
      (mx_set_keystore m (ks_pushes (mx_keystore m) (map (surb_entry id) (all_surbs ps)))) rel
      (se_set_authored s (AuthoredQueue (aq_config (se_authored s))
         (aq_queue (se_authored s) ++ map mp_packet ps)));
  po_keystore : ks_ok (mx_keystore m');
  (** the metrics *)
  po_hops : rqm_num_hops metrics =
      max_nat 0 (map (fun p => route_len (mp_route p)) ps) +
      max_nat 0 (map (fun u => route_len (ms_route u)) (all_surbs ps));
  po_delay : exists dq dl,
      max_delays delay_zero (map mp_delay ps) = Val dq /\ delay_sum pr 5 dq /\
      max_delays delay_zero (map ms_delay (all_surbs ps)) = Val dl /\ delay_sum pr 5 dl /\
      delay_to_duration (delay_add dq dl) (cf_mean_forwarding_delay (mx_config m)) =
        Val (rqm_forwarding_delay metrics);
  po_net : rqm_per_hop_net_delay metrics = cf_per_hop_net_delay (mx_config m);
  po_queue_delay : estimate_authored_packet_queue_delay (mx_config m)
      (se_set_authored s (AuthoredQueue (aq_config (se_authored s))
         (aq_queue (se_authored s) ++ map mp_packet ps))) = Val (rqm_authored_packet_queue_delay metrics)
}.

(** Why posting may panic: equal random SURB ids, a delay that is not a number, or a duration that
    does not fit into its type. *)
Definition float_trouble (pr : prims) (cf : config) (s : session) : Prop :=
  nan_delay pr \/
  (exists a b, delay_sum pr 5 a /\ delay_sum pr 5 b /\
     delay_to_duration (delay_add a b) (cf_mean_forwarding_delay cf) = Panic) \/
  (exists q, (aq_len q <= apc_capacity (aq_config (se_authored s)))%N /\
     estimate_authored_packet_queue_delay cf (se_set_authored s q) = Panic).

Lemma needs_blueprints id data s bs :
  sc_wf data -> (data_len data <= USIZE_MAX)%N -> (s <= USIZE_MAX)%N ->
  fragment_blueprints id data s = Val (Some bs) -> needs (data_len data) s (length bs).
Proof.
  intros Hwf Hd Hs E. destruct (C02_minimal id data s bs Hwf Hd Hs E) as [Hp Hm].
  pose proof (C02_total id data s Hwf Hd Hs) as Ht. rewrite E in Ht.
  split; [lia|]. split.
  - exists (plan_of bs). split; [done|]. unfold plan_of. by rewrite map_length.
  - done.
Qed.
Lemma needs_unique d s n n' : needs d s n -> needs d s n' -> n = n'.
Proof.
  intros (H1 & (l & Hl & E) & H2) (H1' & (l' & Hl' & E') & H2').
  specialize (H2 _ Hl'). specialize (H2' _ Hl). lia.
Qed.
Lemma blueprints_ok id data s bs :
  args_ok id data s -> fragment_blueprints id data s = Val (Some bs) -> Forall blueprint_ok bs.
Proof.
  intros (Hid & Hwf & Hd & Hs) E.
  destruct (fragment_blueprints_spec id data s Hwf Hd Hs) as (n & _ & _ & [[_ E']|(_ & bs' & E' & _ & [Hp _] & Hw & _ & Hi)]);
    rewrite E in E'; [done|]. injection E' as <-.
  unfold plan_of in Hp. apply Forall_lookup. intros i b Hb. destruct (Hi i b Hb) as (Hm & _).
  rewrite Forall_lookup in Hw. specialize (Hw i b Hb).
  rewrite Forall_map, Forall_lookup in Hp. specialize (Hp i b Hb). cbn in Hp.
  split; [done|]. split; [by rewrite Hm|]. unfold sc_wf in Hw. by rewrite Hw in Hp.
Qed.
Lemma all_surbs_count pr g d h bs ps :
  Forall2 (packet_made pr g d h) bs ps ->
  N.of_nat (length (all_surbs ps)) = foldr (fun '(_, si) acc => si + acc)%N 0%N (plan_of bs).
Proof.
  induction 1 as [|b p bs ps (_ & Hn & _) _ IH]; [done|].
  unfold all_surbs in *. cbn [map concat plan_of foldr]. rewrite app_length. unfold plan_of in *. lia.
Qed.

Lemma draws_sum (bs : list fragment_blueprint) :
  sum_list (map packet_draws bs) = 196 * length bs + 244 * sum_list (map (fun b => N.to_nat (fb_num_surbs b)) bs).
Proof. induction bs as [|b bs IH]; [done|]. cbn [map sum_list length]. rewrite IH. unfold packet_draws, id. lia. Qed.
Lemma surbs_sum (bs : list fragment_blueprint) (n : N) :
  foldr (fun '(_, si) acc => si + acc)%N 0%N (plan_of bs) = n ->
  sum_list (map (fun b => N.to_nat (fb_num_surbs b)) bs) = N.to_nat n.
Proof.
  intros <-. induction bs as [|b bs IH]; [done|]. unfold plan_of in *. cbn [map foldr sum_list]. rewrite IH. unfold id. lia.
Qed.

Lemma usable_get m i rel s : usable m i rel s -> ss_get (mx_sessions m) rel = SlFull s.
Proof. intros [_ H]. by destruct rel. Qed.
Lemma put_same m rel s :
  ss_get (mx_sessions m) rel = SlFull s ->
  mx_put_session (mx_set_keystore m (mx_keystore m)) rel (se_set_authored s (se_authored s)) = m.
Proof.
  destruct m as [? ? [cur prev] ? ? ? ? ?], s, rel; cbn; intros ->; done.
Qed.

(** What [post_request] needs of the state. *)
Definition posting_ok (m : mixnet) : Prop :=
  cf_num_hops (mx_config m) ≤ 6 /\ ks_ok (mx_keystore m) /\
  forall rel s, ss_get (mx_sessions m) rel = SlFull s -> topo_ok (se_topology s).

Section request.
  Context (pr : prims) (Hok : prims_ok pr).

  Lemma rb_new_spec t ns dest r :
    topo_ok t -> (forall d, dest = Some d -> valid_index t d) ->
    exists g, rg_new t ns = Val g /\ gen_ok g /\ rg_topology g = t /\ rg_local_peer_id g = ns_local_peer_id ns /\
     ((rb_new t ns dest r = Val (Err TeTooFewMixnodes) /\ dest = None /\
       forall r d r', choose_destination_index g r <> Val (Ok (d, r'))) \/
      exists d r', rb_new t ns dest r = Val (Ok (RequestBuilder g d, r')) /\ valid_index t d /\
        (dest = None \/ dest = Some d)).
  Proof.
    intros Ht Hd. destruct (C25_generator t ns Ht) as (g & E & Hg & Et & Ep & _). exists g.
    split_and!; try done. unfold rb_new. rewrite E. cbn [out_bind].
    destruct dest as [d|].
    { right. exists d, r. split; [done|]. split; [by apply Hd|by right]. }
    destruct (C29_destination g r Hg) as (Ha & Hb & Hc). cbv zeta in *. rewrite Et in *.
    match type of Hc with ?n ≤ ?k => destruct (decide (n = k)) as [Heq|Hne] end.
    - left. rewrite (Ha Heq). split_and!; [done|done|]. intros r1 d1 r2.
      destruct (C29_destination g r1 Hg) as (Ha1 & _). cbv zeta in Ha1. rewrite Et in Ha1.
      by rewrite (Ha1 Heq).
    - right. destruct (Hb ltac:(lia)) as (d & Ed & Hv & _). rewrite Ed. cbn [try_bind].
      exists d, (rng_draw r).2. split_and!; try done. by left.
  Qed.

  Lemma post_request_spec m index dest id data num_surbs ns r :
    posting_ok m -> args_ok id data num_surbs -> length (ns_local_peer_id ns) = 32 ->
    (forall d rel s, dest = Some d -> usable m index rel s -> valid_index (se_topology s) d) ->
    (exists e, post_request pr m index dest id data num_surbs ns r = Val (m, dest, Err e) /\
       refusal m index dest data num_surbs ns e) \/
    (post_request pr m index dest id data num_surbs ns r = Panic /\
       exists rel s n, usable m index rel s /\ needs (data_len data) num_surbs n /\
         ((0 < num_surbs)%N /\ clash (1 + 196 * n + 244 * N.to_nat num_surbs) (mx_keystore m) r \/
          float_trouble pr (mx_config m) s)) \/
    exists m' d metrics rel s g bs ps,
      post_request pr m index dest id data num_surbs ns r = Val (m', Some d, Ok metrics) /\
      posted pr m index dest id data num_surbs ns r m' d metrics rel s g bs ps.
  Proof.
    intros (Hh & Hks & Htop) Hargs Hns Hdest. unfold post_request.
    assert (Hargs2 := Hargs). destruct Hargs2 as (Hid & Hwf & Hd & Hs).
    destruct (fragment_blueprints id data num_surbs) as [bs|] eqn:Eb.
    2:{ pose proof (C02_total id data num_surbs Hwf Hd Hs) as Ht. by rewrite Eb in Ht. }
    cbn [out_bind]. destruct bs as [bs|].
    2:{ left. eexists. split; [done|]. cbn. intros n (_ & (l & Hl & <-) & _). left.
        pose proof (C02_total id data num_surbs Hwf Hd Hs) as Ht. rewrite Eb in Ht. by apply Ht. }
    pose proof (needs_blueprints _ _ _ _ Hwf Hd Hs Eb) as Hn.
    destruct (N.ltb_spec (cf_max_fragments_per_message (mx_config m)) (N.of_nat (length bs))) as [Hmax|Hmax].
    { left. eexists. split; [done|]. intros n Hn'. rewrite (needs_unique _ _ _ _ Hn' Hn). right. by left. }
    pose proof (post_session_spec m index) as Hps.
    destruct (post_session (mx_sessions m) (mx_status m) index) as [[rel s]|e].
    2:{ left. exists e. split; [done|]. inversion Hps; subst; cbn; done. }
    pose proof (C23_check_space (se_authored s) (N.of_nat (length bs))) as Hsp.
    destruct (aq_check_space (se_authored s) (N.of_nat (length bs))) as [[]|e].
    2:{ left. eexists. split; [done|]. destruct e; cbn.
        - intros n Hn'. rewrite (needs_unique _ _ _ _ Hn' Hn). right. right. by exists rel, s.
        - exists rel, s, (length bs). by destruct Hsp. }
    pose proof (usable_get _ _ _ _ Hps) as Hget.
    destruct (rb_new_spec (se_topology s) ns dest r) as (g & Eg & Hg & Etop & Epeer & Hrb).
    { by eapply Htop. } { intros d Hd'. by eapply Hdest. }
    destruct Hrb as [(-> & Hdn & Hno)|(d & r1 & Erb & Hv & Hdd)].
    { left. cbn [out_bind]. eexists. split; [done|]. cbn. exists rel, s, g. split_and!; try done. left. done. }
    rewrite Erb. cbn [out_bind].
    destruct bs as [|b bs'] eqn:Ebs.
    { destruct Hn as [Hn _]. cbn in Hn. lia. }
    rewrite <- Ebs in *.
    assert (Hv' : kind_valid (rg_topology g) (RkToMixnode d)) by (cbn; by rewrite Etop).
    set (st0 := {| pst_surb := _; pst_queue := _; pst_request_hops := _; pst_request_delay := _ |}).
    assert (Hfirst : forall e, gen_route g (RkToMixnode d) (cf_num_hops (mx_config m)) r1 = Val (Err e) ->
      post_request_loop pr (mx_config m) (RequestBuilder g d) id bs st0 r1 = Val (st0, Err e)).
    { intros e E. rewrite Ebs. cbn [post_request_loop]. unfold rb_build_packet. cbn [rb_route_generator rb_destination_index].
      rewrite E. cbn [out_bind]. done. }
    destruct (C29_route g (RkToMixnode d) (cf_num_hops (mx_config m)) r1 Hg Hv' Hh) as (Hr1 & Hr2 & Hr3).
    assert (Hrb : rb_destination_index (RequestBuilder g d) = d) by done.
    destruct (decide (tp_is_mixnode (rg_topology g) = false /\ rg_connected g = [])) as [Hng|Hng].
    { left. rewrite (Hfirst _ (Hr1 Hng)). cbn [out_bind]. eexists. split.
      { cbn [st0 pst_surb pst_queue sst_keystore]. by rewrite put_same. }
      cbn. exists rel, s, g. done. }
    assert (Hdec : enough_mixnodes g (RkToMixnode d) (cf_num_hops (mx_config m)) \/
      ~ enough_mixnodes g (RkToMixnode d) (cf_num_hops (mx_config m))) by (unfold enough_mixnodes; lia).
    destruct Hdec as [Hen|Hen].
    2:{ left. rewrite (Hfirst _ (Hr3 Hng Hen)). cbn [out_bind]. eexists. split.
      { cbn [st0 pst_surb pst_queue sst_keystore]. by rewrite put_same. }
      cbn. exists rel, s, g. split_and!; try done. right. by exists d. }
    assert (Hrt1 : takes 1 r r1) by (by eapply rb_new_draws).
    destruct (post_request_loop_spec pr Hok g d (mx_config m) id Hg ltac:(congruence) Hv' Hh Hng Hen bs st0 r1)
      as [[-> Hc]|(ps & dl & dq & r' & -> & Hps2 & Hm1 & Hd1 & Hm2 & Hd2 & Ht & Hi & Hk)].
    { by eapply blueprints_ok. }
    { exact Hks. }
    { apply delay_sum_zero. }
    { apply delay_sum_zero. }
    { cbn [st0 pst_queue]. unfold aq_len. destruct Hsp as [Hsp _]. exact Hsp. }
    { right. left. split; [done|]. exists rel, s, (length bs). split; [done|]. split; [done|].
      destruct Hc as [[H0 Hc]|Hc].
      - left. rewrite <- (Nat.add_assoc 1). rewrite draws_sum in Hc.
        destruct (C02_minimal id data num_surbs bs Hwf Hd Hs Eb) as [[_ [_ Hsum]] _].
        rewrite (surbs_sum bs num_surbs Hsum) in H0. split; [lia|].
        rewrite <- (surbs_sum bs num_surbs Hsum).
        apply (clash_later g (mx_config m) id ltac:(congruence) Hh _ _ _ [] _ r1); [done|constructor|done].
      - right. by left. }
    cbn [out_bind pst_surb pst_queue pst_request_hops pst_request_delay sst_keystore sst_reply_hops
         sst_reply_delay st0] in *.
    set (q' := AuthoredQueue _ _).
    assert (Hlen : length ps = length bs) by (symmetry; by eapply Forall2_length).
    destruct (delay_to_duration (delay_add dq dl) (cf_mean_forwarding_delay (mx_config m))) as [fd|] eqn:Efd.
    2:{ right. left. cbn [mx_put_session mx_set_keystore mx_config]. cbn. rewrite Efd. split; [done|].
        exists rel, s, (length bs). split; [done|]. split; [done|]. right. right. left. by exists dq, dl. }
    destruct (estimate_authored_packet_queue_delay (mx_config m) (se_set_authored s q')) as [qd|] eqn:Eqd.
    2:{ right. left. cbn. rewrite Efd. cbn. rewrite Eqd. split; [done|].
        exists rel, s, (length bs). split; [done|]. split; [done|]. right. right. right. exists q'. split; [|done].
        unfold aq_len, q'. cbn. rewrite app_length, map_length, Hlen. destruct Hsp as [Hsp _]. unfold aq_len in Hsp. lia. }
    right. right.
    eexists _, d, _, rel, s, g, bs, ps. split.
    { cbn. rewrite Efd. cbn. rewrite Eqd. cbn. done. }
    destruct Hsp as [Hsp1 Hsp2].
    constructor; cbn [rqm_num_hops rqm_forwarding_delay rqm_per_hop_net_delay rqm_authored_packet_queue_delay];
      rewrite ?Hlen; try done.
    - rewrite (all_surbs_count _ _ _ _ _ _ Hps2).
      destruct (C02_minimal id data num_surbs bs Hwf Hd Hs Eb) as [[_ [_ Hsum]] _]. done.
    - apply draws_tape in Hrt1, Ht. exists r'. split; [by eapply same_tape_trans|]. by apply (ids_drawn_mono r r1 r' r').
    - exists dq, dl. done.
  Qed.
End request.

(** ** Destinations that do not exist *)
Lemma route_loop_to g d sf : forall rem i st r st' r',
  1 ≤ rem -> (sf = None \/ 1 ≤ i \/ 2 ≤ rem) ->
  route_loop g (RkToMixnode d) sf None i rem st r = Val (Ok (st', r')) -> valid_index (rg_topology g) d.
Proof.
  induction rem as [|rem IH]; intros i st r st' r' Hr Hc H; [lia|].
  cbn [route_loop] in H. apply try_bind_Val in H as ([[index used] r1] & Hi & H).
  destruct rem as [|rem].
  - assert (index = Some d) as ->.
    { unfold hop_index in Hi. destruct i; [destruct sf; [destruct Hc as [|[|]]; [done|lia|lia]|]|];
        cbn in Hi; by injection Hi. }
    apply out_bind_Val in H as (key & Hk & _). apply out_bind_Val in Hk as (mn & Hm & _).
    unfold tp_mixnode_at in Hm. destruct (_ !! _) eqn:E; [|done]. by apply lookup_lt_Some in E.
  - apply out_bind_Val in H as (key & _ & H). apply out_bind_Val in H as (kxs & _ & H).
    apply out_bind_Val in H as (st2 & _ & H). eapply IH; [| |exact H]; [lia|]. right. left. lia.
Qed.
Lemma gen_route_to_valid g d h r rt r' :
  gen_route g (RkToMixnode d) h r = Val (Ok (rt, r')) -> valid_index (rg_topology g) d.
Proof.
  unfold gen_route. intros H. apply out_bind_Val in H as ([[u f] t] & Hu & H).
  apply out_bind_Val in Hu as (u' & _ & Hu). injection Hu as -> <- <-.
  apply out_bind_Val in H as (u2 & _ & H). apply try_bind_Val in H as ([[sf u3] r1] & _ & H).
  apply try_bind_Val in H as ([[sp u4] r2] & Hsp & H).
  assert (sp = None) as ->.
  { unfold special_hop in Hsp. destruct (tp_local_node _); by injection Hsp. }
  apply try_bind_Val in H as ([st r3] & Hl & _).
  eapply route_loop_to; [| |exact Hl]; unfold min_hops; [lia|].
  destruct sf; [|by left]. right. right. cbn [is_some Nat.b2n]. lia.
Qed.

(** A request to a mixnode that does not exist never succeeds: it fails without effect or panics. *)
Lemma post_request_invalid pr m index dest id data num_surbs ns r rel s d :
  posting_ok m -> args_ok id data num_surbs -> length (ns_local_peer_id ns) = 32 ->
  usable m index rel s -> dest = Some d -> ~ valid_index (se_topology s) d ->
  post_request pr m index dest id data num_surbs ns r = Panic \/
  exists e, post_request pr m index dest id data num_surbs ns r = Val (m, dest, Err e).
Proof.
  intros (Hh & Hks & Htop) (Hid & Hwf & Hd & Hs) Hns Hu -> Hv. unfold post_request.
  destruct (fragment_blueprints id data num_surbs) as [[bs|]|] eqn:Eb; cbn [out_bind]; [|by eauto|by left].
  destruct (_ <? _)%N; [by eauto|].
  apply (C30_post_session m index) in Hu as Eps. rewrite Eps.
  destruct (aq_check_space _ _); [|by eauto]. unfold rb_new.
  destruct (C25_generator (se_topology s) ns) as (g & -> & Hg & Etop & Epeer & _).
  { eapply Htop. by eapply usable_get. }
  cbn [out_bind try_bind].
  pose proof (C02_total id data num_surbs Hwf Hd Hs) as Ht. rewrite Eb in Ht.
  destruct bs as [|b bs]; [cbn in Ht; lia|]. cbn [post_request_loop]. unfold rb_build_packet.
  cbn [rb_route_generator rb_destination_index].
  destruct (gen_route g (RkToMixnode d) _ r) as [[[rt r']|e]|] eqn:Er; cbn [out_bind]; [| |by left].
  { apply gen_route_to_valid in Er. by rewrite Etop in Er. }
  right. cbn [pst_surb pst_queue sst_keystore]. rewrite put_same by (by eapply usable_get). by eauto.
Qed.

(** All cases, for any destination. *)
Lemma post_request_any pr m index dest id data num_surbs ns r :
  prims_ok pr -> posting_ok m -> args_ok id data num_surbs -> length (ns_local_peer_id ns) = 32 ->
  post_request pr m index dest id data num_surbs ns r = Panic \/
  (exists e, post_request pr m index dest id data num_surbs ns r = Val (m, dest, Err e)) \/
  exists m' d metrics rel s g bs ps,
    post_request pr m index dest id data num_surbs ns r = Val (m', Some d, Ok metrics) /\
    posted pr m index dest id data num_surbs ns r m' d metrics rel s g bs ps.
Proof.
  intros Hok Hm Hargs Hns.
  assert (Hcase : (forall d rel s, dest = Some d -> usable m index rel s -> valid_index (se_topology s) d) \/
    exists rel s d, usable m index rel s /\ dest = Some d /\ ~ valid_index (se_topology s) d).
  { destruct dest as [d|]; [|by left].
    destruct (post_session (mx_sessions m) (mx_status m) index) as [[rel s]|e] eqn:E.
    - apply C30_post_session in E. destruct (decide (N.to_nat d < length (tp_mixnodes (se_topology s)))) as [Hv|Hv].
      + left. intros d' rel' s' [= <-] Hu'. apply C30_post_session in E, Hu'. rewrite E in Hu'. by injection Hu' as <- <-.
      + right. by exists rel, s, d.
    - left. intros d' rel' s' _ Hu'. apply C30_post_session in Hu'. congruence. }
  destruct Hcase as [Hv|(rel & s & d & Hu & Hd & Hv)].
  - destruct (post_request_spec pr Hok m index dest id data num_surbs ns r Hm Hargs Hns Hv)
      as [(e & E & _)|[(E & _)|H]]; [right; left; by exists e|by left|by right; right].
  - destruct (post_request_invalid pr m index dest id data num_surbs ns r rel s d Hm Hargs Hns Hu Hd Hv) as [?|?];
      [by left|by right; left].
Qed.

(** ** The keystore after several insertions *)
Lemma ks_pushes_surbs ks es :
  ks_ok ks ->
  let all := sk_surbs ks ++ es in
  sk_surbs (ks_pushes ks es) = drop (length all - N.to_nat (sk_capacity ks)) all /\
  sk_capacity (ks_pushes ks es) = sk_capacity ks.
Proof.
  intros (Hc & Hl & _). cbv zeta. rewrite ks_view_length in Hl.
  induction es as [|e es IH] using rev_ind.
  - rewrite app_nil_r. replace (_ - _) with 0 by lia. by rewrite drop_0.
  - destruct IH as [IH1 IH2]. unfold ks_pushes in *. rewrite foldl_app. cbn [foldl].
    unfold ks_push at 1 3. cbn [sk_surbs sk_capacity]. rewrite IH1, IH2. split; [|done].
    rewrite (app_assoc (sk_surbs ks) es [e]).
    set (l := sk_surbs ks ++ es). set (c := sk_capacity ks) in *.
    rewrite app_length. cbn [length]. unfold make_room. rewrite drop_length.
    destruct (decide (length l < N.to_nat c)) as [Hlt|Hge].
    + replace (length l - N.to_nat c) with 0 by lia. rewrite drop_0.
      rewrite decide_False by lia. replace (length l + 1 - N.to_nat c) with 0 by lia. by rewrite drop_0.
    + rewrite decide_True by lia. 
      replace (length l + 1 - N.to_nat c) with (S (length l - N.to_nat c)) by lia.
      rewrite drop_app_le by lia. f_equal.
      replace (S (length l - N.to_nat c)) with (length l - N.to_nat c + 1) by lia. rewrite <- drop_drop.
      by destruct (drop _ l).
Qed.

(** ** C35 *)
Section C35.
  Context (pr : prims) (Hok : prims_ok pr).

  (** What changes: packets are appended to the queue of session [rel], entries to the keystore, which
      forgets its oldest entries beyond its capacity. *)
  Definition queued (m : mixnet) (rel : rel_session_index) (s : session) (packets : list addressed_packet)
      (entries : list (bytes * surb_value)) (m' : mixnet) : Prop :=
    let all := sk_surbs (mx_keystore m) ++ entries in
    ss_get (mx_sessions m') rel = SlFull (se_set_authored s
        (AuthoredQueue (aq_config (se_authored s)) (aq_queue (se_authored s) ++ packets))) /\
    (forall rel', rel' <> rel -> ss_get (mx_sessions m') rel' = ss_get (mx_sessions m) rel') /\
    sk_surbs (mx_keystore m') = drop (length all - N.to_nat (sk_capacity (mx_keystore m))) all /\
    sk_capacity (mx_keystore m') = sk_capacity (mx_keystore m) /\
    mx_config m' = mx_config m /\ mx_status m' = mx_status m /\ mx_next_kx_pair m' = mx_next_kx_pair m /\
    mx_forward m' = mx_forward m /\ mx_assembler m' = mx_assembler m /\ mx_events m' = mx_events m.

  Lemma posted_queued m index dest id data num_surbs ns r m' d metrics rel s g bs ps :
    posting_ok m ->
    posted pr m index dest id data num_surbs ns r m' d metrics rel s g bs ps ->
    queued m rel s (map mp_packet ps) (map (surb_entry id) (all_surbs ps)) m'.
  Proof.
    intros (_ & Hks & _) Hp. rewrite (po_state _ _ _ _ _ _ _ _ _ _ _ _ _ _ _ _ _ Hp).
    destruct (ks_pushes_surbs (mx_keystore m) (map (surb_entry id) (all_surbs ps)) Hks) as [E1 E2].
    unfold queued. cbn [mx_put_session mx_set_sessions mx_set_keystore mx_sessions mx_keystore mx_config
      mx_status mx_next_kx_pair mx_forward mx_assembler mx_events].
    split_and!; try done; destruct rel; try done; by intros [].
  Qed.

  Theorem C35_post_request (m : mixnet) (index : session_index) (dest : option mixnode_index)
      (id : bytes) (data : scattered N) (num_surbs : N) (ns : network_status) (r : rng) :
    posting_ok m -> args_ok id data num_surbs -> length (ns_local_peer_id ns) = 32 ->
    (forall d rel s, dest = Some d -> usable m index rel s -> valid_index (se_topology s) d) ->
    match post_request pr m index dest id data num_surbs ns r with
    | Val (m', dest', Err e) => m' = m /\ dest' = dest /\ refusal m index dest data num_surbs ns e
    | Val (m', dest', Ok _) =>
        exists rel s d packets entries,
          usable m index rel s /\ valid_index (se_topology s) d /\
          dest' = Some d /\ (dest = None \/ dest = Some d) /\
          needs (data_len data) num_surbs (length packets) /\
          fits (apc_capacity (aq_config (se_authored s))) (apc_multiple_messages (aq_config (se_authored s)))
            (N.of_nat (length (aq_queue (se_authored s)))) (N.of_nat (length packets)) /\
          (N.of_nat (length packets) <= cf_max_fragments_per_message (mx_config m))%N /\
          N.of_nat (length entries) = num_surbs /\
          Forall (fun e => length e.1 = 16 /\ sv_message_id e.2 = id) entries /\
          queued m rel s packets entries m' /\ ks_ok (mx_keystore m')
    | Panic => exists rel s n, usable m index rel s /\ needs (data_len data) num_surbs n /\
                 ((0 < num_surbs)%N /\ clash (1 + 196 * n + 244 * N.to_nat num_surbs) (mx_keystore m) r \/
                  float_trouble pr (mx_config m) s)
    end.
  Proof.
    intros Hm Hargs Hns Hv.
    destruct (post_request_spec pr Hok m index dest id data num_surbs ns r Hm Hargs Hns Hv)
      as [(e & -> & He)|[(-> & H)|(m' & d & mt & rel & s & g & bs & ps & -> & Hp)]].
    - done.
    - exact H.
    - exists rel, s, d, (map mp_packet ps), (map (surb_entry id) (all_surbs ps)).
      pose proof (posted_queued _ _ _ _ _ _ _ _ _ _ _ _ _ _ _ _ Hm Hp) as Hq.
      destruct Hp. destruct po_dest0. destruct po_fits0. rewrite !map_length. split_and!; try done.
      apply Forall_map. unfold all_surbs. apply Forall_concat, Forall_map.
      clear -po_packets0. induction po_packets0 as [|b p bs ps (Hs & _) _ IH]; constructor; [|done].
      eapply Forall_impl; [exact Hs|]. intros u (_ & _ & Hid & _). done.
  Qed.
End C35.

(** ** C37: replies

    The first hop of a SURB: the mixnode with the index in its first two bytes. *)
Definition first_hop (t : topology) (surb : bytes) : option bytes :=
  mn_peer_id <$> tp_mixnodes t !! N.to_nat (from_le16 (take 2 surb)).
(** [p] is the packet for fragment [b] made with [surb]. *)
Definition reply_made (pr : prims) (t : topology) (b : fragment_blueprint) (surb : bytes)
    (p : addressed_packet) : Prop :=
  first_hop t surb = Some (ap_peer_id p) /\
  exists pad i, length (sc_contents (fb_data b)) + length pad = N.to_nat 2025 /\
    complete_reply_packet pr
      (replicate 188 0%N ++
       frag_bytes (fb_message_id b) (fb_last_index b) (fb_index b) (sc_contents (fb_data b)) pad [] ++
       replicate 16 0%N) surb = (ap_packet p, Some i).
(** The index of the SURB is not one of a mixnode. *)
Definition bad_surb (t : topology) (surb : bytes) (e : post_err) : Prop :=
  match e with
  | PeBadSurb => (65279 < from_le16 (take 2 surb))%N
  | PeTopology (TeBadMixnodeIndex i) =>
      i = from_le16 (take 2 surb) /\ (i <= 65279)%N /\ first_hop t surb = None
  | _ => False
  end.

Lemma Val_inj {A} (a b : A) : Val a = Val b -> a = b.
Proof. congruence. Qed.
Lemma vec_pop_snoc {A} (l : list A) x : vec_pop (l ++ [x]) = Some (x, l).
Proof.
  unfold vec_pop. rewrite last_snoc, app_length. cbn [length].
  replace (length l + 1 - 1) with (length l) by lia. by rewrite take_app.
Qed.

Section reply.
  Context (pr : prims) (Hok : prims_ok pr).

  Lemma reply_fragment b :
    blueprint_ok b -> fb_num_surbs b = 0%N ->
    exists pad, length (sc_contents (fb_data b)) + length pad = N.to_nat 2025 /\
      (data ← fb_write_except_surbs b (get_payload_data default_packet);
       Val (set_payload_data default_packet data)) =
      Val (replicate 188 0%N ++
       frag_bytes (fb_message_id b) (fb_last_index b) (fb_index b) (sc_contents (fb_data b)) pad [] ++
       replicate 16 0%N).
  Proof.
    intros (Hwf & Hid & Hfit) Hn. rewrite payload_of_default.
    set (buf := replicate (N.to_nat 2048) 0%N).
    assert (Hb : length buf = N.to_nat 2048) by apply replicate_length.
    destruct (fill_spec b buf []) as (pad & Hpad & Ef); [done|done|done|by rewrite Hn|done|constructor|].
    exists pad. cbn [length] in Hpad. split; [lia|].
    unfold fill in Ef. destruct (fb_write_except_surbs b buf) as [f|]; [|done]. cbn [out_bind] in *.
    rewrite fb_surb_offsets_spec in Ef by lia. rewrite Hn in Ef. cbn in Ef. injection Ef as ->.
    rewrite packet_of_default; [done|].
    unfold frag_bytes. rewrite !app_length, !length_to_le16, Hid. change (concat (reverse [])) with (@nil N). cbn [length]. lia.
  Qed.

  Lemma post_reply_loop_spec t : forall bs surbs q,
    length (tp_mixnodes t) ≤ N.to_nat 65280 ->
    Forall blueprint_ok bs -> Forall (fun b => fb_num_surbs b = 0%N) bs ->
    length bs ≤ length surbs ->
    (aq_len q + N.of_nat (length bs) <= apc_capacity (aq_config q))%N ->
    exists used packets left,
      (post_reply_loop pr t bs surbs q =
         Val (left, AuthoredQueue (aq_config q) (aq_queue q ++ packets), Ok tt) /\
       surbs = left ++ reverse used /\ Forall3 (reply_made pr t) bs used packets) \/
      exists bs1 b bs2 bad e, bs = bs1 ++ b :: bs2 /\
        post_reply_loop pr t bs surbs q =
          Val (left, AuthoredQueue (aq_config q) (aq_queue q ++ packets), Err e) /\
        surbs = left ++ [bad] ++ reverse used /\ Forall3 (reply_made pr t) bs1 used packets /\
        bad_surb t bad e.
  Proof.
    induction bs as [|b bs IH]; intros surbs q Ht Hbs Hns Hlen Hsp; cbn [post_reply_loop].
    { exists [], [], surbs. left. rewrite !app_nil_r. split_and!; [by destruct q|done|constructor]. }
    apply Forall_cons in Hbs as [Hb Hbs]. apply Forall_cons in Hns as [Hn Hns]. cbn [length] in Hlen, Hsp.
    destruct (reply_fragment b Hb Hn) as (pad & Hpad & Ef).
    destruct (fb_write_except_surbs b _) as [f|]; [|done]. cbn [out_bind] in *. apply Val_inj in Ef. rewrite Ef.
    destruct surbs as [|surb surbs _] using rev_ind; [cbn in Hlen; lia|].
    rewrite vec_pop_snoc. cbn [expect out_bind]. rewrite app_length in Hlen. cbn [length] in Hlen.
    set (i := from_le16 (take 2 surb)).
    match goal with |- context [complete_reply_packet pr ?P surb] =>
      assert (Hsnd : (complete_reply_packet pr P surb).2 = mixnode_index_try_from i) by
        (unfold complete_reply_packet; cbn [snd];
         change (slice surb 0 RAW_MIXNODE_INDEX_SIZE) with (take 2 (drop 0 surb)); by rewrite drop_0);
      destruct (complete_reply_packet pr P surb) as [pk o] eqn:Ec; cbn [snd] in Hsnd; subst o end.
    unfold mixnode_index_try_from in *.
    destruct (N.leb_spec i MAX_MIXNODE_INDEX) as [Hi|Hi]; change MAX_MIXNODE_INDEX with 65279%N in Hi.
    2:{ exists [], [], surbs. right. exists [], b, bs, surb, PeBadSurb. rewrite (app_nil_r (aq_queue q)).
        split_and!; try done; [by destruct q|constructor]. }
    unfold tp_index_to_peer_id.
    destruct (tp_mixnodes t !! N.to_nat i) as [mn|] eqn:Emn.
    2:{ exists [], [], surbs. right. exists [], b, bs, surb, (PeTopology (TeBadMixnodeIndex i)). rewrite (app_nil_r (aq_queue q)).
        split_and!; try done. { by destruct q. } { constructor. }
        cbn. unfold first_hop. fold i. by rewrite Emn. }
    unfold aq_push. destruct (N.ltb_spec (aq_len q) (apc_capacity (aq_config q))) as [Hlt|]; [|lia].
    cbn [assert_or_panic out_bind].
    set (p := AddressedPacket (mn_peer_id mn) pk).
    assert (Hmade : reply_made pr t b surb p).
    { split.
      - unfold first_hop. fold i. by rewrite Emn.
      - by exists pad, i. }
    destruct (IH surbs (AuthoredQueue (aq_config q) (aq_queue q ++ [p]))) as
      (used & packets & left & [(E & Es & Hf)|(bs1 & b' & bs2 & bad & e & Eb & E & Es & Hf & Hbad)]).
    - done.
    - done.
    - done.
    - lia.
    - unfold aq_len in *. cbn. rewrite app_length. cbn. lia.
    - exists (surb :: used), (p :: packets), left. left. rewrite E. cbn [aq_config aq_queue].
      rewrite <- app_assoc. split_and!; [done| |by constructor].
      by rewrite Es, reverse_cons, app_assoc.
    - exists (surb :: used), (p :: packets), left. right. exists (b :: bs1), b', bs2, bad, e. rewrite E. cbn [aq_config aq_queue].
      rewrite <- app_assoc. split_and!; [by rewrite Eb|done| |by constructor|done].
      by rewrite Es, reverse_cons, <- !app_assoc.
  Qed.

  (** Why a reply is refused before anything is made. *)
  Definition reply_refusal (m : mixnet) (index : session_index) (surbs : list bytes)
      (data : scattered N) (e : post_err) : Prop :=
    match e with
    | PeTooManyFragments =>
        forall n, needs (data_len data) 0 n ->
          (65536 < N.of_nat n)%N \/ (cf_max_fragments_per_message (mx_config m) < N.of_nat n)%N \/
          length surbs < n \/
          exists rel s, usable m index rel s /\ (apc_capacity (aq_config (se_authored s)) < N.of_nat n)%N
    | PeNotEnoughSpaceInQueue =>
        exists rel s n, usable m index rel s /\ needs (data_len data) 0 n /\
          (N.of_nat n <= apc_capacity (aq_config (se_authored s)))%N /\
          ~ fits (apc_capacity (aq_config (se_authored s))) (apc_multiple_messages (aq_config (se_authored s)))
                 (N.of_nat (length (aq_queue (se_authored s)))) (N.of_nat n)
    | PeTopology _ | PeBadSurb => False
    | _ => unusable m index e
    end.

  (** C37: a reply is refused without effect; or every fragment is sent with one SURB, from the end of
      the list; or a bad SURB stops it part-way, leaving the fragments before queued and the SURBs
      used so far consumed. It never panics. *)
  Theorem C37_post_reply (m : mixnet) (surbs : list bytes) (index : session_index) (id : bytes)
      (data : scattered N) :
    posting_ok m -> args_ok id data 0 ->
    (exists e, post_reply pr m surbs index id data = Val (m, surbs, Err e) /\
       reply_refusal m index surbs data e) \/
    exists rel s bs used packets left res,
      usable m index rel s /\ fragment_blueprints id data 0 = Val (Some bs) /\
      needs (data_len data) 0 (length bs) /\
      (fits (apc_capacity (aq_config (se_authored s))) (apc_multiple_messages (aq_config (se_authored s)))
            (N.of_nat (length (aq_queue (se_authored s)))) (N.of_nat (length bs)) /\
       (N.of_nat (length bs) <= cf_max_fragments_per_message (mx_config m))%N /\ length bs ≤ length surbs) /\
      post_reply pr m surbs index id data =
        Val (mx_put_session m rel (se_set_authored s (AuthoredQueue (aq_config (se_authored s))
               (aq_queue (se_authored s) ++ packets))), left, res) /\
      match res with
      | Ok _ => surbs = left ++ reverse used /\ Forall3 (reply_made pr (se_topology s)) bs used packets
      | Err e => exists bs1 b bs2 bad, bs = bs1 ++ b :: bs2 /\ surbs = left ++ [bad] ++ reverse used /\
                   Forall3 (reply_made pr (se_topology s)) bs1 used packets /\ bad_surb (se_topology s) bad e
      end.
  Proof.
    intros (_ & _ & Htop) Hargs. unfold post_reply.
    assert (Hargs2 := Hargs). destruct Hargs2 as (Hid & Hwf & Hd & Hs).
    destruct (fragment_blueprints id data 0) as [bs|] eqn:Eb.
    2:{ pose proof (C02_total id data 0 Hwf Hd Hs) as Ht. by rewrite Eb in Ht. }
    cbn [out_bind]. destruct bs as [bs|].
    2:{ left. eexists. split; [done|]. cbn. intros n (_ & (l & Hl & <-) & _). left.
        pose proof (C02_total id data 0 Hwf Hd Hs) as Ht. rewrite Eb in Ht. by apply Ht. }
    pose proof (needs_blueprints _ _ _ _ Hwf Hd Hs Eb) as Hn.
    match goal with |- context [N.ltb ?a ?b] => destruct (N.ltb_spec a b) as [Hmax|Hmax] end.
    { left. eexists. split; [done|]. intros n Hn'. rewrite (needs_unique _ _ _ _ Hn' Hn).
      right. destruct (decide (length surbs < length bs)); [right; by left|]. left. lia. }
    pose proof (post_session_spec m index) as Hps.
    destruct (post_session (mx_sessions m) (mx_status m) index) as [[rel s]|e].
    2:{ left. exists e. split; [done|]. inversion Hps; subst; cbn; done. }
    pose proof (C23_check_space (se_authored s) (N.of_nat (length bs))) as Hsp.
    destruct (aq_check_space (se_authored s) (N.of_nat (length bs))) as [[]|e].
    2:{ left. eexists. split; [done|]. destruct e; cbn.
        - intros n Hn'. rewrite (needs_unique _ _ _ _ Hn' Hn). right. right. right. by exists rel, s.
        - exists rel, s, (length bs). by destruct Hsp. }
    right. pose proof (usable_get _ _ _ _ Hps) as Hget.
    destruct (post_reply_loop_spec (se_topology s) bs surbs (se_authored s)) as
      (used & packets & left & [(E & Es & Hf)|(bs1 & b' & bs2 & bad & e & Eb' & E & Es & Hf & Hbad)]).
    - by destruct (Htop _ _ Hget).
    - by eapply blueprints_ok.
    - destruct (C02_minimal id data 0 bs Hwf Hd Hs Eb) as [[_ [_ Hsum]] _].
      clear -Hsum. induction bs as [|b bs IH]; constructor; cbn in Hsum; [lia|]. apply IH.
      unfold plan_of in Hsum. unfold plan_of. lia.
    - lia.
    - by destruct Hsp.
    - rewrite E. cbn [out_bind]. exists rel, s, bs, used, packets, left, (Ok tt). split_and!; try done; lia.
    - rewrite E. cbn [out_bind]. exists rel, s, bs, used, packets, left, (Err e). split_and!; try done; [lia..|].
      by exists bs1, b', bs2, bad.
  Qed.

  (** In numbers: success uses exactly as many SURBs as there are fragments. *)
  Theorem C37_counts (m m' : mixnet) (surbs left : list bytes) (index : session_index) (id : bytes)
      (data : scattered N) :
    posting_ok m -> args_ok id data 0 ->
    post_reply pr m surbs index id data = Val (m', left, Ok tt) ->
    exists n rel s packets, needs (data_len data) 0 n /\ usable m index rel s /\ length packets = n /\
      left = take (length surbs - n) surbs /\ n ≤ length surbs /\
      (N.of_nat n <= cf_max_fragments_per_message (mx_config m))%N /\
      ss_get (mx_sessions m') rel = SlFull (se_set_authored s
        (AuthoredQueue (aq_config (se_authored s)) (aq_queue (se_authored s) ++ packets))) /\
      Forall2 (fun surb p => first_hop (se_topology s) surb = Some (ap_peer_id p))
              (reverse (drop (length surbs - n) surbs)) packets.
  Proof.
    intros Hm Hargs H.
    destruct (C37_post_reply m surbs index id data Hm Hargs) as
      [(e & E & _)|(rel & s & bs & used & packets & left' & res & Hu & Eb & Hn & (Hfit & Hmax & _) & E & Hres)]; rewrite H in E; [done|].
    injection E as Em <- <-. destruct Hres as [Es Hf].
    assert (Hl1 : length bs = length used) by (by eapply Forall3_length_lm).
    assert (Hl2 : length bs = length packets) by (by eapply Forall3_length_lr).
    exists (length bs), rel, s, packets. rewrite Es, app_length, reverse_length.
    replace (length left + length used - length bs) with (length left) by lia.
    rewrite take_app, drop_app, reverse_involutive. split_and!; try done; [lia| |].
    - rewrite Em. by destruct rel.
    - clear -Hf. induction Hf as [|? ? ? ? ? ? [H _] _ IH]; by constructor.
  Qed.
End reply.

(** C30 as seen by the callers: when the message fits the configured number of fragments, an unusable
    session gives exactly the error that says why, and a usable one never gives such an error. *)
Definition session_error (e : post_err) : Prop :=
  match e with
  | PeSessionNoLongerActive _ | PeSessionNotActiveYet _ | PeSessionMixnodesNotKnown _ | PeSessionDisabled _ => True
  | _ => False
  end.
Theorem C30_post_request (pr : prims) (m : mixnet) (index : session_index) (dest : option mixnode_index)
    (id : bytes) (data : scattered N) (num_surbs : N) (ns : network_status) (r : rng) (n : nat) :
  args_ok id data num_surbs -> needs (data_len data) num_surbs n ->
  (N.of_nat n <= 65536)%N -> (N.of_nat n <= cf_max_fragments_per_message (mx_config m))%N ->
  (forall e, unusable m index e ->
     post_request pr m index dest id data num_surbs ns r = Val (m, dest, Err e)) /\
  (forall rel s m' dest' e, usable m index rel s ->
     post_request pr m index dest id data num_surbs ns r = Val (m', dest', Err e) -> ~ session_error e).
Proof.
  intros (Hid & Hwf & Hd & Hs) Hn Hmax Hcf. unfold post_request.
  pose proof (C02_total id data num_surbs Hwf Hd Hs) as Ht.
  destruct (fragment_blueprints id data num_surbs) as [[bs|]|] eqn:Eb; [| |done].
  2:{ destruct Hn as (_ & (l & Hl & <-) & _). specialize (Ht l Hl). lia. }
  rewrite (needs_unique _ _ _ _ Hn (needs_blueprints _ _ _ _ Hwf Hd Hs Eb)) in *. cbn [out_bind].
  destruct (N.ltb_spec (cf_max_fragments_per_message (mx_config m)) (N.of_nat (length bs))) as [|_]; [lia|].
  split.
  - intros e He. apply (C30_post_session m index) in He as ->. done.
  - intros rel s m' dest' e Hu. apply (C30_post_session m index) in Hu as ->. intros H.
    destruct (aq_check_space _ _) as [|[]]; [|by injection H as <- <- <-; cbn; auto|by injection H as <- <- <-; cbn; auto].
    apply out_bind_Val in H as ([[rb r']|te] & _ & H); [|by injection H as <- <- <-; cbn; auto].
    apply out_bind_Val in H as ([st [[]|te]] & _ & H); [|by injection H as <- <- <-; cbn; auto].
    apply out_bind_Val in H as (? & _ & H). apply out_bind_Val in H as (? & _ & H). done.
Qed.
Theorem C30_post_reply (pr : prims) (m : mixnet) (surbs : list bytes) (index : session_index)
    (id : bytes) (data : scattered N) (n : nat) :
  posting_ok m -> args_ok id data 0 -> needs (data_len data) 0 n -> n ≤ length surbs ->
  (N.of_nat n <= 65536)%N -> (N.of_nat n <= cf_max_fragments_per_message (mx_config m))%N ->
  (forall e, unusable m index e -> post_reply pr m surbs index id data = Val (m, surbs, Err e)) /\
  (forall rel s m' surbs' e, usable m index rel s ->
     post_reply pr m surbs index id data = Val (m', surbs', Err e) -> ~ session_error e).
Proof.
  intros Hm Ha Hn Hl Hmax Hcf. split.
  - intros e He. unfold post_reply. assert (Ha' := Ha). destruct Ha' as (Hid & Hwf & Hd & Hs).
    pose proof (C02_total id data 0 Hwf Hd Hs) as Ht.
    destruct (fragment_blueprints id data 0) as [[bs|]|] eqn:Eb; [| |done].
    2:{ destruct Hn as (_ & (l & Hl' & <-) & _). specialize (Ht l Hl'). lia. }
    rewrite (needs_unique _ _ _ _ Hn (needs_blueprints _ _ _ _ Hwf Hd Hs Eb)) in *. cbn [out_bind].
    match goal with |- context [N.ltb ?a ?b] => destruct (N.ltb_spec a b) as [|_]; [lia|] end.
    apply (C30_post_session m index) in He as ->. done.
  - intros rel s m' surbs' e Hu E He.
    destruct (C37_post_reply pr m surbs index id data Hm Ha) as
      [(e' & E' & Hr)|(? & ? & ? & ? & ? & ? & res & _ & _ & _ & _ & E' & Hr)]; rewrite E' in E; injection E as E1 E2 E3.
    + subst e'. destruct e; try done; by eapply usable_unusable.
    + subst res. destruct Hr as (? & ? & ? & ? & _ & _ & _ & Hb). by destruct e.
Qed.
