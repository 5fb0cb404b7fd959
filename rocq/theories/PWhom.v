(** C81: to whom a node sends packets, and how many it passes on. *)
From Verif Require Export PProvenance.

(** ** Specification *)

(** The caller says that the peer is connected. *)
Definition says_connected (c : call) (peer : bytes) : Prop :=
  match c with
  | CallPostRequest _ _ _ _ _ ns _ | CallPopAuthored ns _ => ns_is_connected ns peer = true
  | _ => False
  end.
(** Why a packet of a node itself may be addressed to [peer], given the topology of the session and the calls so far. *)
Inductive meant_for (cf : config) (hist : list (call * resp)) (t : topology) (peer : bytes) : Prop :=
| ForMixnode l i mn : (* another mixnode *)
    tp_local_node t = LMixnode l -> tp_mixnodes t !! i = Some mn -> mn_peer_id mn = peer -> i <> N.to_nat l ->
    meant_for cf hist t peer
| ForGateway gs g mn c a : (* a gateway that is connected *)
    tp_local_node t = LNonMixnode gs -> g ∈ gs -> tp_mixnodes t !! N.to_nat g = Some mn -> mn_peer_id mn = peer ->
    (c, a) ∈ hist -> says_connected c peer -> meant_for cf hist t peer
| ForSelf l mn : (* itself, by a route of one hop *)
    tp_local_node t = LMixnode l -> tp_mixnodes t !! N.to_nat l = Some mn -> mn_peer_id mn = peer ->
    cf_num_hops cf ≤ 1 -> meant_for cf hist t peer
| ForReply surbs index id data a u mn : (* the mixnode named by the SURB *)
    (CallPostReply surbs index id data, a) ∈ hist -> u ∈ surbs ->
    tp_mixnodes t !! N.to_nat (from_le16 (take 2 u)) = Some mn -> mn_peer_id mn = peer ->
    meant_for cf hist t peer.

(** At position [i] of the history a packet was handled that is to be passed on as [p]. *)
Definition passes (pr : prims) (m0 : mixnet) (hist : list (call * resp)) (i : nat) (p : addressed_packet) : Prop :=
  exists q now a m1 rel s t d,
    hist !! i = Some (CallHandle q now, a) /\ run pr m0 (take i hist) m1 /\
    reads pr (mx_sessions m1) q rel s /\ is_mixnode s /\ content_of pr s q = CtForward t d (ap_packet p) /\
    match t with
    | TMixnodeIndex k => exists mn, tp_mixnodes (se_topology s) !! N.to_nat k = Some mn /\ mn_peer_id mn = ap_peer_id p
    | TPeerId x => ap_peer_id p = x
    end.
(** The packets passed on. *)
Definition passed (hist : list (call * resp)) : list addressed_packet :=
  omap (fun ca => match ca with (CallPopForward _, RespPacket p) => p | _ => None end) hist.

(** ** Proof *)
Lemma meant_for_mono cf hist hist' t peer :
  (forall x, x ∈ hist -> x ∈ hist') -> meant_for cf hist t peer -> meant_for cf hist' t peer.
Proof. intros Hs []; [by eapply ForMixnode|eapply ForGateway; eauto|by eapply ForSelf|eapply ForReply; eauto]. Qed.

Section whom.
  Context (pr : prims) (Hok : prims_ok pr) (cf : config).

  (** A route of the node's own. *)
  Lemma own_route hist t ns g kind rt peer c a :
    topo_ok t -> rg_new t ns = Val g -> from_local kind -> route_ok g kind (cf_num_hops cf) rt ->
    tp_index_to_peer_id t (rt_first rt) = Ok peer ->
    (c, a) ∈ hist -> (forall x, ns_is_connected ns x = true -> says_connected c x) ->
    meant_for cf hist t peer.
  Proof.
    intros Ht Eg Hf Hr Ep Hin Hc.
    destruct (C25_generator t ns Ht) as (g' & Eg' & Hg & Etop & _ & Hconn & _).
    rewrite Eg in Eg'. injection Eg' as <-.
    unfold tp_index_to_peer_id in Ep. destruct (tp_mixnodes t !! _) as [mn|] eqn:Em; [|done]. injection Ep as Ep.
    destruct (tp_local_node t) as [l|gs] eqn:El.
    - destruct (decide (rt_first rt = l)) as [E|Hne].
      + subst l. assert (Hl : ~ 2 ≤ length (route_nodes rt)).
        { intros H2. by eapply (ro_away _ _ _ _ Hr); [rewrite Etop|..]. }
        pose proof (ro_length _ _ _ _ Hr) as Hlen. eapply ForSelf; [done..|lia].
      + eapply ForMixnode; [done..|lia].
    - destruct (ro_gateways _ _ _ _ Hr gs ltac:(by rewrite Etop)) as (_ & Hfst & _). specialize (Hfst Hf).
      destruct Hg as [_ Hg]. rewrite Etop, El in Hg. destruct Hg as (_ & Hgs & _).
      destruct (Hconn _ Hfst) as (mn' & Em' & Hcn). rewrite Em in Em'. injection Em' as <-.
      eapply ForGateway; [done|by apply Hgs|done|done|done|]. rewrite <- Ep. by apply Hc.
  Qed.

  Lemma status_slots m st rel s :
    ss_get (mx_sessions (set_session_status m st)) rel = SlFull s -> exists rel0, ss_get (mx_sessions m) rel0 = SlFull s.
  Proof.
    unfold set_session_status. destruct (decide (mx_status m = st)) as [|Hne]; [by eexists|]. cbv zeta.
    assert (H1 : forall rel s, ss_get (mx_sessions (shift_sessions m (st_current_index st))) rel = SlFull s ->
                   exists rel0, ss_get (mx_sessions m) rel0 = SlFull s).
    { unfold shift_sessions. intros rl s0. destruct (_ =? _)%N; [by eexists|]. cbn.
      assert (Hk : match mx_next_kx_pair m with None => SlEmpty | Some k => SlKxPair k end <> SlFull s0) by (by destruct (mx_next_kx_pair m)).
      destruct (saturating_sub _ _) as [|[[?|?|]|[?|?|]|]]; cbn;
        repeat match goal with |- context [if ?b then _ else _] => destruct b end; cbn;
        destruct rl; cbn; intros E; try done; try (by exists RCurrent); try (by exists RPrev); by destruct Hk. }
    set (m1 := shift_sessions m _) in *. clearbody m1.
    destruct (_ || _); cbn; [|apply H1].
    destruct rel; cbn; intros E; [|done]. by apply (H1 RCurrent).
  Qed.

  (** Where the queued packets of a session come from. *)
  Lemma queued_step m c a m' rel s :
    mx_ok pr cf m -> step pr m c m' a -> ss_get (mx_sessions m') rel = SlFull s ->
    aq_queue (se_authored s) = [] \/
    exists rel0 s0, ss_get (mx_sessions m) rel0 = SlFull s0 /\ se_topology s = se_topology s0 /\
      forall p, p ∈ aq_queue (se_authored s) -> p ∈ aq_queue (se_authored s0) \/ meant_for cf [(c, a)] (se_topology s0) (ap_peer_id p).
  Proof.
    intros Hm Hst Hs.
    assert (Hsame : forall rel0 s0, ss_get (mx_sessions m) rel0 = SlFull s0 -> se_topology s = se_topology s0 ->
       (forall p, p ∈ aq_queue (se_authored s) -> p ∈ aq_queue (se_authored s0)) ->
       aq_queue (se_authored s) = [] \/
       exists rel0 s0, ss_get (mx_sessions m) rel0 = SlFull s0 /\ se_topology s = se_topology s0 /\
        forall p, p ∈ aq_queue (se_authored s) -> p ∈ aq_queue (se_authored s0) \/ meant_for cf [(c, a)] (se_topology s0) (ap_peer_id p)).
    { intros rel0 s0 H1 H2 H3. right. exists rel0, s0. split_and!; [done|done|]. intros p Hp. left. by apply H3. }
    assert (Hnoted : forall rel0 s0 p, ss_get (mx_sessions m) rel0 = SlFull s0 ->
       ss_get (mx_sessions (noted pr m rel0 s0 p)) rel = SlFull s ->
       exists rel1 s1, ss_get (mx_sessions m) rel1 = SlFull s1 /\ se_topology s = se_topology s1 /\ aq_queue (se_authored s) = aq_queue (se_authored s1)).
    { intros rel0 s0 p H0. unfold noted. rewrite get_put. destruct (decide (rel0 = rel)) as [->|_].
      - intros [= <-]. by exists rel, s0.
      - intros E. by exists rel, s. }
    assert (Hn2 : forall rel0 s0 p, reads pr (mx_sessions m) p rel0 s0 ->
       ss_get (mx_sessions (noted pr m rel0 s0 p)) rel = SlFull s ->
       aq_queue (se_authored s) = [] \/
       exists rel0 s0, ss_get (mx_sessions m) rel0 = SlFull s0 /\ se_topology s = se_topology s0 /\
        forall p, p ∈ aq_queue (se_authored s) -> p ∈ aq_queue (se_authored s0) \/ meant_for cf [(c, a)] (se_topology s0) (ap_peer_id p)).
    { intros rel0 s0 p H0 E. destruct (Hnoted _ _ _ (reads_get _ _ _ _ _ H0) E) as (rel1 & s1 & E1 & E2 & E3).
      eapply Hsame; [done|done|]. by rewrite E3. }
    destruct Hst; try (by eapply Hsame).
    - apply status_slots in Hs as [rel0 Hs]. by eapply Hsame.
    - rewrite get_set_slot in Hs. destruct (decide _); [done|]. by eapply Hsame.
    - change (mx_sessions (mx_or_events ?x _)) with (mx_sessions x) in Hs. rewrite get_set_slot in Hs.
      destruct (decide _); [|by eapply Hsame]. injection Hs as <-. left. by destruct H0.
    - eapply Hn2; [exact H|]. unfold enqueue in Hs. by destruct (decide _).
    - by eapply Hn2.
    - by eapply Hn2.
    - assert (Hs' : ss_get (mx_sessions m1) rel = SlFull s) by (by destruct (aq_pop _).2). clear Hs.
      unfold m1 in Hs'. rewrite get_set_slot in Hs'. destruct (decide (rel0 = rel)) as [->|_]; [|by eapply Hsame].
      injection Hs' as <-. eapply Hsame; [exact H|done|]. cbn. rewrite H1. intros x Hx. by right.
    - pose proof (po_usable _ _ _ _ _ _ _ _ _ _ _ _ _ _ _ _ _ H) as Hu. apply usable_get in Hu.
      rewrite (po_state _ _ _ _ _ _ _ _ _ _ _ _ _ _ _ _ _ H) in Hs.
      destruct (po_generator _ _ _ _ _ _ _ _ _ _ _ _ _ _ _ _ _ H) as [Eg _].
      pose proof (po_packets _ _ _ _ _ _ _ _ _ _ _ _ _ _ _ _ _ H) as Hpk. clear H.
      rewrite (mo_config _ _ _ Hm) in Hpk.
      rewrite get_put in Hs. destruct (decide (rel0 = rel)) as [->|_].
      2:{ eapply (Hsame rel s); [by destruct rel|done|done]. }
      injection Hs as <-. right. exists rel, s0. split_and!; [done|done|]. cbn [se_authored se_set_authored aq_queue].
      intros p [Hp|Hp]%elem_of_app; [by left|]. right. apply elem_of_list_fmap in Hp as (mp & -> & Hp).
      apply elem_of_list_lookup in Hp as [i Hi]. destruct (Forall2_lookup_r _ _ _ _ _ Hpk Hi) as (b & _ & Hmade).
      destruct Hmade as (_ & _ & _ & Hr & Ep & _).
      pose proof (so_topology _ _ _ (mx_ok_full _ _ _ _ _ Hm Hu)) as Ht.
      destruct (C25_generator _ ns Ht) as (g' & Eg' & _ & Etop & _). rewrite Eg in Eg'. injection Eg' as <-. rewrite Etop in Ep.
      eapply own_route; [exact Ht|exact Eg| |exact Hr|exact Ep|by left|done]. done.
    - pose proof (usable_get _ _ _ _ H) as Hu. rewrite get_put in Hs. destruct (decide (rel0 = rel)) as [->|_]; [|by eapply (Hsame rel s)].
      injection Hs as <-. right. exists rel, s0. split_and!; [done|done|]. cbn [se_authored se_set_authored aq_queue].
      intros p [Hp|Hp]%elem_of_app; [by left|]. right. apply elem_of_list_lookup in Hp as [i Hi].
      destruct (Forall3_lookup_r _ _ _ _ _ _ H3 Hi) as (b & u & _ & Hus & Hfst & _). unfold first_hop in Hfst.
      apply fmap_Some in Hfst as (mn & Em & Ep).
      eapply ForReply; [by left| |exact Em|done]. rewrite H2. apply elem_of_app. right. apply elem_of_app. right.
      apply elem_of_reverse. by eapply elem_of_list_lookup_2.
  Qed.

  Lemma queued_for hist m rel s p :
    reachable pr cf hist m -> ss_get (mx_sessions m) rel = SlFull s -> p ∈ aq_queue (se_authored s) ->
    meant_for cf hist (se_topology s) (ap_peer_id p).
  Proof.
    intros (Hcf & m0 & Hnew & Hrun). revert rel s p. revert hist m Hrun.
    apply (run_ind_r pr (fun hist m => forall rel s p, ss_get (mx_sessions m) rel = SlFull s ->
             p ∈ aq_queue (se_authored s) -> meant_for cf hist (se_topology s) (ap_peer_id p)) m0).
    - intros rel s p Hs. unfold mx_new in Hnew. apply out_bind_Val in Hnew as (ks & _ & Hnew). injection Hnew as <-. cbn in Hs.
      destruct rel; cbn in Hs; [by destruct (cf_session_0_kx_secret cf)|done].
    - intros h m c a m' Hrun IH Hc He rel s p Hs Hp.
      assert (Hm : mx_ok pr cf m) by (eapply run_ok; [done..| |done]; by apply mx_new_ok).
      pose proof (exec_step pr Hok _ _ _ _ _ Hcf Hm Hc He) as Hst.
      destruct (queued_step _ _ _ _ _ _ Hm Hst Hs) as [E|(rel0 & s0 & Hs0 & -> & Hq)].
      { rewrite E in Hp. by apply elem_of_nil in Hp. }
      destruct (Hq p Hp) as [Hp'|Hp'].
      + eapply meant_for_mono; [|by eapply IH]. intros x Hx. apply elem_of_app. by left.
      + eapply meant_for_mono; [|exact Hp']. intros x Hx. apply elem_of_app. by right.
  Qed.

  (** What a node sends on its own account is meant for the peer it is addressed to. *)
  Theorem C81_sent hist m ns r m' p :
    reachable pr cf hist m -> call_ok (CallPopAuthored ns r) ->
    exec pr m (CallPopAuthored ns r) = Val (m', RespPacket (Some p)) ->
    exists rel s, ss_get (mx_sessions m) rel = SlFull s /\
      meant_for cf (hist ++ [(CallPopAuthored ns r, RespPacket (Some p))]) (se_topology s) (ap_peer_id p).
  Proof.
    intros Hr Hl He. pose proof (reachable_ok pr Hok _ _ _ Hr) as Hm.
    pose proof (exec_step pr Hok _ _ _ _ _ (proj1 Hr) Hm Hl He) as Hst.
    inversion Hst as [| | | | | | | | | | | | | | | |ns0 r0 rel s p0 rest Hs Hph Hq|ns0 r0 rel s p0 Hs Hcov| | | | |]; subst.
    - exists rel, s. split; [done|]. eapply meant_for_mono; [|eapply queued_for; [exact Hr|exact Hs|rewrite Hq; left]].
      intros x Hx. apply elem_of_app. by left.
    - exists rel, s. split; [done|]. destruct Hcov as (_ & loop & g & kind & rt & r1 & r2 & dl & Eg & Hg & Hk & Hrt & Ep & _).
      rewrite (mo_config _ _ _ Hm) in Hrt.
      eapply own_route; [apply (mx_ok_full _ _ _ _ _ Hm Hs)|exact Eg| |exact Hrt|exact Ep| |].
      + destruct loop; [by subst kind|]. by destruct Hk as (d & -> & _).
      + apply elem_of_app. right. left.
      + done.
  Qed.

  Lemma reserved_in l s ps mn :
    reserved_peers_of l = Val ps -> s ∈ l -> (exists qs, tp_reserved_peers (se_topology s) = Val qs /\ mn ∈ qs) -> mn ∈ ps.
  Proof.
    revert ps. induction l as [|s0 l IH]; intros ps E Hin (qs & Eq & Hq); [by apply elem_of_nil in Hin|].
    cbn in E. apply out_bind_Val in E as (ps1 & E1 & E). apply out_bind_Val in E as (ps2 & E2 & E). injection E as <-.
    apply elem_of_app. apply elem_of_cons in Hin as [->|Hin].
    - left. rewrite E1 in Eq. by injection Eq as <-.
    - right. eapply IH; [done|done|by exists qs].
  Qed.

  (** So it is addressed to a reserved peer, unless the node sends to itself in one hop or sends a reply. *)
  Theorem C81_reserved hist m ns r m' p :
    reachable pr cf hist m -> call_ok (CallPopAuthored ns r) ->
    exec pr m (CallPopAuthored ns r) = Val (m', RespPacket (Some p)) ->
    (forall surbs index id data a, (CallPostReply surbs index id data, a) ∉ hist) -> 2 ≤ cf_num_hops cf ->
    exists ps, reserved_peers m = Val ps /\ ap_peer_id p ∈ map mn_peer_id ps.
  Proof.
    intros Hr Hl He Hno H2. destruct (C81_sent _ _ _ _ _ _ Hr Hl He) as (rel & s & Hs & Hf).
    pose proof (reachable_ok pr Hok _ _ _ Hr) as Hm.
    assert (Hall : forall l, (forall s, s ∈ l -> exists rel, ss_get (mx_sessions m) rel = SlFull s) -> exists ps, reserved_peers_of l = Val ps).
    { induction l as [|s0 l IH]; intros Hin; [by eexists|]. cbn.
      destruct (Hin s0 ltac:(left)) as [rel0 Hs0]. pose proof (so_topology _ _ _ (mx_ok_full _ _ _ _ _ Hm Hs0)) as Ht.
      assert (exists qs, tp_reserved_peers (se_topology s0) = Val qs) as [qs ->].
      { pose proof (C28_reserved_peers _ Ht) as H. destruct (tp_local_node _); [by eexists|]. destruct H as (qs & ? & _). by exists qs. }
      destruct (IH ltac:(intros; apply Hin; by right)) as [ps ->]. by eexists. }
    assert (Hin : forall s, s ∈ ss_iter (mx_sessions m) <-> exists rel, ss_get (mx_sessions m) rel = SlFull s).
    { intros s0. unfold ss_iter. destruct (mx_sessions m) as [cur prev]; cbn. split.
      - intros H. destruct cur, prev; cbn in H; repeat (apply elem_of_cons in H as [->|H]); try (by apply elem_of_nil in H);
          first [by exists RCurrent|by exists RPrev].
      - intros [[] E]; cbn in E; subst; cbn; [left|]. destruct (slot_as_option cur); [right; left|left]. }
    destruct (Hall (ss_iter (mx_sessions m))) as [ps Eps]; [intros; by apply Hin|]. exists ps. split; [exact Eps|].
    pose proof (so_topology _ _ _ (mx_ok_full _ _ _ _ _ Hm Hs)) as Ht. pose proof (C28_reserved_peers _ Ht) as Hres.
    assert (Hgoal : forall mn, (exists qs, tp_reserved_peers (se_topology s) = Val qs /\ mn ∈ qs) -> mn_peer_id mn = ap_peer_id p ->
       ap_peer_id p ∈ map mn_peer_id ps).
    { intros mn Hq <-. apply elem_of_list_fmap_1. eapply reserved_in; [exact Eps|by apply Hin; eexists|exact Hq]. }
    destruct Hf as [l i mn El Em Ep Hne|gs g mn c a El Hg Em Ep _ _|l mn El Em Ep H1|surbs index id data a u mn Hh _ _ _].
    - rewrite El in Hres. apply (Hgoal mn); [|done]. eexists. split; [exact Hres|].
      rewrite delete_take_drop. apply elem_of_app. destruct (decide (i < N.to_nat l)).
      + left. apply elem_of_list_lookup. exists i. by rewrite lookup_take.
      + right. apply elem_of_list_lookup. exists (i - S (N.to_nat l)). rewrite lookup_drop. rewrite <- Em. f_equal. lia.
    - rewrite El in Hres. destruct Hres as (qs & Eq & H2' & _). apply (Hgoal mn); [|done]. exists qs. split; [done|].
      apply elem_of_list_lookup in Hg as [j Hj]. destruct (Forall2_lookup_l _ _ _ _ _ H2' Hj) as (mn' & Hj' & Em').
      rewrite Em in Em'. injection Em' as ->. by eapply elem_of_list_lookup_2.
    - lia.
    - apply elem_of_app in Hh as [Hh|Hh]; [by destruct (Hno surbs index id data a)|]. apply elem_of_list_singleton in Hh. done.
  Qed.

  Lemma forward_step m c a m' :
    step pr m c m' a ->
    (fq_queue (mx_forward m') = fq_queue (mx_forward m) /\ passed [(c, a)] = []) \/
    (exists p, passed [(c, a)] = [p] /\ map fp_packet (fq_queue (mx_forward m)) ≡ₚ p :: map fp_packet (fq_queue (mx_forward m'))) \/
    (passed [(c, a)] = [] /\ exists q now rel s t d fp,
       c = CallHandle q now /\ fq_queue (mx_forward m') = fq_queue (mx_forward m) ++ [fp] /\
       reads pr (mx_sessions m) q rel s /\ is_mixnode s /\ content_of pr s q = CtForward t d (ap_packet (fp_packet fp)) /\
       tp_target_to_peer_id (se_topology s) t = Ok (ap_peer_id (fp_packet fp))).
  Proof.
    intros Hst. destruct Hst; try (left; done).
    - left. split; [|done]. unfold set_session_status, shift_sessions. destruct (decide _); [done|].
      cbv zeta. repeat match goal with |- context [if ?b then _ else _] => destruct b end; done.
    - right. right. split; [done|]. eexists _, _, _, _, _, _, (ForwardPacket (now + dur)%N (AddressedPacket peer next)).
      split_and!; try done. unfold enqueue. by destruct (decide _).
    - pose proof (C21_pop (mx_forward m) tie) as Hp. rewrite H in Hp. destruct p as [p|].
      + right. left. exists p. split; [done|]. destruct Hp as (fp & <- & _ & Hp & _). by rewrite Hp.
      + left. split; [|done]. destruct Hp as [-> _]. done.
    - left. split; [|done]. by destruct (aq_pop _).2.
    - left. split; [|done]. by rewrite (po_state _ _ _ _ _ _ _ _ _ _ _ _ _ _ _ _ _ H).
  Qed.

  (** What a node passes on it was given, once for each time: every packet passed on, and every one still kept, stems
      from a packet of its own that was handled, and is addressed to the peer that one names. *)
  Theorem C81_passed m0 hist m :
    config_ok cf -> mx_new pr cf = Val m0 -> run pr m0 hist m ->
    exists l : list (nat * addressed_packet), NoDup (map fst l) /\
      (forall i p, (i, p) ∈ l -> passes pr m0 hist i p) /\
      passed hist ++ map fp_packet (fq_queue (mx_forward m)) ≡ₚ map snd l.
  Proof.
    intros Hcf Hnew. revert hist m.
    apply (run_ind_r pr (fun hist m => exists l : list (nat * addressed_packet), NoDup (map fst l) /\
             (forall i p, (i, p) ∈ l -> passes pr m0 hist i p) /\
             passed hist ++ map fp_packet (fq_queue (mx_forward m)) ≡ₚ map snd l) m0).
    - exists []. split; [constructor|]. split; [by intros ? ? ?%elem_of_nil|].
      unfold mx_new in Hnew. apply out_bind_Val in Hnew as (ks & _ & Hnew). by injection Hnew as <-.
    - intros h m c a m' Hrun (l & Hnd & Hl & Hp) Hc He.
      assert (Hm : mx_ok pr cf m) by (eapply run_ok; [done..| |done]; by apply mx_new_ok).
      pose proof (exec_step pr Hok _ _ _ _ _ Hcf Hm Hc He) as Hst.
      assert (Hl' : forall i p, (i, p) ∈ l -> passes pr m0 (h ++ [(c, a)]) i p).
      { intros i p Hin. destruct (Hl i p Hin) as (q & now & b & m1 & rel & s & t & d & Hi & Hr & H).
        exists q, now, b, m1, rel, s, t, d. pose proof (lookup_lt_Some _ _ _ Hi) as Hlt.
        split; [by rewrite lookup_app_l|]. rewrite take_app_le by lia. done. }
      assert (Happ : passed (h ++ [(c, a)]) = passed h ++ passed [(c, a)]) by apply omap_app.
      rewrite Happ.
      destruct (forward_step _ _ _ _ Hst) as [[-> ->]|[(p & -> & Hq)|(-> & q & now & rel & s & t & d & fp & -> & -> & Hrd & Hmx & Hct & Hpe)]].
      + exists l. by rewrite app_nil_r.
      + exists l. split_and!; [done|done|]. rewrite <- Hp, Hq, <- app_assoc. done.
      + exists (l ++ [(length h, fp_packet fp)]). split_and!.
        * rewrite map_app. cbn. apply NoDup_app. split_and!; [done| |apply NoDup_singleton].
          intros i Hi ->%elem_of_list_singleton. apply elem_of_list_fmap in Hi as ([i p] & Ei & Hi). cbn in *.
          destruct (Hl i p Hi) as (? & ? & ? & ? & ? & ? & ? & ? & Hlk & _). apply lookup_lt_Some in Hlk. lia.
        * intros i p [Hin|Hin]%elem_of_app; [by apply Hl'|]. apply elem_of_list_singleton in Hin. injection Hin as -> ->.
          exists q, now, a, m, rel, s, t, d. split; [by rewrite lookup_app_r, Nat.sub_diag|].
          split; [by rewrite take_app|]. split_and!; try done.
          destruct t as [k|x]; cbn in Hpe.
          -- unfold tp_index_to_peer_id in Hpe. destruct (tp_mixnodes _ !! _) as [mn|]; [|done]. injection Hpe as Hpe. by exists mn.
          -- by injection Hpe as ->.
        * rewrite app_nil_r, !map_app, app_assoc, Hp. done.
  Qed.
End whom.
Print Assumptions C81_sent.
Print Assumptions C81_reserved.
Print Assumptions C81_passed.
