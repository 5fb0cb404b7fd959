(** C54: cover packets, from the node making them to where they vanish. *)
From Verif Require Export PEnd.

(** ** Specification *)

(** The trip of a cover packet: back to the node making it, or to a mixnode other than it. At its end
    the packet is read, changes nothing and is not reported. *)
Definition cover_trip (pr : prims) (s : session) (ns : network_status) (index : session_index)
    (key : target -> bytes) (loop : bool) (p : addressed_packet) (trip : list stage) : Prop :=
  let nodes := tp_mixnodes (se_topology s) in
  (exists t, trip_to pr nodes index key t trip /\
     if loop then t = self (se_topology s) ns
     else t <> self (se_topology s) ns /\ exists d, t = TMixnodeIndex d /\ N.to_nat d < length nodes) /\
  first_packet trip = Some p /\
  exists g, list.last trip = Some g /\
    forall m now, can_read pr nodes index g m -> handle_packet pr m (ap_packet (sg_to g)) now = Val (m, None).

(** ** Proof *)
Section cover.
  Context (pr : prims) (Hok : prims_ok pr).

  Lemma journey_cover q sk s :
    journey pr q [sk] [] (fun out res => res = Ok (ADeliverCover None)) -> kp_secret (se_kx_pair s) = sk ->
    length q = N.to_nat 2252 /\ opens pr s q /\
    exists out, length out = N.to_nat 2252 /\ (peel pr out q (shared pr s q)).2 = Ok (ADeliverCover None).
  Proof.
    cbn [journey]. intros (Hp & Hpeel) Hk. rewrite PACKET_SIZE_eq in Hp.
    pose proof (Hpeel (replicate (N.to_nat 2252) 0%N)) as H. rewrite PACKET_SIZE_eq in H.
    specialize (H zeros_length). rewrite <- Hk, <- shared_secret in H.
    destruct (peel pr _ q (shared pr s q)) as [out' res] eqn:E. subst res. split_and!; [done| |].
    - by eapply (peel_opens pr Hok); [apply zeros_length|..].
    - exists (replicate (N.to_nat 2252) 0%N). split; [apply zeros_length|]. by rewrite E.
  Qed.

  Lemma cover_travels cf s ns loop p index key :
    topo_ok (se_topology s) -> length (ns_local_peer_id ns) = 32 -> honest pr (se_topology s) key ->
    cover_made pr cf s ns loop p -> exists trip, cover_trip pr s ns index key loop p trip.
  Proof.
    intros Ht Hns Hhon (g & kind & rt & r & r' & dl & Eg & Hg & Hkind & Hr & Hpeer & E & _).
    destruct (C25_generator (se_topology s) ns Ht) as (g' & Eg' & _ & Etop & Epeer & _).
    rewrite Eg in Eg'. injection Eg' as <-. rewrite <- Etop in Hhon.
    destruct (route_path pr _ _ _ _ _ Hg ltac:(by rewrite Epeer) Hr Hhon) as [Hpath _].
    rewrite (honest_keys pr _ _ _ _ _ Hr Hhon) in E.
    assert (Hd : default_packet = replicate HEADER_SIZE 0%N ++ replicate (PACKET_SIZE - HEADER_SIZE) 0%N).
    { unfold default_packet. rewrite <- replicate_add. by f_equal. }
    rewrite Hd in E.
    destruct (cover_built pr Hok (replicate HEADER_SIZE 0%N) (replicate (PACKET_SIZE - HEADER_SIZE) 0%N) (rt_targets rt)
                (map key (route_nodes rt)) None r Hpath) as (p' & ds & r2 & E' & Hds & HJ); [apply replicate_length|done|].
    rewrite E' in E. injection E as E _ _. subst p'.
    destruct (route_trip pr Hok g kind _ rt key index _ ds _ (ap_peer_id p) Hr HJ Hds)
      as (trip & y & q & H1 & H2 & H3 & H4 & _ & H5).
    { rewrite <- Etop in Hpeer. unfold tp_index_to_peer_id in Hpeer. cbn.
      destruct (tp_mixnodes (rg_topology g) !! _); [|done]. by injection Hpeer as <-. }
    assert (Eme : local_target g = self (se_topology s) ns) by (unfold local_target, self; by rewrite Etop, Epeer).
    exists trip. unfold cover_trip. rewrite <- Etop. split_and!.
    - eexists. split; [exact H1|]. destruct loop.
      + subst kind. by rewrite Etop.
      + destruct Hkind as (d & -> & Hv & Hn). rewrite Etop. split.
        * unfold self. destruct (tp_local_node _); congruence.
        * by exists d.
    - rewrite H2. by destruct p.
    - eexists. split; [exact H4|]. intros m now (rel & s' & Hs & Hu).
      pose proof Hs as (_ & _ & Hk & _). cbn [sg_key sg_to ap_packet] in *.
      destruct (journey_cover _ _ s' H5 Hk) as (Hp & Ho & Hc).
      eapply C10_no_effect; [done|done| |exact Hc]. by eapply can_reads.
  Qed.

  (** ** C54 *)

  (** A packet that [pop_next_authored_packet] gives the network is the oldest one queued in some
      session, or, if cover packets are switched on, a cover packet with such a trip. In all histories
      in which its packets are carried on, all of them are handled, and none of the nodes reports
      anything; the one at the end is not changed at all. *)
  Theorem C54_cover w x ns r p w1 :
    world_ok pr w -> happens pr w (EvCall x (CallPopAuthored ns r) (RespPacket (Some p))) w1 ->
    exists rel s, ss_get (mx_sessions (w_node w x)) rel = SlFull s /\
      ((exists s' rest, aq_queue (se_authored s) = p :: rest /\
          ss_get (mx_sessions (w_node w1 x)) rel = SlFull s' /\ aq_queue (se_authored s') = rest) \/
       cf_gen_cover_packets (mx_config (w_node w x)) = true /\
       mx_sessions (w_node w1 x) = mx_sessions (w_node w x) /\
       exists loop, forall index key, honest pr (se_topology s) key ->
         exists trip, cover_trip pr s ns index key loop p trip /\
           let nodes := tp_mixnodes (se_topology s) in
           forall tr w', let tr1 := Moment w (EvCall x (CallPopAuthored ns r) (RespPacket (Some p))) w1 :: tr in
             conveyed pr nodes index (fun _ => can_read pr nodes index) [trip] x w tr1 w' ->
             forall j g, trip !! j = Some g -> exists mt b now,
               first_at tr1 mt (sg_to g) /\ mt_event mt = EvHandle b (sg_to g) now None /\
               (S j = length trip -> forall z, w_node (mt_after mt) z = w_node (mt_before mt) z)).
  Proof.
    intros Hw Hhap.
    destruct (happens_call _ _ _ _ Hhap) as (x' & c & a & m & Hcall & Hex & En & <- & <- & <- & _ & Hwire).
    destruct (Hw x) as (cf & hist & Hr). destruct (reachable_mx_ok pr Hok _ _ _ Hr) as [Hcf Hm].
    pose proof Hcall as Hns.
    destruct (C39_pop pr Hok cf Hcf _ _ _ _ _ Hm Hns Hex) as [(_ & _ & ?)|(rel & s & r1 & loop & r2 & _ & Hs & _ & Hcase)]; [done|].
    exists rel, s. split; [done|]. rewrite En, with_node_same, (mo_config _ _ _ Hm).
    assert (Hc : (exists rest m1, aq_queue (se_authored s) = p :: rest /\
        m1 = set_slot (w_node w x) rel (SlFull (se_set_authored s (AuthoredQueue (aq_config (se_authored s)) rest))) /\
        (m = mx_or_events m1 NEXT_AUTHORED_PACKET_DEADLINE_CHANGED \/
         m = mx_or_events (mx_or_events m1 NEXT_AUTHORED_PACKET_DEADLINE_CHANGED) SPACE_IN_AUTHORED_PACKET_QUEUE)) \/
      exists loop, m = mx_or_events (w_node w x) NEXT_AUTHORED_PACKET_DEADLINE_CHANGED /\
        sends_cover pr cf s ns loop (Some p)).
    { destruct loop, (aq_queue (se_authored s)) as [|q rest]; [right; by eexists..|].
      destruct (decide _); [|right; by eexists]. destruct Hcase as ([= <-] & m1 & Hm1 & Hm2). left. by exists rest, m1. }
    clear Hcase loop. destruct Hc as [(rest & m1 & Hq & -> & Hm1)|(loop & -> & Hgen & Hmade)].
    { left. exists (se_set_authored s (AuthoredQueue (aq_config (se_authored s)) rest)), rest.
      split; [done|]. split; [|done]. destruct Hm1 as [-> | ->]; by destruct rel. }
    right. split_and!; [done|done|]. exists loop.
    intros index key Hhon.
    pose proof (mx_ok_full pr cf _ rel s Hm Hs) as Hso.
    destruct (cover_travels _ s ns loop p index key (so_topology _ _ _ Hso) Hns Hhon Hmade) as (trip & Htrip).
    exists trip. split; [done|]. intros nodes tr w' tr1 Hca j g Hj.
    destruct Htrip as ((t & Hto & _) & _ & gl & Hlast & Hend).
    destruct (conveyed_handled pr Hok nodes index _ [trip] x w tr1 w' key t Hw Hca) with (trip := trip) (g := g)
      as (mt0 & Hin & Hh0); [by constructor|left|by eapply elem_of_list_lookup_2|].
    destruct (first_exists tr1 (sg_to g)) as (mt & Hfst); [by exists mt0|].
    assert (Hfst2 := Hfst). destruct Hfst2 as (t1 & t2 & Etr & (b & now & msg & Ee) & _).
    exists mt, b, now. split; [done|].
    pose proof (ca_history _ _ _ _ _ _ _ _ _ Hca) as Hh. rewrite Etr in Hh.
    destruct (history_split _ _ _ _ _ _ Hh) as (_ & H2 & _). rewrite Ee in H2.
    destruct (happens_call _ _ _ _ H2) as (x0 & c & a & m0 & _ & Hex0 & En0 & -> & -> & -> & _).
    cbn [exec] in Hex0. apply out_bind_Val in Hex0 as ([m1 msg1] & Hh1 & [= -> ->]).
    assert (Hlt := Hj). apply lookup_lt_Some in Hlt.
    destruct (decide (S j = length trip)) as [Elast|Hne].
    - assert (gl = g) as ->. { rewrite last_lookup, <- Elast in Hlast. cbn in Hlast. congruence. }
      pose proof (ca_end _ _ _ _ _ _ _ _ _ Hca mt 0 trip g eq_refl Hlast Hfst) as Hready.
      rewrite (Hend _ now Hready) in Hh1. injection Hh1 as <- <-. split; [done|].
      intros _ z. rewrite En0. unfold with_node. by case_decide; subst.
    - pose proof (ca_forward _ _ _ _ _ _ _ _ _ Hca mt trip j g) as Hfw.
      specialize (Hfw ltac:(left) Hj ltac:(lia) Hfst).
      destruct (lookup_lt_is_Some_2 trip (S j)) as [g' Hg']; [lia|].
      destruct Hto as (Hl & _). destruct (Hl j g g' Hj Hg' _ _ _ _ Hfw Hh1) as [-> _]. split; [done|]. lia.
  Qed.
End cover.
Print Assumptions C54_cover.
