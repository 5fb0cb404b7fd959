(** C67: what a request manager posts is carried to its destination, and its replies come back to the
    request. *)
From Verif Require Export PMatch PServe.
From Verif Require PNet PTrip PEnd.
Local Open Scope N_scope.

Lemma posts_moment x tr c a :
  (c, a) ∈ posts_of x tr -> exists Wb Wa, PNet.Moment Wb (PNet.EvCall x c a) Wa ∈ tr.
Proof.
  intros H. apply elem_of_list_omap in H as ([Wb e Wa] & Hin & H). cbn in H. destruct e as [y c' a'|]; [|done].
  destruct (decide (y = x)) as [->|]; [|done]. injection H as -> ->. by exists Wb, Wa.
Qed.

Section carry.
  Context (pr : prims) (Hok : prims_ok pr) (cf : config) (Hcf : config_ok cf).

  (** The posts of a manager in a network *)
  Lemma managed_posts rcf h rm d c rm' w w' d' a (W : PNet.world) x :
    1 <= rmc_num_attempts_per_destination rcf -> 1 <= rmc_num_posts_per_attempt rcf ->
    hosted_from_start pr cf rcf h (w_mixnet w, rm) d -> length (ns_local_peer_id (w_ns w)) = 32%nat -> acceptable rm c ->
    call_manager pr rm (w, d) c = Val (rm', (w', d'), a) ->
    PNet.world_ok pr W -> PNet.w_node W x = w_mixnet w ->
    exists tr W' new, PNet.history pr W tr W' /\ PNet.w_node W' x = w_mixnet w' /\
      PNet.w_wire W' = PNet.w_wire W /\ (forall y, y <> x -> PNet.w_node W' y = PNet.w_node W y) /\
      rqm_log rm' = (rqm_log rm ++ new)%list /\
      forall r id i dest t rtt, EvPosted r id i dest t rtt ∈ new ->
        exists dd dest0 rg mt Wb Wa rel s,
          let e := PNet.EvCall x (CallPostRequest i dest0 id (rqt_data r) (rqt_num_surbs r) (w_ns w) rg)
            (RespPost (Some dd) (Ok mt)) in
          dest = Some dd /\ estimate_rtt mt (rqt_handling_delay r id) = Val rtt /\
          PNet.Moment Wb e Wa ∈ tr /\ PNet.world_ok pr Wb /\ PNet.happens pr Wb e Wa /\
          usable (PNet.w_node Wb x) i rel s.
  Proof.
    intros HA HP Hst Hns Hc He HW Hx.
    destruct (C64_network pr Hok cf Hcf rcf h rm d c rm' w w' d' a W x HA HP Hst Hns Hc He Hx)
      as (tr & W' & Hh & H1 & H2 & H3 & Hpost & _ & new & Hnew & Htold).
    exists tr, W', new. split_and!; try done. intros r id i dest t rtt Hin.
    destruct (told_in _ _ _ _ _ _ _ _ Htold Hin) as (dest0 & ns0 & rg & mt & Hca & Hest).
    rewrite Forall_forall in Hpost. pose proof (Hpost _ Hca) as Hns0. cbn in Hns0. subst ns0.
    apply posts_moment in Hca as (Wb & Wa & Hmt).
    apply elem_of_list_split in Hmt as (tr1 & tr2 & Etr).
    pose proof Hh as Hh'. rewrite Etr in Hh'. apply PNet.history_split in Hh' as (G1 & G2 & G3). cbn in G1, G2, G3.
    assert (HWb : PNet.world_ok pr Wb) by (by eapply PNet.history_ok).
    assert (Hu : exists dd rel s, dest = Some dd /\ usable (PNet.w_node Wb x) i rel s).
    { inversion G2 as [? ? ? ? m Hnh Hco Hex| |]; subst.
      destruct (HWb x) as (cfx & hx & Hrx). destruct (PNet.reachable_mx_ok pr Hok _ _ _ Hrx) as [Hcfx Hmx].
      pose proof (PInv.exec_step pr Hok cfx _ _ _ _ Hcfx Hmx Hco Hex) as Hstep. inversion Hstep; subst.
      match goal with H : posted _ _ _ _ _ _ _ _ _ _ _ _ _ _ _ _ _ |- _ => rename H into Hp end.
      eexists _, _, _. split; [done|]. exact (po_usable _ _ _ _ _ _ _ _ _ _ _ _ _ _ _ _ _ Hp). }
    destruct Hu as (dd & rel & s & -> & Hu).
    exists dd, dest0, rg, mt, Wb, Wa, rel, s. split; [done|]. split; [done|]. split; [rewrite Etr; apply elem_of_app; right; left|].
    done.
  Qed.
  Theorem C67_round_trip rcf h rm d c rm' w w' d' a (W : PNet.world) x :
    1 <= rmc_num_attempts_per_destination rcf -> 1 <= rmc_num_posts_per_attempt rcf ->
    hosted_from_start pr cf rcf h (w_mixnet w, rm) d -> length (ns_local_peer_id (w_ns w)) = 32%nat -> acceptable rm c ->
    call_manager pr rm (w, d) c = Val (rm', (w', d'), a) ->
    PNet.world_ok pr W -> PNet.w_node W x = w_mixnet w ->
    exists tr W' new, PNet.history pr W tr W' /\ PNet.w_node W' x = w_mixnet w' /\
      PNet.w_wire W' = PNet.w_wire W /\ (forall y, y <> x -> PNet.w_node W' y = PNet.w_node W y) /\
      rqm_log rm' = (rqm_log rm ++ new)%list /\
      forall r id i dest t rtt, EvPosted r id i dest t rtt ∈ new ->
        exists dd dest0 rg mt Wb Wa rel s,
          dest = Some dd /\ estimate_rtt mt (rqt_handling_delay r id) = Val rtt /\
          PNet.Moment Wb (PNet.EvCall x (CallPostRequest i dest0 id (rqt_data r) (rqt_num_surbs r) (w_ns w) rg)
            (RespPost (Some dd) (Ok mt))) Wa ∈ tr /\
          usable (PNet.w_node Wb x) i rel s /\
          let nodes := tp_mixnodes (se_topology s) in
          let me := PEnd.self (se_topology s) (w_ns w) in
          forall key, PEnd.honest pr (se_topology s) key -> PTrip.addr_of nodes me = Some x ->
            exists y trips surbs entries,
              PEnd.request_sent pr Wb x i id (rqt_data r) (rqt_num_surbs r) rel nodes key dd Wa y trips surbs /\
              mx_keystore (PNet.w_node Wa x) = ks_pushes (mx_keystore (PNet.w_node Wb x)) entries /\
              length entries = length surbs /\
              answered_back pr i id (sc_contents (rqt_data r)) nodes key me x surbs entries.
  Proof.
    intros HA HP Hst Hns Hc He HW Hx.
    destruct (managed_posts rcf h rm d c rm' w w' d' a W x HA HP Hst Hns Hc He HW Hx)
      as (tr & W' & new & Hh & H1 & H2 & H3 & Hnew & Hall).
    exists tr, W', new. split_and!; try done. intros r id i dest t rtt Hin.
    destruct (Hall _ _ _ _ _ _ Hin) as (dd & dest0 & rg & mt & Wb & Wa & rel & s & Hd & Hest & Hmt & HWb & G2 & Hu).
    exists dd, dest0, rg, mt, Wb, Wa, rel, s. split; [done|]. split; [done|]. split; [done|]. split; [done|].
    intros nodes me key Hhon Hme.
    exact (C66_returned pr Hok Wb x i dest0 id (rqt_data r) (rqt_num_surbs r) (w_ns w) rg dd mt Wa rel s key HWb G2 Hu Hhon Hme).
  Qed.

  (** The id under which the manager posted a request stands for that request ever after: removing it,
      as the application does when a reply to it is returned, gives that request, or nothing if it is
      not managed under that id any more. *)
  Theorem C67_removed rcf h m rm d r id i dest t rtt h' m2 rm2 d2 w2 rm3 w3 a :
    1 <= rmc_num_attempts_per_destination rcf -> 1 <= rmc_num_posts_per_attempt rcf ->
    hosted_from_start pr cf rcf h (m, rm) d -> EvPosted r id i dest t rtt ∈ rqm_log rm ->
    hosted pr (m, rm) d h' (m2, rm2) d2 -> NoDup d2 ->
    call_manager pr rm2 (w2, d2) (RmRemove id) = Val (rm3, w3, a) ->
    (a = RmRemoved (Some r) /\ exists st, st ∈ managed rm2 /\ rst_message_id st = id) \/
    (a = RmRemoved None /\ forall st, st ∈ managed rm2 -> rst_message_id st <> id).
  Proof.
    intros HA HP (m0 & w & _ & E & Hh) Hev Hh2 Hnd2 Hrem.
    assert (Hst2 : hosted_from_start pr cf rcf (h ++ h') (m2, rm2) d2).
    { exists m0, w. split; [done|]. split; [done|]. by eapply hosted_app. }
    pose proof (hosted_reach pr Hok cf Hcf rcf _ _ _ HA HP Hst2) as Hreach2. cbn [snd] in Hreach2.
    assert (Hev2 : EvPosted r id i dest t rtt ∈ rqm_log rm2).
    { destruct (hosted_inv pr Hok cf Hcf rcf _ _ _ _ _ HA HP Hh (start_ok pr cf Hcf _ _ _ E)) as (Hok1 & _ & _).
      destruct (hosted_inv pr Hok cf Hcf rcf _ _ _ _ _ HA HP Hh2 Hok1) as (_ & _ & Hr2).
      apply run_log in Hr2 as [[e Hle] _]. cbn in Hle. rewrite Hle. apply elem_of_app. by left. }
    destruct (C42_remove _ _ _ _ _ _ _ _ _ _ _ Hrem) as [(-> & _ & Hn)|(st & -> & Hst' & Hman)]; [by right|left].
    assert (Hin2 : st ∈ managed rm2) by (rewrite Hman; by left).
    split; [|by exists st].
    destruct (C45_managed _ _ _ _ _ (PRequestsEx.world_post_law pr) rcf _ _ _ Hreach2 Hnd2) as [_ Hm].
    rewrite <- Hst' in Hev2. destruct (Hm _ _ _ _ _ _ Hin2 Hev2) as (-> & _). done.
  Qed.
End carry.
