(** C70: a request is not due for another attempt before the reply to it has had the time to come. *)
From Coq Require Import Reals.
From Verif Require Export PCarry.
From Verif Require PNet PTrip PEnd PTiming POnTime.
Local Open Scope nat_scope.
Local Open Scope N_scope.

(** ** Specification *)

(** Whatever happens to the node and the manager after [s], as long as the manager keeps the request under
    the id, it is not due for another attempt before time [b], up to rounding; [t] is when it was posted. *)
Definition waited_for (pr : prims) (s : host) (d : list bytes) (id : bytes) (t b : instant) : Prop :=
  forall h m rm d2 st,
    hosted pr s d h (m, rm) d2 -> NoDup d2 -> st ∈ managed rm -> rst_message_id st = id ->
    PTiming.within_reach (b - t) (rst_retry_deadline st - t).

(** ** Proof *)
Section patient.
  Context (pr : prims) (Hok : prims_ok pr) (Hexp : exp1_ok (pr_exp1 pr)) (cf : config) (Hcf : config_ok cf).

  Theorem C70_patient rcf h rm d c rm' w w' d' a (W : PNet.world) x :
    1 <= rmc_num_attempts_per_destination rcf -> 1 <= rmc_num_posts_per_attempt rcf ->
    hosted_from_start pr cf rcf h (w_mixnet w, rm) d -> length (ns_local_peer_id (w_ns w)) = 32%nat -> acceptable rm c ->
    call_manager pr rm (w, d) c = Val (rm', (w', d'), a) ->
    PNet.world_ok pr W -> PNet.w_node W x = w_mixnet w ->
    exists tr W' new, PNet.history pr W tr W' /\ PNet.w_node W' x = w_mixnet w' /\
      rqm_log rm' = (rqm_log rm ++ new)%list /\
      forall r id i dest t rtt, EvPosted r id i dest t rtt ∈ new ->
        exists dd dest0 rg mt Wb Wa rel s,
          dest = Some dd /\
          PNet.Moment Wb (PNet.EvCall x (CallPostRequest i dest0 id (rqt_data r) (rqt_num_surbs r) (w_ns w) rg)
            (RespPost (Some dd) (Ok mt))) Wa ∈ tr /\
          usable (PNet.w_node Wb x) i rel s /\
          let nodes := tp_mixnodes (se_topology s) in
          let me := PEnd.self (se_topology s) (w_ns w) in
          let u := cf_mean_forwarding_delay (mx_config (PNet.w_node Wb x)) in
          forall key T, PEnd.honest pr (se_topology s) key -> PTrip.addr_of nodes me = Some x ->
            u <= 2 ^ 50 * NANOS_PER_SEC ->
            (forall mn, mn ∈ nodes -> cf_mean_forwarding_delay (mx_config (PNet.w_node Wb (mn_peer_id mn))) = u) ->
            T <= t ->
            exists y trips surbs entries,
              PEnd.request_sent pr Wb x i id (rqt_data r) (rqt_num_surbs r) rel nodes key dd Wa y trips surbs /\
              mx_keystore (PNet.w_node Wa x) = ks_pushes (mx_keystore (PNet.w_node Wb x)) entries /\
              length entries = length surbs /\
              POnTime.answered_by pr i id (sc_contents (rqt_data r)) nodes key me x surbs entries y trips Wa
                T (rqt_handling_delay r id) (rqm_per_hop_net_delay mt) (rqm_authored_packet_queue_delay mt)
                (waited_for pr (w_mixnet w', rm') d' id t).
  Proof.
    intros HA HP Hst Hns Hc He HW Hx.
    destruct (managed_posts pr Hok cf Hcf rcf h rm d c rm' w w' d' a W x HA HP Hst Hns Hc He HW Hx)
      as (tr & W' & new & Hh & H1 & H2 & H3 & Hnew & Hall).
    exists tr, W', new. split_and!; try done. intros r id i dest t rtt Hin.
    destruct (Hall _ _ _ _ _ _ Hin) as (dd & dest0 & rg & mt & Wb & Wa & rel & s & Hd & Hest & Hmt & HWb & G2 & Hu).
    exists dd, dest0, rg, mt, Wb, Wa, rel, s. split; [done|]. split; [done|]. split; [done|].
    intros nodes me u key T Hhon Hme Hmean Hsame Ht.
    destruct (POnTime.C69_on_time pr Hok Hexp Wb x i dest0 id (rqt_data r) (rqt_num_surbs r) (w_ns w) rg dd mt Wa rel s key
                (rqt_handling_delay r id) rtt T HWb G2 Hu Hhon Hmean Hsame Hme Hest)
      as (y & trips & surbs & entries & R1 & R2 & R3 & R4).
    exists y, trips, surbs, entries. split; [done|]. split; [done|]. split; [done|].
    intros tr1 w2 q1 K1 K2 K3 K4. destruct (R4 tr1 w2 q1 K1 K2 K3 K4) as (aa & J1 & J2 & J3). exists aa. split; [done|]. split; [done|].
    intros y2 rsurbs lft rid rdata rel2 s2 w3 T2 L1 L2 L3 L4 L5.
    destruct (J3 y2 rsurbs lft rid rdata rel2 s2 w3 T2 L1 L2 L3 L4 L5) as (rtrips & used & M1 & M2). exists rtrips, used. split; [done|].
    intros tr2 w4 q2 N1 N2 N3 N4 N5. destruct (M2 tr2 w4 q2 N1 N2 N3 N4 N5) as (b & O1 & O2 & O3). exists b. split; [done|]. split; [done|].
    cbn in O3. intros h' m2 rm2 d2 st Hh2 Hnd2 Hin2 Eid.
    destruct Hst as (m0 & w0 & Hcf' & E & Hh0).
    assert (Hst2 : hosted_from_start pr cf rcf (h ++ [ByManager c a] ++ h') (m2, rm2) d2).
    { exists m0, w0. split; [done|]. split; [done|]. eapply hosted_app; [exact Hh0|]. by econstructor. }
    assert (Hst1 : hosted_from_start pr cf rcf (h ++ [ByManager c a]) (w_mixnet w', rm') d').
    { exists m0, w0. split; [done|]. split; [done|]. eapply hosted_app; [exact Hh0|]. econstructor; try done. constructor. }
    assert (Hev2 : EvPosted r id i dest t rtt ∈ rqm_log rm2).
    { destruct Hst1 as (m1 & w1 & _ & E1 & Hh1).
      destruct (hosted_inv pr Hok cf Hcf rcf _ _ _ _ _ HA HP Hh1 (start_ok pr cf Hcf _ _ _ E1)) as (Hok1 & _ & _).
      destruct (hosted_inv pr Hok cf Hcf rcf _ _ _ _ _ HA HP Hh2 Hok1) as (_ & _ & Hr2).
      apply run_log in Hr2 as [[e Hle] _]. cbn in Hle. rewrite Hle, Hnew. apply elem_of_app. left. apply elem_of_app. by right. }
    pose proof (hosted_reach pr Hok cf Hcf rcf _ _ _ HA HP Hst2) as Hreach2. cbn [snd] in Hreach2.
    rewrite <- Eid in Hev2.
    pose proof (C46_not_early _ _ _ _ _ (PRequestsEx.world_post_law pr) rcf _ _ _ _ _ _ _ _ _ Hreach2 Hnd2 Hin2 Hev2) as Hdl.
    unfold PTiming.within_reach in *. lia.
  Qed.
End patient.
Print Assumptions C70_patient.
