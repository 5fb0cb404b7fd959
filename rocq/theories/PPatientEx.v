(** A concrete case of C70: the request of PCarryEx, posted by the manager of node 8 at time 0, arrives
    after 22.9 seconds; the reply comes 57.9 seconds after the post, and the manager waits for 64.1 seconds. *)
From Coq Require Import Reals.
From Verif Require Import PPatient PMatchEx Toy PEnd PExample PEndEx PCarryEx PRateEx POnTimeEx.
From Verif Require POnTime PTiming.
Import MManagers.
Local Open Scope N_scope.

Definition p_at (k : N) : instant := k * 1000000.
Definition p_out : list (instant * act) := at_times p_at
  [(2000, ex_pop 8); ex_deliver 0 2300; (12400, ex_fwd 32); ex_deliver 0 12600; (22600, ex_fwd 16); ex_deliver 0 22900].
Definition p_back : list (instant * act) := at_times p_at
  [(37000, ex_pop 24); ex_deliver 0 37300; (47400, ex_fwd 32); ex_deliver 0 47600; (57700, ex_fwd 16); ex_deliver 0 57900].
Lemma p_acts_ok : Forall act_ok (map snd p_out) /\ Forall act_ok (map snd p_back).
Proof. split; repeat (constructor; [first [exact I|split; [exact I|first [exact I|apply replicate_length]]]|]); constructor. Qed.
(** What the manager posts *)
Definition p_ask (m : mixnet) (d : list bytes) : call :=
  CallPostRequest 0 None m_id ex_data 1 (ex_ns 8) (w_rng (host_world m d) 1).
Lemma p_ask_ok m d : call_ok (p_ask m d).
Proof.
  unfold p_ask. cbn [call_ok]. repeat first [exact ex_ask_ok|split]; first [by vm_compute|intros ? [=]|apply replicate_length].
Qed.

Definition p_check (l : list PMatchEx.hop) (r : user_request) (W0 : PNet.world) : bool :=
  match host_play l with
  | Some (h, (m, rm), d) =>
      let W := with_8 W0 m in
      session_b W (ex_peer 8) (fun s => bool_decide (self (se_topology s) (ex_ns 8) = TMixnodeIndex 0) &&
        bool_decide (tp_local_kx_public (se_topology s) = derive_kx_public toy_prims (ex_secret 8))) &&
      ((cf_mean_forwarding_delay (mx_config (PNet.w_node W (ex_peer 8))) =? NANOS_PER_SEC) && (same_mean W NANOS_PER_SEC &&
      (match entries_of W (ex_peer 8) with [] => true | _ => false end && (idle m &&
      (rqm_has_space rm &&
      (match call_manager toy_prims rm (host_world m d, d) (RmInsert r) with
       | Val (rm', (w', d'), _) =>
           bool_decide (NoDup d') &&
           match rqm_log rm, rqm_log rm', managed rm' with
           | [], [EvPosted r' id i (Some 2) 0 rtt], [st] => bool_decide (id = m_id) && (bool_decide (i = 0) && (bool_decide (rtt = 64098912609) &&
               (bool_decide (rst_message_id st = m_id) && bool_decide (rst_retry_deadline st = 64098912609))))
           | _, _, _ => false
           end
       | Panic => false
       end &&
      match next W (ADo (ex_peer 8) (p_ask m d)) with
      | Some (PNet.Moment _ (PNet.EvCall _ _ (RespPost (Some d) (Ok mt))) W1) =>
          (d =? 2) && (match estimate_rtt mt (rqt_handling_delay r m_id) with Val t => t =? 64098912609 | Panic => false end &&
          ((16100 * 1000000 <=? rqm_authored_packet_queue_delay mt) && ((rqm_per_hop_net_delay mt =? 300 * 1000000) &&
           timely m_id p_out p_back (p_at 0) (300 * 1000000) (2000 * 1000000) (14100 * 1000000) (p_at 22900) (p_at 22900) (p_at 57900) W1)))
      | _ => false
      end))))))
  | None => false
  end.
Lemma p_checked : with_world (p_check told_status first_request) = true.
Proof. by vm_compute. Qed.

Lemma p_check_spec l W0 :
  world_ok toy_prims W0 -> calm W0 -> Forall hop_ok l -> p_check l first_request W0 = true ->
  exists h m rm d rm' w' d' a W s r' mt W1 trips surbs entries st,
    (** the hypotheses of C70_patient: a call on the manager *)
    hosted_from_start toy_prims (ex_config 8) host_cf h (m, rm) d /\ acceptable rm (RmInsert first_request) /\
    call_manager toy_prims rm (host_world m d, d) (RmInsert first_request) = Val (rm', (w', d'), a) /\
    world_ok toy_prims W /\ PNet.w_node W (ex_peer 8) = m /\ exp1_ok (pr_exp1 toy_prims) /\
    rqm_log rm = [] /\ rqm_log rm' = [EvPosted r' m_id 0 (Some 2) 0 64098912609] /\
    (** the post *)
    PNet.happens toy_prims W (PNet.EvCall (ex_peer 8) (p_ask m d) (RespPost (Some 2) (Ok mt))) W1 /\
    usable (PNet.w_node W (ex_peer 8)) 0 RCurrent s /\ honest toy_prims (se_topology s) ex_key /\
    tp_mixnodes (se_topology s) = ex_nodes /\
    addr_of ex_nodes (self (se_topology s) (ex_ns 8)) = Some (ex_peer 8) /\
    cf_mean_forwarding_delay (mx_config (PNet.w_node W (ex_peer 8))) = NANOS_PER_SEC /\
    (forall mn, mn ∈ ex_nodes -> cf_mean_forwarding_delay (mx_config (PNet.w_node W (mn_peer_id mn))) = NANOS_PER_SEC) /\
    (** what follows *)
    request_sent toy_prims W (ex_peer 8) 0 m_id ex_data 1 RCurrent ex_nodes ex_key 2 W1 (ex_peer 24) trips surbs /\
    timely_case m_id ex_data (p_at 0) (rqm_per_hop_net_delay mt) (2000 * 1000000) (14100 * 1000000)
      (p_at 22900) (p_at 22900) (p_at 57900) (self (se_topology s) (ex_ns 8)) surbs entries trips W1
      (rqt_handling_delay first_request m_id) (rqm_authored_packet_queue_delay mt) /\
    (** the request is still managed then *)
    NoDup d' /\ st ∈ managed rm' /\ rst_message_id st = m_id /\ rst_retry_deadline st = 64098912609.
Proof.
  intros HW0 Hcalm0 Hl H. pose proof toy_prims_ok as Hok. unfold p_check in H.
  destruct (host_play l) as [[[h [m rm]] d]|] eqn:Eh; [|discriminate H]. cbv zeta in H.
  set (W := with_8 W0 m) in *.
  apply andb_true_iff in H as [Hs H]. apply andb_true_iff in H as [Hu H]. apply andb_true_iff in H as [Hmean H].
  apply andb_true_iff in H as [He H]. apply andb_true_iff in H as [Hidle H]. apply andb_true_iff in H as [Hsp H].
  apply andb_true_iff in H as [Hm H]. apply N.eqb_eq in Hu. apply idle_spec in Hidle.
  destruct (session_b_spec _ _ _ Hs) as (s & Hus & Hnodes & Hq & Hf). clear Hs.
  apply andb_true_iff in Hf as [Hself Hloc]. apply bool_decide_eq_true in Hself, Hloc.
  pose proof (same_mean_spec _ _ Hmean) as Hall.
  assert (He' : entries_of W (ex_peer 8) = []) by (destruct (entries_of W (ex_peer 8)); [done|discriminate He]). clear He.
  destruct (call_manager toy_prims rm (host_world m d, d) (RmInsert first_request)) as [[[rm' [w' d']] a]|] eqn:Ec; [|discriminate Hm].
  apply andb_true_iff in Hm as [Hnd Hm]. apply bool_decide_eq_true in Hnd.
  destruct (rqm_log rm) eqn:El; [|discriminate Hm].
  destruct (rqm_log rm') as [|[r' id i [[|[|[| |]|]]|] [|] rtt| | |] [|]] eqn:El'; try discriminate Hm.
  destruct (managed rm') as [|st [|]] eqn:Eman; [discriminate Hm| |discriminate Hm].
  apply andb_true_iff in Hm as [Hid Hm]. apply andb_true_iff in Hm as [Hi Hm]. apply andb_true_iff in Hm as [Hr Hm].
  apply andb_true_iff in Hm as [Hsid Hsdl]. apply bool_decide_eq_true in Hid, Hi, Hr, Hsid, Hsdl. subst id i rtt.
  destruct (next W (ADo (ex_peer 8) (p_ask m d))) as [[w0 e W1]|] eqn:E1; [|discriminate H].
  destruct (next_happens _ _ _ (conj I (p_ask_ok m d) : act_ok (ADo (ex_peer 8) (p_ask m d))) E1) as [Hhap Hw0].
  cbn [PNet.mt_event PNet.mt_after PNet.mt_before] in Hhap, Hw0. subst w0.
  assert (Hev : exists a, e = PNet.EvCall (ex_peer 8) (p_ask m d) a).
  { cbn [next] in E1. destruct (exec _ _ _) as [[m1 a1]|]; [|discriminate E1]. injection E1 as <- _. by exists a1. }
  destruct Hev as [a1 ->]. clear E1.
  destruct a1 as [| | | | |[dd|] [mt|]| |]; try discriminate H. apply andb_true_iff in H as [Hd H]. apply N.eqb_eq in Hd. subst dd.
  apply andb_true_iff in H as [Hrtt H]. apply andb_true_iff in H as [Hqd0 H]. apply andb_true_iff in H as [Hn H].
  assert (Hrtt' : estimate_rtt mt (rqt_handling_delay first_request m_id) = Val 64098912609).
  { destruct (estimate_rtt mt (rqt_handling_delay first_request m_id)) as [t|]; [|discriminate Hrtt].
    apply N.eqb_eq in Hrtt. by rewrite Hrtt. }
  clear Hrtt. apply N.eqb_eq in Hn.
  pose proof (host_play_spec _ _ _ _ Hl Eh) as Hst.
  assert (Hacc : acceptable rm (RmInsert first_request)) by (intros ? [= <-]; split; [exact first_request_ok|done]).
  assert (HW : world_ok toy_prims W).
  { intros y. unfold W. destruct (decide (y = ex_peer 8)) as [->|Hy].
    - destruct (C64_posts toy_prims toy_prims_ok (ex_config 8) (ex_config_ok 8) host_cf h m rm d) as (hist & Hre & _); [by vm_compute..|exact Hst|].
      exists (ex_config 8), hist. cbn [with_8 PNet.w_node]. rewrite PNet.with_node_same. exact Hre.
    - cbn [with_8 PNet.w_node]. rewrite PNet.with_node_other by done. apply HW0. }
  assert (Hcalm : calm W).
  { intros x Hx. unfold W. cbn [with_8 PNet.w_node]. rewrite PNet.with_node_other; [by apply Hcalm0|].
    intros ->. apply Hx. apply elem_of_list_here. }
  pose proof (ex_honest _ Hnodes Hloc) as Hhon.
  assert (Hsa : addr_of ex_nodes (self (se_topology s) (ex_ns 8)) = Some (ex_peer 8)) by (rewrite Hself; reflexivity).
  assert (Hu50 : cf_mean_forwarding_delay (mx_config (PNet.w_node W (ex_peer 8))) <= 2 ^ 50 * NANOS_PER_SEC).
  { rewrite Hu. vm_compute. discriminate. }
  pose proof (POnTime.C69_on_time toy_prims Hok toy_exp1_ok W (ex_peer 8) 0 None m_id ex_data 1 (ex_ns 8) (w_rng (host_world m d) 1) 2 mt W1 RCurrent s ex_key
                (rqt_handling_delay first_request m_id) 64098912609 (p_at 0) HW Hhap Hus Hhon) as HC. cbv zeta in HC. rewrite Hnodes, Hu in HC. rewrite Hu in Hu50.
  destruct (HC Hu50 Hall Hsa Hrtt') as (y & trips & surbs & entries & Hsent & Hks & Hle & Hgo). clear HC.
  assert (y = ex_peer 24) as ->.
  { destruct Hsent as [Hy _]. unfold ex_nodes in Hy. cbn [addr_of map lookup list_lookup] in Hy.
    change (N.to_nat 2) with 2%nat in Hy. by injection Hy. }
  rewrite <- Hn in H.
  destruct (timely_spec m_id ex_data p_out p_back (p_at 0) (rqm_per_hop_net_delay mt) (2000 * 1000000) (14100 * 1000000)
     (p_at 22900) (p_at 22900) (p_at 57900) W W1 s trips surbs entries (rqt_handling_delay first_request m_id) (rqm_authored_packet_queue_delay mt) _
     HW (after_calm _ _ _ _ Hcalm Hhap) Hus Hq Hself He' Hsent Hks Hle Hgo (proj1 p_acts_ok) (proj2 p_acts_ok) (eq_refl _) Hqd0 H)
    as [Hcase _].
  exists h, m, rm, d, rm', w', d', a, W, s, r', mt, W1, trips, surbs, entries, st.
  split; [exact Hst|]. split; [exact Hacc|]. split; [exact Ec|]. split; [exact HW|].
  split; [unfold W; cbn [with_8 PNet.w_node]; by rewrite PNet.with_node_same|]. split; [exact toy_exp1_ok|].
  split; [exact El|]. split; [exact El'|]. do 10 (split; [assumption|]).
  split; [rewrite Eman; apply elem_of_list_here|]. split; assumption.
Qed.
Example C70_example :
  exists h m rm d rm' w' d' a W s r' mt W1 trips surbs entries st,
    hosted_from_start toy_prims (ex_config 8) host_cf h (m, rm) d /\ acceptable rm (RmInsert first_request) /\
    call_manager toy_prims rm (host_world m d, d) (RmInsert first_request) = Val (rm', (w', d'), a) /\
    world_ok toy_prims W /\ PNet.w_node W (ex_peer 8) = m /\ exp1_ok (pr_exp1 toy_prims) /\
    rqm_log rm = [] /\ rqm_log rm' = [EvPosted r' m_id 0 (Some 2) 0 64098912609] /\
    PNet.happens toy_prims W (PNet.EvCall (ex_peer 8) (p_ask m d) (RespPost (Some 2) (Ok mt))) W1 /\
    usable (PNet.w_node W (ex_peer 8)) 0 RCurrent s /\ honest toy_prims (se_topology s) ex_key /\
    tp_mixnodes (se_topology s) = ex_nodes /\
    addr_of ex_nodes (self (se_topology s) (ex_ns 8)) = Some (ex_peer 8) /\
    cf_mean_forwarding_delay (mx_config (PNet.w_node W (ex_peer 8))) = NANOS_PER_SEC /\
    (forall mn, mn ∈ ex_nodes -> cf_mean_forwarding_delay (mx_config (PNet.w_node W (mn_peer_id mn))) = NANOS_PER_SEC) /\
    request_sent toy_prims W (ex_peer 8) 0 m_id ex_data 1 RCurrent ex_nodes ex_key 2 W1 (ex_peer 24) trips surbs /\
    timely_case m_id ex_data (p_at 0) (rqm_per_hop_net_delay mt) (2000 * 1000000) (14100 * 1000000)
      (p_at 22900) (p_at 22900) (p_at 57900) (self (se_topology s) (ex_ns 8)) surbs entries trips W1
      (rqt_handling_delay first_request m_id) (rqm_authored_packet_queue_delay mt) /\
    NoDup d' /\ st ∈ managed rm' /\ rst_message_id st = m_id /\ rst_retry_deadline st = 64098912609.
Proof.
  destruct (with_world_spec _ p_checked) as (W0 & HW0 & Hcalm & H).
  exact (p_check_spec _ _ HW0 Hcalm told_status_ok H).
Qed.
Print Assumptions C70_patient.
