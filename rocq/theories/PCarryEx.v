(** Concrete cases for C67: the first request of PMatchEx, posted by a manager whose node is part of the
    network of PEndEx. *)
From Verif Require Import PCarry PMatchEx Toy PEnd PExample PEndEx.
Import MManagers.
Local Open Scope N_scope.

Definition told_status : list PMatchEx.hop := (map HNode ex_setup ++ [HManager (RmUpdate (SessionStatus 0 PRequestsToCurrent))])%list.
Lemma told_status_ok : Forall hop_ok told_status.
Proof. apply Forall_app. split; [apply Forall_map; exact ex_setup_ok|by repeat constructor]. Qed.
Definition with_8 (W : PNet.world) (m : mixnet) : PNet.world := PNet.World (PNet.with_node W (ex_peer 8) m) (PNet.w_wire W).
Definition c_check (l : list PMatchEx.hop) (r : user_request) (W0 : PNet.world) : bool :=
  match host_play l with
  | Some (h, (m, rm), d) =>
      session_b (with_8 W0 m) (ex_peer 8) (fun s => bool_decide (self (se_topology s) (ex_ns 8) = TMixnodeIndex 0) &&
        bool_decide (tp_local_kx_public (se_topology s) = derive_kx_public toy_prims (ex_secret 8))) &&
      (rqm_has_space rm &&
      match call_manager toy_prims rm (host_world m d, d) (RmInsert r) with
      | Val (rm', (w', d'), _) =>
          bool_decide (NoDup d') &&
          match rqm_log rm, rqm_log rm' with
          | [], [EvPosted r' id i (Some 2) _ _] => bool_decide (rqt_tag r' = rqt_tag r) && bool_decide (id = m_id) && bool_decide (i = 0) &&
              hands_back id (w_mixnet w', rm') d' (fun _ _ a => bool_decide (PMatchEx.tag_of a = Some (rqt_tag r)))
          | _, _ => false
          end
      | Panic => false
      end)
  | None => false
  end.
Lemma c_checked : with_world (c_check told_status first_request) = true.
Proof. vm_compute. reflexivity. Qed.

Lemma c_check_spec l r W0 :
  world_ok toy_prims W0 -> Forall hop_ok l -> c_check l r W0 = true -> request_ok r ->
  exists h m rm d rm' w' d' a W s r' t rtt rm3 w3,
    (** the hypotheses of C67_round_trip *)
    hosted_from_start toy_prims (ex_config 8) host_cf h (m, rm) d /\ acceptable rm (RmInsert r) /\
    call_manager toy_prims rm (host_world m d, d) (RmInsert r) = Val (rm', (w', d'), a) /\
    world_ok toy_prims W /\ PNet.w_node W (ex_peer 8) = m /\
    rqm_log rm = [] /\ rqm_log rm' = [EvPosted r' m_id 0 (Some 2) t rtt] /\ rqt_tag r' = rqt_tag r /\
    usable (PNet.w_node W (ex_peer 8)) 0 RCurrent s /\ honest toy_prims (se_topology s) ex_key /\
    addr_of (tp_mixnodes (se_topology s)) (self (se_topology s) (ex_ns 8)) = Some (ex_peer 8) /\
    (** those of C67_removed *)
    NoDup d' /\ hosted_from_start toy_prims (ex_config 8) host_cf (h ++ [ByManager (RmInsert r) a]) (w_mixnet w', rm') d' /\
    exists x, call_manager toy_prims rm' (host_world (w_mixnet w') d', d') (RmRemove m_id) = Val (rm3, w3, RmRemoved (Some x)) /\
    rqt_tag x = rqt_tag r.
Proof.
  intros HW0 Hl H Hr. unfold c_check in H.
  destruct (host_play l) as [[[h [m rm]] d]|] eqn:Eh; [|discriminate H]. apply andb_true_iff in H as [Hs H].
  apply andb_true_iff in H as [Hsp H].
  destruct (call_manager toy_prims rm (host_world m d, d) (RmInsert r)) as [[[rm' [w' d']] a]|] eqn:Ec; [|discriminate H].
  apply andb_true_iff in H as [Hnd H]. apply bool_decide_eq_true in Hnd.
  destruct (rqm_log rm) eqn:El; [|discriminate H].
  destruct (rqm_log rm') as [|[r' id i [[|[|[| |]|]]|] t rtt| | |] [|]] eqn:El'; try discriminate H.
  apply andb_true_iff in H as [H Hb]. apply andb_true_iff in H as [H Hi]. apply andb_true_iff in H as [Htag Hid].
  apply bool_decide_eq_true in Htag, Hid, Hi. subst id i.
  destruct (session_b_spec _ _ _ Hs) as (s & Hus & Hnodes & _ & Hf).
  apply andb_true_iff in Hf as [Hself Hloc]. apply bool_decide_eq_true in Hself, Hloc.
  unfold hands_back in Hb. cbn [fst snd] in Hb.
  destruct (call_manager toy_prims rm' (host_world (w_mixnet w') d', d') (RmRemove m_id)) as [[[rm3 [w3 d3]] a3]|] eqn:Er; [|discriminate Hb].
  apply bool_decide_eq_true in Hb. destruct a3 as [|[x|]| |]; try discriminate Hb. cbn in Hb. injection Hb as Hb.
  pose proof (host_play_spec _ _ _ _ Hl Eh) as Hst.
  assert (Hacc : acceptable rm (RmInsert r)) by (intros ? [= <-]; done).
  exists h, m, rm, d, rm', w', d', a, (with_8 W0 m), s, r', t, rtt, rm3, (w3, d3).
  split; [exact Hst|]. split; [exact Hacc|]. split; [exact Ec|]. split.
  { intros y. destruct (decide (y = ex_peer 8)) as [->|Hy].
    - destruct (C64_posts toy_prims toy_prims_ok (ex_config 8) (ex_config_ok 8) host_cf h m rm d) as (hist & Hre & _); [by vm_compute..|exact Hst|].
      exists (ex_config 8), hist. cbn [with_8 PNet.w_node]. rewrite PNet.with_node_same. exact Hre.
    - cbn [with_8 PNet.w_node]. rewrite PNet.with_node_other by done. apply HW0. }
  split; [cbn [with_8 PNet.w_node]; by rewrite PNet.with_node_same|]. split; [done|]. split; [done|]. split; [done|].
  split; [exact Hus|]. split.
  { split; [|intros p; exact Hloc]. rewrite Hnodes. intros i mn Hi. cbn [ex_key].
    revert Hi. destruct (N.to_nat i) as [|[|[|[|n]]]]; unfold ex_nodes; cbn [map lookup list_lookup]; intros [= <-]; reflexivity. }
  split; [rewrite Hnodes, Hself; reflexivity|]. split; [exact Hnd|]. split.
  { destruct Hst as (m0 & w & Hcf & E & Hh). exists m0, w. split; [done|]. split; [done|]. eapply hosted_app; [exact Hh|].
    eapply (HdManager _ (host_world m d)); [apply replicate_length|exact Hacc|exact Ec|constructor]. }
  exists x. split; [exact Er|exact Hb].
Qed.
Example C67_example :
  exists h m rm d rm' w' d' a W s r' t rtt rm3 w3,
    hosted_from_start toy_prims (ex_config 8) host_cf h (m, rm) d /\ acceptable rm (RmInsert first_request) /\
    call_manager toy_prims rm (host_world m d, d) (RmInsert first_request) = Val (rm', (w', d'), a) /\
    world_ok toy_prims W /\ PNet.w_node W (ex_peer 8) = m /\
    rqm_log rm = [] /\ rqm_log rm' = [EvPosted r' m_id 0 (Some 2) t rtt] /\ rqt_tag r' = 1 /\
    usable (PNet.w_node W (ex_peer 8)) 0 RCurrent s /\ honest toy_prims (se_topology s) ex_key /\
    addr_of (tp_mixnodes (se_topology s)) (self (se_topology s) (ex_ns 8)) = Some (ex_peer 8) /\
    NoDup d' /\ hosted_from_start toy_prims (ex_config 8) host_cf (h ++ [ByManager (RmInsert first_request) a]) (w_mixnet w', rm') d' /\
    exists x, call_manager toy_prims rm' (host_world (w_mixnet w') d', d') (RmRemove m_id) = Val (rm3, w3, RmRemoved (Some x)) /\
    rqt_tag x = 1.
Proof.
  destruct (with_world_spec _ c_checked) as (W0 & HW0 & _ & H).
  exact (c_check_spec _ _ _ HW0 told_status_ok H first_request_ok).
Qed.
Print Assumptions C67_round_trip.
Print Assumptions C67_removed.
Print Assumptions C67_example.
