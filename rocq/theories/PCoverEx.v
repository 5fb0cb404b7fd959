(** Concrete cases of C54_cover: in the network of PExample, node 8 makes a drop cover packet, which is
    carried through 32 and 24 to 16, and a loop cover packet, which is carried through other nodes back to it. *)
From Verif Require Import PCover PEndEx PExample.

Definition ex_cover (r : rng) : call := CallPopAuthored (ex_ns 8) r.
Definition ex_carry (ks : list N) : list act := flat_map (fun k => [ADeliver 0 (5 + k); ex_fwd k]) ks.
Definition cover_run (r : rng) (ks : list N) (last : N) (w : world) : bool :=
  session_b w (ex_peer 8) (fun s => bool_decide (self (se_topology s) (ex_ns 8) = TMixnodeIndex 0) &&
    bool_decide (tp_local_kx_public (se_topology s) = derive_kx_public toy_prims (ex_secret 8))) &&
  (match ss_prev (mx_sessions (w_node w (ex_peer 8))) with SlFull _ => false | _ => true end &&
  match next w (ADo (ex_peer 8) (ex_cover r)) with
  | Some (Moment w0 (EvCall x c (RespPacket (Some p))) w1) =>
      match play_w w1 (ex_carry ks ++ [ADeliver 0 100]) with
      | Some (tr, w2) =>
          let tr1 := Moment w0 (EvCall x c (RespPacket (Some p))) w1 :: tr in
          match chain 7 tr1 [] p with
          | Some l => inside tr1 && (finished w2 &&
                      bool_decide (map (fun g => ap_peer_id (sg_to g)) l = map ex_peer (ks ++ [last])))
          | None => false
          end
      | None => false
      end
  | _ => false
  end).
Lemma drop_run_true : with_world (cover_run ex_drop [32; 24]%N 16) = true.
Proof. by vm_compute. Qed.
Lemma loop_run_true : with_world (cover_run ex_small [24; 16]%N 8) = true.
Proof. by vm_compute. Qed.
Lemma carry_ok ks : Forall act_ok (ex_carry ks ++ [ADeliver 0 100]).
Proof.
  apply Forall_app. split; [|repeat constructor]. induction ks as [|k ks IH]; [constructor|].
  cbn [ex_carry flat_map app]. constructor; [exact I|]. constructor; [split; exact I|exact IH].
Qed.

(** Like [chain_sound], for trips at whose end nothing is queued. *)
Lemma chain_sound_end w tr w' fuel : forall p l trip,
  history toy_prims w tr w' -> chain fuel tr [] p = Some l ->
  linked toy_prims ex_nodes 0 trip -> keyed trip -> first_packet trip = Some p ->
  (forall g m now, list.last trip = Some g -> can_read toy_prims ex_nodes 0 g m ->
     handle_packet toy_prims m (ap_packet (sg_to g)) now = Val (m, None)) ->
  trip = l.
Proof.
  induction fuel as [|fuel IH]; intros p l trip Hh H Hl Hk Hp Hy; cbn [chain] in H; [discriminate H|].
  destruct (list_find _ tr) as [[i mt]|] eqn:Ef; [|discriminate H].
  destruct (first_happens _ _ _ _ _ Hh (found_first _ _ _ _ Ef)) as (now & msg & Ehp).
  set (g := Stage p (ex_key_at (ap_peer_id p))) in *. cbv zeta in H.
  destruct (can_forward_b g _) eqn:Ec in H; [|discriminate H]. apply can_forward_b_spec in Ec.
  destruct trip as [|g0 trip]; [discriminate Hp|]. cbn in Hp. injection Hp as Hp.
  apply Forall_cons in Hk as [Hk0 Hk]. assert (g0 = g) as ->.
  { destruct g0 as [to k]. cbn in *. subst. done. }
  destruct trip as [|g' trip].
  - destruct Ec as [(rel & s & Hs & Hu & _) _]. specialize (Hy g _ now eq_refl (ex_intro _ rel (ex_intro _ s (conj Hs Hu)))).
    cbn [g sg_to] in Hy. rewrite Ehp in Hy. injection Hy as Hy _. rewrite Hy, drop_all in H. by injection H as <-.
  - assert (Hpass : passes_on toy_prims ex_nodes 0 g g') by (by apply (Hl 0)).
    destruct (Hpass _ _ _ _ Ec Ehp) as (_ & dl & Ed). rewrite Ed, drop_app in H.
    case_decide; [discriminate H|]. cbn [fp_packet] in H.
    destruct (chain fuel tr [] (sg_to g')) as [l'|] eqn:Ech; [|discriminate H]. injection H as <-. f_equal.
    apply (IH (sg_to g') l' (g' :: trip) Hh Ech); [|done|done|exact Hy]. intros j a b Ha Hb. by apply (Hl (S j)).
Qed.
Lemma mixnode_keyed t trip : trip_to toy_prims ex_nodes 0 ex_key (TMixnodeIndex t) trip -> keyed trip.
Proof.
  intros (_ & _ & is & Hf). apply Forall_lookup. intros j g Hj. destruct (Forall2_lookup_r _ _ _ _ _ Hf Hj) as (u & Hu & Ha & ->).
  assert (exists i, u = TMixnodeIndex i) as [i ->].
  { apply elem_of_list_lookup_2, elem_of_app in Hu as [Hu|Hu].
    - apply elem_of_list_fmap in Hu as (i & -> & _). by exists i.
    - apply elem_of_list_singleton in Hu as ->. by exists t. }
  unfold addr_of in Ha. destruct (ex_nodes !! N.to_nat i) as [mn|] eqn:Emn; [|discriminate Ha]. injection Ha as <-. cbn [ex_key].
  revert Emn. destruct (N.to_nat i) as [|[|[|[|n]]]]; unfold ex_nodes; cbn [map lookup list_lookup]; intros [= <-]; by vm_compute.
Qed.

(** The hypotheses of C54_cover hold, the packet is none of those queued, and it is conveyed as the
    theorem asks. *)
Lemma cover_example r ks last :
  with_world (cover_run r ks last) = true ->
  exists w w1 s p trip tr w2,
    world_ok toy_prims w /\ happens toy_prims w (EvCall (ex_peer 8) (ex_cover r) (RespPacket (Some p))) w1 /\
    ss_get (mx_sessions (w_node w (ex_peer 8))) RCurrent = SlFull s /\ aq_queue (se_authored s) = [] /\
    honest toy_prims (se_topology s) ex_key /\ tp_mixnodes (se_topology s) = ex_nodes /\
    self (se_topology s) (ex_ns 8) = TMixnodeIndex 0 /\
    cover_trip toy_prims s (ex_ns 8) 0 ex_key (last =? 8)%N p trip /\
    map (fun g => ap_peer_id (sg_to g)) trip = map ex_peer (ks ++ [last]) /\
    conveyed toy_prims ex_nodes 0 (fun _ => can_read toy_prims ex_nodes 0) [trip] (ex_peer 8) w
      (Moment w (EvCall (ex_peer 8) (ex_cover r) (RespPacket (Some p))) w1 :: tr) w2.
Proof.
  intros Hrun. pose proof toy_prims_ok as Hok.
  destruct (with_world_spec _ Hrun) as (w & Hw & Hcalm & H). unfold cover_run in H.
  apply andb_true_iff in H as [Hs H]. apply andb_true_iff in H as [Hprev H].
  destruct (session_b_spec _ _ _ Hs) as (s & [Hus Hcur] & Hnodes & Hq & Hf). clear Hs.
  apply andb_true_iff in Hf as [Hself Hloc]. apply bool_decide_eq_true in Hself, Hloc.
  destruct (next w (ADo (ex_peer 8) (ex_cover r))) as [[w0 e w1]|] eqn:E1; [|discriminate H].
  destruct (next_happens w (ADo (ex_peer 8) (ex_cover r)) _ (conj I (replicate_length _ _)) E1) as [Hhap Hw0].
  cbn [mt_event mt_after mt_before] in Hhap, Hw0. subst w0.
  assert (Hev : exists a, e = EvCall (ex_peer 8) (ex_cover r) a).
  { cbn [next] in E1. destruct (exec _ _ _) as [[m a]|]; [|discriminate E1]. injection E1 as <- _. by exists a. }
  destruct Hev as [a ->]. clear E1. destruct a as [| | | |[p|]| | |]; try discriminate H.
  destruct (play_w w1 _) as [[tr w2]|] eqn:E2; [|discriminate H].
  pose proof (play_w_history _ _ _ _ (carry_ok ks) E2) as Hh1. clear E2.
  assert (Hhon : honest toy_prims (se_topology s) ex_key).
  { split; [|intros q; exact Hloc]. rewrite Hnodes. intros i mn Hi. cbn [ex_key].
    revert Hi. destruct (N.to_nat i) as [|[|[|[|n]]]]; unfold ex_nodes; cbn [map lookup list_lookup]; intros [= <-]; reflexivity. }
  cbv zeta in H. set (tr1 := Moment w _ w1 :: tr) in H.
  assert (Hh : history toy_prims w tr1 w2) by (by econstructor).
  destruct (chain 7 tr1 [] p) as [l|] eqn:Ech; [|discriminate H].
  apply andb_true_iff in H as [H1 H]. apply andb_true_iff in H as [H2 H3]. apply bool_decide_eq_true in H3.
  destruct (C54_cover toy_prims Hok w (ex_peer 8) (ex_ns 8) r p w1 Hw Hhap) as (rel & s' & Hs' & Hcase).
  assert (rel = RCurrent /\ s' = s) as [-> ->].
  { destruct rel; cbn [ss_get] in Hs'; [|by rewrite Hs' in Hprev]. split; [done|]. rewrite Hcur in Hs'. by injection Hs'. }
  destruct Hcase as [(s1 & rest & E & _)|(_ & _ & loop & Hcov)]; [by rewrite Hq in E|].
  destruct (Hcov 0%N ex_key Hhon) as (trip & Htrip & _). clear Hcov.
  assert (trip = l) as ->.
  { destruct Htrip as ((t & Hto & Ht) & Hfp & g & Hg & Hend). rewrite Hnodes in Hto, Hend.
    apply (chain_sound_end w tr1 w2 7 p l trip Hh Ech); [apply Hto| |done|].
    - assert (exists i, t = TMixnodeIndex i) as [i ->].
      { destruct loop; [exists 0%N; by rewrite Ht|]. destruct Ht as (_ & d & -> & _). by exists d. }
      by eapply mixnode_keyed.
    - intros g' m now Hg'. rewrite Hg in Hg'. injection Hg' as <-. apply Hend. }
  assert (loop = (last =? 8)%N) as ->.
  { destruct Htrip as ((t & (_ & _ & is & Hst) & Ht) & _). rewrite Hnodes in Hst.
    assert (Ha : addr_of ex_nodes t = Some (ex_peer last)).
    { apply Forall2_app_inv_l in Hst as (l1 & l2 & _ & Hst & ->). apply Forall2_cons_inv_l in Hst as (g & l3 & [Ha _] & Hst & ->).
      apply Forall2_nil_inv_l in Hst as ->. rewrite !map_app in H3. cbn [map] in H3. apply app_inj_tail in H3 as [_ <-]. exact Ha. }
    rewrite Hself, Hnodes in Ht. destruct loop.
    - subst t. unfold addr_of, ex_nodes in Ha. cbn [map] in Ha. injection Ha as Ha. symmetry. apply N.eqb_eq. lia.
    - destruct Ht as (Hne & d & -> & Hd). symmetry. apply N.eqb_neq. intros ->. apply Hne. f_equal.
      unfold addr_of in Ha. assert (Hn : N.to_nat d = 0); [|lia]. revert Ha Hd. generalize (N.to_nat d). unfold ex_nodes. cbn [map length].
      intros [|[|[|[|n]]]]; cbn [lookup list_lookup]; [done|intros Ha; discriminate Ha..|lia]. }
  exists w, w1, s, p, l, tr, w2. do 9 (split; [assumption|]). 
  destruct Htrip as ((t & Hto & _) & Hfp & _).
  split.
  - exact Hh.
  - intros trip g ->%elem_of_list_singleton Hg. eexists _, _. split; [left|]. unfold first_packet in Hfp. rewrite Hg in Hfp.
    cbn in Hfp. injection Hfp as ->. reflexivity.
  - intros mt trip j g ->%elem_of_list_singleton Hj _ Hfst. eapply chain_forward; [exact Ech| |exact Hfst].
    by eapply elem_of_list_lookup_2.
  - intros mt i trip g Hi Hg Hfst. assert (trip = l) as -> by (destruct i as [|[|]]; by inversion Hi).
    destruct (chain_forward tr1 [] 7 p l g mt Ech) as [(rel & s1 & Ha & Hb & _) _]; [apply last_Some_elem_of; exact Hg|exact Hfst|].
    exists rel, s1. split; [exact Ha|exact Hb].
  - intros trip g _ _. apply finished_spec; [exact H2|]. exact (inside_calm _ _ _ Hh H1 Hcalm).
Qed.

(** A drop cover packet, and a loop cover packet. *)
Example C54_example : forall b : bool,
  let r := if b then ex_small else ex_drop in
  exists w w1 s p trip tr w2,
    world_ok toy_prims w /\ happens toy_prims w (EvCall (ex_peer 8) (ex_cover r) (RespPacket (Some p))) w1 /\
    ss_get (mx_sessions (w_node w (ex_peer 8))) RCurrent = SlFull s /\ aq_queue (se_authored s) = [] /\
    honest toy_prims (se_topology s) ex_key /\ tp_mixnodes (se_topology s) = ex_nodes /\
    self (se_topology s) (ex_ns 8) = TMixnodeIndex 0 /\
    cover_trip toy_prims s (ex_ns 8) 0 ex_key b p trip /\
    map (fun g => ap_peer_id (sg_to g)) trip = map ex_peer (if b then [24; 16; 8] else [32; 24; 16])%N /\
    conveyed toy_prims ex_nodes 0 (fun _ => can_read toy_prims ex_nodes 0) [trip] (ex_peer 8) w
      (Moment w (EvCall (ex_peer 8) (ex_cover r) (RespPacket (Some p))) w1 :: tr) w2.
Proof. intros []; [exact (cover_example _ _ _ loop_run_true)|exact (cover_example _ _ _ drop_run_true)]. Qed.
