(** Concrete cases for C86. *)
From Verif Require Import PPaths PPathsCover PExample PEndEx POnTimeEx.

(** Node 8 posts a request for which two packets are needed, with one SURB; here the two packets go
    to different nodes first, and to the same node with other random numbers. *)
Definition ex_r2 : rng := Rng (fun i => (N.of_nat i * N.of_nat i / 97) mod 251)%N 0.
Definition firsts (m : mixnet) : list bytes :=
  match ss_current (mx_sessions m) with
  | SlFull s => map (fun p => take 1 (ap_peer_id p)) (aq_queue (se_authored s))
  | _ => []
  end.
Definition paths_case (p1 p2 p3 : mixnet -> outcome (mixnet * option mixnode_index * result request_metrics post_err)) (m : mixnet) : bool :=
  bool_decide (mx_status m = SessionStatus 0 PRequestsToCurrent) &&
  match ss_current (mx_sessions m) with
  | SlFull s =>
      bool_decide (tp_mixnodes (se_topology s) = ex_nodes) &&
      (bool_decide (tp_local_kx_public (se_topology s) = derive_kx_public toy_prims (ex_secret 8)) &&
      match p1 m, p2 m, p3 m with
      | Val (m1, _, Ok _), Val (m2, _, Ok _), Val (_, Some d, Ok _) =>
          bool_decide (firsts m1 = [[132]; [132]]%N) && (bool_decide (firsts m2 = [[116]; [132]]%N) && (d =? 1)%N)
      | _, _, _ => false
      end)
  | _ => false
  end.
Lemma paths_case_spec p1 p2 p3 m :
  paths_case p1 p2 p3 m = true ->
  exists s, usable m 0 RCurrent s /\ honest toy_prims (se_topology s) ex_key /\
    (exists m1 d mt, p1 m = Val (m1, d, Ok mt) /\
      firsts m1 = [[132]; [132]]%N) /\
    (exists m2 d mt, p2 m = Val (m2, d, Ok mt) /\
      firsts m2 = [[116]; [132]]%N) /\
    exists m3 mt, p3 m = Val (m3, Some 1%N, Ok mt).
Proof.
  unfold paths_case. intros [H1 H]%andb_true_iff. apply bool_decide_eq_true in H1.
  destruct (ss_current (mx_sessions m)) as [| | |s] eqn:Es; try discriminate H.
  apply andb_true_iff in H as [H2 H]. apply andb_true_iff in H as [H3 H]. apply bool_decide_eq_true in H2, H3.
  exists s. split; [split; [rewrite H1; constructor; by left|exact Es]|]. split; [exact (ex_honest _ H2 H3)|].
  destruct (p1 m) as [[[m1 d1] [mt1|]]|]; try discriminate H.
  destruct (p2 m) as [[[m2 d2] [mt2|]]|]; try discriminate H.
  destruct (p3 m) as [[[m3 [d3|]] [mt3|]]|]; try discriminate H.
  apply andb_true_iff in H as [Ha H]. apply andb_true_iff in H as [Hb Hc]. apply bool_decide_eq_true in Ha, Hb.
  apply N.eqb_eq in Hc as ->.
  exact (conj (ex_intro _ m1 (ex_intro _ d1 (ex_intro _ mt1 (conj eq_refl Ha))))
    (conj (ex_intro _ m2 (ex_intro _ d2 (ex_intro _ mt2 (conj eq_refl Hb)))) (ex_intro _ m3 (ex_intro _ mt3 eq_refl)))).
Qed.
Example ex_paths : exists hist m s,
  reachable toy_prims (ex_config 8) hist m /\ args_ok ex_id ex_long 1 /\ length (ns_local_peer_id (ex_ns 8)) = 32 /\
  usable m 0 RCurrent s /\ honest toy_prims (se_topology s) ex_key /\
  (exists m1 d mt, post_request toy_prims m 0 (Some 2%N) ex_id ex_long 1 (ex_ns 8) ex_r = Val (m1, d, Ok mt) /\
    firsts m1 = [[132]; [132]]%N) /\
  (exists m2 d mt, post_request toy_prims m 0 (Some 2%N) ex_id ex_long 1 (ex_ns 8) ex_r2 = Val (m2, d, Ok mt) /\
    firsts m2 = [[116]; [132]]%N) /\
  exists m3 mt, post_request toy_prims m 0 None ex_id ex_long 1 (ex_ns 8) ex_r = Val (m3, Some 1%N, Ok mt).
Proof.
  destruct (after_reachable 8 ex_setup (paths_case
    (fun m => post_request toy_prims m 0 (Some 2%N) ex_id ex_long 1 (ex_ns 8) ex_r)
    (fun m => post_request toy_prims m 0 (Some 2%N) ex_id ex_long 1 (ex_ns 8) ex_r2)
    (fun m => post_request toy_prims m 0 None ex_id ex_long 1 (ex_ns 8) ex_r)) ex_setup_ok) as (hist & m & Hr & H); [by vm_compute|].
  destruct (paths_case_spec _ _ _ m H) as (s & H'). exists hist, m, s. split; [exact Hr|].
  split; [split_and!; [done|done|by vm_compute|by vm_compute]|]. split; [apply replicate_length|exact H'].
Qed.

(** Cover of each kind, and with other random numbers behind the one that decides the kind. *)
Definition ex_rc (loop : bool) (k : N) : rng :=
  Rng (fun i => match i with O => if loop then 0 else 2 ^ 63 | S j => N.of_nat j + k end)%N 0.
Definition cover_case (pop : mixnet -> rng -> outcome (mixnet * option addressed_packet)) (m : mixnet) : bool :=
  match ss_prev (mx_sessions m) with SlEmpty | SlDisabled => true | _ => false end &&
  match ss_current (mx_sessions m) with
  | SlFull s =>
      bool_decide (tp_mixnodes (se_topology s) = ex_nodes) &&
      (bool_decide (tp_local_kx_public (se_topology s) = derive_kx_public toy_prims (ex_secret 8)) &&
      (bool_decide (aq_queue (se_authored s) = []) &&
      forallb (fun b =>
        match pop m (ex_rc b 0), pop m (ex_rc b 1) with
        | Val (_, Some p), Val (_, Some p') => negb (bool_decide (ap_peer_id p = ap_peer_id p'))
        | _, _ => false
        end) [true; false]))
  | _ => false
  end.
Lemma cover_case_spec pop m :
  cover_case pop m = true ->
  (forall rel s, ss_get (mx_sessions m) rel = SlFull s ->
     aq_queue (se_authored s) = [] /\ honest toy_prims (se_topology s) ex_key) /\
  forall b : bool, alike 1 (ex_rc b 0) (ex_rc b 1) /\ exists m1 p m1' p',
    pop m (ex_rc b 0) = Val (m1, Some p) /\ pop m (ex_rc b 1) = Val (m1', Some p') /\ ap_peer_id p <> ap_peer_id p'.
Proof.
  unfold cover_case. intros [H1 H]%andb_true_iff.
  destruct (ss_current (mx_sessions m)) as [| | |s] eqn:Es; try discriminate H.
  apply andb_true_iff in H as [H2 H]. apply andb_true_iff in H as [H3 H]. apply andb_true_iff in H as [H4 H].
  apply bool_decide_eq_true in H2, H3, H4. split.
  - intros rel s' E. destruct rel; cbn [ss_get] in E.
    + rewrite Es in E. assert (s' = s) as -> by congruence. split; [exact H4|exact (ex_honest _ H2 H3)].
    + rewrite E in H1. discriminate H1.
  - intros b. split.
    { intros [|j] Hj; [reflexivity|lia]. }
    assert (Hb : match pop m (ex_rc b 0), pop m (ex_rc b 1) with
        | Val (_, Some p), Val (_, Some p') => negb (bool_decide (ap_peer_id p = ap_peer_id p'))
        | _, _ => false
        end = true).
    { rewrite forallb_forall in H. apply H. destruct b; [by left|right; by left]. }
    destruct (pop m (ex_rc b 0)) as [[m1 [p|]]|]; try discriminate Hb.
    destruct (pop m (ex_rc b 1)) as [[m1' [p'|]]|]; try discriminate Hb.
    apply negb_true_iff, bool_decide_eq_false in Hb.
    exists m1, p, m1', p'. split; [reflexivity|]. split; [reflexivity|exact Hb].
Qed.
Example ex_cover_paths : exists hist m,
  reachable toy_prims (ex_config 8) hist m /\ length (ns_local_peer_id (ex_ns 8)) = 32 /\
  (forall rel s, ss_get (mx_sessions m) rel = SlFull s ->
     aq_queue (se_authored s) = [] /\ honest toy_prims (se_topology s) ex_key) /\
  forall b : bool, alike 1 (ex_rc b 0) (ex_rc b 1) /\ exists m1 p m1' p',
    pop_next_authored_packet toy_prims m (ex_ns 8) (ex_rc b 0) = Val (m1, Some p) /\
    pop_next_authored_packet toy_prims m (ex_ns 8) (ex_rc b 1) = Val (m1', Some p') /\ ap_peer_id p <> ap_peer_id p'.
Proof.
  destruct (after_reachable 8 ex_setup (cover_case (fun m r => pop_next_authored_packet toy_prims m (ex_ns 8) r))
    ex_setup_ok) as (hist & m & Hr & H); [by vm_compute|].
  exists hist, m. split; [exact Hr|]. split; [apply replicate_length|exact (cover_case_spec _ m H)].
Qed.
