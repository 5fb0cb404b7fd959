(** Concrete cases for the rest of C74: a node with the default configuration which is not one of the eight mixnodes of
    its session. *)
From Verif Require Import PStock PExample.
From Verif Require PRateEx.

Definition sn_setup : list call :=
  [CallSetStatus (SessionStatus 0 PDisconnectFromPrev);
   CallSetMixnodes RCurrent (Ok (map ex_node [8; 16; 24; 32; 40; 48; 56; 64]%N)) ex_r].
Definition sn_start (l : list call) : option (list (call * resp) * mixnet) :=
  match mx_new toy_prims (stock (Some (ex_secret 72))) with Val m => play m l | Panic => None end.
Lemma sn_setup_ok : Forall call_ok sn_setup.
Proof. unfold sn_setup. constructor; [done|]. constructor; [|done]. cbn. repeat constructor. Qed.
Lemma sn_reachable l h m : Forall call_ok l -> sn_start l = Some (h, m) -> reachable toy_prims (stock (Some (ex_secret 72))) h m.
Proof.
  intros Hc H. split.
  { split; [by vm_compute|]. intros s [= <-]. apply replicate_length. }
  unfold sn_start in H. destruct (mx_new toy_prims (stock (Some (ex_secret 72)))) as [m0|]; [|done]. exists m0. split; [done|].
  by eapply play_run.
Qed.
Definition sn_post (k : N) : call := CallPostRequest 0 None ex_id ex_data k (ex_ns 72) ex_r.
(** Nobody is connected. *)
Definition sn_alone : network_status := NetworkStatus (ex_peer 72) (fun _ => false).
(** Three gateways; a request of which the packets make 12 hops with its reply, or 6 without one; and no packet at all
    when no gateway is connected. *)
Definition sn_hops (m : mixnet) (k : N) : nat :=
  match exec toy_prims m (sn_post k) with Val (_, RespPost _ (Ok mt)) => rqm_num_hops mt | _ => 0 end.
Definition sn_check (m : mixnet) (s : session) (r : rng) : bool :=
  match tp_local_node (se_topology s) with LNonMixnode gs => length gs =? 3 | _ => false end &&
  ((sn_hops m 2 =? 12) && ((sn_hops m 0 =? 6) &&
  (match exec toy_prims m (CallPopAuthored sn_alone r) with Val (_, RespPacket None) => true | _ => false end &&
   match exec toy_prims m (CallPopAuthored (ex_ns 72) r) with Val (_, RespPacket (Some _)) => true | _ => false end))).
Definition sn_with (f : mixnet -> session -> bool) : bool :=
  match sn_start sn_setup with
  | Some (_, m) => match ss_current (mx_sessions m) with SlFull s => f m s | _ => false end
  | None => false
  end.
Lemma sn_with_spec f :
  sn_with f = true -> exists hist m s, reachable toy_prims (stock (Some (ex_secret 72))) hist m /\
    ss_get (mx_sessions m) RCurrent = SlFull s /\ f m s = true.
Proof.
  unfold sn_with. intros H. destruct (sn_start sn_setup) as [[h m]|] eqn:E; [|discriminate H].
  destruct (ss_current (mx_sessions m)) as [| | |s] eqn:Es; try discriminate H.
  exists h, m, s. split; [eapply sn_reachable; [apply sn_setup_ok|exact E]|]. split; [exact Es|exact H].
Qed.
Lemma sn_hops_spec m k n :
  (sn_hops m k =? S n) = true ->
  exists m' d mt, exec toy_prims m (sn_post k) = Val (m', RespPost d (Ok mt)) /\ rqm_num_hops mt = S n.
Proof.
  unfold sn_hops. intros H. destruct (exec toy_prims m (sn_post k)) as [[m' a]|]; [|discriminate H].
  destruct a as [| | | | |d [mt|]| |]; try discriminate H. exists m', d, mt. split; [reflexivity|]. by apply Nat.eqb_eq.
Qed.
Lemma sn_check_spec m s r : sn_check m s r = true ->
  exists gs m1 d1 mt1 m2 d2 mt2 m3 m4 p,
    tp_local_node (se_topology s) = LNonMixnode gs /\ length gs = 3 /\
    exec toy_prims m (sn_post 2) = Val (m1, RespPost d1 (Ok mt1)) /\ rqm_num_hops mt1 = 12 /\
    exec toy_prims m (sn_post 0) = Val (m2, RespPost d2 (Ok mt2)) /\ rqm_num_hops mt2 = 6 /\
    exec toy_prims m (CallPopAuthored sn_alone r) = Val (m3, RespPacket None) /\
    exec toy_prims m (CallPopAuthored (ex_ns 72) r) = Val (m4, RespPacket (Some p)).
Proof.
  unfold sn_check. intros H. apply andb_true_iff in H as [H0 H]. apply andb_true_iff in H as [H1 H].
  apply andb_true_iff in H as [H2 H]. apply andb_true_iff in H as [H3 H4].
  destruct (sn_hops_spec _ _ _ H1) as (m1 & d1 & mt1 & E1 & L1). clear H1.
  destruct (sn_hops_spec _ _ _ H2) as (m2 & d2 & mt2 & E2 & L2). clear H2.
  destruct (tp_local_node (se_topology s)) as [|gs] eqn:Eg; [discriminate H0|]. apply Nat.eqb_eq in H0.
  destruct (exec toy_prims m (CallPopAuthored sn_alone r)) as [[m3 [| | | |[p3|]| | |]]|] eqn:E3; try discriminate H3.
  destruct (exec toy_prims m (CallPopAuthored (ex_ns 72) r)) as [[m4 [| | | |[p|]| | |]]|] eqn:E4; try discriminate H4.
  exists gs, m1, d1, mt1, m2, d2, mt2, m3, m4, p.
  split; [reflexivity|]. split; [exact H0|]. split; [exact E1|]. split; [exact L1|]. split; [exact E2|]. split; [exact L2|].
  split; [reflexivity|reflexivity].
Qed.
Lemma sn_check_true : sn_with (fun m s => sn_check m s ex_r) = true.
Proof. by vm_compute. Qed.

Example C74_other_example :
  exists hist m s gs m1 d1 mt1 m2 d2 mt2 m3 m4 p,
    reachable toy_prims (stock (Some (ex_secret 72))) hist m /\ ss_get (mx_sessions m) RCurrent = SlFull s /\
    tp_local_node (se_topology s) = LNonMixnode gs /\ length gs = 3 /\
    exp1_ok (pr_exp1 toy_prims) /\ call_ok (sn_post 2) /\ call_ok (sn_post 0) /\
    exec toy_prims m (sn_post 2) = Val (m1, RespPost d1 (Ok mt1)) /\ rqm_num_hops mt1 = 12 /\
    exec toy_prims m (sn_post 0) = Val (m2, RespPost d2 (Ok mt2)) /\ rqm_num_hops mt2 = 6 /\
    call_ok (CallPopAuthored sn_alone ex_r) /\
    exec toy_prims m (CallPopAuthored sn_alone ex_r) = Val (m3, RespPacket None) /\
    exec toy_prims m (CallPopAuthored (ex_ns 72) ex_r) = Val (m4, RespPacket (Some p)).
Proof.
  destruct (sn_with_spec _ sn_check_true) as (hist & m & s & Hr & Hs & H).
  destruct (sn_check_spec _ _ _ H) as (gs & m1 & d1 & mt1 & m2 & d2 & mt2 & m3 & m4 & p & H1 & H2 & H3 & H4 & H5 & H6 & H7 & H8).
  exists hist, m, s, gs, m1, d1, mt1, m2, d2, mt2, m3, m4, p.
  assert (Hc : forall k, (k <= 2)%N -> call_ok (sn_post k)).
  { intros k Hk. split; [|split; [apply replicate_length|intros d Hd; discriminate Hd]]. split; [reflexivity|].
    split; [reflexivity|]. split; [by vm_compute|]. change USIZE_MAX with 18446744073709551615%N. lia. }
  split; [exact Hr|]. split; [exact Hs|]. split; [exact H1|]. split; [exact H2|]. split; [exact PRateEx.toy_exp1_ok|].
  split; [by apply Hc|]. split; [by apply Hc|]. split; [exact H3|]. split; [exact H4|]. split; [exact H5|].
  split; [exact H6|]. split; [apply replicate_length|]. split; [exact H7|exact H8].
Qed.
