(** Concrete cases for C51, C52 and C53, in the network of PExample. *)
From Coq Require Import Reals Lra.
From Flocq Require Import Core.Core IEEE754.BinarySingleNaN.
From Verif Require Import PRate PExample LBase.
Local Open Scope R_scope.

Lemma toy_sum_bound b : (toy_sum b < 65521)%N.
Proof.
  unfold toy_sum. destruct b as [|x b] using rev_ind; [done|]. rewrite foldl_app. cbn [foldl]. by apply N.mod_lt.
Qed.
Lemma toy_exp1_ok : exp1_ok (pr_exp1 toy_prims).
Proof.
  intros seed. cbn [pr_exp1 toy_prims]. pose proof (toy_sum_bound seed) as Hb. set (n := toy_sum seed) in *. clearbody n.
  assert (H : f_in 0 64 (f_div (f_of_N n) (f_of_N 1024))).
  { apply (in_div 0 64 0 65536 1024 1024); try lra; try (by apply (fixed_IZR 0)); try (by apply (fixed_IZR 64)).
    - apply (in_of_N 0 65536); [done|lia].
    - by apply (in_of_N 1024 1024). }
  destruct H as [[Hv Hf] [Hr _]]. split; [done|].
  destruct (f_div _ _) as [| | |[] mm e]; try done.
  exfalso. unfold f_real in Hr. cbn [SF2R cond_Zopp] in Hr. apply Rle_not_lt in Hr. apply Hr. by apply F2R_lt_0.
Qed.
Lemma default_sane : sane default_config.
Proof.
  constructor.
  - by vm_compute.
  - assert (H : f_in (/ 4) (/ 4) (f_lit 1 4)).
    { assert (E : bpow radix2 (-2) = / 4) by done. assert (fixed (/ 4)) by (rewrite <- E; by apply fixed_bpow).
      apply (in_div _ _ 1 1 4 4); try done; try lra; [by apply (in_of_N 1 1 1)|by apply (in_of_N 4 4 4)]. }
    eapply in_weaken; [| |exact H]; lra.
  - done.
  - intros c [= <-]. done.
Qed.
Lemma ex_sane k : sane (ex_config k).
Proof. destruct default_sane. by constructor. Qed.
Lemma plain_ex k hist m rel s :
  reachable toy_prims (ex_config k) hist m -> ss_get (mx_sessions m) rel = SlFull s -> plain_period s.
Proof.
  intros Hr Hs. pose proof (reachable_ok _ toy_prims_ok _ _ _ Hr) as Hm.
  destruct (sess_sane _ _ _ (ex_sane k) (mx_ok_full _ _ _ _ _ Hm Hs)) as [[H1 H2] _].
  split; [done|]. eapply N.le_lt_trans; [exact H2|]. done.
Qed.

(** The node of PExample posts a request with a SURB, and its metrics. *)
Example ex_metrics :
  exists hist m, reachable toy_prims (ex_config 8) hist m /\
    exists m' mt, exec toy_prims m (ex_post 8 (Some 2%N)) = Val (m', RespPost (Some 2%N) (Ok mt)) /\
      rqm_num_hops mt = 6%nat /\ (0 < rqm_forwarding_delay mt)%N /\ (0 < rqm_authored_packet_queue_delay mt)%N /\
      exists t, estimate_rtt mt 5 = Val t.
Proof.
  destruct (after_reachable 8 ex_setup (fun m =>
    match exec toy_prims m (ex_post 8 (Some 2%N)) with
    | Val (m', RespPost (Some d) (Ok mt)) => (d =? 2)%N && ((rqm_num_hops mt =? 6)%nat &&
       ((0 <? rqm_forwarding_delay mt)%N && ((0 <? rqm_authored_packet_queue_delay mt)%N &&
         match estimate_rtt mt 5 with Val _ => true | Panic => false end)))
    | _ => false end)) as (hist & m & Hr & H).
  { apply ex_setup_ok. }
  { vm_compute. done. }
  exists hist, m. split; [done|].
  destruct (exec toy_prims m (ex_post 8 (Some 2%N))) as [[m' []]|]; try done.
  destruct dest as [d|]; [|done]. destruct res as [mt|]; [|done].
  apply andb_true_iff in H as [H1 H]. apply andb_true_iff in H as [H2 H]. apply andb_true_iff in H as [H3 H].
  apply andb_true_iff in H as [H4 H]. apply N.eqb_eq in H1 as ->. apply Nat.eqb_eq in H2. apply N.ltb_lt in H3, H4.
  exists m', mt. destruct (estimate_rtt mt 5) as [t|]; [|done]. split_and!; try done. by exists t.
Qed.

(** Two equal SURB ids in one request do panic: a constant random source, two SURBs. *)
Example ex_clash :
  exists hist m, reachable toy_prims (ex_config 8) hist m /\
    call_ok (CallPostRequest 0 (Some 2%N) ex_id ex_data 2 (ex_ns 8) (Rng (fun _ => 1%N) 0)) /\
    exec toy_prims m (CallPostRequest 0 (Some 2%N) ex_id ex_data 2 (ex_ns 8) (Rng (fun _ => 1%N) 0)) = Panic.
Proof.
  destruct (after_reachable 8 ex_setup (fun m =>
    match exec toy_prims m (CallPostRequest 0 (Some 2%N) ex_id ex_data 2 (ex_ns 8) (Rng (fun _ => 1%N) 0)) with
    | Panic => true | _ => false end)) as (hist & m & Hr & H).
  { apply ex_setup_ok. }
  { vm_compute. done. }
  exists hist, m. split; [done|]. split; [exact (ex_post_ok 8 2 ltac:(done))|].
  by destruct (exec _ _ _).
Qed.

(** Two active sessions: a mixnode in the previous one (mean period 0.1 s), not in the current one
    (1 s). The current one gets 1/11 of the draws. *)
Definition ex_two : list call :=
  ex_setup ++ [CallSetStatus (SessionStatus 1 PRequestsToCurrent); CallSetMixnodes RCurrent (Ok ex_nodes) ex_big].
Lemma ex_two_ok : Forall call_ok ex_two.
Proof. apply Forall_app. split; [apply ex_setup_ok|]. constructor; [done|]. constructor; [|done]. cbn. repeat constructor. Qed.
Definition both (m : mixnet) (f : session -> session -> bool) : bool :=
  match ss_current (mx_sessions m), ss_prev (mx_sessions m) with SlFull s0, SlFull s1 => f s0 s1 | _, _ => false end.
Lemma ex_two_sessions :
  exists hist m s0 s1, reachable toy_prims (ex_config 8) hist m /\
    ss_get (mx_sessions m) RCurrent = SlFull s0 /\ ss_get (mx_sessions m) RPrev = SlFull s1 /\
    (se_mean_period s0 = 1000000000 /\ se_mean_period s1 = 100000000)%N /\
    (exists r', pick_session m ex_small = Val (Some (RCurrent, s0), r')) /\
    (exists r', pick_session m ex_big = Val (Some (RPrev, s1), r')) /\
    exists d, next_authored_packet_delay m f_two = Val (Some d) /\ d = 363636364%N.
Proof.
  destruct (after_reachable 8 ex_two (fun m => both m (fun s0 s1 =>
    bool_decide (se_mean_period s0 = 1000000000 /\ se_mean_period s1 = 100000000)%N &&
    (match pick_session m ex_small with Val (Some (RCurrent, _), _) => true | _ => false end &&
    (match pick_session m ex_big with Val (Some (RPrev, _), _) => true | _ => false end &&
     match next_authored_packet_delay m f_two with Val (Some d) => (d =? 363636364)%N | _ => false end)))))
    as (hist & m & Hr & H).
  { apply ex_two_ok. }
  { vm_compute. done. }
  unfold both in H. destruct (ss_current (mx_sessions m)) as [| | |s0] eqn:E0; try done.
  destruct (ss_prev (mx_sessions m)) as [| | |s1] eqn:E1; try done.
  apply andb_true_iff in H as [H1 H]. apply andb_true_iff in H as [H2 H]. apply andb_true_iff in H as [H3 H].
  apply bool_decide_eq_true in H1. exists hist, m, s0, s1. split_and!; try done.
  - apply H1.
  - apply H1.
  - destruct (pick_session m ex_small) as [[[[[] s]|] r']|] eqn:E; try done. apply pick_session_spec in E as Es.
    cbn in Es. exists r'. congruence.
  - destruct (pick_session m ex_big) as [[[[[] s]|] r']|] eqn:E; try done. apply pick_session_spec in E as Es.
    cbn in Es. exists r'. congruence.
  - destruct (next_authored_packet_delay m f_two) as [[d|]|]; try done. exists d. split; [done|]. by apply N.eqb_eq.
Qed.
Example C52_example :
  exists hist m s0 s1, reachable toy_prims (ex_config 8) hist m /\
    ss_get (mx_sessions m) RCurrent = SlFull s0 /\ ss_get (mx_sessions m) RPrev = SlFull s1 /\
    (exists T, Rabs (IZR (Z.of_N T) / IZR (2 ^ 64) - 1 / 11) < / IZR (2 ^ 48) /\
       forall r, exists r', pick_session m r = Val (Some (if ((rng_draw r).1 mod 2 ^ 64 <? T)%N then (RCurrent, s0) else (RPrev, s1)), r')) /\
    exists mean, mean_spec m mean /\ mean = 2 / 11.
Proof.
  destruct ex_two_sessions as (hist & m & s0 & s1 & Hr & H0 & H1 & [P0 P1] & _).
  exists hist, m, s0, s1. split_and!; try done.
  - destruct (C52_pick m s0 s1 H0 H1) as (T & _ & HT & E); [by eapply plain_ex|by eapply plain_ex|].
    exists T. split; [|intros r; destruct (E r) as (r' & Er & _); by exists r']. rewrite P0, P1 in HT. unfold secs, GIGA in HT.
    replace (1 / 11) with (/ (IZR (Z.of_N 1000000000) / 1000000000) /
      (/ (IZR (Z.of_N 1000000000) / 1000000000) + / (IZR (Z.of_N 100000000) / 1000000000))); [done|].
    cbn [Z.of_N]. field.
  - eexists. split; [by apply MsTwo|]. rewrite P0, P1. unfold secs, GIGA. cbn [Z.of_N]. field.
Qed.

Print Assumptions C51_metrics.
Print Assumptions C51_rtt.
Print Assumptions C51_no_panic.
Print Assumptions C52_pick.
Print Assumptions C52_delay.
Print Assumptions C52_no_panic.
Print Assumptions C53_no_panic.
