(** A node whose request manager has two requests and is called until it is done with both. *)
From stdpp Require Import relations.
From Verif Require Import PFinish Toy PExample PWakeEx.
From Verif Require Import PReqMgr.

(** The world of the [k]-th call. *)
Definition fin_world (k : nat) (m : mixnet) : world :=
  World m (ex_ns 40) (fun i => Rng (fun j => (N.of_nat (i + 53 * k + j) * 7 + 3) mod 256)%N 0) 0 (fun i => N.of_nat (i + k)) 0.
Definition fin_call (k : nat) (s : system) (c : rm_call user_request) :=
  rm_exec (w_post_request toy_prims) w_now w_fresh_id rqt_handling_delay (sy_rm s) (fin_world k (sy_node s), []) c.
Definition idle_b (m : mixnet) : bool :=
  forallb (fun rel => match ss_get (mx_sessions m) rel with SlFull s => bool_decide (aq_queue (se_authored s) = []) | _ => true end) [RCurrent; RPrev] &&
  bool_decide (st_phase (mx_status m) <> PCoverToCurrent).
Lemma idle_b_spec m : idle_b m = true -> idle m.
Proof.
  unfold idle_b. intros H. apply andb_true_iff in H as [H1 H2]. apply bool_decide_eq_true in H2. split; [|by right].
  intros rel _ (s & Hs & Hq). rewrite forallb_forall in H1. specialize (H1 rel). rewrite Hs in H1.
  apply Hq. eapply bool_decide_eq_true, H1. destruct rel; cbn; auto.
Qed.
(** A packet is dispatched, the manager is called, and then asked for the next retry. *)
Definition fin_turn (k : nat) (s : system) : option system :=
  match exec toy_prims (sy_node s) (CallPopAuthored (ex_ns 40) ex_big) with
  | Val (m, a) =>
      let s1 := System m (sy_rm s) (sy_owed s || told a) in
      match fin_call (2 * k) s1 RmProcess with
      | Val (rm2, (w2, _), _) =>
          let s2 := System (w_mixnet w2) rm2 false in
          match fin_call (2 * k + 1) s2 RmPop with
          | Val (rm3, (w3, _), _) => if idle_b m then Some (System (w_mixnet w3) rm3 false) else None
          | Panic => None
          end
      | Panic => None
      end
  | Panic => None
  end.
Fixpoint fin_turns (n : nat) (s : system) : option system :=
  match n with
  | 0 => Some s
  | S n => match fin_turn n s with Some s1 => fin_turns n s1 | None => None end
  end.
Lemma fin_turn_spec k n s s1 R s' :
  fin_turn k s = Some s1 -> turns toy_prims n s1 R s' -> turns toy_prims (S n) s R s'.
Proof.
  unfold fin_turn, fin_call. destruct s as [m0 rm o]. cbn [sy_node sy_rm sy_owed].
  destruct (exec toy_prims m0 _) as [[m a]|] eqn:E0; [|discriminate]. cbv zeta. cbn [sy_node sy_rm sy_owed].
  destruct (rm_exec _ _ _ _ rm _ _) as [[[rm2 [w2 d2]] a2]|] eqn:E2; [|discriminate]. cbn [sy_node sy_rm sy_owed].
  destruct (rm_exec _ _ _ _ rm2 _ _) as [[[rm3 [w3 d3]] a3]|] eqn:E3; [|discriminate].
  destruct (idle_b m) eqn:Ei; [|discriminate]. intros [= <-] Ht. apply idle_b_spec in Ei.
  refine (TuTurn toy_prims n (System m0 rm o) [] (fin_world (2 * k) m) rm (o || told a) [] w2 d2 rm2 a2 []
            (fin_world (2 * k + 1) (w_mixnet w2)) rm2 false [] w3 d3 rm3 a3 R s' _ Ei E2 _ E3 Ht).
  - eapply MwNode; [|exact E0|constructor]. discriminate.
  - constructor.
Qed.
Lemma fin_turns_spec n s s' : fin_turns n s = Some s' -> turns toy_prims n s [] s'.
Proof.
  revert s. induction n as [|n IH]; intros s; cbn [fin_turns].
  - intros [= <-]. constructor. constructor.
  - destruct (fin_turn n s) as [s1|] eqn:E; [|discriminate]. intros H. apply IH in H. by eapply fin_turn_spec.
Qed.

(** What the manager reports: posts, and requests at their limit. *)
Definition fin_seen (s : system) : nat * list N :=
  (length (omap (fun e => match e with EvPosted _ _ _ _ _ _ => Some tt | _ => None end) (rqm_log (sy_rm s))),
   map rqt_tag (limits (rqm_log (sy_rm s)))).
Definition fin_check (l : list op) (n : nat) : option (nat * (nat * list N) * nat) :=
  match wake_state l with
  | Some s => match fin_turns n s with Some s' => Some (length (managed (sy_rm s)), fin_seen s', length (managed (sy_rm s'))) | None => None end
  | None => None
  end.
Lemma fin_check_spec l n a v b :
  bool_decide (fin_check l n = Some (a, v, b)) = true ->
  exists s s', sys_reach toy_prims (ex_config 40) wake_cf s /\ turns toy_prims n s [] s' /\
    length (managed (sy_rm s)) = a /\ fin_seen s' = v /\ length (managed (sy_rm s')) = b.
Proof.
  intros H. apply bool_decide_eq_true in H. unfold fin_check, wake_state, wake_start in H.
  destruct (mx_new toy_prims (ex_config 40)) as [m|] eqn:Em; [|discriminate].
  set (s0 := System m _ false) in H.
  destruct (play_ops s0 l) as [s|] eqn:E; [|discriminate].
  destruct (fin_turns n s) as [s'|] eqn:Et; [|discriminate]. injection H as <- <- <-.
  exists s, s'. split; [|split; [by apply fin_turns_spec|done]]. exists s0. split.
  - split; [exact Em|]. split; [|reflexivity]. exists (wake_world m). reflexivity.
  - apply (play_ops_rtc _ l). exact E.
Qed.

(** Two destinations, two attempts each, one post each: after 16 turns both requests were posted four times and have
    reached their limit. *)
Example C80_example :
  exists s s', sys_reach toy_prims (ex_config 40) wake_cf s /\ turns toy_prims 16 s [] s' /\
    length (managed (sy_rm s)) = 2 /\
    (rmc_num_destinations wake_cf * rmc_num_attempts_per_destination wake_cf * (rmc_num_posts_per_attempt wake_cf + 1) * 2 = 16)%N /\
    managed (sy_rm s') = [] /\ fin_seen s' = (8, [1%N; 2%N]).
Proof.
  destruct (fin_check_spec wake_ops 16 2 (8, [1%N; 2%N]) 0) as (s & s' & H1 & H2 & H3 & H4 & H5); [by vm_compute|].
  exists s, s'. split; [exact H1|]. split; [exact H2|]. split; [exact H3|]. split; [reflexivity|]. split; [|exact H4].
  by destruct (managed (sy_rm s')).
Qed.
