(** C83, continued: how often packets take longer than the estimate. *)
From Coq Require Import Reals Lra Psatz.
From Flocq Require Import Core.Core IEEE754.BinarySingleNaN.
From Verif Require Export PWait.
Local Open Scope R_scope.

(** ** Specification *)

(** The probability that fewer than [n] packets are sent in time [x], if they are sent independently of each other
    (a Poisson process), on average one in each unit of time. *)
Definition late (n : nat) (x : R) : R :=
  match n with
  | 0%nat => 0
  | S k => sum_f_R0 (fun i => exp (- x) * (x ^ i / INR (fact i))) k
  end.

(** ** Proof *)
Lemma exp_sum y k : 0 <= y -> sum_f_R0 (fun i => y ^ i / INR (fact i)) k <= exp y.
Proof.
  intros Hy. unfold exp. destruct (exist_exp y) as [l Hl]. cbn [proj1_sig].
  apply sum_incr.
  - intros e He. destruct (Hl e He) as [N HN]. exists N. intros n Hn. specialize (HN n Hn).
    erewrite sum_eq; [exact HN|]. intros i _. cbn. unfold Rdiv. apply Rmult_comm.
  - intros i. apply Rmult_le_pos; [by apply Rfunctions.pow_le|]. left. apply Rinv_0_lt_compat, INR_fact_lt_0.
Qed.
