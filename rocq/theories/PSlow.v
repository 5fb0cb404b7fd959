(** C83, continued: how likely it is that packets sent at different rates, as those of a node that is no mixnode and
    those of the far end, take longer than a given time. *)
From Coq Require Import Reals Lra Psatz.
From Flocq Require Import Core.Core IEEE754.BinarySingleNaN.
From Verif Require Export PLate.
Local Open Scope R_scope.

(** ** Specification *)

(** [g rates x] is, for times [x] up to [b], the probability that events which happen one after the other, the next
    one always at the first of the remaining [rates], have not all happened in time [x]. With no event remaining, all
    have happened. Otherwise they have not all happened at time 0, and with rate [r] the next event happens, which
    leaves the others to wait for (Kolmogorov's backward equation). *)
Definition waiting (b : R) (g : list R -> R -> R) : Prop :=
  forall x, 0 <= x <= b ->
    g [] x = 0 /\
    forall r rates, g (r :: rates) 0 = 1 /\ derivable_pt_lim (g (r :: rates)) x (r * (g rates x - g (r :: rates) x)).

(** ** There are such probabilities *)
Lemma line_lim c x : derivable_pt_lim (fun y => c * y) x c.
Proof. pose proof (derivable_pt_lim_scal id c x 1 (derivable_pt_lim_id x)) as H. rewrite Rmult_1_r in H. exact H. Qed.
Lemma exp_line c x : derivable_pt_lim (fun y => exp (c * y)) x (c * exp (c * x)).
Proof.
  rewrite Rmult_comm. apply (derivable_pt_lim_comp (fun y => c * y) exp x c (exp (c * x))).
  - apply line_lim.
  - apply derivable_pt_lim_exp.
Qed.
Lemma lim_continuity f x l : derivable_pt_lim f x l -> continuity_pt f x.
Proof. intros H. apply derivable_continuous_pt. exists l. exact H. Qed.
Section exist.
  Context (b : R) (Hb : 0 <= b).
  Definition smooth := { f : R -> R | forall x, 0 <= x <= b -> continuity_pt f x }.
  Definition grown (r : R) (f : R -> R) : R -> R := fun x => exp (r * x) * f x.
  Lemma grown_continuous r (f : smooth) : forall x, 0 <= x <= b -> continuity_pt (grown r (proj1_sig f)) x.
  Proof.
    intros x Hx. apply (continuity_pt_mult (fun y => exp (r * y))); [eapply lim_continuity, exp_line|apply (proj2_sig f x Hx)].
  Qed.
  Definition before (r : R) (f : smooth) : R -> R :=
    fun x => exp (- r * x) * (1 + r * primitive Hb (FTC_P1 Hb (grown_continuous r f)) x).
  Lemma before_0 r f : before r f 0 = 1.
  Proof.
    unfold before, primitive. destruct (Rle_dec 0 0) as [H0|H0]; [|exfalso; apply H0; lra].
    destruct (Rle_dec 0 b) as [H1|H1]; [|exfalso; exact (H1 Hb)].
    rewrite RiemannInt_P9. rewrite Rmult_0_r, exp_0. ring.
  Qed.
  Lemma before_lim r f x : 0 <= x <= b ->
    derivable_pt_lim (before r f) x (r * (proj1_sig f x - before r f x)).
  Proof.
    intros Hx. unfold before. set (p := primitive Hb (FTC_P1 Hb (grown_continuous r f))).
    pose proof (RiemannInt_P28 Hb (grown_continuous r f) Hx) as D. fold p in D.
    pose proof (derivable_pt_lim_mult (fun y => exp (- r * y)) (fun y => 1 + r * p y) x _ (0 + r * grown r (proj1_sig f) x) (exp_line (- r) x)) as M.
    assert (E : derivable_pt_lim (fun y => 1 + r * p y) x (0 + r * grown r (proj1_sig f) x)).
    { apply (derivable_pt_lim_plus (fun _ => 1) (fun y => r * p y)); [apply derivable_pt_lim_const|].
      apply (derivable_pt_lim_scal p). exact D. }
    specialize (M E). unfold mult_fct in M.
    replace (r * (proj1_sig f x - exp (- r * x) * (1 + r * p x))) with
      (- r * exp (- r * x) * (1 + r * p x) + exp (- r * x) * (0 + r * grown r (proj1_sig f) x)); [exact M|].
    unfold grown. assert (X : exp (- r * x) * exp (r * x) = 1).
    { rewrite <- exp_plus. replace (- r * x + r * x) with 0 by ring. apply exp_0. }
    replace (exp (- r * x) * (0 + r * (exp (r * x) * proj1_sig f x))) with
      (exp (- r * x) * exp (r * x) * (r * proj1_sig f x)) by ring. rewrite X. ring.
  Qed.
  Definition before_smooth (r : R) (f : smooth) : smooth :=
    exist (fun h => forall x, 0 <= x <= b -> continuity_pt h x) (before r f) (fun x Hx => lim_continuity _ _ _ (before_lim r f x Hx)).
  Lemma nothing_smooth : forall x, 0 <= x <= b -> continuity_pt (fun _ : R => 0) x.
  Proof. intros x _. apply continuity_pt_const. by intros y z. Qed.
  Fixpoint chances (rates : list R) : smooth :=
    match rates with
    | [] => exist (fun h => forall x, 0 <= x <= b -> continuity_pt h x) (fun _ => 0) nothing_smooth
    | r :: rates => before_smooth r (chances rates)
    end.
  Lemma waiting_exists : waiting b (fun rates => proj1_sig (chances rates)).
  Proof.
    intros x Hx. split; [done|]. intros r rates. split; [apply before_0|]. cbn [chances before_smooth proj1_sig].
    by apply before_lim.
  Qed.
End exist.

(** ** There is one only, and with equal rates it is that of [late] *)
Lemma slope_le (f : R -> R) (f' : R -> R) b x : (forall y, 0 <= y <= b -> derivable_pt_lim f y (f' y) /\ f' y <= 0) ->
  0 <= x <= b -> f x <= f 0.
Proof.
  intros H Hx. destruct (Req_dec x 0) as [->|N]; [lra|].
  destruct (MVT_cor3 f f' 0 x) as (c & Hc0 & Hcx & E); [lra|intros y Hy0 Hyx; apply H; lra|].
  destruct (H c) as [_ L]; [lra|]. nra.
Qed.
(** Functions below the equations stay below functions above them. *)
Lemma waiting_below (f g f' g' p q : R -> R) r b x : 0 < r -> f 0 <= g 0 ->
  (forall y, 0 <= y <= b -> derivable_pt_lim f y (f' y) /\ derivable_pt_lim g y (g' y) /\
    f' y <= r * (p y - f y) /\ r * (q y - g y) <= g' y /\ p y <= q y) ->
  0 <= x <= b -> f x <= g x.
Proof.
  intros Hr H0 H Hx.
  assert (L : exp (r * x) * (f x - g x) <= exp (r * 0) * (f 0 - g 0)).
  { apply (slope_le (fun z => exp (r * z) * (f z - g z))
      (fun z => r * exp (r * z) * (f z - g z) + exp (r * z) * (f' z - g' z)) b x); [|done].
    intros y Hy. destruct (H y Hy) as (Hf & Hg & Lf & Lg & Lpq). split.
    - apply (derivable_pt_lim_mult (fun z => exp (r * z)) (fun z => f z - g z)); [apply exp_line|].
      by apply derivable_pt_lim_minus.
    - pose proof (exp_pos (r * y)) as P. replace (r * exp (r * y) * (f y - g y) + exp (r * y) * (f' y - g' y)) with
        (exp (r * y) * (r * (f y - g y) + (f' y - g' y))) by ring.
      assert (N : r * (f y - g y) + (f' y - g' y) <= 0) by nra.
      apply Ropp_le_cancel. rewrite Ropp_0, Ropp_mult_distr_r. apply Rmult_le_pos; lra. }
  rewrite Rmult_0_r, exp_0 in L. apply Rnot_lt_le. intros C.
  assert (0 < exp (r * x) * (f x - g x)) by (apply Rmult_lt_0_compat; [apply exp_pos|lra]). lra.
Qed.
Lemma waiting_unique b g h rates x : waiting b g -> waiting b h -> Forall (fun r => 0 < r) rates -> 0 <= x <= b ->
  g rates x = h rates x.
Proof.
  intros Hg Hh Hr. revert x. induction Hr as [|r rates Hr _ IH]; intros x Hx.
  - rewrite (proj1 (Hg x Hx)), (proj1 (Hh x Hx)). done.
  - apply Rle_antisym.
    + apply (waiting_below _ _ (fun y => r * (g rates y - g (r :: rates) y)) (fun y => r * (h rates y - h (r :: rates) y))
        (g rates) (h rates) r b); [done| | |done].
      * destruct (Hg x Hx) as [_ G]. destruct (Hh x Hx) as [_ G']. rewrite (proj1 (G r rates)), (proj1 (G' r rates)). lra.
      * intros y Hy. split; [apply (proj2 (Hg y Hy))|]. split; [apply (proj2 (Hh y Hy))|]. rewrite (IH y Hy). lra.
    + apply (waiting_below _ _ (fun y => r * (h rates y - h (r :: rates) y)) (fun y => r * (g rates y - g (r :: rates) y))
        (h rates) (g rates) r b); [done| | |done].
      * destruct (Hg x Hx) as [_ G]. destruct (Hh x Hx) as [_ G']. rewrite (proj1 (G r rates)), (proj1 (G' r rates)). lra.
      * intros y Hy. split; [apply (proj2 (Hh y Hy))|]. split; [apply (proj2 (Hg y Hy))|]. rewrite (IH y Hy). lra.
Qed.
Lemma poisson_lim i x : derivable_pt_lim (fun y => exp (- y) * (y ^ i / INR (fact i))) x
  (match i with 0%nat => 0 | S j => exp (- x) * (x ^ j / INR (fact j)) end - exp (- x) * (x ^ i / INR (fact i))).
Proof.
  assert (D : derivable_pt_lim (fun y => exp (- y)) x (- exp (- x))).
  { pose proof (exp_line (-1) x) as H. replace (-1 * x) with (- x) in H by ring. replace (-1 * exp (- x)) with (- exp (- x)) in H by ring.
    intros e He. destruct (H e He) as [d Hd]. exists d. intros h Hh Hl. specialize (Hd h Hh Hl).
    replace (-1 * (x + h)) with (- (x + h)) in Hd by ring. replace (-1 * x) with (- x) in Hd by ring. exact Hd. }
  assert (P : derivable_pt_lim (fun y => y ^ i / INR (fact i)) x (match i with 0%nat => 0 | S j => x ^ j / INR (fact j) end)).
  { assert (Q : derivable_pt_lim (fun y => / INR (fact i) * y ^ i) x (/ INR (fact i) * (INR i * x ^ pred i))).
    { apply (derivable_pt_lim_scal (fun y => y ^ i)). apply derivable_pt_lim_pow. }
    assert (E : / INR (fact i) * (INR i * x ^ pred i) = match i with 0%nat => 0 | S j => x ^ j / INR (fact j) end).
    { destruct i as [|j]; [cbn; ring|]. rewrite fact_simpl, mult_INR. cbn [pred]. field.
      split; [apply INR_fact_neq_0|apply not_0_INR; lia]. }
    rewrite E in Q. intros e He. destruct (Q e He) as [d Hd]. exists d. intros h Hh Hl. specialize (Hd h Hh Hl).
    unfold Rdiv in Hd |- *. rewrite (Rmult_comm ((x + h) ^ i)), (Rmult_comm (x ^ i)). exact Hd. }
  pose proof (derivable_pt_lim_mult _ _ x _ _ D P) as M. unfold mult_fct in M.
  replace (match i with 0%nat => 0 | S j => exp (- x) * (x ^ j / INR (fact j)) end - exp (- x) * (x ^ i / INR (fact i))) with
    (- exp (- x) * (x ^ i / INR (fact i)) + exp (- x) * match i with 0%nat => 0 | S j => x ^ j / INR (fact j) end); [exact M|].
  destruct i; ring.
Qed.
Lemma late_lim n x : derivable_pt_lim (late (S n)) x (late n x - late (S n) x).
Proof.
  induction n as [|n IH].
  - cbn [late sum_f_R0]. exact (poisson_lim 0 x).
  - set (p := fun y => exp (- y) * (y ^ S n / INR (fact (S n)))).
    pose proof (derivable_pt_lim_plus (late (S n)) p x _ _ IH (poisson_lim (S n) x)) as M. cbv iota in M.
    fold (p x) in M. change (late (S (S n))) with (fun y => late (S n) y + p y).
    assert (E : late n x - late (S n) x + (exp (- x) * (x ^ n / INR (fact n)) - p x) = late (S n) x - (late (S n) x + p x)).
    { destruct n as [|n]; [cbn [late sum_f_R0]; ring|]. cbn [late sum_f_R0]. ring. }
    cbv beta. rewrite <- E. exact M.
Qed.
Lemma sum_0 k : sum_f_R0 (fun i => exp (- 0) * (0 ^ i / INR (fact i))) k = 1.
Proof.
  induction k as [|k IH]; cbn [sum_f_R0].
  - rewrite Ropp_0, exp_0. cbn. field.
  - rewrite IH, pow_i by lia. unfold Rdiv. ring.
Qed.
(** At equal rates: what [late] says *)
Theorem C83_same b g n r x : waiting b g -> 0 < r -> 0 <= x <= b -> g (repeat r n) x = late n (r * x).
Proof.
  intros Hg Hr. revert x. induction n as [|n IH]; intros x Hx; [exact (proj1 (Hg x Hx))|].
  assert (L : forall y, derivable_pt_lim (fun z => late (S n) (r * z)) y (r * (late n (r * y) - late (S n) (r * y)))).
  { intros y. rewrite Rmult_comm. apply (derivable_pt_lim_comp (fun z => r * z) (late (S n)) y r); [|apply late_lim].
    apply line_lim. }
  assert (Z : late (S n) (r * 0) = 1) by (rewrite Rmult_0_r; apply sum_0).
  assert (Zg : g (repeat r (S n)) 0 = 1) by (destruct (Hg x Hx) as [_ G]; apply (proj1 (G r (repeat r n)))).
  apply Rle_antisym.
  - apply (waiting_below _ (fun z => late (S n) (r * z)) (fun y => r * (g (repeat r n) y - g (repeat r (S n)) y))
      (fun y => r * (late n (r * y) - late (S n) (r * y))) (g (repeat r n)) (fun y => late n (r * y)) r b); [done|lra| |done].
    intros y Hy. split; [apply (proj2 (Hg y Hy))|]. split; [apply L|]. rewrite (IH y Hy). lra.
  - apply (waiting_below (fun z => late (S n) (r * z)) _ (fun y => r * (late n (r * y) - late (S n) (r * y)))
      (fun y => r * (g (repeat r n) y - g (repeat r (S n)) y)) (fun y => late n (r * y)) (g (repeat r n)) r b); [done|lra| |done].
    intros y Hy. split; [apply L|]. split; [apply (proj2 (Hg y Hy))|]. rewrite (IH y Hy). lra.
Qed.
Print Assumptions waiting_exists.
Print Assumptions C83_same.
