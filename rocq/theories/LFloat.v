(** The binary64 operations of the model, read as real numbers (through the Flocq library). *)
From Coq Require Import Reals Lra Psatz.
From Flocq Require Import Core.Core IEEE754.BinarySingleNaN.
From Verif Require Export MTime.
From Verif Require Import LBase.
Local Open Scope R_scope.

(** [spec_float] also contains values that are no binary64 number; a float of the program is one
    that passes this check. *)
Definition is_f64 (x : f64) : Prop := valid_binary f_prec f_emax x = true.
Definition f_finite (x : f64) : Prop := is_f64 x /\ is_finite_SF x = true.
Definition f_real (x : f64) : R := SF2R radix2 x.

Local Instance prec_gt_0 : Prec_gt_0 f_prec := eq_refl.
Local Instance prec_lt_emax : Prec_lt_emax f_prec f_emax := eq_refl.
Notation b64 := (binary_float f_prec f_emax).
Notation fexp := (SpecFloat.fexp f_prec f_emax).
Definition rnd (x : R) : R := round radix2 fexp (round_mode mode_NE) x.

Lemma is_f64_B (x : f64) : is_f64 x -> exists b : b64, x = B2SF b.
Proof. intros H. exists (SF2B x H). by rewrite B2SF_SF2B. Qed.
Lemma B_is_f64 (b : b64) : is_f64 (B2SF b).
Proof. apply valid_binary_B2SF. Qed.
Lemma B_real (b : b64) : f_real (B2SF b) = B2R b.
Proof. by destruct b. Qed.
Lemma B_finite (b : b64) : f_finite (B2SF b) <-> is_finite b = true.
Proof.
  unfold f_finite. split.
  - intros [_ H]. by destruct b.
  - intros H. split; [apply B_is_f64|]. by destruct b.
Qed.

(** ** The operations agree with Flocq's *)
Lemma aux_equiv sx mx ex lx :
  SpecFloat.binary_round_aux f_prec f_emax sx mx ex lx
  = BinarySingleNaN.binary_round_aux f_prec f_emax mode_NE sx mx ex lx.
Proof.
  unfold SpecFloat.binary_round_aux, BinarySingleNaN.binary_round_aux.
  destruct (shr_fexp _ _ _) as [mrs e]. cbn zeta beta iota.
  assert (Hr : forall m l, round_nearest_even m l = choice_mode mode_NE sx m l).
  { intros m l. destruct l as [|[]]; try reflexivity. cbn. unfold Round.cond_incr. by destruct (Z.even m). }
  by rewrite Hr.
Qed.
Lemma normalize_equiv m e sz :
  SpecFloat.binary_normalize f_prec f_emax m e sz
  = B2SF (BinarySingleNaN.binary_normalize f_prec f_emax _ _ mode_NE m e sz).
Proof.
  assert (Hb : forall s m e, SpecFloat.binary_round f_prec f_emax s m e =
                             BinarySingleNaN.binary_round f_prec f_emax mode_NE s m e).
  { intros s p e'. unfold SpecFloat.binary_round, BinarySingleNaN.binary_round, shl_align_fexp.
    destruct (shl_align _ _ _). apply aux_equiv. }
  destruct m; cbn [SpecFloat.binary_normalize BinarySingleNaN.binary_normalize]; rewrite ?B2SF_SF2B; auto.
Qed.
Lemma add_B (x y : b64) : f_add (B2SF x) (B2SF y) = B2SF (Bplus mode_NE x y).
Proof.
  destruct x, y; try (cbn; by repeat case_match); try reflexivity. apply normalize_equiv.
Qed.
Lemma sub_B (x y : b64) : f_sub (B2SF x) (B2SF y) = B2SF (Bminus mode_NE x y).
Proof.
  destruct x, y; try (cbn; by repeat case_match); try reflexivity.
  unfold Bminus. cbn. unfold Zminus. rewrite <- cond_Zopp_negb. apply normalize_equiv.
Qed.
Lemma mul_B (x y : b64) : f_mul (B2SF x) (B2SF y) = B2SF (Bmult mode_NE x y).
Proof. destruct x, y; try reflexivity. cbn. rewrite B2SF_SF2B. apply aux_equiv. Qed.
Lemma div_B (x y : b64) : f_div (B2SF x) (B2SF y) = B2SF (Bdiv mode_NE x y).
Proof.
  destruct x, y; try reflexivity. cbn. rewrite B2SF_SF2B.
  set (melz := SFdiv_core_binary _ _ _ _ _ _). destruct melz as [[mz ez] lz]. apply aux_equiv.
Qed.
Lemma sqrt_B (x : b64) : f_sqrt (B2SF x) = B2SF (Bsqrt mode_NE x).
Proof.
  destruct x as [| | |[] ? ? ?]; try reflexivity; try (by destruct s). cbn. rewrite B2SF_SF2B.
  set (melz := SFsqrt_core_binary _ _ _ _). destruct melz as [[mz ez] lz]. apply aux_equiv.
Qed.

(** ** Rounding *)
Lemma rnd_mono x y : x <= y -> rnd x <= rnd y.
Proof. apply round_le; [apply fexp_correct; done|apply valid_rnd_round_mode]. Qed.
Lemma rnd_real x : is_f64 x -> rnd (f_real x) = f_real x.
Proof.
  intros (b & ->)%is_f64_B. rewrite B_real. apply round_generic; [apply valid_rnd_round_mode|].
  apply generic_format_B2R.
Qed.
Lemma rnd_IZR z : (Z.abs z <= 2 ^ 53)%Z -> rnd (IZR z) = IZR z.
Proof.
  intros Hz. apply round_generic; [apply valid_rnd_round_mode|].
  apply generic_format_FLT.
  assert (Hc : (Z.abs z < 2 ^ 53 \/ Z.abs z = 2 ^ 53)%Z) by lia. destruct Hc as [Hc|Hc].
  - apply (FLT_spec _ _ _ _ (Float radix2 z 0)).
    + unfold F2R. cbn. lra.
    + cbn [Fnum]. done.
    + done.
  - assert (Hz2 : (z = 2 ^ 53 \/ z = - 2 ^ 53)%Z) by lia.
    apply (FLT_spec _ _ _ _ (Float radix2 (z / 2) 1)).
    + unfold F2R. cbn [Fnum Fexp].
      replace (bpow radix2 1) with (IZR 2) by done. rewrite <- mult_IZR. f_equal.
      destruct Hz2; subst z; done.
    + cbn [Fnum]. destruct Hz2; subst z; done.
    + done.
Qed.
Lemma rnd_0 : rnd 0 = 0.
Proof. apply round_0, valid_rnd_round_mode. Qed.

(** A real below the overflow threshold; everything the program computes with is far below. *)
Definition BIG : R := bpow radix2 1023.
Lemma rnd_BIG : rnd BIG = BIG.
Proof.
  apply round_generic; [apply valid_rnd_round_mode|]. apply generic_format_bpow. done.
Qed.
Lemma BIG_lt : BIG < bpow radix2 f_emax.
Proof. apply bpow_lt. done. Qed.
Lemma rnd_lt_max x : Rabs x <= BIG -> Rabs (rnd x) < bpow radix2 f_emax.
Proof.
  intros H. eapply Rle_lt_trans; [|exact BIG_lt].
  apply Rabs_le.
  assert (Hx : - BIG <= x <= BIG) by (unfold Rabs in H; destruct (Rcase_abs x); lra).
  rewrite <- rnd_BIG. split; [|apply rnd_mono; lra].
  replace (- rnd BIG) with (rnd (- BIG)).
  - apply rnd_mono; lra.
  - unfold rnd. apply round_NE_opp.
Qed.

(** ** Reading the operations *)
Lemma add_real x y :
  f_finite x -> f_finite y -> Rabs (f_real x + f_real y) <= BIG ->
  f_finite (f_add x y) /\ f_real (f_add x y) = rnd (f_real x + f_real y).
Proof.
  intros [[a ->]%is_f64_B Hx] [[b ->]%is_f64_B Hy]. rewrite !B_real, add_B. intros H.
  assert (Ha : is_finite a = true) by (by destruct a). assert (Hb : is_finite b = true) by (by destruct b).
  pose proof (Bplus_correct f_prec f_emax _ _ mode_NE a b Ha Hb) as Hc.
  rewrite Rlt_bool_true in Hc by (by apply rnd_lt_max). destruct Hc as (Hr & Hf & _).
  rewrite B_finite, B_real. done.
Qed.
Lemma sub_real x y :
  f_finite x -> f_finite y -> Rabs (f_real x - f_real y) <= BIG ->
  f_finite (f_sub x y) /\ f_real (f_sub x y) = rnd (f_real x - f_real y).
Proof.
  intros [[a ->]%is_f64_B Hx] [[b ->]%is_f64_B Hy]. rewrite !B_real, sub_B. intros H.
  assert (Ha : is_finite a = true) by (by destruct a). assert (Hb : is_finite b = true) by (by destruct b).
  pose proof (Bminus_correct f_prec f_emax _ _ mode_NE a b Ha Hb) as Hc.
  rewrite Rlt_bool_true in Hc by (by apply rnd_lt_max). destruct Hc as (Hr & Hf & _).
  rewrite B_finite, B_real. done.
Qed.
Lemma mul_real x y :
  f_finite x -> f_finite y -> Rabs (f_real x * f_real y) <= BIG ->
  f_finite (f_mul x y) /\ f_real (f_mul x y) = rnd (f_real x * f_real y).
Proof.
  intros [[a ->]%is_f64_B Hx] [[b ->]%is_f64_B Hy]. rewrite !B_real, mul_B. intros H.
  assert (Ha : is_finite a = true) by (by destruct a). assert (Hb : is_finite b = true) by (by destruct b).
  pose proof (Bmult_correct f_prec f_emax _ _ mode_NE a b) as Hc.
  rewrite Rlt_bool_true in Hc by (by apply rnd_lt_max). destruct Hc as (Hr & Hf & _).
  rewrite B_finite, B_real. rewrite Hf, Ha, Hb. done.
Qed.
Lemma div_real x y :
  f_finite x -> f_finite y -> f_real y <> 0 -> Rabs (f_real x / f_real y) <= BIG ->
  f_finite (f_div x y) /\ f_real (f_div x y) = rnd (f_real x / f_real y).
Proof.
  intros [[a ->]%is_f64_B Hx] [[b ->]%is_f64_B Hy]. rewrite !B_real, div_B. intros Hnz H.
  assert (Ha : is_finite a = true) by (by destruct a).
  pose proof (Bdiv_correct f_prec f_emax _ _ mode_NE a b Hnz) as Hc.
  rewrite Rlt_bool_true in Hc by (by apply rnd_lt_max). destruct Hc as (Hr & Hf & _).
  rewrite B_finite, B_real, Hf. done.
Qed.
Lemma sqrt_real x :
  f_finite x -> 0 <= f_real x ->
  f_finite (f_sqrt x) /\ f_real (f_sqrt x) = rnd (R_sqrt.sqrt (f_real x)).
Proof.
  intros [[a ->]%is_f64_B Hx]. rewrite !B_real, sqrt_B. intros H.
  pose proof (Bsqrt_correct f_prec f_emax _ _ mode_NE a) as (Hr & Hf & _).
  rewrite B_finite, B_real, Hf. split; [|done].
  destruct a as [| | |[] m e He]; try done.
  exfalso. cbn [B2R cond_Zopp] in H. assert (F2R (Float radix2 (Z.neg m) e) < 0) by (by apply F2R_lt_0). unfold cond_Zopp in H. change (Z.opp (Z.pos m)) with (Z.neg m) in H. lra.
Qed.
Lemma of_N_real n :
  IZR (Z.of_N n) <= BIG -> f_finite (f_of_N n) /\ f_real (f_of_N n) = rnd (IZR (Z.of_N n)).
Proof.
  intros H. unfold f_of_N. rewrite normalize_equiv.
  pose proof (binary_normalize_correct f_prec f_emax _ _ mode_NE (Z.of_N n) 0 false) as Hc.
  cbv zeta in Hc.
  assert (Hv : F2R (Float radix2 (Z.of_N n) 0) = IZR (Z.of_N n)) by (unfold F2R; cbn; lra).
  rewrite Hv in Hc. rewrite Rlt_bool_true in Hc.
  - destruct Hc as (Hr & Hf & _). rewrite B_finite, B_real. done.
  - apply rnd_lt_max. rewrite Rabs_pos_eq; [done|]. apply IZR_le. lia.
Qed.
Lemma of_N_exact n : (n <= 2 ^ 53)%N -> f_finite (f_of_N n) /\ f_real (f_of_N n) = IZR (Z.of_N n).
Proof.
  intros H. assert (Hz : (Z.of_N n <= 2 ^ 53)%Z) by lia.
  destruct (of_N_real n) as [H1 H2].
  - eapply Rle_trans; [apply IZR_le; exact Hz|].
    change (IZR (2 ^ 53)) with (bpow radix2 53). apply bpow_le. done.
  - split; [done|]. rewrite H2. apply rnd_IZR. lia.
Qed.

(** ** Comparison *)
Lemma cmp_real x y :
  f_finite x -> f_finite y -> f_cmp x y = Some (Rcompare (f_real x) (f_real y)).
Proof.
  intros [[a ->]%is_f64_B Hx] [[b ->]%is_f64_B Hy]. rewrite !B_real.
  assert (Ha : is_finite a = true) by (by destruct a). assert (Hb : is_finite b = true) by (by destruct b).
  apply (Bcompare_correct f_prec f_emax a b Ha Hb).
Qed.

(** ** Bounds *)
Definition f_within (k : Z) (x : f64) : Prop := f_finite x /\ 0 <= f_real x <= IZR k.
Definition f_nonneg (x : f64) : Prop :=
  is_f64 x /\
  match x with
  | S754_zero _ | S754_infinity false | S754_finite false _ _ => True
  | _ => False
  end.

Lemma IZR_BIG k : (k <= 2 ^ 1023)%Z -> IZR k <= BIG.
Proof. intros H. unfold BIG. change (bpow radix2 1023) with (IZR (2 ^ 1023)). by apply IZR_le. Qed.
Lemma within_zero : f_within 0 f_zero.
Proof. split; [done|]. unfold f_real. cbn. lra. Qed.
Lemma within_mono j k x : (j <= k)%Z -> f_within j x -> f_within k x.
Proof. intros H [Hf Hb]. split; [done|]. apply IZR_le in H. lra. Qed.
Lemma within_nonneg k x : f_finite x -> f_real x = IZR k -> (0 <= k)%Z -> f_within k x.
Proof. intros H1 H2 H3. split; [done|]. apply IZR_le in H3. lra. Qed.

Lemma within_add j k x y :
  (0 <= j + k <= 2 ^ 53)%Z -> f_within j x -> f_within k y -> f_within (j + k) (f_add x y).
Proof.
  intros Hjk [Hx Hxb] [Hy Hyb].
  assert (Hs : 0 <= f_real x + f_real y <= IZR (j + k)) by (rewrite plus_IZR; lra).
  destruct (add_real x y Hx Hy) as [Hf Hr].
  - rewrite Rabs_pos_eq by lra. eapply Rle_trans; [apply Hs|]. apply IZR_BIG.
    eapply Z.le_trans; [apply Hjk|]. done.
  - split; [done|]. rewrite Hr. split.
    + rewrite <- rnd_0. apply rnd_mono. lra.
    + rewrite <- (rnd_IZR (j + k)) by lia. apply rnd_mono. lra.
Qed.

Lemma within_cmp j k x y : f_within j x -> f_within k y -> exists c, f_cmp x y = Some c.
Proof. intros [Hx _] [Hy _]. rewrite (cmp_real _ _ Hx Hy). eauto. Qed.

Lemma f_ten_real : f_finite f_ten /\ f_real f_ten = 10.
Proof. destruct (of_N_exact 10) as [H1 H2]; [done|]. split; [exact H1|]. exact H2. Qed.
Lemma nonneg_real x : f_finite x -> (match x with S754_finite true _ _ => False | _ => True end) -> 0 <= f_real x.
Proof.
  intros [_ Hf] Hs. destruct x as [| | |[] m e]; try done; unfold f_real; cbn [SF2R]; [lra|].
  by apply F2R_ge_0.
Qed.
Lemma min_ten x : f_nonneg x -> f_within 10 (f_min x f_ten).
Proof.
  intros [Hx Hs]. destruct f_ten_real as [Ht Htr]. unfold f_min.
  destruct (f_is_nan x) eqn:En; [by destruct x|].
  change (f_is_nan f_ten) with false. cbn iota.
  destruct (is_finite_SF x) eqn:Ef.
  - assert (Hfx : f_finite x) by done. rewrite (cmp_real _ _ Hfx Ht).
    assert (H0 : 0 <= f_real x) by (apply nonneg_real; [done|by destruct x as [| | |[]]]).
    destruct (Rcompare_spec (f_real x) (f_real f_ten)) as [H|H|H]; split; try done; lra.
  - assert (Hxi : x = S754_infinity false) by (destruct x as [|[]| |]; done). subst x.
    replace (f_cmp (S754_infinity false) f_ten) with (Some Gt) by (vm_compute; done).
    split; [done|lra].
Qed.

(** The samples of the exponential distribution are not negative (they may be infinite). *)
Definition exp1_ok (e : bytes -> f64) : Prop := forall seed, f_nonneg (e seed).
Lemma delay_exp_within e seed : exp1_ok e -> f_within 10 (delay_exp e seed).
Proof. intros H. apply min_ten, H. Qed.

Lemma delay_max_within j k a b :
  f_within j a -> f_within k b ->
  exists d, delay_max a b = Val d /\ (d = a \/ d = b) /\ f_real a <= f_real d /\ f_real b <= f_real d.
Proof.
  intros [Ha _] [Hb _]. unfold delay_max, delay_cmp. rewrite (cmp_real _ _ Ha Hb).
  destruct (Rcompare_spec (f_real a) (f_real b)) as [H|H|H]; cbn.
  - exists b. split; [done|]. split; [by right|]. lra.
  - exists b. split; [done|]. split; [by right|]. lra.
  - exists a. split; [done|]. split; [by left|]. lra.
Qed.
