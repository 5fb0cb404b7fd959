(** Durations of the model read as real numbers: bounds, monotonicity and accuracy. *)
From Coq Require Import Reals Lra Psatz.
From Flocq Require Import Core.Core IEEE754.BinarySingleNaN Relative.
From Verif Require Export LFloat.
From Verif Require Import LBase.
Local Open Scope R_scope.

(** ** Intervals *)
Definition f_in (a b : R) (x : f64) : Prop := f_finite x /\ a <= f_real x <= b.
(** a number that rounds to itself *)
Definition fixed (x : R) : Prop := rnd x = x /\ Rabs x <= BIG.
Lemma fixed_bpow e : (-1000 <= e <= 1023)%Z -> fixed (bpow radix2 e).
Proof.
  intros He. split.
  - apply round_generic; [apply valid_rnd_round_mode|]. apply generic_format_bpow.
    unfold SpecFloat.fexp, SpecFloat.emin, f_prec, f_emax. lia.
  - rewrite Rabs_pos_eq by apply bpow_ge_0. apply bpow_le. lia.
Qed.
Lemma fixed_IZR z : (Z.abs z <= 2 ^ 53)%Z -> fixed (IZR z).
Proof.
  intros Hz. split; [by apply rnd_IZR|]. rewrite <- abs_IZR. apply IZR_BIG.
  eapply Z.le_trans; [exact Hz|]. done.
Qed.
Lemma rnd_between lo hi x : fixed lo -> fixed hi -> lo <= x <= hi -> Rabs x <= BIG /\ lo <= rnd x <= hi.
Proof.
  intros [Hl Hl'] [Hh Hh'] Hx. split.
  - apply Rabs_le. unfold Rabs in Hl', Hh'. destruct (Rcase_abs lo), (Rcase_abs hi); lra.
  - split; [rewrite <- Hl|rewrite <- Hh]; apply rnd_mono; lra.
Qed.
Lemma in_weaken a b a' b' x : a' <= a -> b <= b' -> f_in a b x -> f_in a' b' x.
Proof. intros H1 H2 [H3 H4]. split; [done|]. lra. Qed.
Lemma in_add lo hi a b c d x y :
  fixed lo -> fixed hi -> lo <= a + c -> b + d <= hi -> f_in a b x -> f_in c d y -> f_in lo hi (f_add x y).
Proof.
  intros Hl Hh H1 H2 [Hx Hxb] [Hy Hyb].
  destruct (rnd_between lo hi (f_real x + f_real y)) as [Hb Hr]; [done..|lra|].
  destruct (add_real x y Hx Hy Hb) as [Hf E]. split; [done|]. by rewrite E.
Qed.
Lemma in_sub lo hi a b c d x y :
  fixed lo -> fixed hi -> lo <= a - d -> b - c <= hi -> f_in a b x -> f_in c d y -> f_in lo hi (f_sub x y).
Proof.
  intros Hl Hh H1 H2 [Hx Hxb] [Hy Hyb].
  destruct (rnd_between lo hi (f_real x - f_real y)) as [Hb Hr]; [done..|lra|].
  destruct (sub_real x y Hx Hy Hb) as [Hf E]. split; [done|]. by rewrite E.
Qed.
Lemma in_mul lo hi a b c d x y :
  fixed lo -> fixed hi -> 0 <= a -> 0 <= c -> lo <= a * c -> b * d <= hi ->
  f_in a b x -> f_in c d y -> f_in lo hi (f_mul x y).
Proof.
  intros Hl Hh Ha Hc H1 H2 [Hx Hxb] [Hy Hyb].
  destruct (rnd_between lo hi (f_real x * f_real y)) as [Hb Hr]; [done..| |].
  - split.
    + eapply Rle_trans; [exact H1|]. apply Rmult_le_compat; lra.
    + eapply Rle_trans; [|exact H2]. apply Rmult_le_compat; lra.
  - destruct (mul_real x y Hx Hy Hb) as [Hf E]. split; [done|]. by rewrite E.
Qed.
Lemma in_div lo hi a b c d x y :
  fixed lo -> fixed hi -> 0 <= a -> 0 < c -> lo * d <= a -> b <= hi * c -> 0 <= lo -> 0 <= hi ->
  f_in a b x -> f_in c d y -> f_in lo hi (f_div x y).
Proof.
  intros Hl Hh Ha Hc H1 H2 H3 H4 [Hx Hxb] [Hy Hyb].
  destruct (rnd_between lo hi (f_real x / f_real y)) as [Hb Hr]; [done..| |].
  - assert (Hp : 0 < f_real y) by lra. split.
    + apply (Rmult_le_reg_r (f_real y)); [done|]. unfold Rdiv. rewrite Rmult_assoc, Rinv_l, Rmult_1_r by lra.
      assert (lo * f_real y <= lo * d) by (apply Rmult_le_compat_l; lra). lra.
    + apply (Rmult_le_reg_r (f_real y)); [done|]. unfold Rdiv. rewrite Rmult_assoc, Rinv_l, Rmult_1_r by lra.
      assert (hi * c <= hi * f_real y) by (apply Rmult_le_compat_l; lra). lra.
  - destruct (div_real x y Hx Hy ltac:(lra) Hb) as [Hf E]. split; [done|]. by rewrite E.
Qed.
Lemma in_sqrt hi b x :
  fixed hi -> 0 <= hi -> b <= hi * hi -> f_in 0 b x -> f_in 0 hi (f_sqrt x).
Proof.
  intros Hh H0 Hb [Hx Hxb]. destruct (sqrt_real x Hx ltac:(lra)) as [Hf E]. split; [done|]. rewrite E.
  apply (rnd_between 0 hi); [|done|].
  - apply (fixed_IZR 0). done.
  - split; [apply sqrt_pos|]. rewrite <- (sqrt_square hi) by done. apply sqrt_le_1; lra.
Qed.
Lemma in_of_N (a b n : N) : (b <= 2 ^ 53)%N -> (a <= n <= b)%N -> f_in (IZR (Z.of_N a)) (IZR (Z.of_N b)) (f_of_N n).
Proof.
  intros Hb H. destruct (of_N_exact n) as [H1 H2]; [lia|]. split; [done|]. rewrite H2.
  split; apply IZR_le; lia.
Qed.

(** ** [from_secs_f64] rounds to the nearest nanosecond *)
Definition GIGA : R := 1000000000.
Lemma round_shift_near n e :
  Z.of_N (round_shift n e) = ZnearestE (IZR (Z.of_N n) * bpow radix2 e).
Proof.
  unfold round_shift. destruct (Z.leb_spec 0 e) as [He|He].
  - rewrite N2Z.inj_mul, N2Z.inj_pow, Z2N.id by done.
    replace (IZR (Z.of_N n) * bpow radix2 e) with (IZR (Z.of_N n * Z.of_N 2 ^ e)).
    + symmetry. apply (Zrnd_IZR ZnearestE).
    + rewrite mult_IZR. f_equal. by rewrite (IZR_Zpower radix2).
  - set (d := (2 ^ Z.to_N (- e))%N).
    assert (Hd : (0 < d)%N) by (unfold d; apply N.neq_0_lt_0, N.pow_nonzero; done).
    assert (Ed : bpow radix2 e = / IZR (Z.of_N d)).
    { unfold d. rewrite N2Z.inj_pow, Z2N.id by lia. change (Z.of_N 2) with (radix_val radix2).
      rewrite IZR_Zpower by lia. rewrite bpow_opp, Rinv_inv. done. }
    rewrite Ed. change (_ * / _) with (IZR (Z.of_N n) / IZR (Z.of_N d)).
    set (x := IZR (Z.of_N n) / IZR (Z.of_N d)).
    pose proof (N.div_mod n d ltac:(lia)) as Edm. pose proof (N.mod_lt n d ltac:(lia)) as Hlt.
    set (q := (n / d)%N) in *. set (r := (n mod d)%N) in *.
    assert (Hdr : 0 < IZR (Z.of_N d)) by (apply IZR_lt; lia).
    assert (Ex : x = IZR (Z.of_N q) + IZR (Z.of_N r) / IZR (Z.of_N d)).
    { unfold x. rewrite Edm, N2Z.inj_add, N2Z.inj_mul, plus_IZR, mult_IZR. field. lra. }
    assert (Hr : 0 <= IZR (Z.of_N r) / IZR (Z.of_N d) < 1).
    { assert (0 <= IZR (Z.of_N r) < IZR (Z.of_N d)) by (split; [apply IZR_le|apply IZR_lt]; lia).
      split; [apply Rmult_le_pos; [lra|]; left; by apply Rinv_0_lt_compat|].
      apply (Rmult_lt_reg_r (IZR (Z.of_N d))); [done|]. unfold Rdiv. rewrite Rmult_assoc, Rinv_l; lra. }
    assert (Efl : Zfloor x = Z.of_N q) by (apply Zfloor_imp; rewrite plus_IZR; lra).
    unfold ZnearestE, Znearest. rewrite Efl.
    assert (Hceil : (0 < r)%N -> Zceil x = Z.of_N (q + 1)).
    { intros H0. apply Zceil_imp. rewrite N2Z.inj_add. replace (_ + Z.of_N 1 - 1)%Z with (Z.of_N q) by lia.
      rewrite plus_IZR. change (IZR (Z.of_N 1)) with 1.
      assert (0 < IZR (Z.of_N r) / IZR (Z.of_N d)); [|lra].
      apply Rmult_lt_0_compat; [apply IZR_lt; lia|by apply Rinv_0_lt_compat]. }
    assert (Ec : Rcompare (x - IZR (Z.of_N q)) (/ 2) = (2 * r ?= d)%N).
    { replace (x - IZR (Z.of_N q)) with (IZR (Z.of_N r) / IZR (Z.of_N d)) by lra.
      assert (E2 : IZR (Z.of_N (2 * r)) = 2 * IZR (Z.of_N r)) by (by rewrite N2Z.inj_mul, mult_IZR).
      destruct (N.compare_spec (2 * r) d) as [H|H|H].
      - apply Rcompare_Eq. rewrite <- H, E2. assert (0 < IZR (Z.of_N (2 * r))) by (by rewrite H).
        rewrite E2 in H0. field. lra.
      - apply Rcompare_Lt. apply (Rmult_lt_reg_r (IZR (Z.of_N d))); [done|].
        unfold Rdiv. rewrite Rmult_assoc, Rinv_l by lra.
        assert (IZR (Z.of_N (2 * r)) < IZR (Z.of_N d)) by (apply IZR_lt; lia). lra.
      - apply Rcompare_Gt. apply (Rmult_lt_reg_r (IZR (Z.of_N d))); [done|].
        unfold Rdiv. rewrite Rmult_assoc, Rinv_l by lra.
        assert (IZR (Z.of_N d) < IZR (Z.of_N (2 * r))) by (apply IZR_lt; lia). lra. }
    rewrite Ec. destruct (N.compare_spec (2 * r) d) as [H|H|H].
    + rewrite Hceil by lia.
      assert (Eev : Z.even (Z.of_N q) = N.even q) by (by destruct q as [|[]]).
      rewrite Eev. by destruct (N.even q).
    + done.
    + rewrite Hceil by lia. done.
Qed.

Lemma shift_ns p e :
  Z.of_N (round_shift (N.pos p * NANOS_PER_SEC) e) = ZnearestE (f_real (S754_finite false p e) * GIGA).
Proof.
  rewrite round_shift_near. apply (f_equal ZnearestE). unfold f_real. cbn [SF2R cond_Zopp]. unfold F2R. cbn [Fnum Fexp].
  assert (E : (Z.of_N (N.pos p * NANOS_PER_SEC) = Z.pos p * 1000000000)%Z) by (unfold NANOS_PER_SEC; lia).
  rewrite E, mult_IZR. unfold GIGA. ring.
Qed.

Definition LIMIT_SECS : R := IZR (2 ^ 64).
(** The value, whenever there is one. *)
Lemma from_secs_val x d :
  is_f64 x -> from_secs_f64 x = Val d ->
  f_finite x /\ 0 <= f_real x /\ Z.of_N d = ZnearestE (f_real x * GIGA) /\ (d < DURATION_LIMIT)%N.
Proof.
  intros Hx H. destruct x as [s|s| |[] p e]; try done.
  - cbn in H. injection H as <-. split; [done|]. unfold f_real. cbn [SF2R].
    replace (0 * GIGA) with 0 by lra. split; [lra|]. split; [|done].
    symmetry. apply (Zrnd_IZR ZnearestE 0).
  - cbn [from_secs_f64] in H. destruct (N.ltb_spec (round_shift (N.pos p * NANOS_PER_SEC) e) DURATION_LIMIT); [|done].
    injection H as <-. split; [done|]. unfold f_real. cbn [SF2R cond_Zopp].
    split; [by apply F2R_ge_0|]. split; [|done]. apply shift_ns.
Qed.
Lemma nearest_mono x y : x <= y -> (ZnearestE x <= ZnearestE y)%Z.
Proof. apply (Zrnd_le ZnearestE). Qed.
(** There is one for every number of seconds up to 2^64 - 1. *)
Lemma from_secs_ok x :
  f_finite x -> 0 <= f_real x <= LIMIT_SECS - 1 ->
  exists d, from_secs_f64 x = Val d /\ Z.of_N d = ZnearestE (f_real x * GIGA).
Proof.
  intros [Hx Hf] [H0 H1].
  assert (Hb : (ZnearestE (f_real x * GIGA) <= (2 ^ 64 - 1) * 1000000000)%Z).
  { rewrite <- (Zrnd_IZR ZnearestE ((2 ^ 64 - 1) * 1000000000)). apply nearest_mono.
    rewrite mult_IZR. change (IZR 1000000000) with GIGA. apply Rmult_le_compat_r; [unfold GIGA; lra|].
    rewrite minus_IZR. exact H1. }
  destruct x as [s|s| |[] p e]; try done.
  - exists 0%N. split; [done|]. unfold f_real. cbn [SF2R]. replace (0 * GIGA) with 0 by lra.
    symmetry. apply (Zrnd_IZR ZnearestE 0).
  - exfalso. unfold f_real in H0. cbn [SF2R cond_Zopp] in H0.
    assert (F2R (Float radix2 (Z.neg p) e) < 0) by (by apply F2R_lt_0). change (Z.opp (Z.pos p)) with (Z.neg p) in H0. lra.
  - pose proof (shift_ns p e) as E.
    cbn [from_secs_f64]. exists (round_shift (N.pos p * NANOS_PER_SEC) e). split; [|done].
    destruct (N.ltb_spec (round_shift (N.pos p * NANOS_PER_SEC) e) DURATION_LIMIT) as [|Hge]; [done|].
    exfalso. rewrite <- E in Hb. unfold DURATION_LIMIT, NANOS_PER_SEC in *. lia.
Qed.
Lemma from_secs_mono x y d :
  f_finite x -> is_f64 y -> 0 <= f_real x <= f_real y -> from_secs_f64 y = Val d ->
  exists d', from_secs_f64 x = Val d' /\ (d' <= d)%N.
Proof.
  intros [Hx Hf] Hy H E. apply from_secs_val in E as (_ & _ & E & Hlt); [|done].
  assert (Hle : (ZnearestE (f_real x * GIGA) <= ZnearestE (f_real y * GIGA))%Z).
  { apply nearest_mono. apply Rmult_le_compat_r; [unfold GIGA; lra|lra]. }
  destruct x as [s|s| |[] p e]; try done.
  - exists 0%N. split; [done|lia].
  - exfalso. destruct H as [H0 _]. unfold f_real in H0. cbn [SF2R cond_Zopp] in H0.
    assert (F2R (Float radix2 (Z.neg p) e) < 0) by (by apply F2R_lt_0). change (Z.opp (Z.pos p)) with (Z.neg p) in H0. lra.
  - pose proof (shift_ns p e) as E'.
    cbn [from_secs_f64]. exists (round_shift (N.pos p * NANOS_PER_SEC) e).
    destruct (N.ltb_spec (round_shift (N.pos p * NANOS_PER_SEC) e) DURATION_LIMIT) as [|Hge]; [split; [done|lia]|lia].
Qed.

(** ** [as_secs_f64] *)
Definition MAX_SANE : N := 2 ^ 53 * NANOS_PER_SEC.
Lemma giga_in : f_in GIGA GIGA (f_of_N NANOS_PER_SEC).
Proof. apply (in_of_N NANOS_PER_SEC NANOS_PER_SEC NANOS_PER_SEC); done. Qed.
Lemma frac_in a : (a < NANOS_PER_SEC)%N -> 0 <= IZR (Z.of_N a) / GIGA <= 1.
Proof.
  intros Ha. assert (Hz : (0 <= Z.of_N a <= 1000000000)%Z) by (unfold NANOS_PER_SEC in Ha; lia).
  destruct Hz as [H1 H2]. apply IZR_le in H1, H2. unfold GIGA. lra.
Qed.
Lemma secs_parts d : (d < MAX_SANE)%N ->
  f_finite (as_secs_f64 d) /\
  f_real (as_secs_f64 d) = rnd (IZR (Z.of_N (d / NANOS_PER_SEC)) + rnd (IZR (Z.of_N (d mod NANOS_PER_SEC)) / GIGA)).
Proof.
  intros H. unfold as_secs_f64.
  assert (Hq : (d / NANOS_PER_SEC < 2 ^ 53)%N) by (apply N.div_lt_upper_bound; [done|]; unfold MAX_SANE in H; lia).
  assert (Hr : (d mod NANOS_PER_SEC < NANOS_PER_SEC)%N) by (by apply N.mod_lt).
  clear H. revert Hq Hr. generalize (d / NANOS_PER_SEC)%N (d mod NANOS_PER_SEC)%N. clear d. intros q r Hq Hr.
  destruct (of_N_exact q) as [Fq Eq]; [lia|].
  destruct (of_N_exact r) as [Fr Er]; [unfold NANOS_PER_SEC in *; lia|].
  destruct giga_in as [Fg Hg]. assert (Eg : f_real (f_of_N NANOS_PER_SEC) = GIGA) by lra.
  assert (Hrr : 0 <= IZR (Z.of_N r) / GIGA <= 1).
  { by apply frac_in. }
  destruct (rnd_between 0 1 (IZR (Z.of_N r) / GIGA)) as [Hb1 Hb2];
    [by apply (fixed_IZR 0)|by apply (fixed_IZR 1)|done|].
  destruct (div_real (f_of_N r) (f_of_N NANOS_PER_SEC) Fr Fg) as [Fd Ed].
  { rewrite Eg. unfold GIGA. lra. } { by rewrite Er, Eg. }
  rewrite Er, Eg in Ed.
  destruct (add_real _ _ Fq Fd) as [Fs Es].
  { rewrite Eq, Ed. 
    assert (0 <= IZR (Z.of_N q) <= IZR (2 ^ 53)) by (split; apply IZR_le; lia).
    rewrite Rabs_pos_eq by lra. apply Rle_trans with (IZR (2 ^ 53 + 1)); [rewrite plus_IZR; lra|].
    apply IZR_BIG. done. }
  split; [done|]. by rewrite Es, Eq, Ed.
Qed.
Lemma secs_mono d d' : (d <= d')%N -> (d' < MAX_SANE)%N -> f_real (as_secs_f64 d) <= f_real (as_secs_f64 d').
Proof.
  intros H H'. destruct (secs_parts d) as [_ ->]; [lia|]. destruct (secs_parts d') as [_ ->]; [done|].
  apply rnd_mono.
  assert (Hf : forall a, (a < NANOS_PER_SEC)%N -> 0 <= rnd (IZR (Z.of_N a) / GIGA) <= 1).
  { intros a Ha. apply rnd_between; [by apply (fixed_IZR 0)|by apply (fixed_IZR 1)|].
    by apply frac_in. }
  pose proof (Hf (d mod NANOS_PER_SEC)%N (N.mod_lt d NANOS_PER_SEC ltac:(done))) as H1.
  pose proof (Hf (d' mod NANOS_PER_SEC)%N (N.mod_lt d' NANOS_PER_SEC ltac:(done))) as H2.
  pose proof (N.div_le_mono d d' NANOS_PER_SEC ltac:(done) H) as Hq.
  destruct (N.eq_dec (d / NANOS_PER_SEC) (d' / NANOS_PER_SEC)) as [E|E].
  - rewrite E. apply Rplus_le_compat_l, rnd_mono.
    pose proof (N.div_mod d NANOS_PER_SEC ltac:(done)). pose proof (N.div_mod d' NANOS_PER_SEC ltac:(done)).
    assert (d mod NANOS_PER_SEC <= d' mod NANOS_PER_SEC)%N by lia.
    apply Rmult_le_compat_r; [unfold GIGA; lra|]. apply IZR_le. lia.
  - assert (Hlt : (Z.of_N (d / NANOS_PER_SEC) + 1 <= Z.of_N (d' / NANOS_PER_SEC))%Z) by lia.
    apply IZR_le in Hlt. rewrite plus_IZR in Hlt. lra.
Qed.
(** whole seconds are exact *)
Lemma secs_exact k : (k < 2 ^ 53)%N -> f_real (as_secs_f64 (k * NANOS_PER_SEC)) = IZR (Z.of_N k).
Proof.
  intros Hk. destruct (secs_parts (k * NANOS_PER_SEC)) as [_ ->]; [unfold MAX_SANE, NANOS_PER_SEC; lia|].
  rewrite N.div_mul, N.mod_mul by done. cbn [Z.of_N]. replace (0 / GIGA) with 0 by (unfold GIGA; lra).
  rewrite rnd_0, Rplus_0_r. apply rnd_IZR. lia.
Qed.
Lemma secs_le d k : (k < 2 ^ 53)%N -> (d <= k * NANOS_PER_SEC)%N -> f_in 0 (IZR (Z.of_N k)) (as_secs_f64 d).
Proof.
  intros Hk Hd. assert (HS : (k * NANOS_PER_SEC < MAX_SANE)%N) by (unfold MAX_SANE, NANOS_PER_SEC; lia).
  split; [by apply secs_parts; lia|]. split.
  - pose proof (secs_mono 0 d ltac:(lia) ltac:(lia)) as H. pose proof (secs_exact 0 ltac:(done)) as H0. cbn [N.mul Z.of_N] in H0. lra.
  - rewrite <- (secs_exact k) by done. by apply secs_mono.
Qed.
(** a positive duration is at least one nanosecond, up to rounding *)
Lemma secs_pos d : (0 < d)%N -> (d < MAX_SANE)%N -> 9 / 10 / GIGA <= f_real (as_secs_f64 d).
Proof.
  intros H H'. eapply Rle_trans; [|apply (secs_mono 1 d); [lia|done]].
  assert (E : exists m e, as_secs_f64 1 = S754_finite false m e /\ Z.pos m = 4835703278458517%Z /\ e = (-82)%Z).
  { vm_compute. by eexists _, _. }
  destruct E as (m & e & -> & Em & ->). unfold f_real. cbn [SF2R cond_Zopp]. rewrite Em.
  unfold F2R. cbn [Fnum Fexp]. change (bpow radix2 (-82)) with (/ IZR (2 ^ 82)).
  change (Z.pow 2 82) with 4835703278458516698824704%Z. unfold GIGA. lra.
Qed.

(** ** Accuracy *)
Definition ulp1 : R := / IZR (2 ^ 53).
(** [x] is [y] up to a relative error of [k] units of rounding. *)
Definition near (k x y : R) : Prop := exists e, Rabs e <= k * ulp1 /\ x = y * (1 + e).
Lemma rnd_near x : bpow radix2 (-1000) <= x -> near 1 (rnd x) x.
Proof.
  intros H.
  destruct (relative_error_N_FLT_ex radix2 (SpecFloat.emin f_prec f_emax) f_prec ltac:(done) (fun z => negb (Z.even z)) x)
    as (e & He & E).
  { rewrite Rabs_pos_eq.
    - eapply Rle_trans; [|exact H]. apply bpow_le. done.
    - eapply Rle_trans; [|exact H]. apply bpow_ge_0. }
  exists e. split; [|exact E]. eapply Rle_trans; [exact He|].
  unfold ulp1. change (bpow radix2 (- f_prec + 1)) with (/ IZR (2 ^ 52)).
  change (2 ^ 52)%Z with 4503599627370496%Z. change (2 ^ 53)%Z with 9007199254740992%Z. lra.
Qed.

Definition few (k : R) : Prop := 0 <= k <= 1000.
Lemma ulp1_small : 0 < ulp1 /\ ulp1 <= / 9007199254740992.
Proof. unfold ulp1. change (2 ^ 53)%Z with 9007199254740992%Z. lra. Qed.
Lemma few_small j k : few j -> few k -> j * k * ulp1 <= 1 / 1000000.
Proof.
  intros Hj Hk. unfold few in *. pose proof ulp1_small as [H0 H1].
  assert (j * k <= 1000 * 1000) by (apply Rmult_le_compat; lra).
  assert (0 <= j * k) by (apply Rmult_le_pos; lra).
  assert (j * k * ulp1 <= 1000 * 1000 * / 9007199254740992) by (apply Rmult_le_compat; lra). lra.
Qed.
Lemma near_refl k x : few k -> near k x x.
Proof.
  intros [Hk _]. exists 0. pose proof ulp1_small. rewrite Rabs_R0. split; [apply Rmult_le_pos; lra|lra].
Qed.
Lemma near_weaken j k x y : j <= k -> near j x y -> near k x y.
Proof.
  intros H (e & He & E). exists e. split; [|done]. eapply Rle_trans; [exact He|].
  apply Rmult_le_compat_r; [pose proof ulp1_small; lra|done].
Qed.
Lemma err_mul j k e f :
  few j -> few k -> Rabs e <= j * ulp1 -> Rabs f <= k * ulp1 -> Rabs (e + f + e * f) <= (j + k + 1) * ulp1.
Proof.
  intros Hj Hk He Hf. pose proof (few_small j k Hj Hk) as Hs. pose proof ulp1_small as [Hu _].
  assert (Hef : Rabs (e * f) <= ulp1).
  { rewrite Rabs_mult. apply Rle_trans with (j * ulp1 * (k * ulp1)).
    - apply Rmult_le_compat; try done; apply Rabs_pos.
    - replace (j * ulp1 * (k * ulp1)) with (j * k * ulp1 * ulp1) by ring.
      rewrite <- (Rmult_1_l ulp1) at 3. apply Rmult_le_compat_r; lra. }
  pose proof (Rabs_triang (e + f) (e * f)). pose proof (Rabs_triang e f). lra.
Qed.
Lemma near_trans j k x y z : few j -> few k -> near j x y -> near k y z -> near (j + k + 1) x z.
Proof.
  intros Hj Hk (e & He & ->) (f & Hf & ->). exists (e + f + e * f). split; [by apply err_mul|]. ring.
Qed.
Lemma near_mul j k x y z w : few j -> few k -> near j x y -> near k z w -> near (j + k + 1) (x * z) (y * w).
Proof.
  intros Hj Hk (e & He & ->) (f & Hf & ->). exists (e + f + e * f). split; [by apply err_mul|]. ring.
Qed.
Lemma near_add k x y z w : 0 < y -> 0 < w -> near k x y -> near k z w -> near k (x + z) (y + w).
Proof.
  intros Hy Hw (e & He & ->) (f & Hf & ->). exists ((y * e + w * f) / (y + w)). split; [|field; lra].
  unfold Rdiv. rewrite Rabs_mult, (Rabs_pos_eq (/ _)) by (left; apply Rinv_0_lt_compat; lra).
  apply (Rmult_le_reg_r (y + w)); [lra|]. rewrite Rmult_assoc, Rinv_l, Rmult_1_r by lra.
  eapply Rle_trans; [apply Rabs_triang|]. rewrite !Rabs_mult, (Rabs_pos_eq y), (Rabs_pos_eq w) by lra.
  assert (y * Rabs e <= y * (k * ulp1)) by (apply Rmult_le_compat_l; lra).
  assert (w * Rabs f <= w * (k * ulp1)) by (apply Rmult_le_compat_l; lra). lra.
Qed.
Lemma near_div j k x y z w : few j -> few k -> w <> 0 -> near j x y -> near k z w -> near (j + k + 1) (x / z) (y / w).
Proof.
  intros Hj Hk Hw (e & He & ->) (f & Hf & ->).
  pose proof ulp1_small as [Hu Hu']. pose proof (few_small j k Hj Hk) as H1. pose proof (few_small k k Hk Hk) as H2.
  pose proof (few_small 1 k ltac:(unfold few; lra) Hk) as H3.
  assert (Hf' : Rabs f <= 1 / 1000) by lra.
  assert (Hfb : -1 / 1000 <= f <= 1 / 1000) by (unfold Rabs in Hf'; destruct (Rcase_abs f); lra).
  exists ((e - f) / (1 + f)). split.
  - unfold Rdiv. rewrite Rabs_mult, (Rabs_pos_eq (/ _)) by (left; apply Rinv_0_lt_compat; lra).
    apply (Rmult_le_reg_r (1 + f)); [lra|]. rewrite Rmult_assoc, Rinv_l, Rmult_1_r by lra.
    assert (Rabs (e - f) <= (j + k) * ulp1).
    { unfold Rminus. eapply Rle_trans; [apply Rabs_triang|]. rewrite Rabs_Ropp. lra. }
    assert (Hb : (j + k + 1) * ulp1 * (1 - k * ulp1) <= (j + k + 1) * ulp1 * (1 + f)).
    { apply Rmult_le_compat_l; [unfold few in *; apply Rmult_le_pos; lra|].
      unfold Rabs in Hf; destruct (Rcase_abs f); lra. }
    eapply Rle_trans; [|exact Hb].
    assert ((j + k + 1) * k * ulp1 <= 1) by (replace ((j + k + 1) * k * ulp1) with (j * k * ulp1 + k * k * ulp1 + 1 * k * ulp1) by ring; lra).
    assert ((j + k + 1) * k * ulp1 * ulp1 <= 1 * ulp1) by (apply Rmult_le_compat_r; lra).
    lra.
  - field. lra.
Qed.
Lemma near_pos k x y : few k -> 0 < y -> near k x y -> y / 2 <= x <= 2 * y.
Proof.
  intros Hk Hy (e & He & ->). pose proof (few_small 1 k ltac:(unfold few; lra) Hk) as H1.
  assert (He' : Rabs e <= 1 / 1000) by lra.
  assert (Heb : -1 / 1000 <= e <= 1 / 1000) by (unfold Rabs in He'; destruct (Rcase_abs e); lra).
  split; nra.
Qed.
Lemma near_rnd k x y :
  few k -> bpow radix2 (-900) <= y -> near k x y -> near (k + 2) (rnd x) y.
Proof.
  intros Hk Hy Hx. assert (H0 : 0 < bpow radix2 (-900)) by apply bpow_gt_0.
  pose proof (near_pos k x y Hk ltac:(lra) Hx) as Hb.
  replace (k + 2) with (1 + k + 1) by ring. eapply near_trans; [unfold few; lra|done| |exact Hx].
  apply rnd_near. apply Rle_trans with (bpow radix2 (-900) / 2); [|lra].
  change (-900)%Z with (-901 + 1)%Z. rewrite bpow_plus. change (bpow radix2 1) with 2.
  replace (bpow radix2 (-901) * 2 / 2) with (bpow radix2 (-901)) by lra. apply bpow_le. done.
Qed.
(** the exact number of seconds *)
Definition secs (d : N) : R := IZR (Z.of_N d) / GIGA.
Lemma tiny : bpow radix2 (-900) <= / IZR (2 ^ 100).
Proof. change (/ IZR (2 ^ 100)) with (bpow radix2 (-100)). apply bpow_le. done. Qed.
Lemma secs_bounds d : (0 < d)%N -> / GIGA <= secs d.
Proof.
  intros H. unfold secs. assert (1 <= IZR (Z.of_N d)) by (apply IZR_le; lia). unfold GIGA. lra.
Qed.
Lemma small_big x : / GIGA <= x -> bpow radix2 (-900) <= x.
Proof.
  intros H. pose proof tiny. change (2 ^ 100)%Z with 1267650600228229401496703205376%Z in *. unfold GIGA in *. lra.
Qed.
Lemma secs_near d : (0 < d)%N -> (d < MAX_SANE)%N -> near 3 (f_real (as_secs_f64 d)) (secs d).
Proof.
  intros H H'. destruct (secs_parts d H') as [_ ->].
  pose proof (N.div_mod d NANOS_PER_SEC ltac:(done)) as E.
  assert (Es : secs d = IZR (Z.of_N (d / NANOS_PER_SEC)) + secs (d mod NANOS_PER_SEC)).
  { unfold secs. rewrite E at 1. rewrite N2Z.inj_add, N2Z.inj_mul, plus_IZR, mult_IZR.
    change (IZR (Z.of_N NANOS_PER_SEC)) with GIGA. unfold GIGA. field. }
  pose proof (secs_bounds d H) as Hb.
  revert Es. fold (secs (d mod NANOS_PER_SEC)).
  assert (Hr : (d mod NANOS_PER_SEC < NANOS_PER_SEC)%N) by (by apply N.mod_lt).
  assert (Hcase : (d mod NANOS_PER_SEC = 0 \/ 0 < d mod NANOS_PER_SEC)%N) by apply N.eq_0_gt_0_cases.
  intros Es. replace 3 with (1 + 2) by ring. apply near_rnd; [unfold few; lra|by apply small_big|].
  assert (Hz : (d / NANOS_PER_SEC = 0 \/ 0 < d / NANOS_PER_SEC)%N) by apply N.eq_0_gt_0_cases.
  destruct Hcase as [E0|Hpos].
  - rewrite E0 in *. rewrite Es. unfold secs at 1 2. cbn [Z.of_N]. replace (0 / GIGA) with 0 by (unfold GIGA; lra).
    rewrite rnd_0. apply near_refl. unfold few. lra.
  - rewrite Es. pose proof (secs_bounds _ Hpos) as Hb'. pose proof (rnd_near (secs (d mod NANOS_PER_SEC))) as Hn.
    assert (Hn' : near 1 (rnd (secs (d mod NANOS_PER_SEC))) (secs (d mod NANOS_PER_SEC))).
    { apply Hn. eapply Rle_trans; [|by apply small_big]. apply bpow_le. done. }
    destruct Hz as [Hz|Hz].
    + rewrite Hz. cbn [Z.of_N]. by rewrite !Rplus_0_l.
    + apply near_add; [apply (IZR_lt 0); clear -Hz; revert Hz; generalize (d / NANOS_PER_SEC)%N; lia|unfold GIGA in *; lra| |done]. apply near_refl. unfold few. lra.
Qed.
