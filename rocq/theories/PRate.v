(** Choice between sessions, dispatch rate (C52) and panic freedom (C53). *)
From Coq Require Import Reals Lra Psatz.
From Flocq Require Import Core.Core IEEE754.BinarySingleNaN.
From Verif Require Export PMetrics.
From Verif Require Import LBase.
Local Open Scope R_scope.

(** ** Random choice with a probability *)
Definition TWO64 : R := IZR (2 ^ 64).
Lemma scaled_spec p :
  f_in 0 1 p -> f_real p < 1 ->
  (f_trunc_u64_scaled p < 2 ^ 64)%N /\
  0 <= f_real p - IZR (Z.of_N (f_trunc_u64_scaled p)) / TWO64 < / TWO64.
Proof.
  intros [[_ Hf] [H0 H1]] Hlt. destruct p as [b| | |[] m e]; try done.
  - cbn. unfold f_real. cbn [SF2R]. assert (H : 0 < TWO64) by (by apply (IZR_lt 0)).
    apply Rinv_0_lt_compat in H. unfold Rdiv. split; [done|lra].
  - exfalso. unfold f_real in H0. cbn [SF2R cond_Zopp] in H0.
    apply Rle_not_lt in H0. apply H0. by apply F2R_lt_0.
  - assert (HT : TWO64 = bpow radix2 64) by done.
    unfold f_real in *. cbn [SF2R cond_Zopp] in *. unfold F2R in *. cbn [Fnum Fexp] in *.
    assert (Hsc : IZR (Z.pos m) * bpow radix2 e * TWO64 = IZR (Z.pos m) * bpow radix2 (e + 64)).
    { rewrite HT, bpow_plus. ring. }
    assert (HTp : 0 < TWO64) by (rewrite HT; apply bpow_gt_0).
    assert (Hkey : forall n : N, IZR (Z.of_N n) <= IZR (Z.pos m) * bpow radix2 (e + 64) < IZR (Z.of_N n) + 1 ->
      (n < 2 ^ 64)%N /\ 0 <= IZR (Z.pos m) * bpow radix2 e - IZR (Z.of_N n) / TWO64 < / TWO64).
    { intros n [Ha Hb]. rewrite <- Hsc in Ha, Hb.
      assert (Hi : 0 < / TWO64) by (by apply Rinv_0_lt_compat).
      assert (Hd : IZR (Z.of_N n) / TWO64 * TWO64 = IZR (Z.of_N n)) by (field; lra).
      assert (Hj : / TWO64 * TWO64 = 1) by (field; lra).
      split; [|split].
      - assert (H : IZR (Z.of_N n) < IZR (2 ^ 64)).
        { eapply Rle_lt_trans; [exact Ha|]. fold TWO64. rewrite <- (Rmult_1_l TWO64) at 2. by apply Rmult_lt_compat_r. }
        apply lt_IZR in H. lia.
      - cut (IZR (Z.of_N n) / TWO64 <= IZR (Z.pos m) * bpow radix2 e); [lra|]. apply (Rmult_le_reg_r TWO64); lra.
      - cut (IZR (Z.pos m) * bpow radix2 e < IZR (Z.of_N n) / TWO64 + / TWO64); [lra|]. apply (Rmult_lt_reg_r TWO64); lra. }
    cbn [f_trunc_u64_scaled]. destruct (Z.leb_spec 0 (e + 64)) as [He|He]; apply Hkey.
    + rewrite N2Z.inj_mul, N2Z.inj_pow, Z2N.id, mult_IZR by done. cbn [Z.of_N].
      rewrite <- (IZR_Zpower radix2 (e + 64)) by done. cbn [radix_val radix2]. lra.
    + assert (Hd : (2 ^ Z.to_N (- (e + 64)) <> 0)%N) by (by apply N.pow_nonzero).
      pose proof (N.div_mod (N.pos m) _ Hd) as E. pose proof (N.mod_lt (N.pos m) _ Hd) as Hm.
      assert (Hb : bpow radix2 (e + 64) * IZR (Z.of_N (2 ^ Z.to_N (- (e + 64)))) = 1).
      { rewrite N2Z.inj_pow, Z2N.id by lia. change (Z.of_N 2) with (radix_val radix2).
        rewrite IZR_Zpower by lia. rewrite <- bpow_plus, Z.add_opp_diag_r. done. }
      set (D := (2 ^ Z.to_N (- (e + 64)))%N) in *. clearbody D.
      assert (HD : 0 < IZR (Z.of_N D)) by (apply (IZR_lt 0); lia).
      set (Q := (N.pos m / D)%N) in *. set (K := (N.pos m mod D)%N) in *. clearbody Q K.
      assert (Er : IZR (Z.pos m) = IZR (Z.of_N D) * IZR (Z.of_N Q) + IZR (Z.of_N K)).
      { change (Z.pos m) with (Z.of_N (N.pos m)). rewrite E, N2Z.inj_add, N2Z.inj_mul, plus_IZR, mult_IZR. done. }
      assert (HK : 0 <= IZR (Z.of_N K) < IZR (Z.of_N D)) by (split; [apply (IZR_le 0)|apply IZR_lt]; lia).
      set (bb := bpow radix2 (e + 64)) in *. assert (Hbb : 0 < bb) by apply bpow_gt_0. clearbody bb.
      rewrite Er. replace ((IZR (Z.of_N D) * IZR (Z.of_N Q) + IZR (Z.of_N K)) * bb)
        with (IZR (Z.of_N Q) * (bb * IZR (Z.of_N D)) + IZR (Z.of_N K) * bb) by ring. rewrite Hb.
      assert (0 <= IZR (Z.of_N K) * bb) by (apply Rmult_le_pos; lra).
      assert (IZR (Z.of_N K) * bb < IZR (Z.of_N D) * bb) by (apply Rmult_lt_compat_r; lra). lra.
Qed.
(** [true] for [T] of the 2^64 possible draws, [T] being the probability scaled. *)
Lemma gen_bool_spec p :
  f_in 0 1 p ->
  exists T, (T <= 2 ^ 64)%N /\ Rabs (IZR (Z.of_N T) / TWO64 - f_real p) <= / TWO64 /\
    forall r, exists r', gen_bool p r = Val (((rng_draw r).1 mod 2 ^ 64 <? T)%N, r') /\
      (r' = (rng_draw r).2 \/ T = (2 ^ 64)%N /\ r' = r).
Proof.
  intros Hp. assert (One : f_finite f_one /\ f_real f_one = 1) by (apply (of_N_exact 1); done).
  destruct One as [Hf1 E1]. destruct within_zero as [Hfz Hz]. assert (Ez : f_real f_zero = 0) by lra.
  destruct Hp as [Hf Hb]. unfold gen_bool. rewrite (cmp_real _ _ Hf Hf1), E1.
  assert (Hi : 0 < / TWO64) by (apply Rinv_0_lt_compat; by apply (IZR_lt 0)).
  destruct (Rcompare_spec (f_real p) 1) as [H|H|H]; [| |lra].
  - rewrite (cmp_real _ _ Hfz Hf), Ez. destruct (scaled_spec p) as [Hs1 Hs2]; [done|done|].
    exists (f_trunc_u64_scaled p). split; [lia|]. split.
    { rewrite Rabs_minus_sym, Rabs_pos_eq; lra. }
    intros r. exists (rng_draw r).2. split; [|by left].
    rewrite (surjective_pairing (rng_draw r)).
    destruct (Rcompare_spec 0 (f_real p)); [done|done|lra].
  - exists (2 ^ 64)%N. split; [done|]. split.
    + rewrite H. unfold TWO64. change (Z.of_N (2 ^ 64)) with (2 ^ 64)%Z.
      replace (IZR (2 ^ 64) / IZR (2 ^ 64) - 1) with 0; [rewrite Rabs_R0; unfold TWO64 in Hi; lra|].
      field. apply not_eq_sym, Rlt_not_eq. by apply (IZR_lt 0).
    + intros r. exists r. split; [|by right]. f_equal. f_equal. symmetry. apply N.ltb_lt. apply N.mod_lt. done.
Qed.

(** ** C52 specification *)
Definition plain_period (s : session) : Prop := (0 < se_mean_period s < MAX_SANE)%N.
(** The mean time between packets, in seconds: the inverse of the mean of the sessions' rates, where
    a missing session that is still needed counts with rate 0. *)
Inductive mean_spec (m : mixnet) : R -> Prop :=
| MsTwo s0 s1 :
    ss_get (mx_sessions m) RCurrent = SlFull s0 -> ss_get (mx_sessions m) RPrev = SlFull s1 ->
    mean_spec m (/ ((/ secs (se_mean_period s0) + / secs (se_mean_period s1)) / 2))
| MsOne rel s :
    ss_get (mx_sessions m) rel = SlFull s ->
    (forall rel' s', ss_get (mx_sessions m) rel' = SlFull s' -> rel' = rel) ->
    mean_spec m (if decide (st_phase (mx_status m) = PDisconnectFromPrev) then secs (se_mean_period s)
                 else / ((/ secs (se_mean_period s) + 0) / 2)).
(** A sample, cut off at 10. *)
Definition capped (e : f64) (x : R) : Prop :=
  (f_finite e /\ x = Rmin (f_real e) 10) \/ (~ f_finite e /\ x = 10).

Lemma secs_fin d : (0 < d < MAX_SANE)%N -> f_finite (as_secs_f64 d) /\ near 3 (f_real (as_secs_f64 d)) (secs d) /\
  / GIGA <= secs d <= IZR (2 ^ 53).
Proof.
  intros [H1 H2]. split_and!; [by apply secs_parts|by apply secs_near|by apply secs_bounds|].
  unfold secs. apply (Rmult_le_reg_r GIGA); [unfold GIGA; lra|]. unfold Rdiv. rewrite Rmult_assoc, Rinv_l, Rmult_1_r by (unfold GIGA; lra).
  unfold GIGA. rewrite <- mult_IZR. apply IZR_le. unfold MAX_SANE, NANOS_PER_SEC in H2. lia.
Qed.
Lemma real_le_BIG x : 0 <= x <= IZR (2 ^ 200) -> Rabs x <= BIG.
Proof. intros [H1 H2]. rewrite Rabs_pos_eq by done. eapply Rle_trans; [exact H2|]. by apply IZR_BIG. Qed.
Lemma few_lit k : 0 <= k -> k <= 1000 -> few k.
Proof. done. Qed.
Ltac few := apply few_lit; lra.
Lemma pow_le (a b : Z) : (a <= b)%Z -> IZR a <= IZR b.
Proof. apply IZR_le. Qed.

Lemma ratio_spec a b :
  (0 < a < MAX_SANE)%N -> (0 < b < MAX_SANE)%N ->
  let p := f_div (as_secs_f64 b) (f_add (as_secs_f64 a) (as_secs_f64 b)) in
  f_in 0 1 p /\ near 11 (f_real p) (secs b / (secs a + secs b)).
Proof.
  intros Ha Hb. cbv zeta. destruct (secs_fin a Ha) as (Fa & Na & Ra). destruct (secs_fin b Hb) as (Fb & Nb & Rb).
  assert (Pa : 0 < secs a) by (unfold GIGA in Ra; lra). assert (Pb : 0 < secs b) by (unfold GIGA in Rb; lra).
  pose proof (near_pos 3 _ _ ltac:(few) Pa Na) as Ba. pose proof (near_pos 3 _ _ ltac:(few) Pb Nb) as Bb.
  assert (H53 : IZR (2 ^ 53) = 9007199254740992) by done.
  set (x := f_real (as_secs_f64 a)) in *. set (y := f_real (as_secs_f64 b)) in *.
  destruct (add_real (as_secs_f64 a) (as_secs_f64 b) Fa Fb) as [Fs Es].
  { apply real_le_BIG. fold x y. split; [lra|]. apply Rle_trans with (IZR (2 ^ 60)); [|by apply IZR_le].
    change (IZR (2 ^ 60)) with 1152921504606846976. lra. }
  fold x y in Es.
  assert (Ns : near 5 (rnd (x + y)) (secs a + secs b)).
  { replace 5 with (3 + 2) by lra. apply near_rnd; [few| |by apply near_add].
    apply small_big. lra. }
  assert (Hys : y <= rnd (x + y)).
  { assert (Ey : rnd y = y) by (apply rnd_real, Fb). rewrite <- Ey at 1. apply rnd_mono. lra. }
  assert (Pab : 0 < secs a + secs b) by lra. pose proof (near_pos 5 _ _ ltac:(few) Pab Ns) as Bs.
  assert (Hq : 0 <= y / rnd (x + y) <= 1).
  { split; [apply Rmult_le_pos; [lra|left; apply Rinv_0_lt_compat; lra]|].
    apply (Rmult_le_reg_r (rnd (x + y))); [lra|]. unfold Rdiv. rewrite Rmult_assoc, Rinv_l by lra. lra. }
  destruct (div_real (as_secs_f64 b) (f_add (as_secs_f64 a) (as_secs_f64 b)) Fb Fs) as [Fd Ed].
  { rewrite Es. lra. }
  { rewrite Es. fold y. apply real_le_BIG. split; [apply Hq|]. eapply Rle_trans; [apply Hq|]. by apply (IZR_le 1). }
  rewrite Es in Ed. fold y in Ed. split.
  - split; [done|]. rewrite Ed. apply rnd_between; [by apply (fixed_IZR 0)|by apply (fixed_IZR 1)|done].
  - rewrite Ed. replace 11 with (9 + 2) by lra. apply near_rnd; [few| |].
    + eapply Rle_trans; [apply tiny|]. apply (Rmult_le_reg_r (secs a + secs b)); [lra|].
      unfold Rdiv. rewrite Rmult_assoc, (Rinv_l (secs a + secs b)), Rmult_1_r by lra.
      apply Rle_trans with (/ IZR (2 ^ 100) * IZR (2 ^ 60)).
      * apply Rmult_le_compat_l; [left; apply Rinv_0_lt_compat; by apply (IZR_lt 0)|].
        change (IZR (2 ^ 60)) with 1152921504606846976. lra.
      * apply Rle_trans with (/ GIGA); [|lra]. apply (Rmult_le_reg_l (IZR (2 ^ 100))); [by apply (IZR_lt 0)|].
        rewrite <- Rmult_assoc, Rinv_r, Rmult_1_l by (apply not_eq_sym, Rlt_not_eq; by apply (IZR_lt 0)).
        unfold GIGA. change (2 ^ 60)%Z with 1152921504606846976%Z.
        change (2 ^ 100)%Z with (1267650600228229401496703205376)%Z. lra.
    + replace 9 with (3 + 5 + 1) by lra. apply near_div; [few|few|lra|done|done].
Qed.

Lemma near_abs k x y : few k -> 0 <= y -> near k x y -> Rabs (x - y) <= k * ulp1 * y.
Proof.
  intros Hk Hy (e & He & ->). replace (y * (1 + e) - y) with (e * y) by ring.
  rewrite Rabs_mult, (Rabs_pos_eq y) by done. by apply Rmult_le_compat_r.
Qed.

(** ** Mean period *)
Lemma mul_near j k x y X Y :
  few j -> few k -> f_finite x -> f_finite y -> / IZR (2 ^ 60) <= X <= IZR (2 ^ 90) -> / IZR (2 ^ 40) <= Y <= IZR (2 ^ 90) ->
  near j (f_real x) X -> near k (f_real y) Y -> j + k + 1 <= 1000 ->
  f_finite (f_mul x y) /\ near (j + k + 3) (f_real (f_mul x y)) (X * Y).
Proof.
  intros Hj Hk Fx Fy HX HY Nx Ny Hjk.
  assert (A1 : 0 < / IZR (2 ^ 60)) by (apply Rinv_0_lt_compat; by apply (IZR_lt 0)).
  assert (A2 : 0 < / IZR (2 ^ 40)) by (apply Rinv_0_lt_compat; by apply (IZR_lt 0)).
  pose proof (near_mul _ _ _ _ _ _ Hj Hk Nx Ny) as N.
  assert (Hf : few (j + k + 1)) by (unfold few in *; lra).
  assert (HP : 0 < X * Y) by (apply Rmult_lt_0_compat; lra).
  assert (HU : X * Y <= IZR (2 ^ 90) * IZR (2 ^ 90)) by (apply Rmult_le_compat; lra).
  assert (HL : / IZR (2 ^ 60) * / IZR (2 ^ 40) <= X * Y) by (apply Rmult_le_compat; lra).
  pose proof (near_pos _ _ _ Hf HP N) as B.
  destruct (mul_real x y Fx Fy) as [F E].
  { apply real_le_BIG. split; [lra|]. apply Rle_trans with (2 * (IZR (2 ^ 90) * IZR (2 ^ 90))); [lra|].
    rewrite <- !mult_IZR. by apply IZR_le. }
  split; [done|]. rewrite E. replace (j + k + 3) with (j + k + 1 + 2) by lra. apply near_rnd; [done| |done].
  eapply Rle_trans; [apply tiny|]. eapply Rle_trans; [|exact HL].
  rewrite <- Rinv_mult, <- mult_IZR. right. done.
Qed.
Lemma two_real : f_finite f_two /\ f_real f_two = 2.
Proof. apply (of_N_exact 2). done. Qed.
Lemma giga_le_40 : / IZR (2 ^ 40) <= / GIGA.
Proof. apply Rinv_le; [unfold GIGA; lra|]. unfold GIGA. by apply IZR_le. Qed.
Lemma giga_le_60 : / IZR (2 ^ 60) <= / GIGA.
Proof. apply Rinv_le; [unfold GIGA; lra|]. unfold GIGA. by apply IZR_le. Qed.
Lemma le_53_90 : IZR (2 ^ 53) <= IZR (2 ^ 90).
Proof. by apply IZR_le. Qed.

Lemma double_near a :
  (0 < a < MAX_SANE)%N ->
  f_finite (f_mul f_two (as_secs_f64 a)) /\ near 6 (f_real (f_mul f_two (as_secs_f64 a))) (2 * secs a).
Proof.
  intros Ha. destruct (secs_fin a Ha) as (Fa & Na & Ra). destruct two_real as [F2 E2].
  pose proof giga_le_40. pose proof giga_le_60. pose proof le_53_90.
  replace 6 with (0 + 3 + 3) by lra. apply mul_near; try done; try (split; lra); try lra.
  rewrite E2. apply near_refl. few.
Qed.
Lemma harmonic_near a b :
  (0 < a < MAX_SANE)%N -> (0 < b < MAX_SANE)%N ->
  let M := f_div (f_mul (f_mul f_two (as_secs_f64 a)) (as_secs_f64 b)) (f_add (as_secs_f64 a) (as_secs_f64 b)) in
  f_finite M /\ near 20 (f_real M) (/ ((/ secs a + / secs b) / 2)) /\
  / GIGA <= / ((/ secs a + / secs b) / 2) <= IZR (2 ^ 54).
Proof.
  intros Ha Hb. cbv zeta. destruct (secs_fin a Ha) as (Fa & Na & Ra). destruct (secs_fin b Hb) as (Fb & Nb & Rb).
  destruct (double_near a Ha) as [F1 N1].
  pose proof giga_le_40 as G1. pose proof giga_le_60 as G2. pose proof le_53_90 as G3.
  assert (GG : 0 < / GIGA) by (unfold GIGA; lra).
  assert (H53 : IZR (2 ^ 53) = 9007199254740992) by done.
  assert (H54 : IZR (2 ^ 54) = 18014398509481984) by done.
  assert (Pa : 0 < secs a) by lra. assert (Pb : 0 < secs b) by lra.
  destruct (mul_near 6 3 _ (as_secs_f64 b) (2 * secs a) (secs b) ltac:(few) ltac:(few) F1 Fb) as [F2 N2]; try done; try lra.
  pose proof (near_pos 3 _ _ ltac:(few) Pa Na) as Ba. pose proof (near_pos 3 _ _ ltac:(few) Pb Nb) as Bb.
  set (x := f_real (as_secs_f64 a)) in *. set (y := f_real (as_secs_f64 b)) in *.
  destruct (add_real (as_secs_f64 a) (as_secs_f64 b) Fa Fb) as [Fs Es].
  { apply real_le_BIG. fold x y. split; [lra|]. apply Rle_trans with (IZR (2 ^ 60)); [|by apply IZR_le].
    change (IZR (2 ^ 60)) with 1152921504606846976. lra. }
  fold x y in Es.
  assert (Ns : near 5 (rnd (x + y)) (secs a + secs b)).
  { replace 5 with (3 + 2) by lra. apply near_rnd; [few| |by apply near_add]. apply small_big. lra. }
  rewrite <- Es in Ns.
  set (num := f_mul (f_mul f_two _) _) in *. set (den := f_add _ _) in *.
  assert (Pab : 0 < secs a + secs b) by lra. pose proof (near_pos 5 _ _ ltac:(few) Pab Ns) as Bs.
  assert (N3 : near 18 (f_real num / f_real den) (2 * secs a * secs b / (secs a + secs b))).
  { replace 18 with (6 + 3 + 3 + 5 + 1) by lra. apply near_div; [few|few|lra|done|done]. }
  assert (EM : / ((/ secs a + / secs b) / 2) = 2 * secs a * secs b / (secs a + secs b)) by (field; lra).
  rewrite EM. clear EM.
  assert (Hlow : / GIGA <= 2 * secs a * secs b / (secs a + secs b) <= IZR (2 ^ 54)).
  { set (g := / GIGA) in *. clearbody g. split; apply (Rmult_le_reg_r (secs a + secs b)); try lra;
      unfold Rdiv; rewrite Rmult_assoc, (Rinv_l (secs a + secs b)), Rmult_1_r by lra; nra. }
  assert (Pq : 0 < 2 * secs a * secs b / (secs a + secs b)) by lra.
  pose proof (near_pos 18 _ _ ltac:(few) Pq N3) as Bq.
  destruct (div_real num den F2 Fs) as [Fd Ed]; [lra| |].
  { apply real_le_BIG. split; [lra|]. apply Rle_trans with (IZR (2 ^ 60)); [|by apply IZR_le].
    change (IZR (2 ^ 60)) with 1152921504606846976. lra. }
  split_and!; [done| |apply Hlow|apply Hlow]. rewrite Ed. replace 20 with (18 + 2) by lra.
  apply near_rnd; [few|apply small_big, Hlow|done].
Qed.

Lemma mean_near m :
  (forall rel s, ss_get (mx_sessions m) rel = SlFull s -> plain_period s) ->
  match mean_authored_period m with
  | Some M => exists mean, mean_spec m mean /\ f_finite M /\ near 20 (f_real M) mean /\ / GIGA <= mean <= IZR (2 ^ 54)
  | None => forall rel s, ss_get (mx_sessions m) rel <> SlFull s
  end.
Proof.
  intros Hp.
  assert (H53 : IZR (2 ^ 53) = 9007199254740992) by done.
  assert (H54 : IZR (2 ^ 54) = 18014398509481984) by done.
  assert (Hone : forall rel s, ss_get (mx_sessions m) rel = SlFull s ->
    (forall rel' s', ss_get (mx_sessions m) rel' = SlFull s' -> rel' = rel) ->
    let M := if need_prev (st_phase (mx_status m)) then f_mul f_two (as_secs_f64 (se_mean_period s)) else as_secs_f64 (se_mean_period s) in
    exists mean, mean_spec m mean /\ f_finite M /\ near 20 (f_real M) mean /\ / GIGA <= mean <= IZR (2 ^ 54)).
  { intros rel s Hs Ho. cbv zeta. eexists. split; [by eapply MsOne|].
    pose proof (Hp _ _ Hs) as Ps. destruct (secs_fin _ Ps) as (F1 & N1 & R1). destruct (double_near _ Ps) as [F2 N2].
    assert (GG : 0 < / GIGA) by (unfold GIGA; lra).
    unfold need_prev. destruct (decide _) as [E|E].
    - rewrite E. cbn. split; [done|]. split; [|lra]. eapply near_weaken; [|exact N1]. lra.
    - rewrite bool_decide_eq_true_2 by (destruct (st_phase _); cbn; [lia..|done]).
      replace (/ ((/ secs (se_mean_period s) + 0) / 2)) with (2 * secs (se_mean_period s)) by (field; lra).
      split; [done|]. split; [|lra]. eapply near_weaken; [|exact N2]. lra. }
  unfold mean_authored_period, ss_iter.
  destruct (ss_current (mx_sessions m)) as [| | |s0] eqn:E0, (ss_prev (mx_sessions m)) as [| | |s1] eqn:E1; cbn -[f_two];
    try (by intros [] s; cbn; rewrite ?E0, ?E1);
    try (apply (Hone RCurrent s0 E0); intros [] s'; cbn; rewrite ?E1; done);
    try (apply (Hone RPrev s1 E1); intros [] s'; cbn; rewrite ?E0; done).
  eexists. split; [by apply MsTwo|]. apply harmonic_near; [by apply (Hp RCurrent)|by apply (Hp RPrev)].
Qed.

Lemma capped_spec e : f_nonneg e -> f_in 0 10 (f_min e f_ten) /\ capped e (f_real (f_min e f_ten)).
Proof.
  intros He. split; [by apply (min_ten e)|].
  destruct He as [Hx Hs]. destruct f_ten_real as [Ht Htr]. unfold f_min, capped.
  destruct (f_is_nan e) eqn:En; [by destruct e|].
  change (f_is_nan f_ten) with false. cbn iota.
  destruct (is_finite_SF e) eqn:Ef.
  - assert (Hfx : f_finite e) by done. rewrite (cmp_real _ _ Hfx Ht). left. split; [done|]. rewrite Htr.
    destruct (Rcompare_spec (f_real e) 10) as [H|H|H]; unfold Rmin; destruct (Rle_dec _ _); lra.
  - assert (Hxi : e = S754_infinity false) by (destruct e as [|[]| |]; done). subst e.
    replace (f_cmp (S754_infinity false) f_ten) with (Some Gt) by (vm_compute; done).
    right. split; [by intros [_ ?]|done].
Qed.
Lemma rnd_err P : 0 <= P -> Rabs (rnd P - P) <= ulp1 * P + / GIGA / 2.
Proof.
  intros HP. pose proof ulp1_small as [Hu _]. assert (HG : 0 < / GIGA) by (unfold GIGA; lra).
  destruct (Rle_or_lt (bpow radix2 (-1000)) P) as [H|H].
  - pose proof (near_abs 1 _ _ ltac:(few) HP (rnd_near P H)). lra.
  - assert (Hr : 0 <= rnd P <= bpow radix2 (-1000)).
    { apply rnd_between; [by apply (fixed_IZR 0)|by apply fixed_bpow|lra]. }
    assert (Ht : bpow radix2 (-1000) <= / GIGA / 2).
    { apply Rle_trans with (bpow radix2 (-40)); [by apply bpow_le|].
      change (bpow radix2 (-40)) with (/ IZR (2 ^ 40)). change (2 ^ 40)%Z with 1099511627776%Z. unfold GIGA. lra. }
    assert (0 <= ulp1 * P) by (apply Rmult_le_pos; lra).
    apply Rabs_le. lra.
Qed.

Section C52.
  Context (pr : prims).

  (** Of two active sessions, the current one is chosen for a share of the draws that is its share
      of the total packet rate, up to an error below 2^-48. *)
  Theorem C52_pick m s0 s1 :
    ss_get (mx_sessions m) RCurrent = SlFull s0 -> ss_get (mx_sessions m) RPrev = SlFull s1 ->
    plain_period s0 -> plain_period s1 ->
    let rate s := / secs (se_mean_period s) in
    exists T, (T <= 2 ^ 64)%N /\
      Rabs (IZR (Z.of_N T) / IZR (2 ^ 64) - rate s0 / (rate s0 + rate s1)) < / IZR (2 ^ 48) /\
      forall r, exists r',
        pick_session m r = Val (Some (if ((rng_draw r).1 mod 2 ^ 64 <? T)%N then (RCurrent, s0) else (RPrev, s1)), r') /\
        (r' = (rng_draw r).2 \/ T = (2 ^ 64)%N /\ r' = r).
  Proof.
    intros H0 H1 P0 P1. cbv zeta. cbn in H0, H1.
    destruct (ratio_spec _ _ P0 P1) as [Hin Hn].
    destruct (gen_bool_spec _ Hin) as (T & HT & Herr & E).
    exists T. split; [done|]. split.
    - destruct (secs_fin _ P0) as (_ & _ & R0). destruct (secs_fin _ P1) as (_ & _ & R1).
      set (a := secs (se_mean_period s0)) in *. set (b := secs (se_mean_period s1)) in *.
      assert (0 < a) by (unfold GIGA in *; lra). assert (0 < b) by (unfold GIGA in *; lra).
      replace (/ a / (/ a + / b)) with (b / (a + b)) by (field; lra).
      assert (Hq : 0 <= b / (a + b) <= 1).
      { split; [apply Rmult_le_pos; [lra|left; apply Rinv_0_lt_compat; lra]|].
        apply (Rmult_le_reg_r (a + b)); [lra|]. unfold Rdiv. rewrite Rmult_assoc, Rinv_l by lra. lra. }
      pose proof (near_abs 11 _ _ ltac:(few) (proj1 Hq) Hn) as Ha.
      assert (Hu : 11 * ulp1 * (b / (a + b)) <= 11 * ulp1).
      { rewrite <- (Rmult_1_r (11 * ulp1)) at 2. apply Rmult_le_compat_l; [pose proof ulp1_small; lra|lra]. }
      set (p := f_real _) in *. unfold TWO64 in Herr.
      replace (IZR (Z.of_N T) / IZR (2 ^ 64) - b / (a + b))
        with ((IZR (Z.of_N T) / IZR (2 ^ 64) - p) + (p - b / (a + b))) by ring.
      eapply Rle_lt_trans; [apply Rabs_triang|]. eapply Rle_lt_trans; [apply Rplus_le_compat; [exact Herr|]|].
      { eapply Rle_trans; [exact Ha|exact Hu]. }
      unfold ulp1. change (2 ^ 64)%Z with 18446744073709551616%Z. change (2 ^ 53)%Z with 9007199254740992%Z.
      change (2 ^ 48)%Z with 281474976710656%Z. lra.
    - intros r. destruct (E r) as (r' & Er & Hr'). exists r'. split; [|done].
      unfold pick_session, ss_enumerate. rewrite H0, H1. cbn -[gen_bool N.pow rng_draw]. rewrite Er. cbn -[N.pow rng_draw].
      by destruct (_ <? _)%N.
  Qed.

  (** The time to the next packet: none exactly when no session is active; otherwise the sample, cut
      off at 10, times the mean period, to within a nanosecond and a relative error of 2^-48. It does
      not panic. *)
  Theorem C52_delay m e :
    (forall rel s, ss_get (mx_sessions m) rel = SlFull s -> plain_period s) -> f_nonneg e ->
    (next_authored_packet_delay m e = Val None /\ forall rel s, ss_get (mx_sessions m) rel <> SlFull s) \/
    exists d mean x,
      next_authored_packet_delay m e = Val (Some d) /\ mean_spec m mean /\ capped e x /\
      Rabs (IZR (Z.of_N d) - x * mean * GIGA) <= 1 + x * mean * GIGA * / IZR (2 ^ 48).
  Proof.
    intros Hp He. pose proof (mean_near m Hp) as Hm. unfold next_authored_packet_delay.
    destruct (mean_authored_period m) as [M|]; [|by left].
    right. destruct Hm as (mean & Hspec & FM & NM & RM). destruct (capped_spec e He) as [[Fe Be] Hc].
    set (x := f_real (f_min e f_ten)) in *.
    assert (GG : 0 < / GIGA) by (unfold GIGA; lra).
    assert (H54 : IZR (2 ^ 54) = 18014398509481984) by done.
    assert (Pm : 0 < mean) by lra. pose proof (near_pos 20 _ _ ltac:(few) Pm NM) as BM.
    pose proof (near_abs 20 _ _ ltac:(few) (Rlt_le _ _ Pm) NM) as AM.
    set (M' := f_real M) in *.
    assert (Hx0 : 0 <= x * M') by (apply Rmult_le_pos; lra).
    assert (Hx1 : x * M' <= 10 * (2 * IZR (2 ^ 54))) by (apply Rmult_le_compat; lra).
    assert (Hxm : 0 <= x * mean) by (apply Rmult_le_pos; lra).
    destruct (mul_real (f_min e f_ten) M Fe FM) as [Fp Ep].
    { fold x M'. apply real_le_BIG. split; [done|]. apply Rle_trans with (IZR (2 ^ 60)); [|by apply IZR_le].
      change (IZR (2 ^ 60)) with 1152921504606846976. lra. }
    fold x M' in Ep.
    assert (Hr : 0 <= rnd (x * M') <= IZR (2 ^ 60)).
    { apply rnd_between; [by apply (fixed_IZR 0)|by apply (fixed_bpow 60)|].
      split; [done|]. change (IZR (2 ^ 60)) with 1152921504606846976. lra. }
    destruct (from_secs_ok (f_mul (f_min e f_ten) M) Fp) as (d & Ed & Hd).
    { rewrite Ep. split; [lra|]. eapply Rle_trans; [apply Hr|]. unfold LIMIT_SECS. rewrite <- minus_IZR. by apply IZR_le. }
    exists d, mean, x. rewrite Ed. split_and!; try done.
    rewrite Hd, Ep. pose proof (Znearest_half (fun z => negb (Z.even z)) (rnd (x * M') * GIGA)) as Hh.
    pose proof (rnd_err (x * M') Hx0) as Hre. pose proof ulp1_small as [Hu Hu'].
    assert (HxM : Rabs (x * M' - x * mean) <= 20 * ulp1 * (x * mean)).
    { replace (x * M' - x * mean) with (x * (M' - mean)) by ring. rewrite Rabs_mult, (Rabs_pos_eq x) by lra.
      replace (20 * ulp1 * (x * mean)) with (x * (20 * ulp1 * mean)) by ring. apply Rmult_le_compat_l; lra. }
    assert (HxM2 : x * M' <= 2 * (x * mean)).
    { replace (2 * (x * mean)) with (x * (2 * mean)) by ring. apply Rmult_le_compat_l; lra. }
    assert (Hu2 : ulp1 * (x * M') <= 2 * ulp1 * (x * mean)).
    { replace (2 * ulp1 * (x * mean)) with (ulp1 * (2 * (x * mean))) by ring. apply Rmult_le_compat_l; lra. }
    assert (Htot : Rabs (rnd (x * M') - x * mean) <= 22 * ulp1 * (x * mean) + / GIGA / 2).
    { replace (rnd (x * M') - x * mean) with ((rnd (x * M') - x * M') + (x * M' - x * mean)) by ring.
      eapply Rle_trans; [apply Rabs_triang|]. lra. }
    assert (Hg : Rabs (rnd (x * M') * GIGA - x * mean * GIGA) <= 22 * ulp1 * (x * mean) * GIGA + / 2).
    { replace (rnd (x * M') * GIGA - x * mean * GIGA) with ((rnd (x * M') - x * mean) * GIGA) by ring.
      rewrite Rabs_mult, (Rabs_pos_eq GIGA) by (unfold GIGA; lra).
      replace (22 * ulp1 * (x * mean) * GIGA + / 2) with ((22 * ulp1 * (x * mean) + / GIGA / 2) * GIGA) by (unfold GIGA; field).
      apply Rmult_le_compat_r; [unfold GIGA; lra|done]. }
    assert (H48 : 22 * ulp1 * (x * mean) * GIGA <= x * mean * GIGA * / IZR (2 ^ 48)).
    { replace (22 * ulp1 * (x * mean) * GIGA) with (x * mean * GIGA * (22 * ulp1)) by ring.
      apply Rmult_le_compat_l; [apply Rmult_le_pos; [done|unfold GIGA; lra]|].
      unfold ulp1. change (2 ^ 53)%Z with 9007199254740992%Z. change (2 ^ 48)%Z with 281474976710656%Z. lra. }
    set (z := ZnearestE (rnd (x * M') * GIGA)) in *. rewrite Rabs_minus_sym in Hh.
    replace (IZR z - x * mean * GIGA) with ((IZR z - rnd (x * M') * GIGA) + (rnd (x * M') * GIGA - x * mean * GIGA)) by ring.
    eapply Rle_trans; [apply Rabs_triang|]. lra.
  Qed.

  (** With a sane configuration, sending cover or queued packets never panics. *)
  Theorem C52_no_panic (Hok : prims_ok pr) cf hist m ns r :
    sane cf -> reachable pr cf hist m -> length (ns_local_peer_id ns) = 32%nat ->
    exec pr m (CallPopAuthored ns r) <> Panic.
  Proof.
    intros Hsane Hreach Hns. pose proof (reachable_ok pr Hok cf _ _ Hreach) as Hm. destruct Hreach as [[Hh _] _].
    cbn [exec]. unfold pop_next_authored_packet.
    assert (Hplain : forall rel s, ss_get (mx_sessions m) rel = SlFull s -> plain_period s).
    { intros rel s Hs. destruct (sess_sane _ _ _ Hsane (mx_ok_full _ _ _ _ _ Hm Hs)) as [[H1 H2] _].
      split; [done|]. eapply N.le_lt_trans; [exact H2|]. done. }
    assert (Hpick : exists x r1, pick_session m r = Val (x, r1)).
    { destruct (ss_current (mx_sessions m)) as [| | |s0] eqn:E0, (ss_prev (mx_sessions m)) as [| | |s1] eqn:E1;
        try (unfold pick_session, ss_enumerate; rewrite E0, E1; cbn; by eauto).
      destruct (C52_pick m s0 s1 E0 E1 (Hplain RCurrent _ E0) (Hplain RPrev _ E1)) as (T & _ & _ & HT).
      destruct (HT r) as (r' & -> & _). by eauto. }
    destruct Hpick as (x & r1 & Hpick). rewrite Hpick. cbn [out_bind].
    pose proof (pick_session_spec _ _ _ _ Hpick) as Hget. destruct x as [[rel s]|]; [|done]. cbv zeta.
    rewrite (mo_config _ _ _ Hm : mx_config (mx_or_events m _) = cf).
    destruct (gen_bool_spec (cf_loop_cover_proportion cf)) as (T & _ & _ & HT).
    { eapply in_weaken; [| |apply (sa_loop _ Hsane)]; lra. }
    destruct (HT r1) as (r2 & -> & _).
    cbn [out_bind]. destruct (_ <? _)%N; cbn [negb andb].
    - destruct (negb _); [done|].
      destruct (gen_cover_spec pr Hok cf s ns CkLoop r2) as (res & E & _); [|done|done|].
      { apply (so_topology _ _ _ (mx_ok_full _ _ _ _ _ Hm Hget)). }
      replace (cf_num_hops (mx_config (mx_or_events m NEXT_AUTHORED_PACKET_DEADLINE_CHANGED))) with (cf_num_hops cf)
        by (cbn; by rewrite (mo_config _ _ _ Hm)).
      rewrite E. cbn [out_bind]. by destruct res.
    - destruct (gen_cover_spec pr Hok cf s ns CkDrop r2) as (res & E & _); [|done|done|].
      { apply (so_topology _ _ _ (mx_ok_full _ _ _ _ _ Hm Hget)). }
      match goal with |- context [let '(_, _) := ?c in _] => destruct c as [m1 p1] eqn:Ec end.
      assert (Hcf1 : mx_config m1 = cf).
      { destruct (allow_requests_and_replies _ _); [|injection Ec as <- _; apply Hm].
        destruct (aq_pop _) as [[q pk] sp]. injection Ec as <- _. destruct sp; by rewrite <- (mo_config _ _ _ Hm). }
      destruct p1; [done|]. rewrite Hcf1. destruct (negb _); [done|]. rewrite E. cbn [out_bind]. by destruct res.
  Qed.
End C52.

(** ** C53: panic freedom

    The only calls that can panic, in any history with a sane configuration. *)
Theorem C53_no_panic (pr : prims) (Hok : prims_ok pr) cf hist m c :
  exp1_ok (pr_exp1 pr) -> sane cf -> reachable pr cf hist m -> call_ok c -> exec pr m c = Panic ->
  exists index dest id data num_surbs ns r,
    c = CallPostRequest index dest id data num_surbs ns r /\
    ((* a destination that does not exist *)
     (exists d rel s, dest = Some d /\ usable m index rel s /\ ~ valid_index (se_topology s) d) \/
     (* equal random SURB ids *)
     (0 < num_surbs)%N /\ exists n, needs (data_len data) num_surbs n /\
       clash (1 + 196 * n + 244 * N.to_nat num_surbs) (mx_keystore m) r).
Proof.
  intros Hexp Hsane Hreach Hc H. pose proof (reachable_ok pr Hok cf _ _ Hreach) as Hm. pose proof Hreach as [Hcf _].
  destruct c as [st|rel mixnodes r|r|p now|tie|ns r|index dest id data num_surbs ns r|surbs index id data|].
  - done.
  - by apply (C32_set_mixnodes pr cf) in H.
  - cbn [exec] in H. by destruct (next_kx_public pr m r).
  - destruct (C32_handle pr Hok cf m p now Hm Hc H) as (rel & s & t & d & next & _ & Hct & Hd).
    assert (Hw : exists k, d = hop_delay pr k).
    { unfold content_of in Hct. cbv zeta in Hct. repeat (destruct (decide _) in Hct); try done; injection Hct as _ <- _; eauto. }
    destruct Hw as [k ->]. rewrite (mo_config _ _ _ Hm) in Hd.
    destruct (to_duration_ok (cf_mean_forwarding_delay cf) (hop_delay pr k)) as [t' Et]; [apply Hsane| |by rewrite Et in Hd].
    eapply within_mono; [|by apply delay_exp_within]. lia.
  - cbn [exec] in H. by destruct (pop_next_forward_packet m tie).
  - by apply (C52_no_panic pr Hok cf hist) in H.
  - destruct Hc as (Ha & Hns & _). exists index, dest, id, data, num_surbs, ns, r. split; [done|].
    assert (Hpost : post_request pr m index dest id data num_surbs ns r = Panic).
    { cbn [exec] in H. by destruct (post_request _ _ _ _ _ _ _ _ _) as [[[? ?] ?]|]. }
    destruct dest as [d|].
    + destruct (post_session (mx_sessions m) (mx_status m) index) as [[rel s]|e] eqn:Eps.
      * destruct (decide (N.to_nat d < length (tp_mixnodes (se_topology s)))%nat) as [Hv|Hv].
        -- right. apply (C51_no_panic pr Hok cf hist m index (Some d) id data num_surbs ns r); try done.
           intros d' rel' s' [= <-] Hu. apply C30_post_session in Hu. rewrite Eps in Hu. by injection Hu as <- <-.
        -- left. exists d, rel, s. split; [done|]. split; [by apply C30_post_session|done].
      * right. apply (C51_no_panic pr Hok cf hist m index (Some d) id data num_surbs ns r); try done.
        intros d' rel' s' _ Hu. apply C30_post_session in Hu. congruence.
    + right. by apply (C51_no_panic pr Hok cf hist m index None id data num_surbs ns r).
  - destruct Hc as [Ha _]. cbn [exec] in H.
    destruct (C37_post_reply pr m surbs index id data (mx_posting pr cf m Hcf Hm) Ha) as
      [(e & E & _)|(rel & s & bs & used & packets & left & res & _ & _ & _ & _ & E & _)]; by rewrite E in H.
  - cbn [exec] in H. by destruct (take_events m).
Qed.
