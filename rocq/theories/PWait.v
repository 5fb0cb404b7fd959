(** C83: the estimate of the time in the queues of authored packets. *)
From Coq Require Import Reals Lra Psatz.
From Flocq Require Import Core.Core IEEE754.BinarySingleNaN.
From Verif Require Export PMetrics PRate PStock.
Local Open Scope R_scope.

(** ** Specification *)

(** Mean time in seconds between two packets that may come from the queue of a session with mean period [d], if
    there are two sessions (half the rate) and the proportion [lambda] of packets is loop cover. *)
Definition gap (lambda : R) (d : duration) : R := / ((1 - lambda) * (/ secs d) / 2).
(** What [n] packets, one every [a] seconds, and then [k] packets, one every [b] seconds, take on average, and with
    a margin (mod.rs:198-222: about the 99.995th percentile). *)
Definition on_average (a : R) (n : N) (b : R) (k : N) : R := IZR (Z.of_N n) * a + IZR (Z.of_N k) * b.
Definition margin (a : R) (n : N) (b : R) (k : N) : R :=
  492582 / 100000 * Rmax a b +
  387809 / 100000 * R_sqrt.sqrt ((IZR (Z.of_N n) * (a * a * a) + IZR (Z.of_N k) * (b * b * b)) / Rmax a b).
(** Periods of a millisecond or more *)
Definition slow (d : duration) : Prop := (1000000 <= d)%N.
Definition all_slow (cf : config) : Prop :=
  slow (sc_mean_period (cf_mixnode_session cf)) /\
  forall c, cf_non_mixnode_session cf = Some c -> slow (sc_mean_period c).

(** ** Numbers that differ by a factor *)
Definition W : R := 1 + / 1000000.
Definition wi (k : nat) (x y : R) : Prop := 0 <= x /\ 0 <= y /\ y <= x * W ^ k /\ x <= y * W ^ k.
Lemma INR_1000 k : (k <= 1000)%nat -> 0 <= INR k <= 1000.
Proof. intros H. rewrite INR_IZR_INZ. split; [apply (IZR_le 0)|apply (IZR_le _ 1000)]; lia. Qed.
Lemma W_pow k : (k <= 1000)%nat -> 1 <= W ^ k /\ W ^ k <= 1 + 125 / 100000000 * INR k.
Proof.
  induction k as [|k IH]; intros Hk; [cbn; lra|]. destruct (IH ltac:(lia)) as [H1 H2]. rewrite S_INR.
  pose proof (INR_1000 k ltac:(lia)) as Hi. change (W ^ S k) with (W * W ^ k). unfold W at 1 3.
  set (v := W ^ k) in *. clearbody v. set (i := INR k) in *. clearbody i. split; nra.
Qed.
Lemma W_ge k : 1 <= W ^ k.
Proof. apply pow_R1_Rle. unfold W. lra. Qed.
Lemma wi_refl k x : 0 <= x -> wi k x x.
Proof. intros H. pose proof (W_ge k). split_and!; [done|done|nra|nra]. Qed.
Lemma wi_weaken j k x y : (j <= k)%nat -> wi j x y -> wi k x y.
Proof.
  intros Hjk (H1 & H2 & H3 & H4). assert (W ^ j <= W ^ k) by (apply Rle_pow; [unfold W; lra|done]).
  split_and!; [done|done|nra|nra].
Qed.
Lemma wi_sym k x y : wi k x y -> wi k y x.
Proof. intros (H1 & H2 & H3 & H4). by split_and!. Qed.
Lemma wi_trans j k x y z : wi j x y -> wi k y z -> wi (j + k) x z.
Proof.
  intros (H1 & H2 & H3 & H4) (H5 & H6 & H7 & H8). pose proof (W_ge j). pose proof (W_ge k). unfold wi; rewrite pow_add.
  split_and!; [done|done| |]; set (a := W ^ j) in *; set (b := W ^ k) in *; clearbody a b.
  - apply Rle_trans with (y * b); [done|]. replace (x * (a * b)) with (x * a * b) by ring. apply Rmult_le_compat_r; lra.
  - apply Rle_trans with (y * a); [done|]. replace (z * (a * b)) with (z * b * a) by ring. apply Rmult_le_compat_r; lra.
Qed.
Lemma wi_mul j k x y z w : wi j x y -> wi k z w -> wi (j + k) (x * z) (y * w).
Proof.
  intros (H1 & H2 & H3 & H4) (H5 & H6 & H7 & H8). unfold wi; rewrite pow_add. set (a := W ^ j) in *. set (b := W ^ k) in *.
  split_and!; [by apply Rmult_le_pos|by apply Rmult_le_pos| |].
  - replace (x * z * (a * b)) with ((x * a) * (z * b)) by ring. by apply Rmult_le_compat.
  - replace (y * w * (a * b)) with ((y * a) * (w * b)) by ring. by apply Rmult_le_compat.
Qed.
Lemma wi_add k x y z w : wi k x y -> wi k z w -> wi k (x + z) (y + w).
Proof. intros (H1 & H2 & H3 & H4) (H5 & H6 & H7 & H8). split_and!; lra. Qed.
Lemma wi_inv k x y : 0 < x -> 0 < y -> wi k x y -> wi k (/ x) (/ y).
Proof.
  intros Hx Hy (H1 & H2 & H3 & H4). pose proof (W_ge k). unfold wi; set (a := W ^ k) in *. clearbody a.
  assert (0 < / x) by (by apply Rinv_0_lt_compat). assert (0 < / y) by (by apply Rinv_0_lt_compat).
  split_and!; [lra|lra| |].
  - apply Rle_trans with (x * (/ x * / y)); [right; field; lra|].
    apply Rle_trans with (y * a * (/ x * / y)); [|right; field; lra]. apply Rmult_le_compat_r; [nra|done].
  - apply Rle_trans with (y * (/ x * / y)); [right; field; lra|].
    apply Rle_trans with (x * a * (/ x * / y)); [|right; field; lra]. apply Rmult_le_compat_r; [nra|done].
Qed.
Lemma wi_div j k x y z w : 0 < z -> 0 < w -> wi j x y -> wi k z w -> wi (j + k) (x / z) (y / w).
Proof. intros Hz Hw H1 H2. apply wi_mul; [done|by apply wi_inv]. Qed.
Lemma wi_sqrt k x y : wi k x y -> wi k (R_sqrt.sqrt x) (R_sqrt.sqrt y).
Proof.
  intros (H1 & H2 & H3 & H4). pose proof (W_ge k) as Ha. unfold wi; set (a := W ^ k) in *. clearbody a.
  assert (Hs : R_sqrt.sqrt a <= a).
  { rewrite <- (sqrt_square a) at 2 by lra. apply sqrt_le_1; nra. }
  split_and!; [apply sqrt_pos|apply sqrt_pos| |].
  - apply Rle_trans with (R_sqrt.sqrt (x * a)); [apply sqrt_le_1; nra|]. rewrite sqrt_mult by lra.
    apply Rmult_le_compat_l; [apply sqrt_pos|done].
  - apply Rle_trans with (R_sqrt.sqrt (y * a)); [apply sqrt_le_1; nra|]. rewrite sqrt_mult by lra.
    apply Rmult_le_compat_l; [apply sqrt_pos|done].
Qed.
Lemma wi_max k x y z w : wi k x y -> wi k z w -> wi k (Rmax x z) (Rmax y w).
Proof.
  intros (H1 & H2 & H3 & H4) (H5 & H6 & H7 & H8). pose proof (W_ge k) as Ha. unfold wi; set (a := W ^ k) in *. clearbody a.
  assert (x <= Rmax x z) by apply Rmax_l. assert (z <= Rmax x z) by apply Rmax_r.
  assert (y <= Rmax y w) by apply Rmax_l. assert (w <= Rmax y w) by apply Rmax_r.
  split_and!; [lra|lra| |].
  - apply Rmax_lub; [apply Rle_trans with (x * a)|apply Rle_trans with (z * a)]; try done; apply Rmult_le_compat_r; lra.
  - apply Rmax_lub; [apply Rle_trans with (y * a)|apply Rle_trans with (w * a)]; try done; apply Rmult_le_compat_r; lra.
Qed.
Lemma wi_near j x y : few j -> 0 <= y -> near j x y -> wi 1 x y.
Proof.
  intros Hj Hy (e & He & ->). pose proof (few_small 1 j ltac:(few) Hj) as _. pose proof ulp1_small as [U1 U2].
  assert (He2 : Rabs e <= / 10000000).
  { eapply Rle_trans; [exact He|]. unfold few in Hj. apply Rle_trans with (1000 * / 9007199254740992); [nra|lra]. }
  apply Rabs_le_inv in He2. unfold wi, W. cbn [Rpow_def.pow]. split_and!; nra.
Qed.

(** ** Floating point *)
(** neither too large nor too small *)
Definition okb (e : Z) (z : R) : Prop := (z = 0 \/ bpow radix2 (- e) <= z) /\ z <= bpow radix2 e.
Notation ok := (okb 300).
Lemma okb_0 e z : okb e z -> 0 <= z.
Proof. intros [[->|H] _]; [lra|]. pose proof (bpow_gt_0 radix2 (- e)). lra. Qed.
Lemma okb_weaken e f z : (e <= f)%Z -> okb e z -> okb f z.
Proof.
  intros Hef [H1 H2]. split.
  - destruct H1 as [->|H1]; [by left|]. right. eapply Rle_trans; [|exact H1]. apply bpow_le. lia.
  - eapply Rle_trans; [exact H2|]. by apply bpow_le.
Qed.
Lemma okb_mul e f a b : okb e a -> okb f b -> okb (e + f) (a * b).
Proof.
  intros Ha Hb. pose proof (okb_0 _ _ Ha). pose proof (okb_0 _ _ Hb). destruct Ha as [H1 H2], Hb as [H3 H4]. split.
  - destruct H1 as [->|H1]; [left; ring|]. destruct H3 as [->|H3]; [left; ring|]. right.
    rewrite Z.opp_add_distr, bpow_plus. apply Rmult_le_compat; auto using bpow_ge_0.
  - rewrite bpow_plus. by apply Rmult_le_compat.
Qed.
Lemma okb_inv e a : 0 < a -> okb e a -> okb e (/ a).
Proof.
  intros Ha [H1 H2]. split.
  - right. rewrite bpow_opp. by apply Rinv_le.
  - destruct H1 as [->|H1]; [lra|]. rewrite <- (Z.opp_involutive e), bpow_opp. apply Rinv_le; [apply bpow_gt_0|done].
Qed.
Lemma okb_add e a b : okb e a -> okb e b -> okb (e + 1) (a + b).
Proof.
  intros Ha Hb. pose proof (okb_0 _ _ Ha). pose proof (okb_0 _ _ Hb). destruct Ha as [H1 H2], Hb as [H3 H4].
  assert (Hs : bpow radix2 (- (e + 1)) <= bpow radix2 (- e)) by (apply bpow_le; lia). split.
  - destruct H1 as [->|H1]; [|right; lra]. destruct H3 as [->|H3]; [left; ring|right; lra].
  - rewrite bpow_plus. change (bpow radix2 1) with 2. lra.
Qed.
Lemma okb_sqrt e a : (0 <= e)%Z -> okb e a -> okb e (R_sqrt.sqrt a).
Proof.
  intros He Ha. pose proof (okb_0 _ _ Ha) as H0. destruct Ha as [H1 H2].
  assert (B1 : bpow radix2 (- e) <= 1) by (apply (bpow_le radix2 _ 0); lia).
  assert (B2 : 1 <= bpow radix2 e) by (apply (bpow_le radix2 0); lia).
  pose proof (bpow_gt_0 radix2 (- e)). split.
  - destruct H1 as [->|H1]; [left; apply sqrt_0|]. right.
    rewrite <- (sqrt_square (bpow radix2 (- e))) by lra. apply sqrt_le_1; nra.
  - rewrite <- (sqrt_square (bpow radix2 e)) by lra. apply sqrt_le_1; nra.
Qed.
Lemma okb_of_N e n : (n <= 2 ^ Z.to_N e)%N -> (0 <= e)%Z -> okb e (IZR (Z.of_N n)).
Proof.
  intros Hn He. split.
  - destruct (decide (n = 0%N)) as [->|H0]; [by left|]. right. apply Rle_trans with 1.
    + apply (bpow_le radix2 _ 0). lia.
    + apply (IZR_le 1). lia.
  - rewrite <- (IZR_Zpower radix2) by done. apply IZR_le. change (radix_val radix2) with 2%Z.
    rewrite <- (Z2N.id e) by done. change 2%Z with (Z.of_N 2). rewrite <- N2Z.inj_pow. by apply N2Z.inj_le.
Qed.
Definition fl (k : nat) (x : f64) (y : R) : Prop := f_finite x /\ wi k (f_real x) y.
Lemma rnd_fl k p z : wi k p z -> (k <= 1000)%nat -> ok z -> Rabs p <= BIG /\ wi (k + 1) (rnd p) z.
Proof.
  intros Hw Hk [Hz Hz2]. pose proof (W_pow k ltac:(lia)) as [W1 W2].
  pose proof (INR_1000 k ltac:(lia)) as Hi.
  destruct Hw as (H1 & H2 & H3 & H4).
  assert (Hp : p <= 2 * z) by nra. assert (Hp' : z <= 2 * p) by nra.
  split.
  - rewrite Rabs_pos_eq by done. apply Rle_trans with (bpow radix2 1 * bpow radix2 300).
    + change (bpow radix2 1) with 2. lra.
    + rewrite <- bpow_plus. apply bpow_le. done.
  - rewrite Nat.add_comm. apply (wi_trans 1 k _ p); [|by split_and!]. destruct Hz as [->|Hz].
    + assert (p = 0) as -> by lra. rewrite rnd_0. apply wi_refl. lra.
    + apply (wi_near 1); [few|done|]. apply rnd_near. eapply (Rle_trans _ (bpow radix2 (-1) * bpow radix2 (-300))).
      * rewrite <- bpow_plus. by apply bpow_le.
      * change (bpow radix2 (-1)) with (/ 2). change (- (300))%Z with (-300)%Z in Hz. lra.
Qed.
Lemma fl_mul j k x y a b : (j + k <= 1000)%nat -> ok (a * b) -> fl j x a -> fl k y b -> fl (j + k + 1) (f_mul x y) (a * b).
Proof.
  intros Hjk Hk [Fx Hx] [Fy Hy]. destruct (rnd_fl _ _ _ (wi_mul _ _ _ _ _ _ Hx Hy) Hjk Hk) as [H1 H2].
  destruct (mul_real x y Fx Fy H1) as [F E]. split; [done|]. by rewrite E.
Qed.
Lemma fl_div j k x y a b : (j + k <= 1000)%nat -> 0 < f_real y -> 0 < b -> ok (a / b) -> fl j x a -> fl k y b ->
  fl (j + k + 1) (f_div x y) (a / b).
Proof.
  intros Hjk Hp Hb Hk [Fx Hx] [Fy Hy]. destruct (rnd_fl _ _ _ (wi_div _ _ _ _ _ _ Hp Hb Hx Hy) Hjk Hk) as [H1 H2].
  destruct (div_real x y Fx Fy ltac:(lra) H1) as [F E]. split; [done|]. by rewrite E.
Qed.
Lemma fl_add k x y a b : (k <= 1000)%nat -> ok (a + b) -> fl k x a -> fl k y b -> fl (k + 1) (f_add x y) (a + b).
Proof.
  intros Hjk Hk [Fx Hx] [Fy Hy]. destruct (rnd_fl _ _ _ (wi_add _ _ _ _ _ Hx Hy) Hjk Hk) as [H1 H2].
  destruct (add_real x y Fx Fy H1) as [F E]. split; [done|]. by rewrite E.
Qed.
Lemma fl_sqrt k x a : (k <= 1000)%nat -> ok (R_sqrt.sqrt a) -> fl k x a -> fl (k + 1) (f_sqrt x) (R_sqrt.sqrt a).
Proof.
  intros Hjk Hk [Fx Hx]. destruct (rnd_fl _ _ _ (wi_sqrt _ _ _ Hx) Hjk Hk) as [H1 H2].
  destruct (sqrt_real x Fx (proj1 Hx)) as [F E]. split; [done|]. by rewrite E.
Qed.
Lemma fl_weaken j k x a : (j <= k)%nat -> fl j x a -> fl k x a.
Proof. intros H [F Hw]. split; [done|]. by eapply wi_weaken. Qed.
Lemma fl_of_N n : (n <= 2 ^ 53)%N -> fl 0 (f_of_N n) (IZR (Z.of_N n)).
Proof. intros H. destruct (of_N_exact n H) as [F E]. split; [done|]. rewrite E. apply wi_refl, (IZR_le 0). lia. Qed.
Lemma fl_pos k x a : (k <= 1000)%nat -> 0 < a -> fl k x a -> 0 < f_real x.
Proof.
  intros Hk Ha [_ (H1 & H2 & H3 & H4)]. pose proof (W_ge k). destruct (Rle_lt_or_eq_dec 0 (f_real x) H1) as [H0|H0]; [done|].
  rewrite <- H0 in H3. lra.
Qed.
Lemma fl_secs d : (0 < d < MAX_SANE)%N -> fl 1 (as_secs_f64 d) (secs d).
Proof.
  intros Hd. destruct (secs_fin d Hd) as (F & N & R). split; [done|]. apply (wi_near 3); [few| |done]. unfold GIGA in R. lra.
Qed.
(** Rounding to nanoseconds is a small change for a millisecond and more. *)
Lemma fl_from_secs k x a t :
  (k <= 1000)%nat -> / 500 <= a -> fl k x a -> from_secs_f64 x = Val t -> wi (k + 1) (secs t) a.
Proof.
  intros Hk Ha [F Hw] E. destruct (from_secs_val x t (proj1 F) E) as (_ & H0 & Et & _).
  rewrite Nat.add_comm. apply (wi_trans 1 k _ (f_real x)); [|done].
  assert (Hx : / 1000 <= f_real x).
  { pose proof (W_pow k ltac:(lia)) as [W1 W2].
    pose proof (INR_1000 k ltac:(lia)) as Hi.
    destruct Hw as (H1 & H2 & H3 & H4). nra. }
  pose proof (Znearest_half (fun x => negb (Z.even x)) (f_real x * GIGA)) as Hh. rewrite <- Et in Hh.
  apply Rabs_le_inv in Hh.
  assert (Hs : Rabs (secs t - f_real x) <= / 2 / GIGA).
  { unfold secs. apply Rabs_le. unfold GIGA in *. lra. }
  apply Rabs_le_inv in Hs. unfold wi, W. cbn [Rpow_def.pow]. unfold GIGA in Hs. split_and!; try lra; nra.
Qed.

(** ** The estimate *)
Lemma fl_lit a b : (0 < a <= 2 ^ 53)%N -> (0 < b <= 2 ^ 53)%N -> fl 1 (f_lit a b) (IZR (Z.of_N a) / IZR (Z.of_N b)).
Proof.
  intros Ha Hb. assert (Hp : 0 < IZR (Z.of_N b)) by (apply (IZR_lt 0); lia).
  assert (Ok : ok (IZR (Z.of_N a) / IZR (Z.of_N b))).
  { apply (okb_weaken (53 + 53)); [done|]. apply okb_mul; [apply okb_of_N; [apply Ha|done]|].
    apply okb_inv; [done|]. apply okb_of_N; [apply Hb|done]. }
  apply (fl_div 0 0); [lia| |done|done|apply fl_of_N; lia|apply fl_of_N; lia].
  by rewrite (proj2 (of_N_exact b ltac:(lia))).
Qed.
Definition in_range (a : R) : Prop := / 1000 <= a /\ a <= IZR (2 ^ 28).
Lemma in_range_ok a : in_range a -> 0 < a /\ okb 28 a.
Proof.
  intros [H1 H2]. split; [lra|]. split; [right|exact H2].
  apply Rle_trans with (bpow radix2 (-10)); [by apply bpow_le|]. change (bpow radix2 (-10)) with (/ 1024). lra.
Qed.
Lemma gamma_main (s rs : duration) (n m : N) t :
  in_range (secs s) -> in_range (secs rs) -> (0 < s < MAX_SANE)%N -> (0 < rs < MAX_SANE)%N ->
  (n <= 2 ^ 32)%N -> (m <= 2 ^ 32)%N ->
  let fn := f_of_N n in let fm := f_of_N m in let r := f_div (as_secs_f64 rs) (as_secs_f64 s) in
  mul_f64 s
    (f_add (f_add (f_add (f_lit 492582 100000)
                   (f_mul (f_lit 387809 100000) (f_sqrt (f_add fn (f_mul (f_mul (f_mul r r) r) fm))))) fn)
     (f_mul r fm)) = Val t ->
  let r := secs rs / secs s in let n := IZR (Z.of_N n) in let m := IZR (Z.of_N m) in
  wi 22 (secs t) ((492582 / 100000 + 387809 / 100000 * R_sqrt.sqrt (n + r * r * r * m) + n + r * m) * secs s).
Proof.
  intros Hs Hrs Ss Srs Hn Hm fn fm r E rr nn mm.
  apply in_range_ok in Hs as Hs2. apply in_range_ok in Hrs as Hrs2. destruct Hs2 as [Ps Os], Hrs2 as [Prs Ors].
  assert (On : okb 32 nn) by (by apply okb_of_N). assert (Om : okb 32 mm) by (by apply okb_of_N).
  assert (Fn : fl 0 fn nn) by (apply fl_of_N; lia). assert (Fm : fl 0 fm mm) by (apply fl_of_N; lia).
  assert (Fs : fl 1 (as_secs_f64 s) (secs s)) by (by apply fl_secs).
  assert (Frs : fl 1 (as_secs_f64 rs) (secs rs)) by (by apply fl_secs).
  assert (Or : okb 56 rr) by (apply (okb_mul 28 28); [done|by apply okb_inv]).
  assert (Fr : fl 3 r rr).
  { apply (fl_div 1 1); [lia|by eapply (fl_pos 1); [lia|exact Ps|]|done|by apply (okb_weaken 56)|done|done]. }
  clearbody fn fm r rr nn mm.
  assert (O2 : okb 112 (rr * rr)) by (by apply (okb_mul 56 56)).
  assert (F2 : fl 7 (f_mul r r) (rr * rr)) by (apply (fl_mul 3 3); [lia|by apply (okb_weaken 112)|done|done]).
  assert (O3 : okb 168 (rr * rr * rr)) by (by apply (okb_mul 112 56)).
  assert (F3 : fl 11 (f_mul (f_mul r r) r) (rr * rr * rr)) by (apply (fl_mul 7 3); [lia|by apply (okb_weaken 168)|done|done]).
  assert (O4 : okb 200 (rr * rr * rr * mm)) by (by apply (okb_mul 168 32)).
  assert (F4 : fl 12 (f_mul (f_mul (f_mul r r) r) fm) (rr * rr * rr * mm))
    by (apply (fl_mul 11 0); [lia|by apply (okb_weaken 200)|done|done]).
  assert (O5 : okb 201 (nn + rr * rr * rr * mm)) by (apply (okb_add 200); [by apply (okb_weaken 32)|done]).
  assert (F5 : fl 13 (f_add fn (f_mul (f_mul (f_mul r r) r) fm)) (nn + rr * rr * rr * mm)).
  { apply (fl_add 12); [lia|by apply (okb_weaken 201)|by apply (fl_weaken 0); [lia|]|done]. }
  assert (O6 : okb 201 (R_sqrt.sqrt (nn + rr * rr * rr * mm))) by (by apply okb_sqrt).
  assert (F6 : fl 14 (f_sqrt (f_add fn (f_mul (f_mul (f_mul r r) r) fm))) (R_sqrt.sqrt (nn + rr * rr * rr * mm))).
  { apply (fl_sqrt 13); [lia|by apply (okb_weaken 201)|done]. }
  assert (L2 : fl 1 (f_lit 387809 100000) (387809 / 100000)) by (by apply (fl_lit 387809 100000)).
  assert (L1 : fl 1 (f_lit 492582 100000) (492582 / 100000)) by (by apply (fl_lit 492582 100000)).
  set (q := R_sqrt.sqrt _) in *. set (fq := f_sqrt _) in *. clearbody q fq.
  assert (B3 : bpow radix2 3 = 8) by done. assert (Bm3 : bpow radix2 (-3) = / 8) by done.
  assert (OL2 : okb 3 (387809 / 100000)) by (unfold okb; change (- (3))%Z with (-3)%Z; rewrite B3, Bm3; lra).
  assert (OL1 : okb 3 (492582 / 100000)) by (unfold okb; change (- (3))%Z with (-3)%Z; rewrite B3, Bm3; lra).
  assert (O7 : okb 204 (387809 / 100000 * q)) by (by apply (okb_mul 3 201)).
  assert (F7 : fl 16 (f_mul (f_lit 387809 100000) fq) (387809 / 100000 * q))
    by (apply (fl_mul 1 14); [lia|by apply (okb_weaken 204)|done|done]).
  assert (O8 : okb 205 (492582 / 100000 + 387809 / 100000 * q)) by (apply (okb_add 204); [by apply (okb_weaken 3)|done]).
  assert (F8 : fl 17 (f_add (f_lit 492582 100000) (f_mul (f_lit 387809 100000) fq)) (492582 / 100000 + 387809 / 100000 * q)).
  { apply (fl_add 16); [lia|by apply (okb_weaken 205)|by apply (fl_weaken 1); [lia|]|done]. }
  set (f8 := f_add (f_lit 492582 100000) _) in *.
  assert (Hq8 : 49 / 10 <= 492582 / 100000 + 387809 / 100000 * q) by (pose proof (okb_0 _ _ O7); lra).
  set (q8 := 492582 / 100000 + _) in *. clearbody f8 q8.
  assert (O9 : okb 206 (q8 + nn)) by (apply (okb_add 205); [done|by apply (okb_weaken 32)]).
  assert (F9 : fl 18 (f_add f8 fn) (q8 + nn)).
  { apply (fl_add 17); [lia|by apply (okb_weaken 206)|done|by apply (fl_weaken 0); [lia|]]. }
  assert (O10 : okb 88 (rr * mm)) by (by apply (okb_mul 56 32)).
  assert (F10 : fl 4 (f_mul r fm) (rr * mm)) by (apply (fl_mul 3 0); [lia|by apply (okb_weaken 88)|done|done]).
  assert (O11 : okb 207 (q8 + nn + rr * mm)) by (apply (okb_add 206); [done|by apply (okb_weaken 88)]).
  assert (F11 : fl 19 (f_add (f_add f8 fn) (f_mul r fm)) (q8 + nn + rr * mm)).
  { apply (fl_add 18); [lia|by apply (okb_weaken 207)|done|by apply (fl_weaken 4); [lia|]]. }
  assert (O12 : okb 235 ((q8 + nn + rr * mm) * secs s)) by (by apply (okb_mul 207 28)).
  unfold mul_f64 in E. refine (fl_from_secs 21 _ _ t _ _ _ E).
  - lia.
  - pose proof (okb_0 _ _ On). pose proof (okb_0 _ _ O10). destruct Hs as [Hs _].
    apply Rle_trans with (49 / 10 * / 1000); [lra|]. apply Rmult_le_compat; lra.
  - apply (fl_mul 19 1); [lia|by apply (okb_weaken 235)|done|done].
Qed.

Definition estimate (a : R) (n : N) (b : R) (k : N) : R := on_average a n b k + margin a n b k.
(** the terms of the formula, multiplied out *)
Lemma estimate_sym a n b k : estimate a n b k = estimate b k a n.
Proof.
  unfold estimate, on_average, margin. rewrite (Rmax_comm b a), (Rplus_comm (IZR (Z.of_N k) * b)).
  by rewrite (Rplus_comm (IZR (Z.of_N k) * (b * b * b))).
Qed.
Lemma estimate_max a n b k : 0 < b -> b <= a ->
  let r := b / a in let n' := IZR (Z.of_N n) in let k' := IZR (Z.of_N k) in
  (492582 / 100000 + 387809 / 100000 * R_sqrt.sqrt (n' + r * r * r * k') + n' + r * k') * a = estimate a n b k.
Proof.
  intros Hb Hab r n' k'. unfold estimate, on_average, margin. fold n' k'. rewrite (Rmax_left a b) by done.
  assert (Hn : 0 <= n') by (apply (IZR_le 0); lia). assert (Hk : 0 <= k') by (apply (IZR_le 0); lia).
  assert (E : (n' * (a * a * a) + k' * (b * b * b)) / a = (a * a) * (n' + r * r * r * k')).
  { unfold r. field. lra. }
  rewrite E, sqrt_mult, sqrt_square; [| lra|nra|].
  - set (q := R_sqrt.sqrt _). unfold r. field. lra.
  - assert (0 <= r) by (apply Rlt_le, Rdiv_lt_0_compat; lra).
    assert (0 <= r * r * r) by (apply Rmult_le_pos; [by apply Rmult_le_pos|done]).
    assert (0 <= r * r * r * k') by (by apply Rmult_le_pos). lra.
Qed.
Lemma gamma_near (p q : duration) (n k : N) t :
  in_range (secs p) -> in_range (secs q) -> (0 < p < MAX_SANE)%N -> (0 < q < MAX_SANE)%N ->
  (n <= 2 ^ 32)%N -> (k <= 2 ^ 32)%N -> gamma_estimate p n q k = Val t ->
  wi 22 (secs t) (estimate (secs p) n (secs q) k).
Proof.
  intros Rp Rq Hp Hq Hn Hk E. unfold gamma_estimate in E.
  assert (Hmono : forall a b : N, (a <= b)%N -> secs a <= secs b).
  { intros a b H. unfold secs, GIGA. apply Rmult_le_compat_r; [lra|]. apply IZR_le. lia. }
  destruct (N.ltb_spec q p) as [Hlt|Hge].
  - apply gamma_main in E; [|done..]. cbv zeta in E. rewrite estimate_max in E; [exact E| |apply Hmono; lia].
    destruct Rq; lra.
  - apply gamma_main in E; [|done..]. cbv zeta in E. rewrite estimate_max in E; [|destruct Rp; lra|apply Hmono; lia].
    by rewrite estimate_sym.
Qed.
(** Changing the periods slightly changes the estimate slightly. *)
Lemma estimate_wi j a a' n b b' k : 0 < a -> 0 < a' -> 0 < b -> 0 < b' ->
  wi j a a' -> wi j b b' -> wi (j + j + j + j) (estimate a n b k) (estimate a' n b' k).
Proof.
  intros Pa Pa' Pb Pb' Ha Hb.
  assert (Hn : forall i, 0 <= IZR (Z.of_N i)) by (intros i; apply (IZR_le 0); lia).
  assert (PM : 0 < Rmax a b) by (eapply Rlt_le_trans; [exact Pa|apply Rmax_l]).
  assert (PM' : 0 < Rmax a' b') by (eapply Rlt_le_trans; [exact Pa'|apply Rmax_l]).
  assert (Hc : forall c x y, 0 <= c -> wi j x y -> wi j (c * x) (c * y)).
  { intros c x y Hc Hx. apply (wi_mul 0 j); [by apply wi_refl|done]. }
  assert (Hw : forall x y, wi j x y -> wi (j + j + j + j) x y) by (intros x y; apply wi_weaken; lia).
  apply wi_add.
  - apply wi_add; apply Hw; by apply Hc.
  - apply wi_add.
    + apply Hw, Hc; [lra|]. by apply wi_max.
    + apply (wi_mul 0 (j + j + j + j)); [apply wi_refl; lra|]. apply wi_sqrt.
      apply (wi_div (j + j + j) j); [done|done| |by apply wi_max].
      apply wi_add; apply (wi_mul 0 (j + j + j)); try (by apply wi_refl); repeat apply wi_mul; done.
Qed.
Lemma secs_pos_real (d : duration) : (0 < d)%N -> 0 < secs d.
Proof. intros H. apply Rdiv_lt_0_compat; [apply (IZR_lt 0); lia|unfold GIGA; lra]. Qed.
Lemma gap_near cf (d p : duration) :
  sane cf -> period_sane d -> slow d ->
  div_f64 d (f_mul (f_lit 1 2) (f_sub f_one (cf_loop_cover_proportion cf))) = Val p ->
  wi 6 (secs p) (gap (f_real (cf_loop_cover_proportion cf)) d) /\ 0 < gap (f_real (cf_loop_cover_proportion cf)) d /\
  in_range (secs p) /\ (0 < p < MAX_SANE)%N.
Proof.
  intros Hs Hd Hslow E. destruct (period_ok cf d Hs Hd) as (p' & E' & Hp'). rewrite E' in E. injection E as ->.
  pose proof (sa_loop _ Hs) as [Fl Bl]. set (l := cf_loop_cover_proportion cf) in *.
  assert (Hd1 : / 1000 <= secs d /\ secs d <= 1048576).
  { unfold secs, GIGA. unfold slow, period_sane, NANOS_PER_SEC in *.
    assert (H1 : 1000000 <= IZR (Z.of_N d)) by (apply (IZR_le 1000000); lia).
    assert (H2 : IZR (Z.of_N d) <= 1048576000000000) by (apply (IZR_le _ 1048576000000000); lia). lra. }
  assert (One : f_finite f_one /\ f_real f_one = 1) by (apply (of_N_exact 1); done).
  assert (B7 : bpow radix2 (-7) = / 128) by done. assert (B7' : bpow radix2 7 = 128) by done.
  assert (Ol : okb 7 (1 - f_real l)).
  { unfold okb. change (- (7))%Z with (-7)%Z. rewrite B7, B7'. lra. }
  assert (F1 : fl 1 (f_sub f_one l) (1 - f_real l)).
  { destruct (rnd_fl 0 (1 - f_real l) (1 - f_real l)) as [H1 H2];
      [apply wi_refl; lra|lia|by apply (okb_weaken 7)|].
    destruct One as [F0 E0]. rewrite <- E0 in H1. destruct (sub_real f_one l F0 Fl H1) as [F2 E2].
    split; [done|]. rewrite E2, E0. exact H2. }
  assert (Lh : fl 1 (f_lit 1 2) (1 / 2)) by (by apply (fl_lit 1 2)).
  assert (Oh : okb 7 (1 / 2)).
  { unfold okb. change (- (7))%Z with (-7)%Z. rewrite B7, B7'. lra. }
  assert (Or : okb 14 (1 / 2 * (1 - f_real l))) by (by apply (okb_mul 7 7)).
  assert (Fr : fl 3 (f_mul (f_lit 1 2) (f_sub f_one l)) (1 / 2 * (1 - f_real l))).
  { apply (fl_mul 1 1); [lia|by apply (okb_weaken 14)|done|done]. }
  assert (Pr : 0 < 1 / 2 * (1 - f_real l)) by lra.
  assert (Od : okb 20 (secs d)).
  { split; [right|exact (proj2 Hd1)]. apply Rle_trans with (bpow radix2 (-10)); [by apply bpow_le|].
    change (bpow radix2 (-10)) with (/ 1024). lra. }
  assert (Hsane : (0 < d < MAX_SANE)%N) by (unfold slow, period_sane, MAX_SANE, NANOS_PER_SEC in *; lia).
  assert (Fp : fl 5 (f_div (as_secs_f64 d) (f_mul (f_lit 1 2) (f_sub f_one l))) (secs d / (1 / 2 * (1 - f_real l)))).
  { apply (fl_div 1 3); [lia|by eapply (fl_pos 3); [lia|exact Pr|]|done| |by apply fl_secs|done].
    apply (okb_weaken (20 + 14)); [done|]. apply okb_mul; [done|]. by apply okb_inv. }
  assert (Eg : secs d / (1 / 2 * (1 - f_real l)) = gap (f_real l) d) by (unfold gap; field; lra).
  assert (Hg : / 500 <= secs d / (1 / 2 * (1 - f_real l))).
  { apply Rle_trans with (secs d * 2); [lra|]. apply Rmult_le_compat_l; [lra|].
    replace 2 with (/ (1 / 2)) at 1 by lra. apply Rinv_le; lra. }
  pose proof (fl_from_secs 5 _ _ p ltac:(lia) Hg Fp E') as Hw. rewrite Eg in *. split; [exact Hw|].
  split; [lra|]. split; [|unfold MAX_SANE, NANOS_PER_SEC in *; lia]. split.
  - destruct Hw as (Hw0 & _ & Hw & _). change (5 + 1)%nat with 6%nat in Hw. pose proof (W_pow 6 ltac:(lia)) as [_ H6].
    replace (INR 6) with 6 in H6 by (rewrite INR_IZR_INZ; done). set (v := W ^ 6) in *. clearbody v.
    assert (secs p * v <= secs p * 2) by (apply Rmult_le_compat_l; lra). lra.
  - unfold secs, GIGA. assert (H2 : IZR (Z.of_N p) <= IZR (2 ^ 28) * 1000000000).
    { rewrite <- mult_IZR. apply IZR_le. unfold NANOS_PER_SEC in *. lia. } lra.
Qed.

(** ** C83 *)
Section C83.
  Context (pr : prims) (Hok : prims_ok pr).
  Context (cf : config) (Hsane : sane cf) (Hslow : all_slow cf).

  (** The mean period that is configured for session [s] *)
  Definition configured (s : session) (d : duration) : Prop :=
    if tp_is_mixnode (se_topology s) then d = sc_mean_period (cf_mixnode_session cf)
    else exists c, cf_non_mixnode_session cf = Some c /\ d = sc_mean_period c.

  Theorem C83_wait hist m index dest id data k ns r m' dest' mt :
    let c := CallPostRequest index dest id data k ns r in
    reachable pr cf hist m -> call_ok c -> exec pr m c = Val (m', RespPost dest' (Ok mt)) ->
    exists rel s packets replies d,
      usable m index rel s /\ PPost.queued m rel s packets replies m' /\ configured s d /\
      (* the packets that are now in the queue of the session, and a full queue of the mixnode that replies *)
      let ahead := N.of_nat (length (aq_queue (se_authored s)) + length packets) in
      let full := apc_capacity (sc_authored (cf_mixnode_session cf)) in
      let lambda := f_real (cf_loop_cover_proportion cf) in
      let a := gap lambda d in
      let b := gap lambda (sc_mean_period (cf_mixnode_session cf)) in
      let target := on_average a ahead b full + margin a ahead b full in
      Rabs (secs (rqm_authored_packet_queue_delay mt) - target) <= target / 10000.
  Proof.
    intros c Hr (Hargs & Hns & _) H. pose proof (reachable_ok pr Hok _ _ _ Hr) as Hm. unfold c in H. clear c. cbn [exec] in H.
    pose proof (mx_posting pr cf m (proj1 Hr) Hm) as Hpost.
    apply out_bind_Val in H as ([[m1 d1] res] & H & E). injection E as -> -> ->.
    destruct (post_request_any pr m index dest id data k ns r Hok Hpost Hargs Hns)
      as [E|[(e & E)|(m2 & d2 & mt2 & rel & s & g & bs & ps & E & Hp)]]; rewrite E in H; [done|done|].
    injection H as -> <- ->.
    pose proof (posted_queued pr m _ _ _ _ _ _ _ _ _ _ _ _ _ _ _ Hpost Hp) as Hq.
    pose proof (po_usable _ _ _ _ _ _ _ _ _ _ _ _ _ _ _ _ _ Hp) as Hu.
    pose proof (po_queue_delay _ _ _ _ _ _ _ _ _ _ _ _ _ _ _ _ _ Hp) as Hd.
    pose proof (po_fits _ _ _ _ _ _ _ _ _ _ _ _ _ _ _ _ _ Hp) as [Hfit _].
    rewrite (mo_config _ _ _ Hm) in *.
    assert (Hs : sess_ok pr cf s) by (eapply mx_ok_full; [done|by eapply usable_get]).
    destruct (sess_sane _ _ _ Hsane Hs) as [Hpd Hcap]. destruct (sa_mixnode _ Hsane) as [Hpd' Hcap'].
    destruct Hslow as [Hsl1 Hsl2].
    assert (Hconf : configured s (se_mean_period s) /\ slow (se_mean_period s)).
    { unfold configured. pose proof (so_config _ _ _ Hs) as Hc. destruct (tp_is_mixnode (se_topology s)).
      - by destruct Hc as [_ ->].
      - destruct Hc as (c & Hc & _ & ->). split; [by exists c|by apply (Hsl2 c)]. }
    destruct Hconf as [Hconf Hsl].
    exists rel, s, (map mp_packet ps), (map (surb_entry id) (all_surbs ps)), (se_mean_period s).
    split; [exact Hu|]. split; [exact Hq|]. split; [exact Hconf|]. cbv zeta.
    unfold estimate_authored_packet_queue_delay in Hd. cbv zeta in Hd. cbn [se_mean_period se_set_authored se_authored] in Hd.
    apply out_bind_Val in Hd as (p1 & E1 & Hd). apply out_bind_Val in Hd as (p2 & E2 & Hd).
    destruct (gap_near cf _ _ Hsane Hpd Hsl E1) as (W1 & G1 & R1 & S1).
    destruct (gap_near cf _ _ Hsane Hpd' Hsl1 E2) as (W2 & G2 & R2 & S2).
    set (lambda := f_real _) in *. set (a := gap lambda (se_mean_period s)) in *.
    set (b := gap lambda (sc_mean_period (cf_mixnode_session cf))) in *.
    assert (Hlen : aq_len (AuthoredQueue (aq_config (se_authored s)) (aq_queue (se_authored s) ++ map mp_packet ps)) =
      N.of_nat (length (aq_queue (se_authored s)) + length (map mp_packet ps))).
    { unfold aq_len. cbn [aq_queue]. by rewrite app_length. }
    rewrite Hlen in Hd. set (n := N.of_nat _) in *.
    assert (Hn : (n <= 2 ^ 32)%N).
    { unfold n. destruct Hfit as [Hfit _]. rewrite map_length. lia. }
    set (q := apc_capacity (sc_authored (cf_mixnode_session cf))) in *. clearbody n q.
    apply gamma_near in Hd; [|done..].
    assert (W3 : wi (6 + 6 + 6 + 6) (estimate (secs p1) n (secs p2) q) (estimate a n b q)).
    { apply estimate_wi; [apply secs_pos_real; lia|done|apply secs_pos_real; lia|done|done|done]. }
    destruct (wi_trans 22 (6 + 6 + 6 + 6) _ _ _ Hd W3) as (P1 & P2 & P3 & P4). unfold estimate in P2, P3, P4.
    pose proof (W_pow (22 + (6 + 6 + 6 + 6)) ltac:(lia)) as [W5 W6].
    replace (INR (22 + (6 + 6 + 6 + 6))) with 46 in W6 by (rewrite INR_IZR_INZ; done).
    set (v := W ^ (22 + (6 + 6 + 6 + 6))) in *. clearbody v.
    set (x := secs _) in *. set (y := on_average _ _ _ _ + _) in *. clearbody x y. apply Rabs_le. split; nra.
  Qed.
End C83.

(** With the default configuration, in a session where the node is a mixnode (4/15 s between packets from the
    queue) and in one where it is not (8/3 s): [queue] is the length of the queue after posting. *)
Local Open Scope R_scope.
Definition stock_wait (mixnode : bool) (queue : nat) : R :=
  let n := INR queue in
  if mixnode then 4 / 15 * (n + 50 + 492582 / 100000 + 387809 / 100000 * R_sqrt.sqrt (n + 50))
  else 8 / 3 * (n + 5 + 492582 / 100000 + 387809 / 100000 * R_sqrt.sqrt (n + 1 / 20)).
Lemma stock_slow secret : all_slow (stock secret).
Proof. split; [by vm_compute|]. intros c [= <-]. by vm_compute. Qed.
Lemma stock_gap secret d : gap (f_real (cf_loop_cover_proportion (stock secret))) d = 8 / 3 * secs d.
Proof.
  unfold gap. rewrite quarter. destruct (Req_dec (secs d) 0) as [->|H].
  - unfold Rdiv. rewrite Rinv_0, Rmult_0_r, Rmult_0_l, Rinv_0. ring.
  - field. exact H.
Qed.
Theorem C83_default (pr : prims) (Hok : prims_ok pr) secret hist m index dest id data k ns r m' dest' mt :
  let c := CallPostRequest index dest id data k ns r in
  reachable pr (stock secret) hist m -> call_ok c -> exec pr m c = Val (m', RespPost dest' (Ok mt)) ->
  exists rel s packets replies,
    usable m index rel s /\ PPost.queued m rel s packets replies m' /\
    let w := stock_wait (tp_is_mixnode (se_topology s)) (length (aq_queue (se_authored s)) + length packets) in
    Rabs (secs (rqm_authored_packet_queue_delay mt) - w) <= w / 10000.
Proof.
  intros c Hr Hc E.
  destruct (C83_wait pr Hok (stock secret) (stock_sane secret) (stock_slow secret) _ _ _ _ _ _ _ _ _ _ _ _ Hr Hc E)
    as (rel & s & packets & replies & d & Hu & Hq & Hd & H).
  exists rel, s, packets, replies. split; [exact Hu|]. split; [exact Hq|]. cbv zeta in *. rewrite !stock_gap in H.
  change (apc_capacity (sc_authored (cf_mixnode_session (stock secret)))) with 50%N in H.
  change (sc_mean_period (cf_mixnode_session (stock secret))) with 100000000%N in H.
  set (q := (length _ + length _)%nat) in *. unfold stock_wait. rewrite INR_IZR_INZ, <- nat_N_Z.
  change (8 / 3 * secs 100000000) with (8 / 3 * (100000000 / 1000000000)) in H.
  unfold configured in Hd. destruct (tp_is_mixnode (se_topology s)).
  - change (sc_mean_period (cf_mixnode_session (stock secret))) with 100000000%N in Hd. subst d.
    change (8 / 3 * secs 100000000) with (8 / 3 * (100000000 / 1000000000)) in H.
    replace (8 / 3 * (100000000 / 1000000000)) with (4 / 15) in H by field.
    fold (estimate (4 / 15) (N.of_nat q) (4 / 15) 50) in H. rewrite <- estimate_max in H by lra. cbv zeta in H.
    replace (4 / 15 / (4 / 15)) with 1 in H by field. change (IZR (Z.of_N 50)) with 50 in H.
    replace (1 * 1 * 1 * 50) with 50 in H by ring. rewrite Rmult_1_l in H.
    set (g := R_sqrt.sqrt _) in *. set (n := IZR (Z.of_N (N.of_nat q))) in *.
    replace ((492582 / 100000 + 387809 / 100000 * g + n + 50) * (4 / 15))
      with (4 / 15 * (n + 50 + 492582 / 100000 + 387809 / 100000 * g)) in H by ring. exact H.
  - destruct Hd as (c0 & [= <-] & ->). change (sc_mean_period _) with 1000000000%N in H.
    change (8 / 3 * secs 1000000000) with (8 / 3 * (1000000000 / 1000000000)) in H.
    replace (8 / 3 * (100000000 / 1000000000)) with (4 / 15) in H by field.
    replace (8 / 3 * (1000000000 / 1000000000)) with (8 / 3) in H by field.
    fold (estimate (8 / 3) (N.of_nat q) (4 / 15) 50) in H. rewrite <- estimate_max in H by lra. cbv zeta in H.
    change (IZR (Z.of_N 50)) with 50 in H. replace (4 / 15 / (8 / 3)) with (1 / 10) in H by field.
    replace (1 / 10 * (1 / 10) * (1 / 10) * 50) with (1 / 20) in H by field.
    replace (1 / 10 * 50) with 5 in H by field.
    set (g := R_sqrt.sqrt _) in *. set (n := IZR (Z.of_N (N.of_nat q))) in *.
    replace ((492582 / 100000 + 387809 / 100000 * g + n + 5) * (8 / 3))
      with (8 / 3 * (n + 5 + 492582 / 100000 + 387809 / 100000 * g)) in H by ring. exact H.
Qed.
Print Assumptions C83_wait.
Print Assumptions C83_default.
