(** C83, continued: that the estimate is close to a 99.995th percentile, as the comment in the code says. The packets
    are counted against a clock that ticks at the larger of the two rates. *)
From Coq Require Import Reals Lra Psatz.
From Flocq Require Import Core.Core IEEE754.BinarySingleNaN.
From Verif Require Export PSlow.
Local Open Scope R_scope.

(** ** Ticks of the faster clock *)
Definition term (y : R) (i : nat) : R := y ^ i / INR (fact i).
Definition pois (y : R) (i : nat) : R := exp (- y) * term y i.
Fixpoint rsum (f : nat -> R) (i n : nat) : R :=
  match n with 0%nat => 0 | S n => f i + rsum f (S i) n end.
(** The probability that after [j] ticks [n] slow events, of which one happens at a tick in ten, and [k] fast ones after
    these, one at each tick, have not all happened *)
Fixpoint undone (k n : nat) : nat -> R :=
  match n with
  | 0%nat => fun j => if (j <? k)%nat then 1 else 0
  | S n => fix row j := match j with 0%nat => 1 | S j => (undone k n j + 9 * row j) / 10 end
  end.
Lemma undone_S k n j : undone k (S n) (S j) = (undone k n j + 9 * undone k (S n) j) / 10.
Proof. done. Qed.
Lemma undone_01 k n j : 0 <= undone k n j <= 1.
Proof.
  revert j. induction n as [|n IH]; intros j.
  - cbn [undone]. destruct (j <? k)%nat; lra.
  - induction j as [|j IHj]; [cbn [undone]; lra|]. rewrite undone_S. specialize (IH j). lra.
Qed.
Lemma rsum_app f i n m : rsum f i (n + m) = rsum f i n + rsum f (i + n) m.
Proof.
  revert i. induction n as [|n IH]; intros i; cbn [rsum Nat.add].
  - rewrite Nat.add_0_r. ring.
  - rewrite IH. replace (S i + n)%nat with (i + S n)%nat by lia. ring.
Qed.
Lemma rsum_snoc f i n : rsum f i (S n) = rsum f i n + f (i + n)%nat.
Proof. replace (S n) with (n + 1)%nat by lia. rewrite rsum_app. cbn [rsum]. ring. Qed.
Lemma rsum_le f g i n : (forall j, f j <= g j) -> rsum f i n <= rsum g i n.
Proof. intros H. revert i. induction n as [|n IH]; intros i; cbn [rsum]; [lra|]. specialize (H i). specialize (IH (S i)). lra. Qed.
Lemma rsum_ext f g i n : (forall j, f j = g j) -> rsum f i n = rsum g i n.
Proof. intros H. revert i. induction n as [|n IH]; intros i; cbn [rsum]; [done|]. by rewrite H, IH. Qed.
Lemma rsum_scal c f i n : rsum (fun j => c * f j) i n = c * rsum f i n.
Proof. revert i. induction n as [|n IH]; intros i; cbn [rsum]; [ring|]. rewrite IH. ring. Qed.
Lemma rsum_minus f g i n : rsum (fun j => f j - g j) i n = rsum f i n - rsum g i n.
Proof. revert i. induction n as [|n IH]; intros i; cbn [rsum]; [ring|]. rewrite IH. ring. Qed.
Lemma rsum_sum f n : sum_f_R0 f n = rsum f 0 (S n).
Proof. induction n as [|n IH]; [cbn; ring|]. rewrite rsum_snoc, <- IH. done. Qed.
Lemma term_pos y i : 0 <= y -> 0 <= term y i.
Proof. intros Hy. apply Rmult_le_pos; [by apply Rfunctions.pow_le|]. left. apply Rinv_0_lt_compat, INR_fact_lt_0. Qed.
Lemma term_S y i : term y (S i) = term y i * y / INR (S i).
Proof.
  unfold term. rewrite fact_simpl, mult_INR. cbn [Rpow_def.pow]. field. split; [apply INR_fact_neq_0|apply not_0_INR; lia].
Qed.

(** ** A solution from above *)
Definition ended (k n J : nat) (y : R) : R := rsum (fun j => pois y j * (1 - undone k n j)) 0 J.
Lemma ended_lim k n J y : derivable_pt_lim (ended k (S n) (S J)) y
  (rsum (fun j => pois y j * ((1 - undone k n j) - (1 - undone k (S n) j)) / 10) 0 (S J) - pois y J * (1 - undone k (S n) (S J))).
Proof.
  induction J as [|J IH].
  - unfold ended. cbn [rsum]. rewrite undone_S. replace (undone k (S n) 0) with 1 by done.
    match goal with |- derivable_pt_lim _ _ ?v => replace v with 0 by field end.
    intros e He. exists (mkposreal 1 Rlt_0_1). intros h Hh _.
    match goal with |- Rabs ?v < _ => replace v with 0 by (field; done) end. rewrite Rabs_R0. exact He.
  - set (f := fun z => pois z (S J) * (1 - undone k (S n) (S J))).
    assert (F : derivable_pt_lim f y ((pois y J - pois y (S J)) * (1 - undone k (S n) (S J)))).
    { set (c := 1 - undone k (S n) (S J)) in *. intros e He.
      pose proof (derivable_pt_lim_scal _ c y _ (poisson_lim (S J) y)) as H. cbv iota in H.
      destruct (H e He) as [d Hd]. exists d. intros h Hh Hl. specialize (Hd h Hh Hl). unfold mult_real_fct in Hd.
      unfold f, pois, term. rewrite !(Rmult_comm _ c). exact Hd. }
    pose proof (derivable_pt_lim_plus _ f y _ _ IH F) as M.
    assert (E : forall z, ended k (S n) (S (S J)) z = ended k (S n) (S J) z + f z).
    { intros z. unfold ended. rewrite (rsum_snoc _ 0 (S J)). done. }
    match type of M with derivable_pt_lim _ _ ?v => match goal with |- derivable_pt_lim _ _ ?w => replace w with v end end.
    + intros e He. destruct (M e He) as [d Hd]. exists d. intros h Hh Hl. specialize (Hd h Hh Hl). rewrite !E. exact Hd.
    + rewrite (rsum_snoc _ 0 (S J)). cbn [Nat.add]. rewrite (undone_S k n (S J)). field.
Qed.
Lemma ended_0 k n J : ended k (S n) J 0 = 0.
Proof.
  unfold ended. destruct J as [|J]; [done|]. cbn [rsum]. replace (undone k (S n) 0) with 1 by done.
  assert (H : forall i m, rsum (fun j => pois 0 j * (1 - undone k (S n) j)) (S i) m = 0).
  { intros i m. revert i. induction m as [|m IH]; intros i; cbn [rsum]; [done|]. rewrite IH. unfold pois, term.
    rewrite pow_i by lia. unfold Rdiv. ring. }
  rewrite H. ring.
Qed.
Lemma pois_sum y n : 0 <= y -> rsum (pois y) 0 n <= 1.
Proof.
  intros Hy. destruct n as [|n]; [cbn; lra|]. unfold pois. rewrite rsum_scal, <- rsum_sum.
  pose proof (exp_sum y n Hy) as H. assert (P : 0 < exp (- y)) by apply exp_pos.
  replace 1 with (exp (- y) * exp y) by (rewrite <- exp_plus, Rplus_opp_l; apply exp_0).
  apply Rmult_le_compat_l; [lra|exact H].
Qed.
Lemma late_pois k y : late k y = rsum (pois y) 0 k.
Proof. destruct k as [|k]; [done|]. cbn [late]. by rewrite rsum_sum. Qed.
Lemma late_ended k J y : 0 <= y -> (k <= J)%nat -> late k y <= 1 - ended k 0 J y.
Proof.
  intros Hy HJ. assert (E : ended k 0 J y = rsum (pois y) 0 J - rsum (pois y) 0 k).
  { clear Hy. induction HJ as [|J HJ IH].
    - unfold ended. assert (H : forall m i, (i + m <= k)%nat -> rsum (fun j => pois y j * (1 - undone k 0 j)) i m = 0).
      { induction m as [|m IH]; intros i Hi; cbn [rsum]; [done|]. rewrite IH by lia. cbn [undone].
        destruct (Nat.ltb_spec i k); [ring|lia]. }
      rewrite H by lia. ring.
    - unfold ended in *. rewrite !rsum_snoc, IH. cbn [Nat.add undone]. destruct (Nat.ltb_spec J k); [lia|]. ring. }
  rewrite E, late_pois. pose proof (pois_sum y J Hy). lra.
Qed.
Lemma waiting_ended b g k n J x : waiting b g -> (k <= S J)%nat -> 0 <= x <= b ->
  g (repeat (3 / 8) n ++ repeat (15 / 4) k) x <= 1 - ended k n (S J) (15 / 4 * x).
Proof.
  intros Hg HJ. revert x. induction n as [|n IH]; intros x Hx.
  - cbn [repeat app]. rewrite (C83_same b g k (15 / 4) x Hg) by lra. apply late_ended; lra || lia.
  - cbn [repeat app]. set (l := repeat (3 / 8) n ++ repeat (15 / 4) k) in *.
    set (d := fun y => rsum (fun j => pois y j * ((1 - undone k n j) - (1 - undone k (S n) j)) / 10) 0 (S J)
      - pois y J * (1 - undone k (S n) (S J))).
    apply (waiting_below _ (fun z => 1 - ended k (S n) (S J) (15 / 4 * z)) (fun y => 3 / 8 * (g l y - g (3 / 8 :: l) y))
      (fun y => 0 - d (15 / 4 * y) * (15 / 4)) (g l) (fun y => 1 - ended k n (S J) (15 / 4 * y)) (3 / 8) b); [lra| | |done].
    + destruct (Hg x Hx) as [_ G]. rewrite (proj1 (G _ l)), Rmult_0_r, ended_0. lra.
    + intros y Hy. split; [apply (proj2 (Hg y Hy))|]. split.
      { apply (derivable_pt_lim_minus (fun _ => 1) (fun z => ended k (S n) (S J) (15 / 4 * z))); [apply derivable_pt_lim_const|].
        apply (derivable_pt_lim_comp (fun z => 15 / 4 * z) (ended k (S n) (S J)) y (15 / 4)); [apply line_lim|].
        apply ended_lim. }
      split; [lra|]. split; [|by apply IH]. unfold d. set (v := 15 / 4 * y).
      rewrite (rsum_ext _ (fun j => / 10 * (pois v j * (1 - undone k n j) - pois v j * (1 - undone k (S n) j)))) by (intros j; field).
      rewrite rsum_scal, rsum_minus. fold (ended k n (S J) v) (ended k (S n) (S J) v).
      assert (0 <= pois v J * (1 - undone k (S n) (S J))).
      { apply Rmult_le_pos; [apply Rmult_le_pos; [left; apply exp_pos|apply term_pos; unfold v; lra]|]. pose proof (undone_01 k (S n) (S J)). lra. }
      lra.
Qed.

(** ** Waiting longer is less likely *)
Lemma slope_le2 (f f' : R -> R) b x0 x : (forall y, 0 <= y <= b -> derivable_pt_lim f y (f' y) /\ f' y <= 0) ->
  0 <= x0 <= x -> x <= b -> f x <= f x0.
Proof.
  intros H H0 Hx. destruct (Req_dec x x0) as [->|N]; [lra|].
  destruct (MVT_cor3 f f' x0 x) as (c & Hc0 & Hcx & E); [lra|intros y Hy0 Hyx; apply H; lra|].
  destruct (H c) as [_ L]; [lra|]. nra.
Qed.
Lemma waiting_more b g r rates x : waiting b g -> Forall (fun r => 0 < r) (r :: rates) -> 0 <= x <= b ->
  g rates x <= g (r :: rates) x.
Proof.
  intros Hg Hr. revert r Hr x. induction rates as [|r' rates IH]; intros r Hr x Hx; apply list.Forall_cons in Hr as [Hr Hrs].
  - rewrite (proj1 (Hg x Hx)). apply (waiting_below (fun _ => 0) _ (fun _ => 0) (fun y => r * (g [] y - g [r] y))
      (fun _ => 0) (g []) r b); [done| | |done].
    + destruct (Hg x Hx) as [_ G]. rewrite (proj1 (G r [])). lra.
    + intros y Hy. split; [apply derivable_pt_lim_const|]. split; [apply (proj2 (Hg y Hy))|]. rewrite (proj1 (Hg y Hy)). lra.
  - apply (waiting_below _ _ (fun y => r' * (g rates y - g (r' :: rates) y)) (fun y => r * (g (r' :: rates) y - g (r :: r' :: rates) y))
      (g (r' :: rates)) (g (r' :: rates)) r b); [done| | |done].
    + destruct (Hg x Hx) as [_ G]. rewrite (proj1 (G r' rates)), (proj1 (G r (r' :: rates))). lra.
    + intros y Hy. split; [apply (proj2 (Hg y Hy))|]. split; [apply (proj2 (Hg y Hy))|].
      pose proof (IH r' Hrs y Hy). apply list.Forall_cons in Hrs as [Hr' _]. split; [nra|]. lra.
Qed.
Lemma waiting_mono b g r rates x0 x : waiting b g -> Forall (fun r => 0 < r) (r :: rates) -> 0 <= x0 <= x -> x <= b ->
  g (r :: rates) x <= g (r :: rates) x0.
Proof.
  intros Hg Hr H0 Hx. apply (slope_le2 _ (fun y => r * (g rates y - g (r :: rates) y)) b); [|done|done].
  intros y Hy. split; [apply (proj2 (Hg y Hy))|]. pose proof (waiting_more b g r rates y Hg Hr Hy).
  apply list.Forall_cons in Hr as [Hr _]. nra.
Qed.
Lemma late_mono n x0 x : 0 <= x0 <= x -> late n x <= late n x0.
Proof.
  intros H. destruct n as [|n]; [cbn; lra|].
  apply (slope_le2 _ (fun y => late n y - late (S n) y) x); [|done|lra]. intros y Hy. split; [apply late_lim|].
  rewrite !late_pois, rsum_snoc. assert (0 <= pois y (0 + n)); [|lra].
  apply Rmult_le_pos; [left; apply exp_pos|apply term_pos; lra].
Qed.

(** ** Sums outside a window of ticks *)
Lemma term_low y c i : 0 <= y -> 0 <= c -> (c + 1) * INR i <= c * y -> rsum (term y) 0 i <= c * term y i.
Proof.
  intros Hy Hc H. induction i as [|i IH]; [cbn [rsum]; apply Rmult_le_pos; [done|by apply term_pos]|].
  rewrite rsum_snoc. cbn [Nat.add]. rewrite S_INR in H. specialize (IH ltac:(nra)). rewrite term_S.
  pose proof (term_pos y i Hy) as P. assert (Pi : 0 < INR (S i)) by (apply lt_0_INR; lia).
  apply (Rmult_le_reg_r (INR (S i))); [done|].
  replace (c * (term y i * y / INR (S i)) * INR (S i)) with (term y i * (c * y)) by (field; lra).
  apply Rle_trans with (term y i * ((c + 1) * INR (S i))); [|apply Rmult_le_compat_l; [done|rewrite S_INR; lra]]. nra.
Qed.
Lemma term_high y c i : 0 <= y -> 1 <= c -> c * y <= (c - 1) * INR (S i) -> exp y <= rsum (term y) 0 i + c * term y i.
Proof.
  intros Hy Hc H. set (B := rsum (term y) 0 i + c * term y i).
  assert (Step : forall m, rsum (term y) 0 (i + m) + c * term y (i + m) <= B).
  { induction m as [|m IH]; [rewrite Nat.add_0_r; unfold B; lra|]. eapply Rle_trans; [|exact IH].
    replace (i + S m)%nat with (S (i + m)) by lia. rewrite rsum_snoc. cbn [Nat.add]. rewrite term_S. set (j := (i + m)%nat).
    pose proof (term_pos y j Hy) as P. assert (Pj : 0 < INR (S j)) by (apply lt_0_INR; lia).
    assert (L : INR (S i) <= INR (S j)) by (apply le_INR; lia).
    assert (X : c * (term y j * y / INR (S j)) <= (c - 1) * term y j); [|lra].
    apply (Rmult_le_reg_r (INR (S j))); [done|].
    replace (c * (term y j * y / INR (S j)) * INR (S j)) with (term y j * (c * y)) by (field; lra).
    replace ((c - 1) * term y j * INR (S j)) with (term y j * ((c - 1) * INR (S j))) by ring.
    apply Rmult_le_compat_l; [done|]. nra. }
  apply Rnot_lt_le. intros C. unfold exp in C. destruct (exist_exp y) as [l Hl]. cbn [proj1_sig] in C.
  destruct (Hl (l - B)) as [N HN]; [lra|]. specialize (HN (i + N)%nat ltac:(lia)).
  rewrite (sum_eq _ (term y)) in HN by (intros j _; unfold term, Rdiv; apply Rmult_comm).
  rewrite rsum_sum in HN. specialize (Step (S N)). replace (i + S N)%nat with (S (i + N)) in Step by lia.
  pose proof (term_pos y (S (i + N)) Hy) as P. assert (rsum (term y) 0 (S (i + N)) <= B) by nra.
  unfold R_dist in HN. rewrite Rabs_left1 in HN by lra. lra.
Qed.

(** ** Fixed-point arithmetic *)
Definition unit_a : Z := 1073741824.
Definition unit_t : Z := 4096.
(** Upper bounds for [undone] *)
Fixpoint above (f : nat -> R) (j : nat) (l : list Z) : Prop :=
  match l with [] => True | z :: l => f j * IZR unit_a <= IZR z /\ above f (S j) l end.
Fixpoint next_row (cur : Z) (l : list Z) : list Z :=
  cur :: match l with [] => [] | z :: l => next_row ((z + 9 * cur + 9) / 10) l end.
Lemma above_next k n l : forall j cur, above (undone k n) j l -> undone k (S n) j * IZR unit_a <= IZR cur ->
  above (undone k (S n)) j (next_row cur l).
Proof.
  induction l as [|z l IH]; intros j cur Hl Hc; cbn [next_row above]; [done|]. destruct Hl as [Hz Hl]. split; [done|].
  apply IH; [done|]. rewrite undone_S.
  assert (D : IZR (z + 9 * cur) <= 10 * IZR ((z + 9 * cur + 9) / 10)).
  { rewrite <- mult_IZR. apply IZR_le. pose proof (Z.div_mod (z + 9 * cur + 9) 10 ltac:(lia)).
    pose proof (Z.mod_pos_bound (z + 9 * cur + 9) 10 ltac:(lia)). lia. }
  rewrite plus_IZR, mult_IZR in D. lra.
Qed.
Definition first_row (k m : nat) : list Z := repeat unit_a k ++ repeat 0%Z m.
Lemma above_first k m : above (undone k 0) 0 (first_row k m).
Proof.
  unfold first_row. assert (H0 : forall m j, (k <= j)%nat -> above (undone k 0) j (repeat 0%Z m)).
  { clear m. induction m as [|m IH]; intros j Hj; cbn [repeat above]; [done|]. split; [|apply IH; lia].
    cbn [undone]. destruct (Nat.ltb_spec j k); [lia|]. lra. }
  assert (H : forall i j, (i + j = k)%nat -> above (undone k 0) j (repeat unit_a i ++ repeat 0%Z m)).
  { induction i as [|i IH]; intros j Hj; cbn [repeat app above]; [apply H0; lia|]. split; [|apply IH; lia].
    pose proof (undone_01 k 0 j). assert (0 < IZR unit_a) by (by apply (IZR_lt 0)). nra. }
  apply H. lia.
Qed.
Lemma above_drop f i : forall j l, above f j l -> above f (j + i) (drop i l).
Proof.
  induction i as [|i IH]; intros j l H; [by rewrite Nat.add_0_r|]. destruct l as [|z l]; [done|]. cbn [drop].
  replace (j + S i)%nat with (S j + i)%nat by lia. apply IH. apply H.
Qed.
(** The window: the terms relative to the first *)
Fixpoint sweep (Y : Z) (l : list Z) (j lo hi sl acc : Z) : Z * Z * Z :=
  match l with
  | [] => (hi, sl, acc)
  | z :: l => let d := (100 * (j + 1))%Z in
      sweep Y l (j + 1) (lo * Y / d) (hi * Y / d + 1) (sl + lo) (acc + hi * z)
  end%Z.
Lemma sweep_spec Y c f l : (0 <= Y)%Z -> 0 <= c -> (forall j, 0 <= f j) -> forall j lo hi sl acc h s a,
  let y := IZR Y / 100 in
  sweep Y l (Z.of_nat j) lo hi sl acc = (h, s, a) -> above f j l -> (0 <= lo)%Z ->
  IZR lo <= c * term y j <= IZR hi ->
  c * term y (j + length l) <= IZR h /\
  IZR s <= IZR sl + c * rsum (term y) j (length l) /\
  c * rsum (fun i => term y i * f i) j (length l) * IZR unit_a <= IZR a - IZR acc.
Proof.
  intros HY Hc Hf. induction l as [|z l IH]; intros j lo hi sl acc h s a y E Ha Hlo Hj; cbn [sweep] in E.
  - injection E as <- <- <-. cbn [length rsum]. rewrite Nat.add_0_r. lra.
  - destruct Ha as [Hz Ha]. replace (Z.of_nat j + 1)%Z with (Z.of_nat (S j)) in E by lia.
    set (d := (100 * Z.of_nat (S j))%Z) in *. assert (Hd : (0 < d)%Z) by lia.
    assert (Hy : 0 <= y) by (unfold y; apply (IZR_le 0) in HY; lra).
    assert (Hd' : 0 < IZR d) by (by apply (IZR_lt 0)). assert (HY' : 0 <= IZR Y) by (by apply (IZR_le 0)).
    assert (Et : c * term y (S j) = c * term y j * IZR Y / IZR d).
    { rewrite term_S. unfold y, d. rewrite mult_IZR, <- INR_IZR_INZ. field. apply not_0_INR. lia. }
    assert (Hlo' : IZR lo * IZR Y / IZR d <= c * term y (S j) <= IZR hi * IZR Y / IZR d).
    { rewrite Et. split; (apply Rmult_le_compat_r; [left; by apply Rinv_0_lt_compat|]); apply Rmult_le_compat_r; lra. }
    specialize (IH (S j) _ _ _ _ _ _ _ E Ha). cbv zeta in IH. fold y in IH.
    destruct IH as (I1 & I2 & I3).
    + apply Z.div_pos; [nia|done].
    + split.
      * eapply Rle_trans; [|exact (proj1 Hlo')]. apply (Rmult_le_reg_r (IZR d)); [done|].
        replace (IZR lo * IZR Y / IZR d * IZR d) with (IZR lo * IZR Y) by (field; lra).
        rewrite <- !mult_IZR. apply IZR_le. rewrite Z.mul_comm. by apply Z.mul_div_le.
      * eapply Rle_trans; [exact (proj2 Hlo')|]. apply (Rmult_le_reg_r (IZR d)); [done|].
        replace (IZR hi * IZR Y / IZR d * IZR d) with (IZR hi * IZR Y) by (field; lra).
        rewrite <- !mult_IZR. apply IZR_le. pose proof (Z.div_mod (hi * Y) d ltac:(lia)).
        pose proof (Z.mod_pos_bound (hi * Y) d Hd). nia.
    + cbn [length rsum]. replace (j + S (length l))%nat with (S j + length l)%nat by lia. split; [exact I1|].
      rewrite plus_IZR in I2, I3. rewrite mult_IZR in I3. split; [lra|].
      assert (X : c * (term y j * f j) * IZR unit_a <= IZR hi * IZR z).
      { replace (c * (term y j * f j) * IZR unit_a) with (c * term y j * (f j * IZR unit_a)) by ring.
        apply Rmult_le_compat; [apply Rmult_le_pos; [done|by apply term_pos]| |lra|done].
        apply Rmult_le_pos; [apply Hf|]. by apply (IZR_le 0). }
      rewrite Rmult_plus_distr_l, Rmult_plus_distr_r. lra.
Qed.
(** That the events have not all happened after [Y] hundredths of a tick: at most [num] in a million. The window of
    ticks begins with [j]. *)
Definition likely (Y : Z) (row : list Z) (j : nat) (num : Z) : bool :=
  let w := drop j row in
  let e := Z.of_nat (length row) in
  let '(h, s, a) := sweep Y w (Z.of_nat j) unit_t unit_t 0 0 in
  ((0 <=? Y) && (j <=? length row)%nat && (900 * Z.of_nat j <=? 8 * Y) && (8 * Y <=? 700 * (e + 1)) &&
   (1000000 * (unit_a * unit_t * 8 + a + unit_a * (8 * h)) <=? num * (unit_a * s)))%Z.
Lemma likely_spec Y row j num k n : likely Y row j num = true -> above (undone k n) 0 row ->
  (0 < j)%nat -> (0 < Y)%Z -> (0 <= num)%Z -> 1 - ended k n (length row) (IZR Y / 100) <= IZR num / 1000000.
Proof.
  unfold likely. destruct (sweep Y _ _ unit_t unit_t 0 0) as [[h s] a] eqn:E. intros H Ha Hj HY0 Hn0.
  apply andb_prop in H as [H Hmain]. apply andb_prop in H as [H Hhigh]. apply andb_prop in H as [H Hlow].
  apply andb_prop in H as [HY Hje]. apply Z.leb_le in Hmain, Hhigh, Hlow, HY. apply Nat.leb_le in Hje.
  set (y := IZR Y / 100) in *. assert (Hy : 0 < y) by (unfold y; apply (IZR_lt 0) in HY0; lra).
  set (f := undone k n) in *. assert (Hf : forall i, 0 <= f i <= 1) by (intros i; apply undone_01).
  assert (Tj : 0 < term y j).
  { apply Rmult_lt_0_compat; [by apply pow_lt|]. apply Rinv_0_lt_compat, INR_fact_lt_0. }
  set (c := IZR unit_t / term y j).
  assert (Hc : 0 < c) by (apply Rmult_lt_0_compat; [by apply (IZR_lt 0)|by apply Rinv_0_lt_compat]).
  assert (Ec : c * term y j = IZR unit_t) by (unfold c; field; lra).
  pose proof (above_drop f j 0 row Ha) as Hw. cbn [Nat.add] in Hw.
  destruct (sweep_spec Y c f (drop j row) HY ltac:(lra) (fun i => proj1 (Hf i)) j _ _ _ _ _ _ _ E Hw) as (S1 & S2 & S3);
    [done|fold y; lra|]. fold y in S1, S2, S3.
  set (w := length (drop j row)) in *. assert (Ew : length row = (j + w)%nat) by (unfold w; rewrite drop_length; lia).
  rewrite Ew in *. clear Ew Hw E.
  assert (Low : rsum (term y) 0 j <= 8 * term y j).
  { apply term_low; [lra|lra|]. rewrite INR_IZR_INZ. apply IZR_le in Hlow. rewrite !mult_IZR in Hlow. unfold y. lra. }
  assert (High : exp y <= rsum (term y) 0 (j + w) + 8 * term y (j + w)).
  { apply term_high; [lra|lra|]. rewrite INR_IZR_INZ. apply IZR_le in Hhigh. rewrite !mult_IZR in Hhigh. unfold y.
    replace (Z.of_nat (S (j + w))) with (Z.of_nat (j + w) + 1)%Z by lia. lra. }
  assert (Den : IZR s <= c * exp y).
  { rewrite Rplus_0_l in S2. eapply Rle_trans; [exact S2|]. apply Rmult_le_compat_l; [lra|].
    destruct (j + w)%nat as [|m] eqn:Em; [lia|].
    apply Rle_trans with (rsum (term y) 0 (j + w)); [|rewrite Em, <- rsum_sum; apply exp_sum; lra].
    rewrite rsum_app. cbn [Nat.add]. assert (0 <= rsum (term y) 0 j); [|lra].
    clear -Hy. generalize 0%nat. induction j as [|j IH]; intros i; cbn [rsum]; [lra|]. specialize (IH (S i)).
    pose proof (term_pos y i). lra. }
  (* in terms of [exp y] *)
  assert (Num : exp y * (1 - ended k n (j + w) y) <=
    8 * term y j + rsum (fun i => term y i * f i) j w + 8 * term y (j + w)).
  { assert (Ee : exp y * ended k n (j + w) y = rsum (term y) 0 (j + w) - rsum (fun i => term y i * f i) 0 (j + w)).
    { unfold ended, pois. rewrite (rsum_ext _ (fun i => exp (- y) * (term y i - term y i * f i))) by (intros i; unfold f; ring).
      rewrite rsum_scal, rsum_minus, <- Rmult_assoc, <- exp_plus, Rplus_opp_r, exp_0. ring. }
    rewrite Rmult_minus_distr_l, Ee, Rmult_1_r, (rsum_app (fun i => term y i * f i)). cbn [Nat.add].
    assert (rsum (fun i => term y i * f i) 0 j <= rsum (term y) 0 j).
    { apply rsum_le. intros i. pose proof (term_pos y i). specialize (Hf i). nra. }
    lra. }
  apply IZR_le in Hmain. rewrite !mult_IZR, !plus_IZR, !mult_IZR in Hmain.
  assert (Ua : 0 < IZR unit_a) by (by apply (IZR_lt 0)). set (ua := IZR unit_a) in *. set (ut := IZR unit_t) in *.
  assert (Pe : 0 < exp y) by apply exp_pos. set (P := 1 - ended k n (j + w) y) in *.
  apply (Rmult_le_compat_l c) in Num; [|lra]. rewrite Rminus_0_r in S3.
  assert (N1 : c * (exp y * P) * ua <= ua * ut * 8 + IZR a + ua * (8 * IZR h)).
  { apply (Rmult_le_compat_r ua) in Num; [|lra]. eapply Rle_trans; [exact Num|]. rewrite !Rmult_plus_distr_l, !Rmult_plus_distr_r.
    replace (c * (8 * term y j) * ua) with (ua * (c * term y j) * 8) by ring. rewrite Ec. fold ut.
    assert (c * (8 * term y (j + w)) * ua <= ua * (8 * IZR h)); [|lra].
    replace (c * (8 * term y (j + w)) * ua) with (ua * (8 * (c * term y (j + w)))) by ring.
    apply Rmult_le_compat_l; lra. }
  assert (N2 : 1000000 * (c * (exp y * P) * ua) <= IZR num * (ua * IZR s)) by lra.
  assert (N3 : IZR num * (ua * IZR s) <= IZR num * (ua * (c * exp y))).
  { apply Rmult_le_compat_l; [by apply (IZR_le 0)|]. apply Rmult_le_compat_l; lra. }
  assert (Q : 0 < 1000000 * (c * exp y * ua)).
  { apply Rmult_lt_0_compat; [lra|]. apply Rmult_lt_0_compat; [|done]. by apply Rmult_lt_0_compat. }
  apply (Rmult_le_reg_l _ _ _ Q).
  replace (1000000 * (c * exp y * ua) * P) with (1000000 * (c * (exp y * P) * ua)) by ring.
  replace (1000000 * (c * exp y * ua) * (IZR num / 1000000)) with (IZR num * (ua * (c * exp y))) by field. lra.
Qed.

(** ** The default configuration *)
(** The window: 5.5 standard deviations below and 6.5 above the average *)
Definition window_from (Y : Z) : nat := Z.to_nat ((Y - 55 * Z.sqrt Y) / 100).
Definition window_to (Y : Z) : nat := Z.to_nat ((Y + 65 * Z.sqrt Y) / 100).
Definition within (Y : Z) (row : list Z) (num : Z) : bool :=
  likely Y (take (window_to Y) row) (window_from Y) num && (0 <? window_from Y)%nat && (0 <? Y)%Z.
(** [q] packets of a client: at most the estimate, in ten-thousandths of 8/3 s *)
Definition wait_low (q : nat) : Z :=
  (10000 * Z.of_nat q + 99258 + 387809 * Z.sqrt ((100 * Z.of_nat q + 5) * 1000000) / 100000)%Z.
(** ten ticks for each 8/3 s *)
Definition client_ticks (q : nat) : Z := (wait_low q * 9999 / 100000)%Z.
Definition client_ok (q : nat) (row : list Z) : bool :=
  let Y := client_ticks q in within Y row 70 && (50 <=? window_to Y)%nat && (window_to Y <=? length row)%nat.
Fixpoint clients_ok (q m : nat) (row : list Z) : bool :=
  match m with
  | 0%nat => true
  | S m => client_ok q row && clients_ok (S q) m (next_row unit_a row)
  end.
(** [n] packets of a mixnode *)
Definition mixnode_ticks (n : nat) : Z :=
  ((10000 * Z.of_nat n + 49258 + 387809 * Z.sqrt (Z.of_nat n * 100000000) / 100000) * 9999 / 1000000)%Z.
Definition mixnode_ok (n : nat) : bool :=
  let Y := mixnode_ticks n in within Y (first_row n (window_to Y - n)) 51 && (n <=? window_to Y)%nat.
Lemma all_mixnodes_ok : forallb mixnode_ok (seq 50 51) = true.
Proof. by vm_compute. Qed.
Lemma all_clients_ok : clients_ok 0 26 (first_row 50 670) = true.
Proof. by vm_compute. Qed.
Lemma wait_low_le q : IZR (wait_low q) <=
  10000 * (INR q + 5 + 492582 / 100000 + 387809 / 100000 * R_sqrt.sqrt (INR q + 1 / 20)).
Proof.
  unfold wait_low. rewrite !plus_IZR, mult_IZR, <- INR_IZR_INZ. set (a := ((100 * Z.of_nat q + 5) * 1000000)%Z).
  assert (Ha : (0 <= a)%Z) by lia. assert (S1 : IZR (Z.sqrt a) <= 10000 * R_sqrt.sqrt (INR q + 1 / 20)).
  { replace (10000 * R_sqrt.sqrt (INR q + 1 / 20)) with (R_sqrt.sqrt (IZR a)).
    - rewrite <- (sqrt_square (IZR (Z.sqrt a))) by (apply (IZR_le 0), Z.sqrt_nonneg). apply sqrt_le_1.
      + rewrite <- mult_IZR. apply (IZR_le 0). pose proof (Z.sqrt_nonneg a). nia.
      + by apply (IZR_le 0).
      + rewrite <- mult_IZR. apply IZR_le. apply (Z.sqrt_spec a Ha).
    - assert (E : IZR a = (10000 * 10000) * (INR q + 1 / 20)).
      { unfold a. rewrite mult_IZR, plus_IZR, mult_IZR, <- INR_IZR_INZ. field. }
      rewrite E, sqrt_mult; [|lra|pose proof (pos_INR q); lra]. rewrite (sqrt_square 10000) by lra. ring. }
  assert (S2 : IZR (387809 * Z.sqrt a / 100000) <= 387809 / 100000 * IZR (Z.sqrt a)).
  { apply (Rmult_le_reg_r 100000); [lra|]. replace (387809 / 100000 * IZR (Z.sqrt a) * 100000) with (387809 * IZR (Z.sqrt a)) by field.
    rewrite <- !mult_IZR. apply IZR_le. rewrite Z.mul_comm. apply Z.mul_div_le. lia. }
  lra.
Qed.
Lemma above_take f i : forall j l, above f j l -> above f j (take i l).
Proof.
  induction i as [|i IH]; intros j l H; [done|]. destruct l as [|z l]; [done|]. cbn [take above]. destruct H as [Hz H].
  split; [exact Hz|by apply IH].
Qed.
Lemma within_spec Y row num k n : within Y row num = true -> above (undone k n) 0 row -> (0 <= num)%Z ->
  (window_to Y <= length row)%nat ->
  (0 < Y)%Z /\ (0 < window_to Y)%nat /\ 1 - ended k n (window_to Y) (IZR Y / 100) <= IZR num / 1000000.
Proof.
  intros H Ha Hn Hl. unfold within in H. apply andb_prop in H as [H HY]. apply andb_prop in H as [H Hf].
  apply Z.ltb_lt in HY. apply Nat.ltb_lt in Hf. split; [done|].
  assert (El : length (take (window_to Y) row) = window_to Y) by (rewrite take_length; lia).
  pose proof (likely_spec Y (take (window_to Y) row) (window_from Y) num k n H (above_take _ _ _ _ Ha) Hf HY Hn) as L.
  rewrite El in L. split; [|exact L]. unfold likely in H. destruct (sweep _ _ _ _ _ _ _) as [[? ?] ?].
  apply andb_prop in H as [H _]. apply andb_prop in H as [H _]. apply andb_prop in H as [H _]. apply andb_prop in H as [_ H].
  apply Nat.leb_le in H. lia.
Qed.
Lemma clients_spec m : forall q0 row, clients_ok q0 m row = true -> above (undone 50 q0) 0 row ->
  forall q, (q0 <= q < q0 + m)%nat -> exists row, client_ok q row = true /\ above (undone 50 q) 0 row.
Proof.
  induction m as [|m IH]; intros q0 row H Ha q Hq; [lia|]. cbn [clients_ok] in H. apply andb_prop in H as [H1 H].
  destruct (decide (q = q0)) as [->|N]; [by exists row|].
  apply (IH (S q0) (next_row unit_a row)); [done| |lia]. apply above_next; [done|]. cbn [undone]. lra.
Qed.
Lemma client_bound b g q x : (q <= 25)%nat -> waiting b g ->
  8 / 3 * (INR q + 5 + 492582 / 100000 + 387809 / 100000 * R_sqrt.sqrt (INR q + 1 / 20)) * (9999 / 10000) <= x <= b ->
  g (repeat (3 / 8) q ++ repeat (15 / 4) 50) x <= 7 / 100000.
Proof.
  intros Hq Hg Hx. destruct (clients_spec 26 0 (first_row 50 670) all_clients_ok (above_first 50 670) q) as (row & Hc & Ha); [lia|].
  unfold client_ok in Hc. cbv zeta in Hc. pose proof (wait_low_le q) as Hw. set (Y := client_ticks q) in *.
  assert (HY : IZR Y * 100000 <= IZR (wait_low q) * 9999).
  { rewrite <- !mult_IZR. apply IZR_le. unfold Y, client_ticks. rewrite Z.mul_comm. apply Z.mul_div_le. lia. }
  clearbody Y. apply andb_prop in Hc as [Hc Hrow]. apply andb_prop in Hc as [Hc H50].
  apply Nat.leb_le in Hrow. apply Nat.leb_le in H50.
  destruct (within_spec Y row 70 50 q Hc Ha ltac:(lia) Hrow) as (HY0 & Hto & L). apply (IZR_lt 0) in HY0.
  set (w := INR q + 5 + 492582 / 100000 + 387809 / 100000 * R_sqrt.sqrt (INR q + 1 / 20)) in *.
  set (x0 := IZR Y / 100 / (15 / 4)). assert (Hx0 : 0 <= x0 <= x) by (unfold x0; lra).
  assert (M : g (repeat (3 / 8) q ++ repeat (15 / 4) 50) x <= g (repeat (3 / 8) q ++ repeat (15 / 4) 50) x0).
  { assert (HF : Forall (fun r => 0 < r) (repeat (3 / 8) q ++ repeat (15 / 4) 50)).
    { apply Forall_app. split; apply List.Forall_forall; intros r Hr; apply repeat_spec in Hr as ->; lra. }
    destruct (repeat (3 / 8) q ++ repeat (15 / 4) 50) as [|r l] eqn:El.
    - rewrite (proj1 (Hg x ltac:(lra))), (proj1 (Hg x0 ltac:(lra))). lra.
    - apply (waiting_mono b); [done|done|done|lra]. }
  eapply Rle_trans; [exact M|]. destruct (window_to Y) as [|J] eqn:EJ; [lia|].
  eapply Rle_trans; [apply (waiting_ended b g 50 q J); [done|lia|lra]|].
  replace (15 / 4 * x0) with (IZR Y / 100) by (unfold x0; field). lra.
Qed.
Lemma mixnode_bound n x : (50 <= n <= 100)%nat ->
  (INR n + 492582 / 100000 + 387809 / 100000 * R_sqrt.sqrt (INR n)) * (9999 / 10000) <= x -> late n x <= 51 / 1000000.
Proof.
  intros Hn Hx. pose proof all_mixnodes_ok as Hall. rewrite forallb_forall in Hall. specialize (Hall n).
  assert (Hok : mixnode_ok n = true) by (apply Hall, in_seq; lia). clear Hall. unfold mixnode_ok in Hok. cbv zeta in Hok.
  assert (HY : IZR (mixnode_ticks n) <= 100 * x).
  { unfold mixnode_ticks. set (a := (Z.of_nat n * 100000000)%Z). set (v := (10000 * Z.of_nat n + 49258 + 387809 * Z.sqrt a / 100000)%Z).
    assert (Ha : (0 <= a)%Z) by lia.
    assert (S1 : IZR (Z.sqrt a) <= 10000 * R_sqrt.sqrt (INR n)).
    { replace (10000 * R_sqrt.sqrt (INR n)) with (R_sqrt.sqrt (IZR a)).
      - rewrite <- (sqrt_square (IZR (Z.sqrt a))) by (apply (IZR_le 0), Z.sqrt_nonneg). apply sqrt_le_1.
        + rewrite <- mult_IZR. apply (IZR_le 0). pose proof (Z.sqrt_nonneg a). nia.
        + by apply (IZR_le 0).
        + rewrite <- mult_IZR. apply IZR_le. apply (Z.sqrt_spec a Ha).
      - assert (E : IZR a = (10000 * 10000) * INR n) by (unfold a; rewrite mult_IZR, <- INR_IZR_INZ; field).
        rewrite E, sqrt_mult; [|lra|apply pos_INR]. rewrite (sqrt_square 10000) by lra. ring. }
    assert (S2 : IZR (387809 * Z.sqrt a / 100000) <= 387809 / 100000 * IZR (Z.sqrt a)).
    { apply (Rmult_le_reg_r 100000); [lra|]. replace (387809 / 100000 * IZR (Z.sqrt a) * 100000) with (387809 * IZR (Z.sqrt a)) by field.
      rewrite <- !mult_IZR. apply IZR_le. rewrite Z.mul_comm. apply Z.mul_div_le. lia. }
    assert (S3 : IZR (v * 9999 / 1000000) * 1000000 <= IZR v * 9999).
    { rewrite <- !mult_IZR. apply IZR_le. rewrite Z.mul_comm. apply Z.mul_div_le. lia. }
    assert (S4 : IZR v = 10000 * INR n + 49258 + IZR (387809 * Z.sqrt a / 100000)).
    { unfold v. rewrite !plus_IZR, mult_IZR, <- INR_IZR_INZ. done. }
    lra. }
  set (Y := mixnode_ticks n) in *. clearbody Y. apply andb_prop in Hok as [Hok Hto]. apply Nat.leb_le in Hto.
  assert (El : length (first_row n (window_to Y - n)) = window_to Y) by (unfold first_row; rewrite app_length, !repeat_length; lia).
  destruct (within_spec Y _ 51 n 0 Hok (above_first n _) ltac:(lia)) as (HY0 & _ & L); [lia|]. apply (IZR_lt 0) in HY0.
  eapply Rle_trans; [apply (late_mono n (IZR Y / 100)); lra|].
  eapply Rle_trans; [apply (late_ended n (window_to Y)); [lra|done]|]. lra.
Qed.

(** A mixnode with the default configuration and a queue of [n] packets: that these and 50 more, one in 4/15 s on
    average, take longer than estimated has a probability of at most 51/1000000. *)
Theorem C83_seldom (pr : prims) (Hok : prims_ok pr) secret hist m index dest id data k ns r m' dest' mt :
  let c := CallPostRequest index dest id data k ns r in
  reachable pr (stock secret) hist m -> call_ok c -> exec pr m c = Val (m', RespPost dest' (Ok mt)) ->
  exists rel s packets replies,
    usable m index rel s /\ PPost.queued m rel s packets replies m' /\
    (tp_is_mixnode (se_topology s) = true ->
     late (length (aq_queue (se_authored s)) + length packets + 50)
       (secs (rqm_authored_packet_queue_delay mt) / (4 / 15)) <= 51 / 1000000).
Proof.
  intros c Hr Hc E.
  destruct (C83_default pr Hok secret _ _ _ _ _ _ _ _ _ _ _ _ Hr Hc E) as (rel & s & packets & replies & Hu & Hq & H).
  exists rel, s, packets, replies. split; [exact Hu|]. split; [exact Hq|]. intros Hmix. cbv zeta in H. rewrite Hmix in H.
  pose proof (reachable_ok pr Hok _ _ _ Hr) as Hm.
  set (q := (length (aq_queue (se_authored s)) + length packets)%nat) in *.
  assert (Hq50 : (q <= 50)%nat).
  { pose proof (step_inv pr Hok _ _ _ _ _ (proj1 Hr) Hm Hc (exec_step pr Hok _ _ _ _ _ (proj1 Hr) Hm Hc E)) as Hm'.
    destruct Hq as [Hq _]. pose proof (mx_ok_full _ _ _ _ _ Hm' Hq) as Hs. pose proof (so_authored _ _ _ Hs) as Hl.
    pose proof (so_config _ _ _ Hs) as Hcf. cbn [se_topology se_set_authored] in Hcf. rewrite Hmix in Hcf.
    rewrite (proj1 Hcf) in Hl. unfold aq_len in Hl. cbn [se_authored se_set_authored aq_queue] in Hl.
    rewrite app_length in Hl. change (apc_capacity (sc_authored (cf_mixnode_session (stock secret)))) with 50%N in Hl.
    unfold q. lia. }
  unfold stock_wait in H. apply mixnode_bound; [lia|]. rewrite plus_INR.
  replace (INR 50) with 50 by (rewrite INR_IZR_INZ; done).
  assert (Hi : 0 <= INR q <= 50).
  { split; [apply pos_INR|]. replace 50 with (INR 50) by (rewrite INR_IZR_INZ; done). by apply le_INR. }
  set (i := INR q) in *. set (g := R_sqrt.sqrt (i + 50)) in *.
  assert (Hg : 0 <= g <= 10).
  { unfold g. split; [apply sqrt_pos|]. rewrite <- (sqrt_square 10) by lra. apply sqrt_le_1; lra. }
  apply Rabs_le_inv in H. set (x := secs _) in *. clearbody x i g. lra.
Qed.
Print Assumptions C83_seldom.

(** Another node with the default configuration and a queue of [n] packets: that these, one in 8/3 s on average, and
    then 50 of the mixnode at the far end, one in 4/15 s on average, take longer than estimated has a probability of at
    most 7/100000. *)
Theorem C83_seldom_client (pr : prims) (Hok : prims_ok pr) secret hist m index dest id data k ns r m' dest' mt b g :
  let c := CallPostRequest index dest id data k ns r in
  reachable pr (stock secret) hist m -> call_ok c -> exec pr m c = Val (m', RespPost dest' (Ok mt)) ->
  waiting b g -> secs (rqm_authored_packet_queue_delay mt) <= b ->
  exists rel s packets replies,
    usable m index rel s /\ PPost.queued m rel s packets replies m' /\
    (tp_is_mixnode (se_topology s) = false ->
     let n := (length (aq_queue (se_authored s)) + length packets)%nat in
     g (repeat (/ (8 / 3)) n ++ repeat (/ (4 / 15)) 50) (secs (rqm_authored_packet_queue_delay mt)) <= 7 / 100000).
Proof.
  intros c Hr Hc E Hg Hb.
  destruct (C83_default pr Hok secret _ _ _ _ _ _ _ _ _ _ _ _ Hr Hc E) as (rel & s & packets & replies & Hu & Hq & H).
  exists rel, s, packets, replies. split; [exact Hu|]. split; [exact Hq|]. intros Hmix. cbv zeta in H |- *. rewrite Hmix in H.
  pose proof (reachable_ok pr Hok _ _ _ Hr) as Hm.
  set (q := (length (aq_queue (se_authored s)) + length packets)%nat) in *.
  assert (Hq25 : (q <= 25)%nat).
  { pose proof (step_inv pr Hok _ _ _ _ _ (proj1 Hr) Hm Hc (exec_step pr Hok _ _ _ _ _ (proj1 Hr) Hm Hc E)) as Hm'.
    destruct Hq as [Hq _]. pose proof (mx_ok_full _ _ _ _ _ Hm' Hq) as Hs. pose proof (so_authored _ _ _ Hs) as Hl.
    pose proof (so_config _ _ _ Hs) as Hcf. cbn [se_topology se_set_authored] in Hcf. rewrite Hmix in Hcf.
    destruct Hcf as (sc & Hsc & Hcf). injection Hsc as <-.
    rewrite (proj1 Hcf) in Hl. unfold aq_len in Hl. cbn [se_authored se_set_authored aq_queue] in Hl.
    rewrite app_length in Hl. cbn [apc_capacity sc_authored] in Hl. unfold q. lia. }
  replace (/ (8 / 3)) with (3 / 8) by field. replace (/ (4 / 15)) with (15 / 4) by field.
  apply (client_bound b); [done|done|]. split; [|exact Hb]. unfold stock_wait in H. apply Rabs_le_inv in H.
  set (w := _ + _ * R_sqrt.sqrt _) in *. set (x := secs _) in *. clearbody x w. lra.
Qed.
Print Assumptions C83_seldom_client.
