(** C60, continued: how many tags a replay filter reports by mistake on average, if tags are evenly distributed. *)
From Coq Require Import Reals Lra Psatz Znumtheory Classical_Prop.
From Verif Require Import PReplayCount PReplayFilter.
Local Open Scope R_scope.

(** ** Specification *)

(** Averages over the numbers below [m], over all tags, and over all lists of [n] tags *)
Fixpoint total (f : nat -> R) (n : nat) : R :=
  match n with 0%nat => 0 | S n => total f n + f n end.
Definition avg (m : N) (f : N -> R) : R := total (fun i => f (N.of_nat i)) (N.to_nat m) / IZR (Z.of_N m).
Definition mean (f : replay_tag -> R) : R :=
  avg (2 ^ 32) (fun inc => avg (2 ^ 32) (fun base => f (ReplayTag base inc))).
Fixpoint expect (n : nat) (f : list replay_tag -> R) : R :=
  match n with
  | 0%nat => f []
  | S n => mean (fun t => expect n (fun ts => f (t :: ts)))
  end.
Definition chance (b : bool) : R := if b then 1 else 0.

(** ** Averages *)
Lemma total_le f g n : (forall i, (i < n)%nat -> f i <= g i) -> total f n <= total g n.
Proof.
  induction n as [|n IH]; intros H; cbn [total]; [lra|]. pose proof (H n ltac:(lia)). pose proof (IH (fun i Hi => H i ltac:(lia))). lra.
Qed.
Lemma total_plus f g n : total (fun i => f i + g i) n = total f n + total g n.
Proof. induction n as [|n IH]; cbn [total]; [ring|]. rewrite IH. ring. Qed.
Lemma total_scal c f n : total (fun i => c * f i) n = c * total f n.
Proof. induction n as [|n IH]; cbn [total]; [ring|]. rewrite IH. ring. Qed.
Lemma total_const c n : total (fun _ => c) n = INR n * c.
Proof. induction n as [|n IH]; [cbn; ring|]. rewrite S_INR. cbn [total]. rewrite IH. ring. Qed.
Section avg.
  Context (m : N) (Hm : (0 < m)%N).
  Lemma m_pos : 0 < IZR (Z.of_N m).
  Proof. apply (IZR_lt 0). lia. Qed.
  Lemma avg_le f g : (forall i, (i < m)%N -> f i <= g i) -> avg m f <= avg m g.
  Proof.
    intros H. unfold avg. apply Rmult_le_compat_r; [left; apply Rinv_0_lt_compat, m_pos|].
    apply total_le. intros i Hi. apply H. lia.
  Qed.
  Lemma avg_plus f g : avg m (fun i => f i + g i) = avg m f + avg m g.
  Proof. unfold avg. rewrite total_plus. field. pose proof m_pos. lra. Qed.
  Lemma avg_scal c f : avg m (fun i => c * f i) = c * avg m f.
  Proof. unfold avg. rewrite total_scal. field. pose proof m_pos. lra. Qed.
  Lemma avg_const c : avg m (fun _ => c) = c.
  Proof. unfold avg. rewrite total_const, INR_IZR_INZ, N_nat_Z. field. pose proof m_pos. lra. Qed.
  (** What is the case only for the numbers in a list *)
  Lemma avg_list (P : N -> bool) (l : list N) : (forall i, (i < m)%N -> P i = true -> i ∈ l) ->
    avg m (fun i => chance (P i)) <= INR (length l) / IZR (Z.of_N m).
  Proof.
    intros H. unfold avg. apply Rmult_le_compat_r; [left; apply Rinv_0_lt_compat, m_pos|].
    set (eqs := fun i => foldr (fun x s => chance (N.of_nat i =? x)%N + s) 0 l).
    apply Rle_trans with (total eqs (N.to_nat m)).
    - apply total_le. intros i Hi. destruct (P (N.of_nat i)) eqn:E.
      + specialize (H (N.of_nat i) ltac:(lia) E). unfold eqs. clear -H.
        induction l as [|x l IH]; [by apply not_elem_of_nil in H|]. cbn [foldr]. apply elem_of_cons in H as [<-|H].
        * rewrite N.eqb_refl. assert (0 <= foldr (fun x s => chance (N.of_nat i =? x)%N + s) 0 l); [|cbn [chance]; lra].
          clear. induction l as [|x l IH]; cbn [foldr]; [lra|]. destruct (N.of_nat i =? x)%N; cbn [chance]; lra.
        * specialize (IH H). cbn [chance] in *. destruct (N.of_nat i =? x)%N; cbn [chance] in *; lra.
      + unfold eqs. cbn [chance]. clear. induction l as [|x l IH]; cbn [foldr]; [lra|]. destruct (N.of_nat i =? x)%N; cbn [chance]; lra.
    - unfold eqs. clear -l. generalize (N.to_nat m). intros n. induction l as [|x l IH].
      + cbn [foldr length INR]. rewrite total_const, Rmult_0_r. apply Rle_refl.
      + cbn [foldr length]. rewrite total_plus, S_INR.
        assert (Hx : forall n, total (fun i => chance (N.of_nat i =? x)%N) n <= if (N.of_nat n <=? x)%N then 0 else 1).
        { clear. induction n as [|n IH]; [cbn [total]; destruct (_ <=? _)%N; lra|]. cbn [total].
          destruct (N.eqb_spec (N.of_nat n) x), (N.leb_spec (N.of_nat n) x), (N.leb_spec (N.of_nat (S n)) x); cbn [chance]; lra || lia. }
        specialize (Hx n). destruct (N.of_nat n <=? x)%N; lra.
  Qed.
End avg.
Lemma p32 : (0 < 2 ^ 32)%N. Proof. done. Qed.
Lemma mean_le f g : (forall t, tag_ok t -> f t <= g t) -> mean f <= mean g.
Proof.
  intros H. apply (avg_le _ p32). intros inc Hi. apply (avg_le _ p32). intros base Hb. apply H. by split.
Qed.
Lemma avg_ext m f g : (0 < m)%N -> (forall i, f i = g i) -> avg m f = avg m g.
Proof. intros Hm H. apply Rle_antisym; apply (avg_le _ Hm); intros i _; rewrite H; lra. Qed.
Lemma mean_plus f g : mean (fun t => f t + g t) = mean f + mean g.
Proof.
  unfold mean. rewrite <- (avg_plus _ p32). apply avg_ext; [done|]. intros i. by rewrite (avg_plus _ p32).
Qed.
Lemma mean_scal c f : mean (fun t => c * f t) = c * mean f.
Proof. unfold mean. rewrite <- (avg_scal _ p32). apply avg_ext; [done|]. intros i. by rewrite (avg_scal _ p32). Qed.
Lemma mean_const c : mean (fun _ => c) = c.
Proof.
  unfold mean. transitivity (avg (2 ^ 32) (fun _ => c)); [|apply (avg_const _ p32)].
  apply avg_ext; [done|]. intros i. apply (avg_const _ p32).
Qed.
Lemma expect_le n : forall f g, (forall ts, Forall tag_ok ts -> f ts <= g ts) -> expect n f <= expect n g.
Proof.
  induction n as [|n IH]; intros f g H; cbn [expect]; [by apply H|]. apply mean_le. intros t Ht. apply IH. intros ts Hts.
  apply H. by constructor.
Qed.
Lemma expect_const n c : expect n (fun _ => c) = c.
Proof. induction n as [|n IH]; cbn [expect]; [done|]. rewrite IH. apply mean_const. Qed.

(** ** Tags with given bits *)
Lemma spread (d x : Z) : (d <> 0)%Z -> (-7 <= d <= 7)%Z -> (2 ^ 26 | d * x)%Z -> (2 ^ 24 | x)%Z.
Proof.
  intros H0 Hd. assert (H : forall d, (1 <= d <= 7)%Z -> (2 ^ 26 | d * x)%Z -> (2 ^ 24 | x)%Z).
  { clear d H0 Hd. intros d Hd [k Hk]. change (2 ^ 26)%Z with (4 * 2 ^ 24)%Z in Hk.
    assert (C : (d = 1 \/ d = 2 \/ d = 3 \/ d = 4 \/ d = 5 \/ d = 6 \/ d = 7)%Z) by lia.
    destruct C as [->|[->|[->|[->|[->|[->| ->]]]]]].
    - exists (4 * k)%Z. lia.
    - exists (2 * k)%Z. lia.
    - apply (Z.gauss _ 3); [exists (4 * k)%Z; lia|done].
    - exists k. lia.
    - apply (Z.gauss _ 5); [exists (4 * k)%Z; lia|done].
    - apply (Z.gauss _ 3); [exists (2 * k)%Z; lia|done].
    - apply (Z.gauss _ 7); [exists (4 * k)%Z; lia|done]. }
  intros D. destruct (Z.lt_trichotomy d 0) as [L|[L|L]]; [|lia|apply (H d); [lia|done]].
  apply (H (- d)%Z); [lia|]. rewrite Z.mul_opp_l. by apply Z.divide_opp_r.
Qed.
Definition nth_bit (t : replay_tag) (a : N) : N := (rt_base t + a * rt_inc t) mod 2 ^ 32 mod 2 ^ 26.
Lemma nth_bit_mod t a : nth_bit t a = ((rt_base t + a * rt_inc t) mod 2 ^ 26)%N.
Proof.
  unfold nth_bit. set (x := (_ + _)%N). rewrite (N.div_mod x (2 ^ 32)) at 2 by done.
  replace (2 ^ 32 * (x / 2 ^ 32) + x mod 2 ^ 32)%N with (x mod 2 ^ 32 + (64 * (x / 2 ^ 32)) * 2 ^ 26)%N.
  - by rewrite N.mod_add.
  - change (2 ^ 32)%N with (64 * 2 ^ 26)%N at 3. generalize (x / 2 ^ 32)%N (x mod 2 ^ 32)%N. intros u v. lia.
Qed.
Lemma chance_01 b : 0 <= chance b <= 1.
Proof. destruct b; cbn [chance]; lra. Qed.
Lemma base_bit inc q a : avg (2 ^ 32) (fun base => chance (nth_bit (ReplayTag base inc) a =? q)%N) <= / 2 ^ 26.
Proof.
  set (M := (2 ^ 26)%N). set (c := (a * inc)%N). set (b0 := ((q + (M - c mod M)) mod M)%N).
  eapply Rle_trans; [apply (avg_list _ p32 _ (numbers_of b0))|].
  - intros base Hb E. apply N.eqb_eq in E. rewrite nth_bit_mod in E. cbn [rt_base rt_inc] in E. fold M c in E.
    assert (Eb : (base mod M = b0)%N).
    { unfold b0. rewrite <- E. assert (HM : M <> 0%N) by done. rewrite N.add_mod_idemp_l by done.
      pose proof (N.div_mod c M HM) as Dc. pose proof (N.mod_lt c M HM) as Lc.
      replace (base + c + (M - c mod M))%N with (base + (c / M + 1) * M)%N; [by rewrite N.mod_add|].
      revert Dc Lc. generalize (c / M)%N (c mod M)%N. intros u v -> L. lia. }
    rewrite <- Eb. by apply numbers_of_spec.
  - unfold numbers_of. rewrite map_length, seq_length. change (Z.of_N (2 ^ 32)) with 4294967296%Z.
    rewrite INR_IZR_INZ. change (Z.of_nat 64) with 64%Z. lra.
Qed.
Lemma one_bit q a : mean (fun t => chance (nth_bit t a =? q)%N) <= / 2 ^ 26.
Proof.
  rewrite <- (avg_const _ p32 (/ 2 ^ 26)). apply (avg_le _ p32). intros inc _. apply base_bit.
Qed.
Lemma inc_class r : avg (2 ^ 32) (fun inc => chance (inc mod 2 ^ 24 =? r)%N) <= / 2 ^ 24.
Proof.
  eapply Rle_trans; [apply (avg_list _ p32 _ (map (fun k => r + N.of_nat k * 2 ^ 24)%N (seq 0 256)))|].
  - intros i Hi E. apply N.eqb_eq in E. apply elem_of_list_fmap. exists (N.to_nat (i / 2 ^ 24)). rewrite N2Nat.id. split.
    + rewrite (N.div_mod i (2 ^ 24)) at 1 by done. rewrite E, N.add_comm. f_equal. apply N.mul_comm.
    + apply elem_of_seq. assert (Hd : (i / 2 ^ 24 < 256)%N); [|revert Hd; generalize (i / 2 ^ 24)%N; intros x Hx; lia].
      apply N.div_lt_upper_bound; done.
  - rewrite map_length, seq_length. change (Z.of_N (2 ^ 32)) with 4294967296%Z. rewrite INR_IZR_INZ.
    change (Z.of_nat 256) with 256%Z. lra.
Qed.
Lemma same_class b i b' i' a a' : (a <= 7)%N -> (a' <= 7)%N -> a <> a' ->
  nth_bit (ReplayTag b i) a = nth_bit (ReplayTag b' i') a -> nth_bit (ReplayTag b i) a' = nth_bit (ReplayTag b' i') a' ->
  (i mod 2 ^ 24 = i' mod 2 ^ 24)%N.
Proof.
  intros Ha Ha' Hne E E'. rewrite !nth_bit_mod in *. cbn [rt_base rt_inc] in *.
  assert (HZ : forall x y : N, (x mod 2 ^ 26 = y mod 2 ^ 26)%N -> exists k, (Z.of_N x - Z.of_N y = k * 2 ^ 26)%Z).
  { intros x y H. exists (Z.of_N (x / 2 ^ 26) - Z.of_N (y / 2 ^ 26))%Z.
    pose proof (N.div_mod x (2 ^ 26) ltac:(done)) as Dx. pose proof (N.div_mod y (2 ^ 26) ltac:(done)) as Dy. rewrite H in Dx.
    revert Dx Dy. generalize (x / 2 ^ 26)%N (y / 2 ^ 26)%N (y mod 2 ^ 26)%N. intros u v w Dx Dy. lia. }
  destruct (HZ _ _ E) as [k Hk]. destruct (HZ _ _ E') as [k' Hk']. clear HZ E E'.
  assert (D : (2 ^ 24 | Z.of_N i - Z.of_N i')%Z).
  { apply (spread (Z.of_N a - Z.of_N a')); [lia|lia|]. exists (k - k')%Z.
    rewrite !N2Z.inj_add, !N2Z.inj_mul in Hk, Hk'. lia. }
  destruct D as [z Hz]. apply N2Z.inj. rewrite !N2Z.inj_mod. change (Z.of_N (2 ^ 24)) with (2 ^ 24)%Z.
  replace (Z.of_N i) with (Z.of_N i' + z * 2 ^ 24)%Z by lia. by rewrite Z.mod_add.
Qed.
Lemma two_bits q q' a a' : (a <= 7)%N -> (a' <= 7)%N -> q <> q' ->
  mean (fun t => chance ((nth_bit t a =? q)%N && (nth_bit t a' =? q')%N)) <= / 2 ^ 50.
Proof.
  intros Ha Ha' Hq. destruct (classic (exists b0 i0, nth_bit (ReplayTag b0 i0) a = q /\ nth_bit (ReplayTag b0 i0) a' = q')) as [(b0 & i0 & E0 & E0')|Hn].
  - assert (Hne : a <> a') by (intros ->; congruence).
    apply Rle_trans with (avg (2 ^ 32) (fun inc => / 2 ^ 26 * chance (inc mod 2 ^ 24 =? i0 mod 2 ^ 24)%N)).
    + apply (avg_le _ p32). intros inc _. destruct (N.eqb_spec (inc mod 2 ^ 24) (i0 mod 2 ^ 24)) as [Hc|Hc]; cbn [chance].
      * rewrite Rmult_1_r. eapply Rle_trans; [|apply (base_bit inc q a)]. apply (avg_le _ p32). intros base _.
        destruct (_ =? q)%N, (_ =? q')%N; cbn; lra.
      * rewrite Rmult_0_r. apply Rle_trans with (avg (2 ^ 32) (fun _ => 0)); [|rewrite (avg_const _ p32); lra]. apply (avg_le _ p32). intros base _.
        destruct (N.eqb_spec (nth_bit (ReplayTag base inc) a) q) as [E|]; [|cbn; lra].
        destruct (N.eqb_spec (nth_bit (ReplayTag base inc) a') q') as [E'|]; [|cbn; lra].
        destruct Hc. apply (same_class base inc b0 i0 a a'); congruence.
    + rewrite (avg_scal _ p32). pose proof (inc_class (i0 mod 2 ^ 24)) as H.
      apply Rle_trans with (/ 2 ^ 26 * / 2 ^ 24); [apply Rmult_le_compat_l; lra|]. lra.
  - apply Rle_trans with (mean (fun _ => 0)); [|rewrite mean_const; lra].
    apply mean_le. intros [b i] _. destruct (N.eqb_spec (nth_bit (ReplayTag b i) a) q) as [E|]; [|cbn; lra].
    destruct (N.eqb_spec (nth_bit (ReplayTag b i) a') q') as [E'|]; [|cbn; lra]. destruct Hn. by exists b, i.
Qed.

Local Opaque avg mean.

(** ** Bits that are all set *)
Definition hit (t : replay_tag) (q : N) : bool := bool_decide (q ∈ tag_bits t).
Definition covered (K : list N) (ts : list replay_tag) : bool := forallb (fun q => existsb (fun t => hit t q) ts) K.
Definition cover_chance (n : nat) (K : list N) : R := expect n (fun ts => chance (covered K ts)).
Definition lsum (f : N -> R) (K : list N) : R := foldr (fun q s => f q + s) 0 K.
Definition offsets : list N := [0; 1; 2; 3; 4; 5; 6; 7]%N.
Lemma hit_bit t q : hit t q = existsb (fun a => nth_bit t a =? q)%N offsets.
Proof.
  apply eq_bool_prop_intro. unfold hit. rewrite bool_decide_spec, Is_true_true, existsb_exists. unfold tag_bits.
  rewrite elem_of_list_fmap. split.
  - intros (a & -> & Ha). exists a. split; [by apply elem_of_list_In|]. by apply N.eqb_eq.
  - intros (a & Ha & E). apply N.eqb_eq in E as <-. exists a. split; [done|]. by apply elem_of_list_In.
Qed.
Lemma lsum_le f g K : (forall q, q ∈ K -> f q <= g q) -> lsum f K <= lsum g K.
Proof.
  induction K as [|q K IH]; intros H; cbn [lsum foldr]; [lra|]. pose proof (H q (elem_of_list_here _ _)).
  pose proof (IH (fun x Hx => H x (elem_of_list_further _ _ _ Hx))). unfold lsum in *. lra.
Qed.
Lemma lsum_const c K : lsum (fun _ => c) K = INR (length K) * c.
Proof. induction K as [|q K IH]; [cbn; ring|]. cbn [lsum foldr length]. fold (lsum (fun _ => c) K). rewrite IH, S_INR. ring. Qed.
Lemma lsum_pos f K : (forall q, 0 <= f q) -> 0 <= lsum f K.
Proof. intros H. induction K as [|q K IH]; cbn [lsum foldr]; [lra|]. specialize (H q). unfold lsum in IH. lra. Qed.
Lemma lsum_in f K q : (forall q, 0 <= f q) -> q ∈ K -> f q <= lsum f K.
Proof.
  intros H Hq. induction Hq as [q K|q x K Hq IH]; cbn [lsum foldr]; fold (lsum f K).
  - pose proof (lsum_pos f K H). lra.
  - specialize (H x). lra.
Qed.
Lemma mean_lsum (f : replay_tag -> N -> R) K : mean (fun t => lsum (f t) K) = lsum (fun q => mean (fun t => f t q)) K.
Proof.
  induction K as [|q K IH]; [cbn [lsum foldr]; apply mean_const|].
  change (mean (fun t => f t q + lsum (f t) K) = mean (fun t => f t q) + lsum (fun q => mean (fun t => f t q)) K).
  rewrite mean_plus, IH. reflexivity.
Qed.
Lemma existsb_chance (P : N -> bool) K : chance (existsb P K) <= lsum (fun q => chance (P q)) K.
Proof.
  induction K as [|q K IH]; cbn [existsb lsum foldr]; [cbn; lra|]. fold (lsum (fun q => chance (P q)) K).
  pose proof (chance_01 (P q)). pose proof (lsum_pos (fun q => chance (P q)) K (fun x => proj1 (chance_01 _))).
  destruct (P q); cbn [orb chance] in *; lra.
Qed.
Definition bit_rate : R := 8 / 2 ^ 26.
Lemma hit_rate q : mean (fun t => chance (hit t q)) <= bit_rate.
Proof.
  apply Rle_trans with (mean (fun t => lsum (fun a => chance (nth_bit t a =? q)%N) offsets)).
  - apply mean_le. intros t _. rewrite hit_bit. apply existsb_chance.
  - rewrite (mean_lsum (fun t a => chance (nth_bit t a =? q)%N)). apply Rle_trans with (lsum (fun _ => / 2 ^ 26) offsets).
    + apply lsum_le. intros a _. apply one_bit.
    + rewrite lsum_const. unfold bit_rate. cbn [length offsets]. rewrite INR_IZR_INZ. change (Z.of_nat 8) with 8%Z. lra.
Qed.
Lemma hits_rate q q' : q <> q' -> mean (fun t => chance (hit t q && hit t q')) <= / 2 ^ 44.
Proof.
  intros Hq. apply Rle_trans with (mean (fun t => lsum (fun a => lsum (fun a' => chance ((nth_bit t a =? q)%N && (nth_bit t a' =? q')%N)) offsets) offsets)).
  - apply mean_le. intros t _. rewrite !hit_bit. destruct (existsb (fun a => nth_bit t a =? q)%N offsets) eqn:E; cbn [andb].
    + apply existsb_exists in E as (a & Ha & Ea). rewrite <- elem_of_list_In in Ha.
      eapply Rle_trans; [apply existsb_chance|].
      eapply Rle_trans; [|apply (lsum_in _ offsets a); [|exact Ha]].
      * cbv beta. rewrite Ea. cbn [andb]. apply Rle_refl.
      * intros x. apply lsum_pos. intros y. apply chance_01.
    + cbn [chance]. apply lsum_pos. intros x. apply lsum_pos. intros y. apply chance_01.
  - rewrite (mean_lsum (fun t a => lsum (fun a' => chance ((nth_bit t a =? q)%N && (nth_bit t a' =? q')%N)) offsets)).
    assert (Ho : forall a, a ∈ offsets -> (a <= 7)%N).
    { intros a Ha. apply elem_of_list_In in Ha. cbn in Ha. lia. }
    apply Rle_trans with (lsum (fun _ => 8 * / 2 ^ 50) offsets).
    + apply lsum_le. intros a Ha. rewrite (mean_lsum (fun t a' => chance ((nth_bit t a =? q)%N && (nth_bit t a' =? q')%N))).
      apply Rle_trans with (lsum (fun _ => / 2 ^ 50) offsets).
      * apply lsum_le. intros a' Ha'. by apply two_bits; [apply Ho|apply Ho|].
      * rewrite lsum_const. cbn [length offsets]. rewrite INR_IZR_INZ. change (Z.of_nat 8) with 8%Z. lra.
    + rewrite lsum_const. cbn [length offsets]. rewrite INR_IZR_INZ. change (Z.of_nat 8) with 8%Z. lra.
Qed.
Lemma covered_cons K t ts : covered K (t :: ts) = covered (filter (fun q => hit t q = false) K) ts.
Proof.
  unfold covered. induction K as [|q K IH]; [done|]. cbn [forallb]. rewrite IH, filter_cons. cbn [existsb].
  destruct (decide (hit t q = false)) as [E|E].
  - rewrite E. done.
  - destruct (hit t q); [done|congruence].
Qed.
Lemma cover_step n K : cover_chance (S n) K = mean (fun t => cover_chance n (filter (fun q => hit t q = false) K)).
Proof.
  unfold cover_chance. cbn [expect]. apply Rle_antisym; apply mean_le; intros t _; apply expect_le; intros ts _;
    rewrite covered_cons; lra.
Qed.
Lemma cover_01 n K : 0 <= cover_chance n K <= 1.
Proof.
  unfold cover_chance. split.
  - rewrite <- (expect_const n 0) at 1. apply expect_le. intros ts _. apply chance_01.
  - rewrite <- (expect_const n 1). apply expect_le. intros ts _. apply chance_01.
Qed.
Lemma cover_sub n K K' : (forall q, q ∈ K' -> q ∈ K) -> cover_chance n K <= cover_chance n K'.
Proof.
  intros H. apply expect_le. intros ts _. destruct (covered K ts) eqn:E; [|apply chance_01].
  assert (E' : covered K' ts = true); [|rewrite E'; lra]. unfold covered in *. rewrite forallb_forall in *. intros q Hq. apply E.
  apply elem_of_list_In, H, elem_of_list_In, Hq.
Qed.
Definition without (q : N) (K : list N) : list N := filter (fun x => x <> q) K.
Lemma without_length q K : NoDup K -> q ∈ K -> length K = S (length (without q K)).
Proof.
  unfold without. induction 1 as [|x K Hx HK IH]; intros Hq; [by apply not_elem_of_nil in Hq|]. rewrite filter_cons.
  destruct (decide (x <> q)) as [N|N].
  - apply elem_of_cons in Hq as [->|Hq]; [done|]. cbn [length]. by rewrite (IH Hq).
  - assert (x = q) as -> by (destruct (decide (x = q)); tauto). cbn [length]. f_equal. clear IH Hq N.
    induction K as [|y K IH]; [done|]. apply not_elem_of_cons in Hx as [Hne Hx]. rewrite filter_cons.
    apply NoDup_cons in HK as [_ HK]. destruct (decide (y <> q)) as [_|N]; [cbn [length]; f_equal; by apply IH|].
    destruct N. congruence.
Qed.
(** One more tag *)
Lemma cover_next n K : NoDup K ->
  cover_chance (S n) K <= cover_chance n K +
    lsum (fun q => bit_rate * (cover_chance n (without q K) - cover_chance n K)) K + INR (length K) * INR (length K) * / 2 ^ 44.
Proof.
  intros HK. rewrite cover_step. set (f := cover_chance n). assert (Hw : forall q, 0 <= f (without q K) - f K).
  { intros q. assert (f K <= f (without q K)); [|lra]. apply cover_sub. intros x Hx. by apply elem_of_list_filter in Hx as [_ Hx]. }
  apply Rle_trans with (mean (fun t => f K + lsum (fun q => (f (without q K) - f K) * chance (hit t q)) K +
    lsum (fun q => lsum (fun q' => chance (negb (q =? q')%N && (hit t q && hit t q'))) K) K)).
  - apply mean_le. intros t _. set (A := lsum (fun q => (f (without q K) - f K) * chance (hit t q)) K).
    set (B := lsum (fun q => lsum (fun q' => chance (negb (q =? q')%N && (hit t q && hit t q'))) K) K).
    assert (HA1 : forall q, 0 <= (f (without q K) - f K) * chance (hit t q)).
    { intros q. apply Rmult_le_pos; [apply Hw|apply chance_01]. }
    assert (HA : 0 <= A) by (apply lsum_pos; done).
    assert (HB2 : forall q, 0 <= lsum (fun q' => chance (negb (q =? q')%N && (hit t q && hit t q'))) K).
    { intros q. apply lsum_pos. intros q'. apply chance_01. }
    assert (HB : 0 <= B) by (apply lsum_pos; done).
    destruct (existsb (fun q => hit t q) K) eqn:E1.
    + apply existsb_exists in E1 as (q & Hq & Ht). rewrite <- elem_of_list_In in Hq.
      destruct (existsb (fun q' => negb (q =? q')%N && hit t q') K) eqn:E2.
      * apply existsb_exists in E2 as (q' & Hq' & Ht'). rewrite <- elem_of_list_In in Hq'. apply andb_prop in Ht' as [Hne Ht'].
        assert (1 <= B).
        { eapply Rle_trans; [|apply (lsum_in _ K q HB2 Hq)].
          eapply Rle_trans; [|apply (lsum_in (fun q' => chance (negb (q =? q')%N && (hit t q && hit t q'))) K q'); [|exact Hq']].
          - cbv beta. rewrite Hne, Ht, Ht'. cbn [andb chance]. lra.
          - intros x. apply chance_01. }
        pose proof (cover_01 n (filter (fun q => hit t q = false) K)). pose proof (cover_01 n K). unfold f. lra.
      * assert (L : f (filter (fun q => hit t q = false) K) <= f (without q K)).
        { apply cover_sub. intros x Hx. apply elem_of_list_filter in Hx as [Hne Hx]. apply elem_of_list_filter. split; [|done].
          destruct (hit t x) eqn:Etx; [|done]. destruct (N.eqb_spec q x) as [->|Hqx]; [done|].
          exfalso. assert (Ex : existsb (fun q' => negb (q =? q')%N && hit t q') K = true); [|congruence].
          apply existsb_exists. exists x. split; [by apply elem_of_list_In|]. rewrite Etx.
          destruct (N.eqb_spec q x); [done|done]. }
        pose proof (lsum_in _ K q HA1 Hq) as LA. fold A in LA. cbn beta in LA. rewrite Ht in LA. cbn [chance] in LA. lra.
    + assert (L : f (filter (fun q => hit t q = false) K) <= f K); [|lra].
      apply cover_sub. intros x Hx. apply elem_of_list_filter. split; [|done]. destruct (hit t x) eqn:Etx; [|done].
      assert (Ex : existsb (fun q => hit t q) K = true); [|congruence]. apply existsb_exists. exists x.
      split; [by apply elem_of_list_In|done].
  - rewrite !mean_plus, mean_const. rewrite (mean_lsum (fun t q => (f (without q K) - f K) * chance (hit t q))).
    rewrite (mean_lsum (fun t q => lsum (fun q' => chance (negb (q =? q')%N && (hit t q && hit t q'))) K)).
    apply Rplus_le_compat; [apply Rplus_le_compat_l|].
    + apply lsum_le. intros q _. rewrite mean_scal, Rmult_comm. apply Rmult_le_compat_r; [apply Hw|apply hit_rate].
    + rewrite Rmult_assoc, <- lsum_const. apply lsum_le. intros q _.
      rewrite (mean_lsum (fun t q' => chance (negb (q =? q')%N && (hit t q && hit t q')))).
      rewrite <- lsum_const. apply lsum_le. intros q' _. destruct (N.eqb_spec q q') as [->|Hne]; cbn [negb andb].
      * rewrite mean_const. cbn [chance]. lra.
      * by apply hits_rate.
Qed.

(** ** The usual estimate for a Bloom filter *)
Definition fill (n : nat) : R := 1 - (1 - bit_rate) ^ n.
Lemma rate_bounds : 0 < bit_rate <= 1 / 1000000.
Proof. unfold bit_rate. lra. Qed.
Lemma fill_01 n : 0 <= fill n <= 1.
Proof.
  unfold fill. pose proof rate_bounds as H. assert (0 <= (1 - bit_rate) ^ n) by (apply Rfunctions.pow_le; lra).
  assert ((1 - bit_rate) ^ n <= 1); [|lra].
  apply Rle_trans with (1 ^ n); [apply pow_incr; lra|rewrite pow1; lra].
Qed.
Lemma fill_S n : fill (S n) = fill n + bit_rate * (1 - fill n).
Proof. unfold fill. cbn [Rpow_def.pow]. ring. Qed.
Lemma pow_tangent g d k : 0 <= g -> 0 <= d -> g ^ S k + INR (S k) * d * g ^ k <= (g + d) ^ S k.
Proof.
  intros Hg Hd. induction k as [|k IH]; [cbn; lra|].
  change ((g + d) ^ S (S k)) with ((g + d) * (g + d) ^ S k).
  apply Rle_trans with ((g + d) * (g ^ S k + INR (S k) * d * g ^ k)); [|apply Rmult_le_compat_l; [lra|exact IH]].
  assert (Hk : 0 <= g ^ k) by (by apply Rfunctions.pow_le). rewrite !S_INR. pose proof (pos_INR k) as Pk.
  change (g ^ S (S k)) with (g * (g * g ^ k)). change (g ^ S k) with (g * g ^ k).
  assert (0 <= (INR k + 1) * (d * d) * g ^ k).
  { apply Rmult_le_pos; [|done]. apply Rmult_le_pos; [lra|]. by apply Rmult_le_pos. }
  lra.
Qed.
Lemma cover_bound n : forall K, NoDup K -> (length K <= 8)%nat -> cover_chance n K <= fill n ^ length K + INR n * / 2 ^ 38.
Proof.
  induction n as [|n IH]; intros K HK Hl.
  - unfold cover_chance. cbn [expect INR]. destruct K as [|q K]; [cbn; lra|]. cbn [covered forallb existsb andb chance].
    assert (0 <= fill 0 ^ length (q :: K)) by (apply Rfunctions.pow_le, fill_01). lra.
  - eapply Rle_trans; [apply (cover_next n K HK)|]. set (e := / 2 ^ 38) in *. assert (He : 0 < e) by (unfold e; lra).
    assert (Hl8 : INR (length K) <= 8).
    { replace 8 with (INR 8) by (rewrite INR_IZR_INZ; done). by apply le_INR. }
    pose proof (pos_INR (length K)) as Pl. pose proof rate_bounds as Hp. set (p := bit_rate) in *.
    assert (E1 : INR (length K) * INR (length K) * / 2 ^ 44 <= e).
    { assert (INR (length K) * INR (length K) <= 64) by nra. unfold e. lra. }
    destruct K as [|q0 K0] eqn:EK.
    + cbn [lsum foldr length Rpow_def.pow] in *. pose proof (cover_01 n []). pose proof (pos_INR (S n)).
      assert (0 <= INR (S n) * e) by (apply Rmult_le_pos; lra).
      change (INR 0) with 0 in *. lra.
    + rewrite <- EK in *. set (k := length K0). assert (Ek : length K = S k) by (rewrite EK; done). clear EK.
      set (g := fill n). assert (Hg : 0 <= g <= 1) by apply fill_01.
      apply Rle_trans with (cover_chance n K + lsum (fun _ => p * (g ^ k + INR n * e - cover_chance n K)) K + e).
      * apply Rplus_le_compat; [apply Rplus_le_compat_l|exact E1]. apply lsum_le. intros q Hq.
        apply Rmult_le_compat_l; [lra|]. pose proof (without_length q K HK Hq) as Hw.
        assert (cover_chance n (without q K) <= g ^ k + INR n * e); [|lra].
        replace k with (length (without q K)) by lia. apply IH; [|lia]. by apply NoDup_filter.
      * rewrite lsum_const. pose proof (IH K HK Hl) as IHK. fold g in IHK. rewrite Ek in *.
        set (c := cover_chance n K) in *. rewrite fill_S. fold g p. set (x := INR (S k)) in *.
        assert (T : g ^ S k + x * (p * (1 - g)) * g ^ k <= (g + p * (1 - g)) ^ S k).
        { apply pow_tangent; [lra|]. apply Rmult_le_pos; lra. }
        assert (Hxp : 0 <= 1 - x * p) by nra.
        assert (C1 : (1 - x * p) * c <= (1 - x * p) * (g ^ S k + INR n * e)) by (by apply Rmult_le_compat_l).
        rewrite (S_INR n). change (g ^ S k) with (g * g ^ k) in *.
        replace (c + x * (p * (g ^ k + INR n * e - c)) + e) with ((1 - x * p) * c + x * p * (g ^ k + INR n * e) + e) by ring.
        apply Rle_trans with ((1 - x * p) * (g * g ^ k + INR n * e) + x * p * (g ^ k + INR n * e) + e); [lra|].
        replace ((1 - x * p) * (g * g ^ k + INR n * e) + x * p * (g ^ k + INR n * e) + e) with
          (g * g ^ k + x * (p * (1 - g)) * g ^ k + (INR n + 1) * e) by ring. lra.
Qed.
Lemma bits_NoDup t : tag_ok t -> (rt_inc t mod 2 ^ 24 <> 0)%N -> NoDup (tag_bits t).
Proof.
  destruct t as [b i]. intros [Hb Hi] Hn. cbn [rt_base rt_inc] in *. change (tag_bits (ReplayTag b i)) with (map (nth_bit (ReplayTag b i)) offsets).
  assert (Ho : forall a, a ∈ offsets -> (a <= 7)%N) by (intros a Ha; apply elem_of_list_In in Ha; cbn in Ha; lia).
  apply NoDup_fmap_2_strong.
  - intros a a' Ha Ha' E. destruct (decide (a = a')) as [|Hne]; [done|]. exfalso. apply Hn.
    rewrite !nth_bit_mod in E. cbn [rt_base rt_inc] in E.
    assert (D : (2 ^ 24 | Z.of_N i)%Z).
    { apply (spread (Z.of_N a - Z.of_N a')); [lia|pose proof (Ho a Ha); pose proof (Ho a' Ha'); lia|].
      set (x := (b + a * i)%N) in *. set (y := (b + a' * i)%N) in *.
      exists (Z.of_N (x / 2 ^ 26) - Z.of_N (y / 2 ^ 26))%Z.
      pose proof (N.div_mod x (2 ^ 26) ltac:(done)) as Dx. pose proof (N.div_mod y (2 ^ 26) ltac:(done)) as Dy. rewrite E in Dx.
      assert (Exy : ((Z.of_N a - Z.of_N a') * Z.of_N i = Z.of_N x - Z.of_N y)%Z).
      { unfold x, y. rewrite !N2Z.inj_add, !N2Z.inj_mul. ring. }
      rewrite Exy. revert Dx Dy. generalize (x / 2 ^ 26)%N (y / 2 ^ 26)%N (y mod 2 ^ 26)%N. intros u v w Dx Dy. lia. }
    destruct D as [z Hz]. apply N2Z.inj. rewrite N2Z.inj_mod, Hz. change (Z.of_N (2 ^ 24)) with (2 ^ 24)%Z. by rewrite Z.mod_mul.
  - apply (bool_decide_unpack _). by vm_compute.
Qed.
Lemma contains_covered r ts t : Forall tag_ok ts -> tag_ok t ->
  rf_contains (foldl rf_insert (rf_new r).1 ts) t = covered (tag_bits t) ts.
Proof.
  intros Hts Ht. apply eq_bool_prop_intro. rewrite !Is_true_true, (C17_history r ts t Hts Ht).
  unfold covered. rewrite forallb_forall. split.
  - intros H q Hq. rewrite <- elem_of_list_In in Hq. destruct (H q Hq) as (t' & Ht' & Hq'). apply existsb_exists.
    exists t'. split; [by apply elem_of_list_In|]. by apply bool_decide_eq_true_2.
  - intros H q Hq. rewrite elem_of_list_In in Hq. specialize (H q Hq). apply existsb_exists in H as (t' & Ht' & Hq').
    exists t'. split; [by apply elem_of_list_In|]. by apply bool_decide_eq_true_1 in Hq'.
Qed.
Local Transparent mean.
Lemma degenerate : mean (fun t => chance (rt_inc t mod 2 ^ 24 =? 0)%N) <= / 2 ^ 24.
Proof.
  unfold mean. eapply Rle_trans; [|apply (inc_class 0)]. apply (avg_le _ p32). intros inc _. cbn [rt_inc].
  rewrite (avg_const _ p32). lra.
Qed.
Local Opaque mean.

(** ** Theorems

    [n] tags are inserted in a new filter, and one more is looked up, all of them evenly distributed and independent
    of each other. That it is reported has at most the probability which the usual formula gives for a filter with
    2^26 bits of which each tag sets 8 at random, and a little more, as the bits of one tag depend on each other. *)
Theorem C60_average (r : rng) (n : nat) :
  mean (fun t => expect n (fun ts => chance (rf_contains (foldl rf_insert (rf_new r).1 ts) t))) <=
  (1 - (1 - 8 / 2 ^ 26) ^ n) ^ 8 + INR n / 2 ^ 38 + / 2 ^ 24.
Proof.
  set (b := (1 - (1 - 8 / 2 ^ 26) ^ n) ^ 8 + INR n / 2 ^ 38).
  apply Rle_trans with (mean (fun t => b + chance (rt_inc t mod 2 ^ 24 =? 0)%N)).
  - apply mean_le. intros t Ht. apply Rle_trans with (cover_chance n (tag_bits t)).
    { apply expect_le. intros ts Hts. rewrite (contains_covered r ts t Hts Ht). apply Rle_refl. }
    destruct (N.eqb_spec (rt_inc t mod 2 ^ 24) 0) as [E|E]; cbn [chance].
    + pose proof (cover_01 n (tag_bits t)). assert (0 <= b); [|lra]. unfold b. fold bit_rate (fill n).
      pose proof (pos_INR n). assert (0 <= fill n ^ 8) by (apply Rfunctions.pow_le, fill_01). lra.
    + pose proof (cover_bound n (tag_bits t) (bits_NoDup t Ht E) (Nat.le_refl 8)) as H.
      change (length (tag_bits t)) with 8%nat in H. unfold b. fold bit_rate (fill n). lra.
  - rewrite mean_plus, mean_const. pose proof degenerate. lra.
Qed.
Lemma bernoulli x n : 0 <= x <= 1 -> 1 - INR n * x <= (1 - x) ^ n.
Proof.
  intros Hx. induction n as [|n IH]; [cbn; lra|]. rewrite S_INR. cbn [Rpow_def.pow]. pose proof (pos_INR n).
  assert ((1 - x) * (1 - INR n * x) <= (1 - x) * (1 - x) ^ n) by (apply Rmult_le_compat_l; lra).
  assert (0 <= INR n * (x * x)) by (apply Rmult_le_pos; [done|]; apply Rmult_le_pos; lra). lra.
Qed.
Lemma doubled y k c d : c <= y ^ 2 ^ k -> 0 <= c -> d <= c * c -> d <= y ^ 2 ^ S k.
Proof.
  intros Hc H0 Hd. rewrite Nat.pow_succ_r', (Nat.mul_comm 2), pow_mult. cbn [Rpow_def.pow]. set (z := y ^ 2 ^ k) in *.
  assert (c * c <= z * z) by (apply Rmult_le_compat; lra). lra.
Qed.
(** The comment in the code: "The false positive rate is ~1% with 7m packets in the filter." *)
Corollary C60_seven_million (r : rng) (n : nat) : (N.of_nat n <= 7000000)%N ->
  mean (fun t => expect n (fun ts => chance (rf_contains (foldl rf_insert (rf_new r).1 ts) t))) <= 106 / 10000.
Proof.
  intros Hn. eapply Rle_trans; [apply C60_average|]. fold bit_rate.
  assert (HI : INR n <= 7000000) by (rewrite INR_IZR_INZ; apply IZR_le; lia).
  set (m := N.to_nat 6836). assert (Hm : INR m = 6836) by (unfold m; rewrite INR_IZR_INZ, N_nat_Z; done).
  pose proof rate_bounds as Hp. set (y := (1 - bit_rate) ^ m).
  assert (B0 : 99918508 / 100000000 <= y ^ 2 ^ 0).
  { change (2 ^ 0)%nat with 1%nat. rewrite pow_1. unfold y.
    eapply Rle_trans; [|apply bernoulli; lra]. rewrite Hm. unfold bit_rate. lra. }
  assert (B1 : 99837082 / 100000000 <= y ^ 2 ^ 1) by (apply (doubled y 0 (99918508 / 100000000)); lra).
  assert (B2 : 99674429 / 100000000 <= y ^ 2 ^ 2) by (apply (doubled y 1 (99837082 / 100000000)); lra).
  assert (B3 : 99349917 / 100000000 <= y ^ 2 ^ 3) by (apply (doubled y 2 (99674429 / 100000000)); lra).
  assert (B4 : 98704060 / 100000000 <= y ^ 2 ^ 4) by (apply (doubled y 3 (99349917 / 100000000)); lra).
  assert (B5 : 97424914 / 100000000 <= y ^ 2 ^ 5) by (apply (doubled y 4 (98704060 / 100000000)); lra).
  assert (B6 : 94916138 / 100000000 <= y ^ 2 ^ 6) by (apply (doubled y 5 (97424914 / 100000000)); lra).
  assert (B7 : 90090732 / 100000000 <= y ^ 2 ^ 7) by (apply (doubled y 6 (94916138 / 100000000)); lra).
  assert (B8 : 81163399 / 100000000 <= y ^ 2 ^ 8) by (apply (doubled y 7 (90090732 / 100000000)); lra).
  assert (B9 : 65874973 / 100000000 <= y ^ 2 ^ 9) by (apply (doubled y 8 (81163399 / 100000000)); lra).
  assert (B10 : 43395120 / 100000000 <= y ^ 2 ^ 10) by (apply (doubled y 9 (65874973 / 100000000)); lra).
  assert (Hle : (n <= m * 2 ^ 10)%nat).
  { replace (2 ^ 10)%nat with (N.to_nat 1024) by reflexivity. unfold m. rewrite <- N2Nat.inj_mul.
    apply (Nat.le_trans _ (N.to_nat 7000000)); lia. }
  assert (Hd : y ^ 2 ^ 10 <= (1 - bit_rate) ^ n).
  { unfold y. rewrite <- pow_mult. set (k := (m * 2 ^ 10)%nat) in *.
    replace k with (n + (k - n))%nat by lia. rewrite pow_add.
    assert (0 <= (1 - bit_rate) ^ n) by (apply Rfunctions.pow_le; lra).
    assert (H1 : (1 - bit_rate) ^ (k - n) <= 1 ^ (k - n)) by (apply pow_incr; lra). rewrite pow1 in H1. nra. }
  assert (Hf : (1 - (1 - bit_rate) ^ n) ^ 8 <= (56604880 / 100000000) ^ 8).
  { apply pow_incr. split; [apply (fill_01 n)|lra]. }
  lra.
Qed.
