(** C60, continued: the estimate in [PAverage.v] is accurate. *)
From Coq Require Import Reals Lra Psatz Znumtheory Classical_Prop.
From Verif Require Import PReplayCount PReplayFilter PAverage.
Local Open Scope R_scope.

(** ** How often a tag has a given bit *)
Lemma total_others f c n j : (forall i, (i < n)%nat -> f i <= c) -> (j < n)%nat -> total f n <= f j + INR n * c - c.
Proof.
  induction n as [|n IH]; intros H Hj; [lia|]. cbn [total]. rewrite S_INR.
  destruct (decide (j = n)) as [->|Hne].
  - assert (total f n <= total (fun _ => c) n) by (apply total_le; intros i Hi; apply H; lia).
    rewrite total_const in *. lra.
  - specialize (IH (fun i Hi => H i ltac:(lia)) ltac:(lia)). specialize (H n ltac:(lia)). lra.
Qed.
Lemma total_hit x n : (x < N.of_nat n)%N -> total (fun q => chance (x =? N.of_nat q)%N) n = 1.
Proof.
  assert (Z0 : forall m, (N.of_nat m <= x)%N -> total (fun q => chance (x =? N.of_nat q)%N) m = 0).
  { induction m as [|m IH]; intros Hm; cbn [total]; [done|]. rewrite IH by lia.
    destruct (N.eqb_spec x (N.of_nat m)); [lia|cbn [chance]; lra]. }
  induction n as [|n IH]; intros Hx; [lia|]. cbn [total]. destruct (N.eqb_spec x (N.of_nat n)) as [E|E]; cbn [chance].
  - rewrite Z0 by lia. lra.
  - rewrite IH by lia. lra.
Qed.
Lemma mean_ext f g : (forall t, f t = g t) -> mean f = mean g.
Proof. intros H. apply Rle_antisym; apply mean_le; intros t _; rewrite H; lra. Qed.
Lemma mean_total (f : replay_tag -> nat -> R) n : mean (fun t => total (f t) n) = total (fun q => mean (fun t => f t q)) n.
Proof.
  induction n as [|n IH]; cbn [total]; [apply mean_const|]. rewrite mean_plus, IH. reflexivity.
Qed.
Lemma one_bit_low q a : (q < 2 ^ 26)%N -> / 2 ^ 26 <= mean (fun t => chance (nth_bit t a =? q)%N).
Proof.
  intros Hq. set (m := N.to_nat (2 ^ 26)).
  assert (Hm : INR m = 2 ^ 26).
  { unfold m. rewrite INR_IZR_INZ, N_nat_Z. change (Z.of_N (2 ^ 26)) with 67108864%Z. lra. }
  assert (Hmn : N.of_nat m = (2 ^ 26)%N) by (unfold m; apply N2Nat.id). clearbody m.
  assert (T : total (fun i => mean (fun t => chance (nth_bit t a =? N.of_nat i)%N)) m = 1).
  { rewrite <- (mean_total (fun t i => chance (nth_bit t a =? N.of_nat i)%N)). rewrite <- (mean_const 1). apply mean_ext.
    intros t. apply total_hit. rewrite Hmn. unfold nth_bit. by apply N.mod_lt. }
  pose proof (total_others (fun i => mean (fun t => chance (nth_bit t a =? N.of_nat i)%N)) (/ 2 ^ 26) m (N.to_nat q)) as H.
  cbv beta in H. rewrite T, N2Nat.id, Hm in H. specialize (H (fun i _ => one_bit (N.of_nat i) a) ltac:(lia)). lra.
Qed.
Local Transparent mean.
Lemma rare_bit q a : mean (fun t => chance ((nth_bit t a =? q)%N && (rt_inc t mod 2 ^ 24 =? 0)%N)) <= / 2 ^ 50.
Proof.
  unfold mean. apply Rle_trans with (avg (2 ^ 32) (fun inc => / 2 ^ 26 * chance (inc mod 2 ^ 24 =? 0)%N)).
  - apply (avg_le _ p32). intros inc _. cbn [rt_inc]. destruct (inc mod 2 ^ 24 =? 0)%N; cbn [chance].
    + rewrite Rmult_1_r. eapply Rle_trans; [|apply (base_bit inc q a)]. apply (avg_le _ p32). intros base _.
      rewrite andb_true_r. apply Rle_refl.
    + rewrite Rmult_0_r. apply Rle_trans with (avg (2 ^ 32) (fun _ => 0)); [|rewrite (avg_const _ p32); lra].
      apply (avg_le _ p32). intros base _. rewrite andb_false_r. apply Rle_refl.
  - rewrite (avg_scal _ p32). pose proof (inc_class 0) as H.
    apply Rle_trans with (/ 2 ^ 26 * / 2 ^ 24); [apply Rmult_le_compat_l; lra|]. lra.
Qed.
Local Opaque mean.
Lemma existsb_low (f : N -> N) q L : NoDup (map f L) ->
  lsum (fun a => chance (f a =? q)%N) L <= chance (existsb (fun a => f a =? q)%N L).
Proof.
  assert (Z0 : forall L, q ∉ map f L -> lsum (fun a => chance (f a =? q)%N) L = 0).
  { intros L'. induction L' as [|a L' IH]; intros H; [reflexivity|]. cbn [map] in H. apply not_elem_of_cons in H as [H1 H2].
    change (chance (f a =? q)%N + lsum (fun a => chance (f a =? q)%N) L' = 0). rewrite (IH H2).
    destruct (N.eqb_spec (f a) q); [congruence|cbn [chance]; lra]. }
  induction L as [|a L IH]; intros H; [cbn; lra|]. cbn [map] in H. apply NoDup_cons in H as [H1 H2].
  change (chance (f a =? q)%N + lsum (fun a => chance (f a =? q)%N) L <= chance ((f a =? q)%N || existsb (fun a => f a =? q)%N L)).
  destruct (N.eqb_spec (f a) q) as [<-|E]; cbn [orb chance].
  - rewrite Z0 by done. lra.
  - specialize (IH H2). lra.
Qed.
Lemma hit_low q : (q < 2 ^ 26)%N -> bit_rate - / 2 ^ 47 <= mean (fun t => chance (hit t q)).
Proof.
  intros Hq. apply Rle_trans with (mean (fun t => lsum (fun a => chance (nth_bit t a =? q)%N) offsets +
    (-1) * lsum (fun a => chance ((nth_bit t a =? q)%N && (rt_inc t mod 2 ^ 24 =? 0)%N)) offsets)).
  - rewrite mean_plus, mean_scal, (mean_lsum (fun t a => chance (nth_bit t a =? q)%N)),
      (mean_lsum (fun t a => chance ((nth_bit t a =? q)%N && (rt_inc t mod 2 ^ 24 =? 0)%N))).
    assert (L1 : lsum (fun _ => / 2 ^ 26) offsets <= lsum (fun a => mean (fun t => chance (nth_bit t a =? q)%N)) offsets).
    { apply lsum_le. intros a _. by apply one_bit_low. }
    assert (L2 : lsum (fun a => mean (fun t => chance ((nth_bit t a =? q)%N && (rt_inc t mod 2 ^ 24 =? 0)%N))) offsets <= lsum (fun _ => / 2 ^ 50) offsets).
    { apply lsum_le. intros a _. apply rare_bit. }
    rewrite lsum_const in L1, L2. replace (INR (length offsets)) with 8 in L1, L2.
    2:{ rewrite INR_IZR_INZ. done. }
    unfold bit_rate. lra.
  - apply mean_le. intros t Ht. rewrite hit_bit. destruct (N.eqb_spec (rt_inc t mod 2 ^ 24) 0) as [E|E].
    + assert (L : lsum (fun a => chance (nth_bit t a =? q)%N) offsets <=
        lsum (fun a => chance ((nth_bit t a =? q)%N && true)) offsets).
      { apply lsum_le. intros a _. rewrite andb_true_r. apply Rle_refl. }
      pose proof (chance_01 (existsb (fun a => nth_bit t a =? q)%N offsets)). lra.
    + assert (0 <= lsum (fun a => chance ((nth_bit t a =? q)%N && false)) offsets) by (apply lsum_pos; intros a; apply chance_01).
      pose proof (existsb_low (nth_bit t) q offsets (bits_NoDup t Ht E)). lra.
Qed.

(** ** Bits that are all set *)
Lemma lsum_one T K q c : NoDup K -> 0 <= c -> (forall x, x ∈ K -> x <> q -> T x <= 0) -> T q <= c -> lsum T K <= c.
Proof.
  intros HK Hc H Hq. assert (Z0 : forall K, (forall x, x ∈ K -> T x <= 0) -> lsum T K <= 0).
  { induction K0 as [|x K0 IH]; intros H0; [cbn; lra|]. change (T x + lsum T K0 <= 0).
    pose proof (H0 x (elem_of_list_here _ _)). pose proof (IH (fun y Hy => H0 y (elem_of_list_further _ _ _ Hy))). lra. }
  induction HK as [|x K Hx HK IH]; [cbn; lra|]. change (T x + lsum T K <= c).
  destruct (decide (x = q)) as [->|Hne].
  - assert (lsum T K <= 0); [|lra]. apply Z0. intros y Hy. apply H; [by apply elem_of_list_further|]. by intros ->.
  - pose proof (H x (elem_of_list_here _ _) Hne).
    pose proof (IH (fun y Hy => H y (elem_of_list_further _ _ _ Hy))). lra.
Qed.
Lemma lsum_plus f g K : lsum (fun q => f q + g q) K = lsum f K + lsum g K.
Proof.
  induction K as [|q K IH]; [cbn; ring|].
  change (f q + g q + lsum (fun q => f q + g q) K = f q + lsum f K + (g q + lsum g K)). rewrite IH. ring.
Qed.
Lemma lsum_scal c f K : lsum (fun q => c * f q) K = c * lsum f K.
Proof.
  induction K as [|q K IH]; [cbn; ring|].
  change (c * f q + lsum (fun q => c * f q) K = c * (f q + lsum f K)). rewrite IH. ring.
Qed.
Lemma cover_next_low n K : NoDup K -> (length K <= 8)%nat -> Forall (fun q => q < 2 ^ 26)%N K ->
  cover_chance n K + lsum (fun q => bit_rate * (cover_chance n (without q K) - cover_chance n K)) K
    - (/ 2 ^ 38 + / 2 ^ 44) <= cover_chance (S n) K.
Proof.
  intros HK Hl HF. rewrite cover_step. set (f := cover_chance n). assert (Hw : forall q, 0 <= f (without q K) - f K <= 1).
  { intros q. pose proof (cover_01 n (without q K)). pose proof (cover_01 n K). fold f in H, H0.
    assert (f K <= f (without q K)); [|lra]. apply cover_sub. intros x Hx. by apply elem_of_list_filter in Hx as [_ Hx]. }
  set (pair := fun t q q' => chance (negb (q =? q')%N && (hit t q && hit t q'))).
  assert (Hl8 : INR (length K) <= 8).
  { replace 8 with (INR 8) by (rewrite INR_IZR_INZ; done). by apply le_INR. }
  pose proof (pos_INR (length K)) as Pl.
  apply Rle_trans with (mean (fun t => f K + lsum (fun q => (f (without q K) - f K) * chance (hit t q) + (-1) * lsum (pair t q) K) K)).
  - rewrite mean_plus, mean_const, (mean_lsum (fun t q => (f (without q K) - f K) * chance (hit t q) + (-1) * lsum (pair t q) K)).
    apply Rle_trans with (f K + lsum (fun q => bit_rate * (f (without q K) - f K) + (- (/ 2 ^ 47 + INR (length K) * / 2 ^ 44))) K).
    + rewrite lsum_plus, lsum_const. assert (INR (length K) * INR (length K) <= 64) by nra. lra.
    + apply Rplus_le_compat_l, lsum_le. intros q Hq. rewrite mean_plus, !mean_scal, (mean_lsum (fun t => pair t q)).
      assert (L : lsum (fun q' => mean (fun t => pair t q q')) K <= lsum (fun _ => / 2 ^ 44) K).
      { apply lsum_le. intros q' _. unfold pair. destruct (N.eqb_spec q q') as [->|Hne]; cbn [negb andb].
        - rewrite mean_const. cbn [chance]. lra.
        - by apply hits_rate. }
      rewrite lsum_const in L. rewrite Forall_forall in HF. pose proof (hit_low q (HF q Hq)) as Hh. specialize (Hw q).
      set (w := f (without q K) - f K) in *. set (h := mean (fun t => chance (hit t q))) in *.
      assert (w * (bit_rate - / 2 ^ 47) <= w * h) by (apply Rmult_le_compat_l; lra).
      assert (w * / 2 ^ 47 <= / 2 ^ 47) by lra. lra.
  - apply mean_le. intros t _. set (F := filter (fun q => hit t q = false) K).
    assert (Hc : 0 <= f F - f K).
    { assert (f K <= f F); [|lra]. apply cover_sub. intros x Hx. by apply elem_of_list_filter in Hx as [_ Hx]. }
    set (T := fun q => (f (without q K) - f K) * chance (hit t q) + (-1) * lsum (pair t q) K).
    assert (Hp0 : forall q q', 0 <= pair t q q') by (intros q q'; apply chance_01).
    assert (Hp : forall q, 0 <= lsum (pair t q) K) by (intros q; by apply lsum_pos).
    assert (Hn : forall q, hit t q = false -> T q <= 0).
    { intros q Hq. unfold T. rewrite Hq. cbn [chance]. specialize (Hp q). lra. }
    assert (lsum T K <= f F - f K); [|unfold T in *; lra].
    destruct (existsb (fun q => hit t q) K) eqn:E1.
    + apply existsb_exists in E1 as (q & Hq & Ht). rewrite <- elem_of_list_In in Hq.
      apply (lsum_one T K q); [done|done| |].
      * intros x Hx Hne. destruct (hit t x) eqn:Etx; [|by apply Hn].
        pose proof (lsum_in (pair t x) K q (Hp0 x) Hq) as L. unfold pair at 1 in L. rewrite Etx, Ht in L.
        destruct (N.eqb_spec x q); [done|]. cbn [negb andb chance] in L. unfold T. rewrite Etx. cbn [chance].
        specialize (Hw x). lra.
      * assert (f (without q K) <= f F).
        { apply cover_sub. intros x Hx. apply elem_of_list_filter in Hx as [Hh Hx]. apply elem_of_list_filter.
          split; [|done]. intros ->. congruence. }
        unfold T. rewrite Ht. cbn [chance]. specialize (Hp q). lra.
    + destruct K as [|q0 K0] eqn:EK; [cbn [lsum foldr]; lra|]. rewrite <- EK in *.
      assert (H0 : forall x, x ∈ K -> T x <= 0).
      { intros x Hx. apply Hn. destruct (hit t x) eqn:Etx; [|done].
        assert (Ex : existsb (fun q => hit t q) K = true); [|congruence]. apply existsb_exists. exists x.
        split; [by apply elem_of_list_In|done]. }
      apply (lsum_one T K q0); [done|done|by intros x Hx _; apply H0|].
      assert (T q0 <= 0); [|lra]. apply H0. rewrite EK. apply elem_of_list_here.
Qed.
Lemma pow_curve g d k : 0 <= g -> 0 <= d -> g + d <= 1 ->
  (g + d) ^ S k <= g ^ S k + INR (S k) * d * g ^ k + INR (S k) * INR (S k) * (d * d).
Proof.
  intros Hg Hd H1. induction k as [|k IH]; [cbn; nra|].
  change ((g + d) ^ S (S k)) with ((g + d) * (g + d) ^ S k).
  eapply Rle_trans; [apply Rmult_le_compat_l; [lra|exact IH]|].
  assert (Hk : 0 <= g ^ k <= 1).
  { split; [by apply Rfunctions.pow_le|]. apply Rle_trans with (1 ^ k); [apply pow_incr; lra|rewrite pow1; lra]. }
  rewrite !S_INR. pose proof (pos_INR k) as Pk. set (x := INR k + 1) in *. assert (Hx : 1 <= x) by (unfold x; lra).
  change (g ^ S (S k)) with (g * (g * g ^ k)). change (g ^ S k) with (g * g ^ k). set (z := g ^ k) in *.
  assert (Hdd : 0 <= d * d) by (by apply Rmult_le_pos).
  assert (A1 : x * (d * d) * z <= x * (d * d)).
  { rewrite <- (Rmult_1_r (x * (d * d))) at 2. apply Rmult_le_compat_l; [apply Rmult_le_pos; lra|lra]. }
  assert (A2 : (g + d) * (x * x * (d * d)) <= x * x * (d * d)).
  { rewrite <- (Rmult_1_l (x * x * (d * d))) at 2. apply Rmult_le_compat_r; [|lra]. apply Rmult_le_pos; [nra|done]. }
  assert (A3 : 0 <= (x + 1) * (d * d)) by (apply Rmult_le_pos; lra).
  lra.
Qed.
Lemma cover_low n : forall K, NoDup K -> (length K <= 8)%nat -> Forall (fun q => q < 2 ^ 26)%N K ->
  fill n ^ length K - INR n * / 2 ^ 37 <= cover_chance n K.
Proof.
  induction n as [|n IH]; intros K HK Hl HF.
  - change (INR 0) with 0. destruct K as [|q K]; [unfold cover_chance; cbn; lra|].
    assert (E : fill 0 = 0) by (unfold fill; cbn; lra). rewrite E. cbn [length Rpow_def.pow].
    pose proof (cover_01 0 (q :: K)). lra.
  - eapply Rle_trans; [|apply (cover_next_low n K HK Hl HF)].
    assert (Hl8 : INR (length K) <= 8).
    { replace 8 with (INR 8) by (rewrite INR_IZR_INZ; done). by apply le_INR. }
    pose proof (pos_INR n) as Pn. pose proof (pos_INR (length K)) as Pl. pose proof rate_bounds as Hp.
    assert (Hpp : bit_rate * bit_rate <= / 2 ^ 46) by (unfold bit_rate; lra). set (p := bit_rate) in *.
    destruct K as [|q0 K0] eqn:EK.
    + pose proof (IH [] HK Hl HF) as I. cbn [lsum foldr length Rpow_def.pow] in *. rewrite S_INR. lra.
    + rewrite <- EK in *. set (k := length K0). assert (Ek : length K = S k) by (rewrite EK; done). clear EK.
      set (g := fill n). assert (Hg : 0 <= g <= 1) by apply fill_01. set (e := / 2 ^ 37) in *.
      apply Rle_trans with (cover_chance n K + lsum (fun _ => p * (g ^ k - INR n * e - cover_chance n K)) K - (/ 2 ^ 38 + / 2 ^ 44)).
      * rewrite lsum_const. pose proof (IH K HK Hl HF) as IHK. fold g in IHK. rewrite Ek in *.
        set (c := cover_chance n K) in *. rewrite fill_S. fold g p. set (x := INR (S k)) in *.
        set (d := p * (1 - g)). assert (Hd : 0 <= d <= p) by (unfold d; nra).
        assert (T : (g + d) ^ S k <= g ^ S k + x * d * g ^ k + x * x * (d * d)).
        { apply pow_curve; [lra|lra|]. unfold d. nra. }
        assert (Hdd : x * x * (d * d) <= 64 * / 2 ^ 46).
        { apply Rmult_le_compat; [nra|nra|nra|nra]. }
        assert (Hxp : 0 <= 1 - x * p) by nra.
        assert (C1 : (1 - x * p) * (g ^ S k - INR n * e) <= (1 - x * p) * c) by (by apply Rmult_le_compat_l).
        rewrite (S_INR n). change (g ^ S k) with (g * g ^ k) in *.
        replace (c + x * (p * (g ^ k - INR n * e - c))) with ((1 - x * p) * c + x * p * (g ^ k - INR n * e)) by ring.
        assert (E : (1 - x * p) * (g * g ^ k - INR n * e) + x * p * (g ^ k - INR n * e) = g * g ^ k + x * d * g ^ k - INR n * e) by (unfold d; ring).
        assert (64 * / 2 ^ 46 + / 2 ^ 38 + / 2 ^ 44 <= e) by (unfold e; lra). lra.
      * apply Rplus_le_compat_r, Rplus_le_compat_l, lsum_le. intros q Hq.
        apply Rmult_le_compat_l; [lra|]. pose proof (without_length q K HK Hq) as Hw.
        assert (g ^ k - INR n * e <= cover_chance n (without q K)); [|lra].
        replace k with (length (without q K)) by lia. apply IH; [by apply NoDup_filter|lia|].
        rewrite Forall_forall in *. intros x Hx. apply elem_of_list_filter in Hx as [_ Hx]. by apply HF.
Qed.
Lemma pow_fewer x j k : 0 <= x <= 1 -> (j <= k)%nat -> x ^ k <= x ^ j.
Proof.
  intros Hx Hj. replace k with (j + (k - j))%nat by lia. rewrite pow_add.
  assert (0 <= x ^ j) by (apply Rfunctions.pow_le; lra).
  assert (H1 : x ^ (k - j) <= 1 ^ (k - j)) by (apply pow_incr; lra). rewrite pow1 in H1. nra.
Qed.
Lemma dups_length (l : list N) : (length (remove_dups l) <= length l)%nat.
Proof. induction l as [|x l IH]; [done|]. cbn. destruct (decide_rel _ x l); cbn; lia. Qed.

(** ** Theorems

    The probability that the filter reports a tag by mistake, at least and at most *)
Theorem C60_at_least (r : rng) (n : nat) :
  (1 - (1 - 8 / 2 ^ 26) ^ n) ^ 8 - INR n / 2 ^ 37 <=
  mean (fun t => expect n (fun ts => chance (rf_contains (foldl rf_insert (rf_new r).1 ts) t))).
Proof.
  fold bit_rate (fill n). rewrite <- (mean_const (fill n ^ 8 - INR n / 2 ^ 37)). apply mean_le. intros t Ht.
  apply Rle_trans with (cover_chance n (tag_bits t)).
  - set (K := remove_dups (tag_bits t)). assert (Hl : (length K <= 8)%nat) by apply (dups_length (tag_bits t)).
    apply Rle_trans with (cover_chance n K).
    + eapply Rle_trans; [|apply cover_low; [apply NoDup_remove_dups|exact Hl|]].
      * pose proof (pow_fewer (fill n) (length K) 8 (fill_01 n) Hl). unfold Rdiv. lra.
      * apply Forall_forall. intros q Hq. unfold K in Hq. rewrite elem_of_remove_dups in Hq. unfold tag_bits in Hq.
        apply elem_of_list_fmap in Hq as (a & -> & _). by apply N.mod_lt.
    + apply cover_sub. intros q Hq. unfold K. by rewrite elem_of_remove_dups.
  - apply expect_le. intros ts Hts. rewrite (contains_covered r ts t Hts Ht). apply Rle_refl.
Qed.
Lemma bernoulli_high x n : 0 <= x <= 1 -> (1 - x) ^ n * (1 + INR n * x) <= 1.
Proof.
  intros Hx. induction n as [|n IH]; [cbn; lra|]. rewrite S_INR. cbn [Rpow_def.pow]. pose proof (pos_INR n).
  assert (Hp : 0 <= (1 - x) ^ n) by (apply Rfunctions.pow_le; lra). set (z := (1 - x) ^ n) in *. set (i := INR n) in *.
  assert (0 <= z * ((i + 1) * (x * x))) by (apply Rmult_le_pos; [done|]; apply Rmult_le_pos; [lra|]; apply Rmult_le_pos; lra).
  lra.
Qed.
Lemma doubled_low y k c d : y ^ 2 ^ k <= c -> 0 <= y -> c * c <= d -> y ^ 2 ^ S k <= d.
Proof.
  intros Hc H0 Hd. rewrite Nat.pow_succ_r', (Nat.mul_comm 2), pow_mult. cbn [Rpow_def.pow].
  assert (Hz : 0 <= y ^ 2 ^ k) by (by apply Rfunctions.pow_le). set (z := y ^ 2 ^ k) in *.
  assert (z * z <= c * c) by (apply Rmult_le_compat; lra). lra.
Qed.
(** The comment in the code: "The false positive rate is ~1% with 7m packets in the filter." *)
Corollary C60_one_percent (r : rng) (n : nat) : N.of_nat n = 7000000%N ->
  104 / 10000 <= mean (fun t => expect n (fun ts => chance (rf_contains (foldl rf_insert (rf_new r).1 ts) t))) <= 106 / 10000.
Proof.
  intros Hn. split; [|apply C60_seven_million; lia]. eapply Rle_trans; [|apply C60_at_least]. fold bit_rate.
  assert (HI : INR n = 7000000) by (rewrite INR_IZR_INZ; f_equal; lia).
  set (m := N.to_nat 6835). assert (Hm : INR m = 6835) by (unfold m; rewrite INR_IZR_INZ, N_nat_Z; done).
  pose proof rate_bounds as Hp. set (y := (1 - bit_rate) ^ m).
  assert (Hy : 0 <= y) by (apply Rfunctions.pow_le; lra).
  assert (B0 : y ^ 2 ^ 0 <= 99918587 / 100000000).
  { change (2 ^ 0)%nat with 1%nat. rewrite pow_1.
    pose proof (bernoulli_high bit_rate m ltac:(lra)) as B. fold y in B. rewrite Hm in B. unfold bit_rate in B. lra. }
  assert (B1 : y ^ 2 ^ 1 <= 99837241 / 100000000) by (apply (doubled_low y 0 (99918587 / 100000000)); lra).
  assert (B2 : y ^ 2 ^ 2 <= 99674747 / 100000000) by (apply (doubled_low y 1 (99837241 / 100000000)); lra).
  assert (B3 : y ^ 2 ^ 3 <= 99350552 / 100000000) by (apply (doubled_low y 2 (99674747 / 100000000)); lra).
  assert (B4 : y ^ 2 ^ 4 <= 98705322 / 100000000) by (apply (doubled_low y 3 (99350552 / 100000000)); lra).
  assert (B5 : y ^ 2 ^ 5 <= 97427406 / 100000000) by (apply (doubled_low y 4 (98705322 / 100000000)); lra).
  assert (B6 : y ^ 2 ^ 6 <= 94920995 / 100000000) by (apply (doubled_low y 5 (97427406 / 100000000)); lra).
  assert (B7 : y ^ 2 ^ 7 <= 90099953 / 100000000) by (apply (doubled_low y 6 (94920995 / 100000000)); lra).
  assert (B8 : y ^ 2 ^ 8 <= 81180016 / 100000000) by (apply (doubled_low y 7 (90099953 / 100000000)); lra).
  assert (B9 : y ^ 2 ^ 9 <= 65901950 / 100000000) by (apply (doubled_low y 8 (81180016 / 100000000)); lra).
  assert (B10 : y ^ 2 ^ 10 <= 43430671 / 100000000) by (apply (doubled_low y 9 (65901950 / 100000000)); lra).
  assert (Hle : (m * 2 ^ 10 <= n)%nat).
  { replace (2 ^ 10)%nat with (N.to_nat 1024) by reflexivity. unfold m. rewrite <- N2Nat.inj_mul.
    apply (Nat.le_trans _ (N.to_nat 7000000)); lia. }
  assert (Hd : (1 - bit_rate) ^ n <= y ^ 2 ^ 10).
  { unfold y. rewrite <- pow_mult. apply pow_fewer; [lra|done]. }
  assert (Hf : (56569329 / 100000000) ^ 8 <= (1 - (1 - bit_rate) ^ n) ^ 8) by (apply pow_incr; lra).
  rewrite HI. lra.
Qed.

(** ** Examples: 7 million tags, and a single one, which is mistaken for another less than once in 16 million times *)
Example ex_one_percent (r : rng) : let n := N.to_nat 7000000 in
  104 / 10000 <= mean (fun t => expect n (fun ts => chance (rf_contains (foldl rf_insert (rf_new r).1 ts) t))) <= 106 / 10000.
Proof. intros n. apply C60_one_percent, N2Nat.id. Qed.
Example ex_single (r : rng) :
  mean (fun t => mean (fun t' => chance (rf_contains (rf_insert (rf_new r).1 t') t))) <= 1 / 16000000.
Proof.
  pose proof (C60_average r 1) as H. cbn [expect foldl] in H. eapply Rle_trans; [exact H|]. change (INR 1) with 1. lra.
Qed.

Print Assumptions C60_average.
Print Assumptions C60_one_percent.
