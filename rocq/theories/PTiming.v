(** C61: the forwarding delay reported for a request, and the time its packets and the replies to it
    are kept by the nodes on their way. *)
From Coq Require Import Reals Lra Psatz.
From Flocq Require Import Core.Core IEEE754.BinarySingleNaN.
From Verif Require Export PEnd PMetrics.
From Verif Require Import LBase.
Local Open Scope R_scope.

(** ** Specification *)

(** Every node able to forward the packet, with mean forwarding delay [u], keeps the next one for [h]. *)
Definition waits (pr : prims) nodes index (u h : duration) (g g' : stage) : Prop :=
  forall m now m' msg,
    can_forward pr nodes index g m -> cf_mean_forwarding_delay (mx_config m) = u ->
    handle_packet pr m (ap_packet (sg_to g)) now = Val (m', msg) ->
    fq_queue (mx_forward m') = fq_queue (mx_forward m) ++ [ForwardPacket (now + h)%N (sg_to g')].
Definition sum (hs : list duration) : N := foldr N.add 0%N hs.
(** The nodes on the trip keep the packet for [t] in total. *)
Definition takes (pr : prims) nodes index (u : duration) (trip : list stage) (t : duration) : Prop :=
  exists hs, sum hs = t /\ length trip = S (length hs) /\
    forall j h g g', hs !! j = Some h -> trip !! j = Some g -> trip !! S j = Some g' -> waits pr nodes index u h g g'.
(** Any reply packet made with the SURB is carried to the node [me], which finds the reply in it with the
    keys of entry [e], and the nodes on the way keep it for [t] in total. *)
Definition replies_take (pr : prims) nodes index (key : target -> bytes) (me : target) (u : duration)
    (surb : bytes) (e : bytes * surb_value) (t : duration) : Prop :=
  exists i peer, addr_of nodes (TMixnodeIndex i) = Some peer /\
    forall f, length f = N.to_nat 2048 ->
      exists p trip y q,
        complete_reply_packet pr (replicate 188 0%N ++ f ++ replicate 16 0%N) surb = (p, Some i) /\
        trip_to pr nodes index key me trip /\ first_packet trip = Some (AddressedPacket peer p) /\
        takes pr nodes index u trip t /\ addr_of nodes me = Some y /\
        list.last trip = Some (Stage (AddressedPacket y q) (key me)) /\
        journey pr q [key me] []
          (fun out res => res = Ok (ADeliverReply e.1) /\
             decrypt_reply_payload pr (take PAYLOAD_SIZE out) (sv_keys e.2) = (f ++ PAYLOAD_TAG, Ok tt)).
(** [a] is at most [b], but for [b] times 2^-48 and 8 nanoseconds. *)
Definition within_reach (a b : duration) : Prop := (2 ^ 48 * a <= (2 ^ 48 + 1) * b + 2 ^ 51)%N.

(** ** Arithmetic: approximation with a relative and an absolute error *)
Definition app (k c x y : R) : Prop := y * (1 - k * ulp1) - c <= x <= y * (1 + k * ulp1) + c.
Definition tiny : R := bpow radix2 (-1000).

Lemma tiny_pos : 0 < tiny.
Proof. apply bpow_gt_0. Qed.
Lemma rnd_tiny : rnd tiny = tiny.
Proof. apply fixed_bpow. lia. Qed.
Lemma app_rnd k c x y : 0 <= k <= 100 -> 0 <= c -> 0 <= x -> 0 <= y -> app k c x y -> app (k + 2) (2 * c + tiny) (rnd x) y.
Proof.
  intros Hk Hc Hx Hy [H1 H2]. pose proof ulp1_small as [Hu Hu']. pose proof tiny_pos as Ht.
  assert (Hr : x * (1 - ulp1) - tiny <= rnd x <= x * (1 + ulp1) + tiny).
  { destruct (Rle_or_lt tiny x) as [Hb|Hb].
    - destruct (rnd_near x Hb) as (e & He & ->). assert (He2 := Rabs_le_inv _ _ He).
      assert (x * - (1 * ulp1) <= x * e) by (apply Rmult_le_compat_l; lra).
      assert (x * e <= x * (1 * ulp1)) by (apply Rmult_le_compat_l; lra). lra.
    - assert (0 <= rnd x) by (rewrite <- rnd_0; by apply rnd_mono).
      assert (rnd x <= tiny) by (rewrite <- rnd_tiny; apply rnd_mono; lra).
      assert (0 <= x * ulp1) by (apply Rmult_le_pos; lra).
      assert (x * (1 - ulp1) <= x) by lra. lra. }
  unfold app. split.
  - eapply Rle_trans; [|apply Hr].
    assert (Hm : (y * (1 - k * ulp1) - c) * (1 - ulp1) <= x * (1 - ulp1)) by (apply Rmult_le_compat_r; lra).
    assert (0 <= y * (k * ulp1 * ulp1)) by (apply Rmult_le_pos; [lra|]; apply Rmult_le_pos; [apply Rmult_le_pos|]; lra).
    assert (0 <= c * ulp1) by (apply Rmult_le_pos; lra).
    assert (0 <= y * ulp1) by (apply Rmult_le_pos; lra).
    replace ((y * (1 - k * ulp1) - c) * (1 - ulp1)) with
      (y * (1 - (k + 2) * ulp1) - c + y * ulp1 + y * (k * ulp1 * ulp1) + c * ulp1) in Hm by ring. lra.
  - eapply Rle_trans; [apply Hr|].
    assert (Hm : x * (1 + ulp1) <= (y * (1 + k * ulp1) + c) * (1 + ulp1)) by (apply Rmult_le_compat_r; lra).
    assert (Hkk : k * ulp1 <= 1).
    { apply Rle_trans with (100 * / 9007199254740992); [apply Rmult_le_compat; lra|lra]. }
    assert (Hyk : y * ulp1 * (k * ulp1) <= y * ulp1 * 1).
    { apply Rmult_le_compat_l; [apply Rmult_le_pos; lra|done]. }
    assert (c * ulp1 <= c * 1) by (apply Rmult_le_compat_l; lra).
    replace ((y * (1 + k * ulp1) + c) * (1 + ulp1)) with
      (y * (1 + k * ulp1) + y * ulp1 + y * ulp1 * (k * ulp1) + c + c * ulp1) in Hm by ring.
    replace (y * (1 + (k + 2) * ulp1)) with (y * (1 + k * ulp1) + y * ulp1 + y * ulp1 * 1) by ring. lra.
Qed.
Lemma app_refl x : app 0 0 x x.
Proof. unfold app. lra. Qed.
Lemma app_weaken k c k' c' x y : 0 <= y -> k <= k' -> c <= c' -> app k c x y -> app k' c' x y.
Proof.
  intros Hy Hk Hc [H1 H2]. pose proof ulp1_small as [Hu _].
  assert (y * (k * ulp1) <= y * (k' * ulp1)).
  { apply Rmult_le_compat_l; [done|]. apply Rmult_le_compat_r; lra. }
  unfold app. lra.
Qed.
Lemma app_add k c c' x y x' y' : app k c x y -> app k c' x' y' -> app k (c + c') (x + x') (y + y').
Proof. unfold app. intros [H1 H2] [H3 H4]. split; lra. Qed.
Lemma app_mul k c x y s : 0 <= s -> app k c x y -> app k (c * s) (x * s) (y * s).
Proof.
  unfold app. intros Hs [H1 H2]. split.
  - replace (y * s * (1 - k * ulp1) - c * s) with ((y * (1 - k * ulp1) - c) * s) by ring. by apply Rmult_le_compat_r.
  - replace (y * s * (1 + k * ulp1) + c * s) with ((y * (1 + k * ulp1) + c) * s) by ring. by apply Rmult_le_compat_r.
Qed.

(** Sums of delays *)
Definition total (ds : list delay) : R := foldr (fun d x => f_real d + x) 0 ds.
Lemma total_nonneg ds : Forall (f_within 10) ds -> 0 <= total ds.
Proof. induction 1 as [|d ds [_ Hd] _ IH]; unfold total in *; cbn [foldr]; lra. Qed.
Lemma total_app ds ds' : total (ds ++ ds') = total ds + total ds'.
Proof. unfold total. induction ds as [|d ds IH]; cbn [foldr Datatypes.app]; [lra|]. rewrite IH. lra. Qed.
Lemma within_add_real j k x y : (0 <= j + k <= 2 ^ 53)%Z -> f_within j x -> f_within k y ->
  f_within (j + k) (delay_add x y) /\ f_real (delay_add x y) = rnd (f_real x + f_real y).
Proof.
  intros Hjk Hx Hy. split; [by apply within_add|]. unfold delay_add. apply add_real; [apply Hx|apply Hy|].
  destruct Hx as [_ Hx], Hy as [_ Hy]. rewrite Rabs_pos_eq by lra.
  apply Rle_trans with (IZR (j + k)); [rewrite plus_IZR; lra|]. apply IZR_BIG.
  eapply Z.le_trans; [apply Hjk|]. done.
Qed.
Lemma fold_app ds : forall (n : nat) (j : Z) c d y,
  Forall (f_within 10) ds -> (0 <= j)%Z -> (j + 10 * Z.of_nat (length ds) <= 2 ^ 53)%Z -> f_within j d ->
  (n + length ds <= 50)%nat -> 0 <= c -> 0 <= y -> app (2 * INR n) c (f_real d) y ->
  app (2 * INR (n + length ds)) (2 ^ length ds * (c + tiny)) (f_real (foldl delay_add d ds)) (y + total ds).
Proof.
  pose proof tiny_pos as Ht.
  induction ds as [|x ds IH]; intros n j c d y Hds Hj Hb Hd Hn Hc Hy H.
  - cbn [foldl length total foldr Rpow_def.pow]. rewrite Nat.add_0_r, Rplus_0_r. eapply app_weaken; [done| | |exact H]; lra.
  - apply Forall_cons in Hds as [Hx Hds]. cbn [foldl length total foldr] in *.
    destruct (within_add_real j 10 d x) as [Hw E]; [lia|done|done|].
    assert (Hs : app (2 * INR (S n)) (2 * c + tiny) (f_real (delay_add d x)) (y + f_real x)).
    { rewrite E, S_INR. replace (2 * (INR n + 1)) with (2 * INR n + 2) by ring.
      assert (Hi : 0 <= INR n <= 50).
      { split; [apply pos_INR|]. replace 50 with (INR 50) by (rewrite INR_IZR_INZ; done). apply le_INR. lia. }
      destruct Hd as [_ Hd0], Hx as [_ Hx0]. apply app_rnd; [lra|lra|lra|lra|].
      replace c with (c + 0) by lra. apply app_add; [done|].
      eapply app_weaken; [| | |apply app_refl]; lra. }
    specialize (IH (S n) (j + 10)%Z (2 * c + tiny) (delay_add d x) (y + f_real x) Hds ltac:(lia) ltac:(lia) Hw ltac:(lia)).
    replace (n + S (length ds))%nat with (S n + length ds)%nat by lia.
    replace (y + (f_real x + foldr (fun d0 x0 => f_real d0 + x0) 0 ds)) with (y + f_real x + total ds) by (unfold total; lra).
    replace (2 ^ S (length ds) * (c + tiny)) with (2 ^ length ds * (2 * c + tiny + tiny)) by (cbn [Rpow_def.pow]; ring).
    apply IH; [lra| |exact Hs]. destruct Hx as [_ Hx]. lra.
Qed.

Lemma tiny_small r : 0 <= r <= IZR (2 ^ 200) -> 0 <= tiny * r <= 1 / 1000.
Proof.
  intros Hr. pose proof tiny_pos as Ht. split; [apply Rmult_le_pos; lra|].
  apply Rle_trans with (tiny * IZR (2 ^ 200)); [apply Rmult_le_compat_l; lra|].
  change (IZR (2 ^ 200)) with (bpow radix2 200). unfold tiny. rewrite <- bpow_plus.
  apply Rle_trans with (bpow radix2 (-10)); [apply bpow_le; lia|]. change (bpow radix2 (-10)) with (/ 1024). lra.
Qed.

(** Durations *)
Lemma hold_app (u : duration) d h k c y :
  (u <= 2 ^ 50 * NANOS_PER_SEC)%N -> f_within 100 d -> delay_to_duration d u = Val h ->
  0 <= k <= 90 -> 0 <= c -> 0 <= y -> app k c (f_real d) y ->
  app (k + 2) ((2 * (c * f_real (as_secs_f64 u)) + tiny) * GIGA + 1 / 2) (IZR (Z.of_N h))
    (y * f_real (as_secs_f64 u) * GIGA).
Proof.
  intros Hu Hd Hh Hk Hc Hy Ha. destruct (to_duration_in u d Hu Hd) as (Hin & E & Hs).
  assert (HG : 0 <= GIGA) by (unfold GIGA; lra). pose proof tiny_pos as Ht.
  destruct (from_secs_val _ h (proj1 (proj1 Hin)) Hh) as (_ & _ & En & _). rewrite En.
  set (x := f_real (f_mul d (as_secs_f64 u))) in *. set (s := f_real (as_secs_f64 u)) in *.
  assert (H1 : app (k + 2) (2 * (c * s) + tiny) x (y * s)).
  { rewrite E. destruct Hd as [_ Hd]. apply app_rnd; [lra| | | |by apply app_mul].
    - by apply Rmult_le_pos.
    - apply Rmult_le_pos; lra.
    - by apply Rmult_le_pos. }
  apply (app_mul _ _ _ _ GIGA) in H1; [|done].
  pose proof (Znearest_half (fun n => negb (Z.even n)) (x * GIGA)) as Hz. apply Rabs_le_inv in Hz.
  unfold app in *. change (ZnearestE (x * GIGA)) with (Znearest (fun n => negb (Z.even n)) (x * GIGA)). lra.
Qed.
Lemma holds_app (u : duration) ds hs :
  (u <= 2 ^ 50 * NANOS_PER_SEC)%N -> Forall (f_within 10) ds ->
  Forall2 (fun d h => delay_to_duration d u = Val h) ds hs ->
  app 2 (INR (length ds) * (tiny * GIGA + 1 / 2)) (IZR (Z.of_N (sum hs))) (total ds * f_real (as_secs_f64 u) * GIGA).
Proof.
  intros Hu Hds Hf. induction Hf as [|d h ds hs Hh Hf IH].
  - unfold app, total, sum. cbn. lra.
  - apply Forall_cons in Hds as [Hd Hds]. specialize (IH Hds). cbn [length]. rewrite S_INR.
    pose proof (hold_app u d h 0 0 (f_real d) Hu (within_mono 10 100 d ltac:(done) Hd) Hh) as H.
    assert (Hd2 := Hd). destruct Hd2 as [_ Hd2]. specialize (H ltac:(lra) ltac:(lra) ltac:(lra) (app_refl _)).
    unfold sum, total in *. cbn [foldr]. rewrite N2Z.inj_add, plus_IZR.
    match goal with |- app _ _ _ ((?a + ?b) * ?c * ?d) => replace ((a + b) * c * d) with (a * c * d + b * c * d) by ring end.
    replace (0 + 2) with 2 in H by ring. pose proof (app_add _ _ _ _ _ _ _ H IH) as HI. unfold app in *. lra.
Qed.

Lemma total_le n ds : Forall (f_within 10) ds -> (length ds <= n)%nat -> total ds <= 10 * INR n.
Proof.
  intros Hds Hn. apply Rle_trans with (10 * INR (length ds)); [|apply Rmult_le_compat_l; [lra|by apply le_INR]].
  clear Hn. unfold total. induction Hds as [|d ds [_ Hd] _ IH]; cbn [foldr length]; [cbn; lra|]. rewrite S_INR. lra.
Qed.
Lemma fold_zero_app ds :
  Forall (f_within 10) ds -> (length ds <= 5)%nat ->
  f_within 50 (foldl delay_add delay_zero ds) /\
  app 10 (32 * tiny) (f_real (foldl delay_add delay_zero ds)) (total ds).
Proof.
  intros Hds Hl. pose proof tiny_pos as Ht. split.
  - assert (Hw : forall ds j d, Forall (f_within 10) ds -> (0 <= j)%Z -> (j + 10 * Z.of_nat (length ds) <= 2 ^ 53)%Z ->
        f_within j d -> f_within (j + 10 * Z.of_nat (length ds)) (foldl delay_add d ds)).
    { clear. induction ds as [|x ds IH]; intros j d Hds Hj Hb Hd; cbn [foldl length]; [by rewrite Z.add_0_r|].
      apply Forall_cons in Hds as [Hx Hds]. cbn [length] in Hb.
      replace (j + 10 * Z.of_nat (S (length ds)))%Z with (j + 10 + 10 * Z.of_nat (length ds))%Z by lia.
      apply IH; [done|lia|lia|]. apply within_add; [lia|done|done]. }
    eapply within_mono; [|apply (Hw ds 0%Z delay_zero); [done|lia|lia|apply within_zero]]. lia.
  - pose proof (fold_app ds 0 0 0 delay_zero 0 Hds ltac:(lia) ltac:(lia) within_zero ltac:(lia) ltac:(lra) ltac:(lra)) as H.
    assert (Hz : app (2 * INR 0) 0 (f_real delay_zero) 0) by (unfold app, f_real; cbn; lra).
    specialize (H Hz). rewrite !Rplus_0_l in H. cbn [Nat.add] in H.
    assert (Hln : INR (length ds) <= 5).
    { replace 5 with (INR 5) by (rewrite INR_IZR_INZ; done). by apply le_INR. }
    assert (Hpow : 2 ^ length ds <= 32).
    { replace 32 with (2 ^ 5) by (cbn; ring). apply Rle_pow; [lra|done]. }
    eapply app_weaken; [by apply total_nonneg| | |exact H]; [lra|].
    apply Rmult_le_compat_r; lra.
Qed.

(** The duration of a sum of delays, and the sum of the durations of the delays. *)
Lemma sum_of_durations (u : duration) ds ds' hs T :
  (u <= 2 ^ 50 * NANOS_PER_SEC)%N -> Forall (f_within 10) ds -> Forall (f_within 10) ds' ->
  (length ds <= 5)%nat -> (length ds' <= 5)%nat ->
  Forall2 (fun d h => delay_to_duration d u = Val h) (ds ++ ds') hs ->
  delay_to_duration (delay_add (foldl delay_add delay_zero ds) (foldl delay_add delay_zero ds')) u = Val T ->
  within_reach (sum hs) T /\ within_reach T (sum hs).
Proof.
  intros Hu Hds Hds' Hl Hl' Hhs HT. pose proof tiny_pos as Ht. pose proof ulp1_small as [Hu0 Hu1].
  pose proof (secs_le u (2 ^ 50) ltac:(done) Hu) as Hs. change (Z.of_N (2 ^ 50)) with (2 ^ 50)%Z in Hs. destruct Hs as [_ Hs].
  destruct (fold_zero_app ds Hds Hl) as [Hw Ha]. destruct (fold_zero_app ds' Hds' Hl') as [Hw' Ha'].
  pose proof (total_nonneg _ Hds) as Hp. pose proof (total_nonneg _ Hds') as Hp'.
  destruct (within_add_real 50 50 _ _ ltac:(lia) Hw Hw') as [Hww E]. change (50 + 50)%Z with 100%Z in Hww.
  assert (HA : app 12 (200 * tiny) (f_real (delay_add (foldl delay_add delay_zero ds) (foldl delay_add delay_zero ds')))
                 (total (ds ++ ds'))).
  { rewrite E, total_app. apply app_weaken with (10 + 2) (2 * (32 * tiny + 32 * tiny) + tiny); [lra|lra|lra|].
    destruct Hw as [_ Hw], Hw' as [_ Hw']. apply app_rnd; [lra|lra|lra|lra|]. by apply app_add. }
  assert (Hpp : 0 <= total (ds ++ ds')) by (rewrite total_app; lra).
  assert (HTa := hold_app u _ T 12 (200 * tiny) _ Hu Hww HT ltac:(lra) ltac:(lra) Hpp HA).
  assert (HH := holds_app u (ds ++ ds') hs Hu (proj2 (Forall_app _ _ _) (conj Hds Hds')) Hhs).
  set (s := f_real (as_secs_f64 u)) in *. set (Y := total (ds ++ ds') * s * GIGA) in *.
  assert (HY : 0 <= Y).
  { unfold Y. apply Rmult_le_pos; [apply Rmult_le_pos; lra|unfold GIGA; lra]. }
  assert (Hc1 : (2 * (200 * tiny * s) + tiny) * GIGA + 1 / 2 <= 1).
  { destruct (tiny_small (400 * s * GIGA + GIGA)) as [_ H]; [|replace ((2 * (200 * tiny * s) + tiny) * GIGA) with (tiny * (400 * s * GIGA + GIGA)) by ring; lra].
    unfold GIGA. assert (0 <= 400 * s * 1000000000 <= 400 * IZR (2 ^ 50) * 1000000000) by lra.
    assert (400 * IZR (2 ^ 50) * 1000000000 + 1000000000 <= IZR (2 ^ 200)).
    { rewrite <- !mult_IZR, <- plus_IZR. by apply IZR_le. }
    lra. }
  assert (Hc2 : INR (length (ds ++ ds')) * (tiny * GIGA + 1 / 2) <= 6).
  { assert (Hln : INR (length (ds ++ ds')) <= 10).
    { replace 10 with (INR 10) by (rewrite INR_IZR_INZ; done). apply le_INR. rewrite app_length. lia. }
    destruct (tiny_small GIGA) as [Hg0 Hg]; [unfold GIGA; split; [lra|by apply IZR_le]|].
    apply Rle_trans with (10 * (tiny * GIGA + 1 / 2)); [apply Rmult_le_compat_r; lra|lra]. }
  apply (app_weaken _ _ 14 1) in HTa; [|done|lra|done]. apply (app_weaken _ _ 2 6) in HH; [|done|lra|done].
  destruct HTa as [T1 T2], HH as [S1 S2]. clear -HY T1 T2 S1 S2 Hu0.
  set (t := IZR (Z.of_N T)) in *. set (z := IZR (Z.of_N (sum hs))) in *.
  assert (Hulp : ulp1 = / 9007199254740992) by (unfold ulp1; by change (2 ^ 53)%Z with 9007199254740992%Z). rewrite Hulp in *.
  assert (H1 : 281474976710656 * z <= 281474976710657 * t + 2251799813685248) by lra.
  assert (H2 : 281474976710656 * t <= 281474976710657 * z + 2251799813685248) by lra.
  unfold t, z in *. rewrite <- !mult_IZR, <- !plus_IZR in H1, H2. apply le_IZR in H1, H2.
  unfold within_reach. change (2 ^ 48)%N with 281474976710656%N. change (2 ^ 51)%N with 2251799813685248%N. lia.
Qed.

Section timing.
  Context (pr : prims) (Hok : prims_ok pr) (Hexp : exp1_ok (pr_exp1 pr)).

  Lemma hop_within ds : hop_delays pr ds -> (length ds <= 5)%nat /\ Forall (f_within 10) ds.
  Proof.
    intros [Hl Hd]. split; [done|]. eapply Forall_impl; [exact Hd|]. intros d (s & ->). by apply delay_exp_within.
  Qed.
  Lemma durations (u : duration) ds :
    (u <= 2 ^ 50 * NANOS_PER_SEC)%N -> Forall (f_within 10) ds ->
    exists hs, Forall2 (fun d h => delay_to_duration d u = Val h) ds hs.
  Proof.
    intros Hu Hds. apply choose_list. eapply Forall_impl; [exact Hds|]. intros d Hd.
    apply (to_duration_ok u d Hu). by eapply within_mono; [|exact Hd].
  Qed.
  Lemma delayed_takes nodes index u ds hs trip :
    delayed pr nodes index ds trip -> Forall2 (fun d h => delay_to_duration d u = Val h) ds hs ->
    takes pr nodes index u trip (sum hs).
  Proof.
    intros [Hl Hd] Hf. exists hs. split; [done|]. split; [by rewrite <- (Forall2_length _ _ _ Hf)|].
    intros j h g g' Hh Hg Hg' m now m' msg Hm Hu H.
    destruct (Forall2_lookup_r _ _ _ _ _ Hf Hh) as (d & Hdj & Ed).
    destruct (Hd j d g g' Hdj Hg Hg' m now m' msg Hm H) as (h' & Eh & Eq). rewrite Hu, Ed in Eh. by injection Eh as <-.
  Qed.
  Lemma sum_app hs hs' : sum (hs ++ hs') = (sum hs + sum hs')%N.
  Proof. unfold sum. induction hs as [|h hs IH]; cbn [foldr Datatypes.app]; [done|]. rewrite IH. lia. Qed.

  (** The time the nodes keep a packet and then a reply. *)
  Lemma legs_bound dqs dls dq dl (u T : duration) :
    (u <= 2 ^ 50 * NANOS_PER_SEC)%N -> Forall (hop_delays pr) dqs -> Forall (hop_delays pr) dls ->
    max_delays delay_zero (map (foldl delay_add delay_zero) dqs) = Val dq ->
    max_delays delay_zero (map (foldl delay_add delay_zero) dls) = Val dl ->
    delay_to_duration (delay_add dq dl) u = Val T ->
    forall ds hs ds' hs', ds ∈ dqs -> ds' ∈ dls ->
      Forall2 (fun d h => delay_to_duration d u = Val h) ds hs -> Forall2 (fun d h => delay_to_duration d u = Val h) ds' hs' ->
      within_reach (sum hs + sum hs') T.
  Proof.
    intros Hu Wq Wl Mq Ml HT ds hs ds' hs' Hin Hin' D1 D2. rewrite Forall_forall in Wq, Wl.
    assert (Hz : f_within 50 delay_zero) by (eapply within_mono; [|exact within_zero]; done).
    assert (Fs : forall dss, (forall ds, ds ∈ dss -> hop_delays pr ds) -> Forall (f_within 50) (map (foldl delay_add delay_zero) dss)).
    { intros dss H. apply Forall_map, Forall_forall. intros l Hl. destruct (hop_within _ (H l Hl)) as [? ?]. by apply fold_zero_app. }
    destruct (max_delays_spec _ _ _ Hz (Fs _ Wq) Mq) as (Wdq & _ & _ & Bq).
    destruct (max_delays_spec _ _ _ Hz (Fs _ Wl) Ml) as (Wdl & _ & _ & Bl).
    rewrite Forall_map, Forall_forall in Bq, Bl.
    destruct (hop_within _ (Wq _ Hin)) as [L1 F1]. destruct (hop_within _ (Wl _ Hin')) as [L2 F2].
    destruct (fold_zero_app ds F1 L1) as [W1 _]. destruct (fold_zero_app ds' F2 L2) as [W2 _].
    destruct (add_mono _ _ dq dl W1 W2 Wdq Wdl (Bq _ Hin) (Bl _ Hin')) as (Ha & Hb & Hc).
    destruct (to_duration_mono u _ _ _ Hu Ha Hb Hc HT) as (t & Et & Ht).
    destruct (sum_of_durations u ds ds' (hs ++ hs') t Hu F1 F2 L1 L2 ltac:(by apply Forall2_app) Et) as [R1 _].
    rewrite sum_app in R1. unfold within_reach in *. lia.
  Qed.

  (** C61: the forwarding delay reported when a request is posted is, up to rounding, the longest time
      that the nodes on the way keep one of its packets and then a reply, if they all use the same mean
      forwarding delay. *)
  Theorem C61_forwarding_delay w x index dest id data k ns r d mt w1 rel s key :
    world_ok pr w ->
    happens pr w (EvCall x (CallPostRequest index dest id data k ns r) (RespPost (Some d) (Ok mt))) w1 ->
    usable (w_node w x) index rel s -> honest pr (se_topology s) key ->
    let nodes := tp_mixnodes (se_topology s) in
    let u := cf_mean_forwarding_delay (mx_config (w_node w x)) in
    (u <= 2 ^ 50 * NANOS_PER_SEC)%N ->
    exists y trips surbs entries ts rs,
      request_sent pr w x index id data k rel nodes key d w1 y trips surbs /\
      mx_keystore (w_node w1 x) = ks_pushes (mx_keystore (w_node w x)) entries /\
      Forall2 (takes pr nodes index u) trips ts /\
      Forall3 (replies_take pr nodes index key (self (se_topology s) ns) u) surbs entries rs /\
      (forall t, t ∈ ts -> within_reach t (rqm_forwarding_delay mt)) /\
      (forall t t', t ∈ ts -> t' ∈ rs -> within_reach (t + t') (rqm_forwarding_delay mt)) /\
      (exists t t', t ∈ ts /\ (t' ∈ rs \/ rs = [] /\ t' = 0%N) /\ within_reach (rqm_forwarding_delay mt) (t + t')).
  Proof.
    intros Hw Hhap Hus Hhon nodes u Hu.
    destruct (round_trip pr Hok _ _ _ _ _ _ _ _ _ _ _ _ _ _ _ Hw Hhap Hus Hhon)
      as (_ & y & trips & surbs & entries & dqs & dls & [H1 _] & H2 & _ & Htl & _). fold nodes in H1, Htl. fold u in Htl.
    destruct Htl as (Hq & Hl & _ & dq & dl & Mq & Ml & HT).
    assert (Wq : Forall (fun ds => (length ds <= 5)%nat /\ Forall (f_within 10) ds) dqs).
    { clear -Hq Hexp. induction Hq as [|ds trip dqs trips [Hd _] _ IH]; constructor; [by apply hop_within|done]. }
    assert (Wl : Forall (fun ds => (length ds <= 5)%nat /\ Forall (f_within 10) ds) dls).
    { clear -Hl Hexp. induction Hl as [|sb e ds sbs es dls [Hd _] _ IH]; constructor; [by apply hop_within|done]. }
    assert (Hhs : forall dss, Forall (fun ds => (length ds <= 5)%nat /\ Forall (f_within 10) ds) dss ->
      exists hss, Forall2 (Forall2 (fun d h => delay_to_duration d u = Val h)) dss hss).
    { intros dss H. apply choose_list. eapply Forall_impl; [exact H|]. intros ds [_ Hd]. by apply durations. }
    destruct (Hhs _ Wq) as (hqs & Hhq). destruct (Hhs _ Wl) as (hls & Hhl). clear Hhs.
    exists y, trips, surbs, entries, (map sum hqs), (map sum hls). split; [done|]. split; [done|].
    assert (Fq : Forall (f_within 50) (map (foldl delay_add delay_zero) dqs)).
    { apply Forall_map. eapply Forall_impl; [exact Wq|]. intros ds [Hd1 Hd2]. by apply fold_zero_app. }
    assert (Fl : Forall (f_within 50) (map (foldl delay_add delay_zero) dls)).
    { apply Forall_map. eapply Forall_impl; [exact Wl|]. intros ds [Hd1 Hd2]. by apply fold_zero_app. }
    assert (Hz : f_within 50 delay_zero) by (eapply within_mono; [|exact within_zero]; done).
    destruct (max_delays_spec _ _ _ Hz Fq Mq) as (Wdq & Iq & _ & Bq).
    destruct (max_delays_spec _ _ _ Hz Fl Ml) as (Wdl & Il & Zl & Bl).
    rewrite Forall_map in Bq, Bl.
    (* one pair *)
    assert (Hpair : forall ds hs ds' hs',
      (length ds <= 5)%nat -> Forall (f_within 10) ds -> (length ds' <= 5)%nat -> Forall (f_within 10) ds' ->
      Forall2 (fun d h => delay_to_duration d u = Val h) ds hs -> Forall2 (fun d h => delay_to_duration d u = Val h) ds' hs' ->
      f_real (foldl delay_add delay_zero ds) <= f_real dq -> f_real (foldl delay_add delay_zero ds') <= f_real dl ->
      within_reach (sum hs + sum hs') (rqm_forwarding_delay mt) /\
      (foldl delay_add delay_zero ds = dq -> foldl delay_add delay_zero ds' = dl ->
       within_reach (rqm_forwarding_delay mt) (sum hs + sum hs'))).
    { intros ds hs ds' hs' L1 F1 L2 F2 D1 D2 B1 B2.
      destruct (fold_zero_app ds F1 L1) as [W1 _]. destruct (fold_zero_app ds' F2 L2) as [W2 _].
      destruct (add_mono _ _ dq dl W1 W2 Wdq Wdl B1 B2) as (Ha & Hb & Hc).
      destruct (to_duration_mono u _ _ _ Hu Ha Hb Hc HT) as (t & Et & Ht).
      destruct (sum_of_durations u ds ds' (hs ++ hs') t Hu F1 F2 L1 L2 ltac:(by apply Forall2_app) Et) as [R1 R2].
      rewrite sum_app in R1, R2. split.
      - unfold within_reach in *. lia.
      - intros <- <-. rewrite HT in Et. by injection Et as <-. }
    assert (Hat : forall dss hss t, Forall (fun ds => (length ds <= 5)%nat /\ Forall (f_within 10) ds) dss ->
      Forall2 (Forall2 (fun d h => delay_to_duration d u = Val h)) dss hss -> t ∈ map sum hss ->
      exists ds hs, ds ∈ dss /\ (length ds <= 5)%nat /\ Forall (f_within 10) ds /\
        Forall2 (fun d h => delay_to_duration d u = Val h) ds hs /\ t = sum hs).
    { intros dss hss t HW HF Ht. apply elem_of_list_fmap in Ht as (hs & -> & Hin).
      apply elem_of_list_lookup in Hin as [j Hj]. destruct (Forall2_lookup_r _ _ _ _ _ HF Hj) as (ds & Hds & Hdh).
      destruct (Forall_lookup_1 _ _ _ _ HW Hds) as [? ?]. exists ds, hs. split; [by eapply elem_of_list_lookup_2|done]. }
    rewrite Forall_forall in Bq, Bl.
    assert (Hnil : f_real (foldl delay_add delay_zero []) <= f_real dl) by exact Zl.
    split_and!.
    - clear -Hq Hhq. revert hqs Hhq. induction Hq as [|ds trip dqs trips [_ Hd] _ IH]; intros hqs Hhq.
      + apply Forall2_nil_inv_l in Hhq as ->. constructor.
      + apply Forall2_cons_inv_l in Hhq as (hs & hqs' & Hh & Hhq & ->). cbn [map]. constructor; [|by apply IH].
        by eapply delayed_takes.
    - clear -Hl Hhl. revert hls Hhl. induction Hl as [|sb e ds sbs es dls [_ Hd] _ IH]; intros hls Hhl.
      + apply Forall2_nil_inv_l in Hhl as ->. constructor.
      + apply Forall2_cons_inv_l in Hhl as (hs & hls' & Hh & Hhl & ->). cbn [map]. constructor; [|by apply IH].
        destruct Hd as (i & peer & Ha & Hd). exists i, peer. split; [done|]. intros f Hf.
        destruct (Hd f Hf) as (p & trip & y & q & H1 & H2 & H3 & H4 & H5). exists p, trip, y, q.
        split_and!; try done; try apply H5. by eapply delayed_takes.
    - intros t Ht. destruct (Hat _ _ _ Wq Hhq Ht) as (ds & hs & Hin & L & F & D & ->).
      destruct (Hpair ds hs [] [] L F ltac:(cbn; lia) ltac:(constructor) D ltac:(constructor) (Bq _ Hin) Hnil) as [H _].
      unfold sum in H at 2. cbn [foldr] in H. by rewrite N.add_0_r in H.
    - intros t t' Ht Ht'. destruct (Hat _ _ _ Wq Hhq Ht) as (ds & hs & Hin & L & F & D & ->).
      destruct (Hat _ _ _ Wl Hhl Ht') as (ds' & hs' & Hin' & L' & F' & D' & ->).
      apply (Hpair ds hs ds' hs'); try done; [by apply Bq|by apply Bl].
    - assert (Hne : dqs <> []).
      { destruct H1 as (_ & (Hn & _) & _). rewrite <- (Forall2_length _ _ _ Hq) in Hn. by destruct dqs; [cbn in Hn; lia|]. }
      assert (Hdq : dq ∈ map (foldl delay_add delay_zero) dqs).
      { apply max_delays_attained; try done. by destruct dqs. }
      apply elem_of_list_fmap in Hdq as (ds & Edq & Hds). apply elem_of_list_lookup in Hds as [j Hj].
      destruct (Forall2_lookup_l _ _ _ _ _ Hhq Hj) as (hs & Hhs & D). destruct (Forall_lookup_1 _ _ _ _ Wq Hj) as [L F].
      assert (Hin : ds ∈ dqs) by (by eapply elem_of_list_lookup_2).
      exists (sum hs). destruct (decide (dls = [])) as [El|El].
      + exists 0%N. split; [apply elem_of_list_fmap; exists hs; split; [done|]; by eapply elem_of_list_lookup_2|].
        subst dls. apply Forall2_nil_inv_l in Hhl as ->. split; [by right|].
        injection Ml as <-.
        destruct (Hpair ds hs [] [] L F ltac:(cbn; lia) ltac:(constructor) D ltac:(constructor) (Bq _ Hin) Hnil) as [_ H].
        by apply H.
      + assert (Hdl : dl ∈ map (foldl delay_add delay_zero) dls).
        { apply max_delays_attained; try done. by destruct dls. }
        apply elem_of_list_fmap in Hdl as (ds' & Edl & Hds'). apply elem_of_list_lookup in Hds' as [j' Hj'].
        destruct (Forall2_lookup_l _ _ _ _ _ Hhl Hj') as (hs' & Hhs' & D'). destruct (Forall_lookup_1 _ _ _ _ Wl Hj') as [L' F'].
        assert (Hin' : ds' ∈ dls) by (by eapply elem_of_list_lookup_2).
        exists (sum hs'). split; [apply elem_of_list_fmap; exists hs; split; [done|]; by eapply elem_of_list_lookup_2|].
        split; [left; apply elem_of_list_fmap; exists hs'; split; [done|]; by eapply elem_of_list_lookup_2|].
        destruct (Hpair ds hs ds' hs' L F L' F' D D' (Bq _ Hin) (Bl _ Hin')) as [_ H]. by apply H.
  Qed.
End timing.
