(** C02: fragment planning. *)
From Verif Require Import LBase PScattered.
From Verif Require Export MFragment.

Lemma fragment_payload_size : N.of_nat FRAGMENT_PAYLOAD_SIZE = 2025%N.
Proof. vm_compute. done. Qed.
Lemma surb_size : N.of_nat SURB_SIZE = 222%N.
Proof. vm_compute. done. Qed.
Lemma max_surbs_per_fragment : N.of_nat MAX_SURBS_PER_FRAGMENT = 9%N.
Proof. vm_compute. done. Qed.
Lemma fragment_header_size : FRAGMENT_HEADER_SIZE = 23.
Proof. done. Qed.
Lemma fragment_size : N.of_nat FRAGMENT_SIZE = 2048%N.
Proof. vm_compute. done. Qed.
Global Opaque FRAGMENT_PAYLOAD_SIZE SURB_SIZE MAX_SURBS_PER_FRAGMENT FRAGMENT_SIZE.

(** ** Specification

    A way to distribute [d] bytes of data and [s] SURBs over the fragments: for each fragment the
    number of data bytes and the number of SURBs it carries. A fragment has room for 2025 bytes and a
    SURB takes 222. *)
Definition packing := list (N * N).
Definition packs (l : packing) (d s : N) : Prop :=
  Forall (fun '(di, si) => di + 222 * si <= 2025)%N l /\
  foldr (fun '(di, _) acc => di + acc)%N 0%N l = d /\
  foldr (fun '(_, si) acc => si + acc)%N 0%N l = s.

Lemma packs_bounds l d s :
  packs l d s ->
  (s <= 9 * N.of_nat (length l))%N /\ (d + 222 * s <= 2025 * N.of_nat (length l))%N.
Proof.
  intros (Hl & <- & <-). induction Hl as [|[di si] l Hd Hl IH]; cbn [foldr length].
  - lia.
  - destruct IH as [IH1 IH2]. split; [|lia].
    assert (si <= 9)%N by lia. lia.
Qed.

(** The planned distribution *)
Definition plan_of (bs : list fragment_blueprint) : packing :=
  map (fun b => (N.of_nat (sc_len (fb_data b)), fb_num_surbs b)) bs.

(** ** The number of fragments *)
Lemma div_ceil_spec x y : (0 < y)%N -> forall n, (div_ceil x y <= n <-> x <= n * y)%N.
Proof.
  intros Hy n. unfold div_ceil. destruct (N.eqb_spec x 0) as [->|Hx]; [lia|].
  pose proof (N.div_mod (x - 1) y ltac:(lia)) as E.
  pose proof (N.mod_lt (x - 1) y ltac:(lia)) as Hlt.
  generalize dependent ((x - 1) / y)%N. intros q E. generalize dependent ((x - 1) mod y)%N.
  intros r E Hlt. split; intros H.
  - pose proof (N.mul_le_mono_r _ _ y H). lia.
  - destruct (N.le_gt_cases (q + 1) n) as [|Hn]; [done|].
    pose proof (N.mul_le_mono_r n q y ltac:(lia)). lia.
Qed.

Definition num_ok (n d s : N) : Prop := (s <= 9 * n /\ d + 222 * s <= 2025 * n /\ 1 <= n)%N.

Lemma plan_num_fragments_spec d s :
  (d <= USIZE_MAX)%N -> (s <= USIZE_MAX)%N ->
  exists n, plan_num_fragments d s = Val n /\ (1 <= n)%N /\
    ((n <= 65536)%N -> num_ok n d s) /\
    forall n', (n' <= 65536)%N -> num_ok n' d s -> (n <= n')%N.
Proof.
  intros Hd Hs. unfold plan_num_fragments.
  rewrite fragment_payload_size, surb_size, max_surbs_per_fragment.
  pose proof (div_ceil_spec s 9 ltac:(lia)) as Hk.
  set (k := div_ceil s 9) in *.
  assert (s <= k * 9)%N as Hsk by (by apply Hk).
  assert (forall m, s <= m * 9 -> k <= m)%N as Hkmin by (intros; by apply Hk).
  assert (k <= s)%N as Hks by (apply Hk; lia).
  unfold sub_or_panic, saturating_mul.
  destruct (N.leb_spec (N.min (s * 222) USIZE_MAX) (N.min (k * 2025) USIZE_MAX)) as [Hle|Hgt];
    [|lia]. simpl.
  set (u := (N.min (k * 2025) USIZE_MAX - N.min (s * 222) USIZE_MAX)%N).
  pose proof (div_ceil_spec (saturating_sub d u) 2025 ltac:(lia)) as Hr.
  set (rem := saturating_sub d u) in *. set (q := div_ceil rem 2025) in *.
  unfold saturating_sub in rem.
  assert (rem <= q * 2025)%N as Hrq by (by apply Hr).
  assert (q <= d)%N as Hqd by (apply Hr; unfold rem; lia).
  eexists. split; [done|]. split; [lia|].
  assert (65537 < USIZE_MAX /\ 65536 * 2025 < USIZE_MAX)%N as [Hbig Hbig2] by (unfold USIZE_MAX; lia).
  unfold saturating_add.
  destruct (decide (k <= 65536)%N) as [Hk2|Hk2].
  - assert (u = k * 2025 - s * 222)%N as Hu by (unfold u; lia).
    split.
    + intros Hn. unfold num_ok. unfold rem in Hrq. rewrite Hu in *. lia.
    + intros n' Hn' (H1&H2&H3).
      assert (k <= n')%N by (apply Hkmin; lia).
      assert (q <= n' - k)%N; [|lia].
      apply Hr. unfold rem. rewrite Hu. lia.
  - split; [lia|]. intros n' Hn' (H1&H2&H3). exfalso. apply Hk2. transitivity n'; [|done].
    apply Hkmin. lia.
Qed.

(** ** The blueprints *)
Lemma blueprint_loop_spec id last index count data s :
  sc_wf data ->
  (s <= 9 * N.of_nat count)%N ->
  (N.of_nat (length (sc_contents data)) + 222 * s <= 2025 * N.of_nat count)%N ->
  exists bs, blueprint_loop id last index count data s = Val bs /\
    length bs = count /\
    packs (plan_of bs) (N.of_nat (length (sc_contents data))) s /\
    Forall (fun b => sc_wf (fb_data b)) bs /\
    concat (map (fun b => sc_contents (fb_data b)) bs) = sc_contents data /\
    (forall i b, bs !! i = Some b ->
       fb_message_id b = id /\ fb_last_index b = (last mod 65536)%N /\
       fb_index b = ((index + N.of_nat i) mod 65536)%N).
Proof.
  revert index data s. induction count as [|count IH]; intros index data s Hwf Hs Hd.
  - exists []. simpl. split; [done|]. split; [done|].
    assert (s = 0)%N as -> by lia.
    assert (sc_contents data = []) as -> by (apply nil_length_inv; lia).
    split; [split; [constructor|done]|]. split; [constructor|]. split; [done|].
    intros i b Hb. by rewrite lookup_nil in Hb.
  - cbn [blueprint_loop]. rewrite fragment_payload_size, surb_size, max_surbs_per_fragment.
    set (fs := N.min s 9). unfold sub_or_panic.
    destruct (N.leb_spec (fs * 222) 2025) as [_|?]; [|lia]. cbn [out_bind].
    set (ds := Nat.min (sc_len data) (N.to_nat (2025 - fs * 222))).
    assert (ds ≤ length (sc_contents data)) as Hds by (rewrite <- Hwf; lia).
    destruct (C07_split_at data ds Hwf Hds) as (a & b & -> & Ha & Hb & Ea & Eb). cbn [out_bind].
    assert (length (sc_contents a) = ds) as La by (rewrite Ea, take_length; lia).
    assert (length (sc_contents b) = length (sc_contents data) - ds) as Lb
      by (by rewrite Eb, drop_length).
    destruct (IH (index + 1)%N b (s - fs)%N Hb) as (bs & -> & Hlen & Hpk & Hfw & Hcat & Hix).
    { lia. }
    { rewrite Lb. unfold sc_wf in Hwf. unfold ds. lia. }
    cbn [out_bind]. eexists. split; [done|]. split; [by simpl; rewrite Hlen|].
    assert (fs mod 256 = fs)%N as Hfs by (apply N.mod_small; lia).
    split.
    { destruct Hpk as (H1&H2&H3). split; [|split].
      - constructor; [|done]. cbn [fb_data fb_num_surbs]. rewrite Hfs. unfold sc_wf in Ha.
        rewrite Ha, La. unfold ds, fs. lia.
      - cbn [plan_of map foldr fb_data]. fold (plan_of bs). rewrite H2, Lb. unfold sc_wf in Ha.
        rewrite Ha, La. lia.
      - cbn [plan_of map foldr fb_num_surbs]. fold (plan_of bs). rewrite H3, Hfs. lia. }
    split; [by constructor|]. split.
    { simpl. rewrite Hcat, Ea, Eb. apply take_drop. }
    intros [|i] x Hx; simpl in Hx.
    + simplify_eq. simpl. split; [done|]. split; [done|]. by rewrite N.add_0_r.
    + destruct (Hix i x Hx) as (?&?&->). split; [done|]. split; [done|].
      f_equal. lia.
Qed.

Lemma num_ok_packs n d s : num_ok (N.of_nat n) d s -> exists l, length l = n /\ packs l d s.
Proof.
  intros (H1&H2&_).
  pose proof (blueprint_loop_spec [] 0 0 n (sc_from_slice (replicate (N.to_nat d) 0%N)) s) as H.
  destruct (C07_from (replicate (N.to_nat d) 0%N) []) as (Hwf & Hc & _).
  rewrite Hc, replicate_length in H.
  destruct H as (bs & _ & Hl & Hp & _); [done|lia|lia|].
  exists (plan_of bs). split; [by unfold plan_of; rewrite map_length|].
  by rewrite N2Nat.id in Hp.
Qed.

Lemma fragment_blueprints_spec id data s :
  sc_wf data -> (N.of_nat (length (sc_contents data)) <= USIZE_MAX)%N -> (s <= USIZE_MAX)%N ->
  exists n, plan_num_fragments (N.of_nat (length (sc_contents data))) s = Val n /\ (1 <= n)%N /\
    ((65536 < n)%N /\ fragment_blueprints id data s = Val None \/
     (n <= 65536)%N /\ exists bs, fragment_blueprints id data s = Val (Some bs) /\
      length bs = N.to_nat n /\
      packs (plan_of bs) (N.of_nat (length (sc_contents data))) s /\
      Forall (fun b => sc_wf (fb_data b)) bs /\
      concat (map (fun b => sc_contents (fb_data b)) bs) = sc_contents data /\
      (forall i b, bs !! i = Some b ->
         fb_message_id b = id /\ fb_last_index b = (n - 1)%N /\ fb_index b = N.of_nat i)).
Proof.
  intros Hwf Hd Hs.
  destruct (plan_num_fragments_spec _ _ Hd Hs) as (n & Hn & H1 & Hok & _).
  exists n. split; [done|]. split; [done|]. 
  assert (fragment_blueprints id data s =
            if (n - 1 <=? 65535)%N
            then bs ← blueprint_loop id (n - 1) 0 (N.to_nat n) data s; Val (Some bs)
            else Val None) as ->.
  { unfold fragment_blueprints. rewrite Hwf, Hn. cbn [out_bind].
    unfold sub_or_panic. destruct (N.leb_spec 1 n); [done|lia]. }
  destruct (N.leb_spec (n - 1) 65535) as [Hle|Hgt]; [|left; split; [lia|done]].
  right. split; [lia|]. destruct (Hok ltac:(lia)) as (Ho1 & Ho2 & _).
  destruct (blueprint_loop_spec id (n - 1) 0 (N.to_nat n) data s Hwf) as (bs & -> & Hl & Hp & Hw & Hc & Hi);
    [lia|lia|].
  exists bs. split; [done|]. split; [done|]. split; [done|]. split; [done|]. split; [done|].
  intros i b Hb. destruct (Hi i b Hb) as (?&->&->).
  apply lookup_lt_Some in Hb. split; [done|].
  rewrite !N.mod_small by lia. done.
Qed.

(** Planning never panics, and is refused exactly when more than 65536 fragments would be needed. *)
Theorem C02_total id data s :
  sc_wf data -> (N.of_nat (length (sc_contents data)) <= USIZE_MAX)%N -> (s <= USIZE_MAX)%N ->
  match fragment_blueprints id data s with
  | Panic => False
  | Val None =>
      forall l, packs l (N.of_nat (length (sc_contents data))) s -> 65536 < N.of_nat (length l)
  | Val (Some bs) => 1 <= N.of_nat (length bs) <= 65536
  end%N.
Proof.
  intros Hwf Hd Hs. pose proof (fragment_blueprints_spec id data s Hwf Hd Hs) as (n&Hn&H1&H).
  destruct H as [[Hgt ->]|(Hle&bs&->&Hl&_)]; [|lia].
  intros l Hl. destruct (packs_bounds _ _ _ Hl) as [B1 B2].
  destruct (plan_num_fragments_spec _ _ Hd Hs) as (n' & Hn' & _ & _ & Hmin).
  rewrite Hn in Hn'. injection Hn' as <-.
  destruct (decide (N.of_nat (length l) <= 65536)%N); [|lia]. exfalso.
  assert (n <= N.max (N.of_nat (length l)) 1)%N; [|lia].
  apply Hmin; [lia|]. unfold num_ok. lia.
Qed.

(** The plan distributes exactly the data and the SURBs, within the room of each fragment, and no
    distribution uses fewer fragments (an empty message still takes one). *)
Theorem C02_minimal id data s bs :
  sc_wf data -> (N.of_nat (length (sc_contents data)) <= USIZE_MAX)%N -> (s <= USIZE_MAX)%N ->
  fragment_blueprints id data s = Val (Some bs) ->
  packs (plan_of bs) (N.of_nat (length (sc_contents data))) s /\
  forall l, packs l (N.of_nat (length (sc_contents data))) s ->
    length bs ≤ Nat.max (length l) 1.
Proof.
  intros Hwf Hd Hs Hbs. pose proof (fragment_blueprints_spec id data s Hwf Hd Hs) as (n&Hn&H1&H).
  destruct H as [[Hgt E]|(Hle&bs'&E&Hl&Hp&_)]; rewrite Hbs in E; simplify_eq.
  split; [done|]. intros l Hpl. destruct (packs_bounds _ _ _ Hpl) as [B1 B2].
  destruct (plan_num_fragments_spec _ _ Hd Hs) as (n' & Hn' & _ & _ & Hmin).
  rewrite Hn in Hn'. injection Hn' as <-.
  rewrite Hl. destruct (decide (N.of_nat (length l) <= 65536)%N); [|lia].
  assert (n <= N.max (N.of_nat (length l)) 1)%N; [|lia].
  apply Hmin; [lia|]. unfold num_ok. lia.
Qed.

(** The pieces of data, in order, are the data; every fragment carries the ID, the index of the last
    fragment and its own index, none of them truncated. *)
Theorem C02_blueprints id data s bs :
  sc_wf data -> (N.of_nat (length (sc_contents data)) <= USIZE_MAX)%N -> (s <= USIZE_MAX)%N ->
  fragment_blueprints id data s = Val (Some bs) ->
  concat (map (fun b => sc_contents (fb_data b)) bs) = sc_contents data /\
  forall i b, bs !! i = Some b ->
    fb_message_id b = id /\ fb_last_index b = (N.of_nat (length bs) - 1)%N /\
    fb_index b = N.of_nat i.
Proof.
  intros Hwf Hd Hs Hbs. pose proof (fragment_blueprints_spec id data s Hwf Hd Hs) as (n&Hn&H1&H).
  destruct H as [[Hgt E]|(Hle&bs'&E&Hl&_&_&Hc&Hi)]; rewrite Hbs in E; simplify_eq.
  split; [done|]. intros i b Hb. destruct (Hi i b Hb) as (?&->&?). rewrite Hl.
  split_and!; [done|lia|done].
Qed.

(** Concrete cases: 5000 bytes and 12 SURBs take 4 fragments; the largest message accepted without
    SURBs, and one byte more. *)
Example ex_plan_hyp :
  let data := sc_from_slice (replicate (N.to_nat 5000) 7%N) in
  sc_wf data /\ (N.of_nat (length (sc_contents data)) <= USIZE_MAX)%N /\ (12 <= USIZE_MAX)%N /\
  exists bs, fragment_blueprints [] data 12 = Val (Some bs) /\
    plan_of bs = [(27, 9); (1359, 3); (2025, 0); (1589, 0)]%N.
Proof.
  split; [apply sc_from_slice_wf|]. split.
  { destruct (C07_from (replicate (N.to_nat 5000) 7%N) []) as (_ & -> & _).
    rewrite replicate_length. unfold USIZE_MAX. lia. }
  split; [unfold USIZE_MAX; lia|]. eexists. split; vm_compute; reflexivity.
Qed.
Example ex_plan_limit :
  plan_num_fragments (2025 * 65536) 0 = Val 65536%N /\
  plan_num_fragments (2025 * 65536 + 1) 0 = Val 65537%N /\
  plan_num_fragments USIZE_MAX USIZE_MAX <> Panic.
Proof. split; [|split]; vm_compute; done. Qed.

Print Assumptions C02_total.
Print Assumptions C02_minimal.
Print Assumptions C02_blueprints.
