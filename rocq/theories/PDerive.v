(** C63: secrets derived for different purposes, hops and packets are different bytes of outputs of the hash. *)
From Coq Require Import String.
From stdpp Require Import list.
From Verif Require Export MReplayFilter LSphinx.
Local Open Scope list_scope.

(** ** Specification *)

(** A call of the keyed hash BLAKE2b: size of the output, key, salt, personalisation and message. *)
Record hash_call := HashCall {
  hc_size : nat; hc_key : bytes; hc_salt : bytes; hc_personal : bytes; hc_message : bytes
}.
Definition hash (pr : prims) (c : hash_call) : bytes :=
  pr_blake2b pr (hc_size c) (hc_key c) (hc_salt c) (hc_personal c) (hc_message c).
(** The limits of BLAKE2b, beyond which the constructor fails *)
Definition fits (c : hash_call) : Prop :=
  1 ≤ hc_size c ≤ 64 /\ length (hc_key c) ≤ 64 /\ length (hc_salt c) ≤ 16 /\ length (hc_personal c) ≤ 16.
(** BLAKE2b fills up salt and personalisation with zeros. Calls that differ otherwise are different. *)
Definition filled (b : bytes) : bytes := b ++ replicate (16 - length b) 0%N.
Definition told (c : hash_call) : nat * bytes * bytes * bytes * bytes :=
  (hc_size c, hc_key c, filled (hc_salt c), filled (hc_personal c), hc_message c).

(** What a secret shared with a hop is used for. The blinding factor depends on the public key in the
    packet too, and the replay tag on the key of the filter. *)
Inductive purpose :=
| ForMac
| ForActions
| ForDelay
| ForPayload
| ForBlinding (kx_public : bytes)
| ForReplay (filter_key : bytes).
Definition purpose_ok (p : purpose) : Prop :=
  match p with ForBlinding k | ForReplay k => length k = 32 | _ => True end.
Definition size_for (p : purpose) : nat :=
  match p with
  | ForMac => 16 | ForActions => 32 | ForDelay => 16 | ForPayload => 192 | ForBlinding _ => 32 | ForReplay _ => 8
  end.
(** Byte [j] for the purpose [p] is to be this byte of the output of this call. *)
Definition source (p : purpose) (shared_secret : bytes) (j : nat) : hash_call * nat :=
  match p with
  | ForMac => (HashCall 64 shared_secret (replicate 8 0%N) (string_bytes "sphinx-small-d-s") [], j)
  | ForActions => (HashCall 64 shared_secret (replicate 8 0%N) (string_bytes "sphinx-small-d-s") [], 16 + j)
  | ForDelay => (HashCall 64 shared_secret (replicate 8 0%N) (string_bytes "sphinx-small-d-s") [], 48 + j)
  | ForPayload =>
      (HashCall 64 shared_secret (N.of_nat (j / 64) :: replicate 7 0%N) (string_bytes "sphinx-pl-en-key") [], j mod 64)
  | ForBlinding k => (HashCall 32 (k ++ shared_secret) [] (string_bytes "sphinx-blind-fac") [], j)
  | ForReplay k => (HashCall 8 (k ++ shared_secret) [] (string_bytes "sphinx-replay-tg") [], j)
  end.

(** What the code derives. The tag is shown as the eight bytes of its two halves. *)
Definition derived (pr : prims) (p : purpose) (shared_secret : bytes) : bytes :=
  match p with
  | ForMac => sds_mac_key (small_derived_secrets pr shared_secret)
  | ForActions => sds_actions_encryption_key (small_derived_secrets pr shared_secret)
  | ForDelay => sds_delay_seed (small_derived_secrets pr shared_secret)
  | ForPayload => derive_payload_encryption_key pr shared_secret
  | ForBlinding k => derive_kx_blinding_factor pr k shared_secret
  | ForReplay k =>
      let tag := rf_tag pr {| rf_key := k; rf_words := None |} shared_secret in
      to_le 4 (rt_base tag) ++ to_le 4 (rt_inc tag)
  end.
Definition byte_hash (pr : prims) : Prop := forall c, Forall (fun x => (x < 256)%N) (hash pr c).

(** The integer that 32 secret bytes stand for: a multiple of the cofactor 8, with the highest bit
    always in the same place; the remaining bits are those of the secret. *)
Definition scalar_of (b : bytes) (n : N) : Prop :=
  (2 ^ 254 <= n < 2 ^ 255)%N /\ (n mod 8 = 0)%N /\
  forall i, (3 <= i < 254)%N -> N.testbit n i = N.testbit (from_le b) i.

(** ** Proof *)
Lemma from_le_app a b : from_le (a ++ b) = (from_le a + 256 ^ N.of_nat (length a) * from_le b)%N.
Proof.
  induction a as [|x a IH]; cbn [app from_le length].
  { change (256 ^ N.of_nat 0)%N with 1%N. lia. }
  rewrite IH, Nat2N.inj_succ, N.pow_succ_r'. lia.
Qed.
Lemma to_le_from_le b : Forall (fun x => (x < 256)%N) b -> to_le (length b) (from_le b) = b.
Proof.
  induction 1 as [|x b Hx _ IH]; [done|]. cbn [length to_le from_le].
  assert (E1 : ((x + 256 * from_le b) mod 256 = x)%N).
  { rewrite N.mul_comm, N.mod_add by done. by apply N.mod_small. }
  assert (E2 : ((x + 256 * from_le b) / 256 = from_le b)%N).
  { rewrite N.mul_comm, N.div_add by done. rewrite N.div_small by done. done. }
  rewrite E1, E2, IH. done.
Qed.
Lemma from_le_lt b : Forall (fun x => (x < 256)%N) b -> (from_le b < 256 ^ N.of_nat (length b))%N.
Proof.
  induction 1 as [|x b Hx _ IH]; [done|]. cbn [length from_le]. rewrite Nat2N.inj_succ, N.pow_succ_r'. lia.
Qed.

Section derive.
  Context (pr : prims) (Hok : prims_ok pr).

  Lemma small_eq s : small_derived_secrets pr s = hash pr (HashCall 64 s (replicate 8 0%N) (string_bytes "sphinx-small-d-s") []).
  Proof. unfold small_derived_secrets, derive_secret. cbn -[string_bytes]. by rewrite app_nil_r. Qed.
  Lemma hash_length c : length (hash pr c) = hc_size c.
  Proof. apply (blake2b_length _ Hok). Qed.
  Lemma slice_lookup (b : bytes) o n j : j < n -> slice b o n !! j = b !! (o + j).
  Proof. intros H. unfold slice. by rewrite lookup_take, lookup_drop by done. Qed.

  (** C63: every derived secret has its size and is made of the bytes named above; none of the calls
      is beyond the limits of the hash. *)
  Theorem C63_derived (p : purpose) (s : bytes) :
    byte_hash pr -> length s = 32 -> purpose_ok p ->
    length (derived pr p s) = size_for p /\
    forall j, j < size_for p ->
      fits (source p s j).1 /\
      exists x, derived pr p s !! j = Some x /\ hash pr (source p s j).1 !! (source p s j).2 = Some x.
  Proof.
    intros Hb Hs Hp.
    assert (Hlook : forall c j, j < hc_size c -> exists x, hash pr c !! j = Some x).
    { intros c j Hj. apply lookup_lt_is_Some_2. by rewrite hash_length. }
    assert (Hsl : forall o n j, o + n ≤ 64 -> j < n ->
      exists x, slice (small_derived_secrets pr s) o n !! j = Some x /\
        hash pr (HashCall 64 s (replicate 8 0%N) (string_bytes "sphinx-small-d-s") []) !! (o + j) = Some x).
    { intros o n j Ho Hj. rewrite slice_lookup by done. rewrite small_eq.
      destruct (Hlook (HashCall 64 s (replicate 8 0%N) (string_bytes "sphinx-small-d-s") []) (o + j)) as [x Hx].
      { cbn. lia. }
      exists x. done. }
    assert (Hsn : forall o n, o + n ≤ 64 -> length (slice (small_derived_secrets pr s) o n) = n).
    { intros o n Ho. unfold slice. rewrite take_length, drop_length, small_eq, hash_length. cbn. lia. }
    destruct p as [| | | |k|k]; cbn [derived size_for source fst snd purpose_ok] in *.
    - split; [by apply Hsn; cbn; lia|]. intros j Hj. split; [split_and!; cbn; lia|]. apply (Hsl 0 16 j); lia.
    - split; [by apply Hsn; cbn; lia|]. intros j Hj. split; [split_and!; cbn; lia|]. apply (Hsl 16 32 j); lia.
    - split; [by apply Hsn; cbn; lia|]. intros j Hj. split; [split_and!; cbn; lia|]. apply (Hsl 48 16 j); lia.
    - set (c := fun i => HashCall 64 s (N.of_nat i :: replicate 7 0%N) (string_bytes "sphinx-pl-en-key") []).
      assert (E : derive_payload_encryption_key pr s = hash pr (c 0) ++ hash pr (c 1) ++ hash pr (c 2)).
      { unfold derive_payload_encryption_key, derive_secret. cbn -[string_bytes]. by rewrite app_nil_r. }
      rewrite E. assert (Hl : forall i, length (hash pr (c i)) = 64) by (intros i; apply hash_length).
      split; [by rewrite !app_length, !Hl|]. intros j Hj. split; [split_and!; cbn [fst hc_size hc_key hc_salt hc_personal length]; rewrite ?replicate_length, ?Hs; cbn; lia|].
      change (HashCall 64 s (N.of_nat (j / 64) :: replicate 7 0%N) (string_bytes "sphinx-pl-en-key") []) with (c (j / 64)).
      destruct (Hlook (c (j / 64)) (j mod 64)) as [x Hx]; [cbn [c hc_size]; apply Nat.mod_upper_bound; lia|].
      exists x. split; [|done]. rewrite <- Hx.
      pose proof (Nat.div_mod_eq j 64) as Hdm. pose proof (Nat.mod_upper_bound j 64 ltac:(lia)) as Hm.
      assert (Hq : j / 64 < 3) by (apply Nat.div_lt_upper_bound; lia).
      destruct (j / 64) as [|[|[|q]]]; [| | |lia].
      + rewrite lookup_app_l by (rewrite Hl; lia). f_equal. lia.
      + rewrite lookup_app_r by (rewrite Hl; lia). rewrite lookup_app_l by (rewrite !Hl; lia). f_equal. rewrite Hl. lia.
      + rewrite lookup_app_r by (rewrite Hl; lia). rewrite lookup_app_r by (rewrite !Hl; lia). f_equal. rewrite !Hl. lia.
    - change (derive_kx_blinding_factor pr k s) with (hash pr (HashCall 32 (k ++ s) [] (string_bytes "sphinx-blind-fac") [])).
      split; [apply hash_length|]. intros j Hj. split; [split_and!; cbn; rewrite ?app_length; lia|].
      destruct (Hlook (HashCall 32 (k ++ s) [] (string_bytes "sphinx-blind-fac") []) j Hj) as [x Hx]. by exists x.
    - set (c := HashCall 8 (k ++ s) [] (string_bytes "sphinx-replay-tg") []).
      assert (E : to_le 4 (rt_base (rf_tag pr {| rf_key := k; rf_words := None |} s)) ++
                  to_le 4 (rt_inc (rf_tag pr {| rf_key := k; rf_words := None |} s)) = hash pr c).
      { unfold rf_tag. cbn [rf_key rt_base rt_inc].
        change (pr_blake2b pr 8 (k ++ s) [] REPLAY_TAG_PERSONAL []) with (hash pr c).
        assert (Hh : exists a b, hash pr c = a ++ b /\ length a = 4 /\ length b = 4).
        { exists (take 4 (hash pr c)), (drop 4 (hash pr c)). rewrite take_drop, take_length, drop_length, hash_length. done. }
        destruct Hh as (a & b & Eh & Ha & Hb4). pose proof (Hb c) as Hf. rewrite Eh in Hf |- *.
        apply Forall_app in Hf as [Hfa Hfb].
        rewrite from_le_app, Ha. change (256 ^ N.of_nat 4)%N with (2 ^ 32)%N.
        pose proof (from_le_lt a Hfa) as La. pose proof (from_le_lt b Hfb) as Lb. rewrite Ha in La. rewrite Hb4 in Lb.
        change (256 ^ N.of_nat 4)%N with (2 ^ 32)%N in La, Lb.
        rewrite N.shiftr_div_pow2, (N.mul_comm (2 ^ 32)).
        rewrite N.mod_add by done. rewrite N.div_add by done. rewrite (N.div_small _ _ La), N.add_0_l.
        rewrite !N.mod_small by done.
        f_equal; [by rewrite <- Ha, to_le_from_le|by rewrite <- Hb4, to_le_from_le]. }
      rewrite E. split; [apply hash_length|]. intros j Hj. split; [split_and!; cbn; rewrite ?app_length; lia|].
      destruct (Hlook c j Hj) as [x Hx]. by exists x.
  Qed.

  (** ... and no byte of an output of the hash is used twice. MACs are further calls. *)
  Theorem C63_separate (p p' : purpose) (s s' : bytes) (j j' : nat) :
    length s = 32 -> length s' = 32 -> purpose_ok p -> purpose_ok p' -> j < size_for p -> j' < size_for p' ->
    told (source p s j).1 = told (source p' s' j').1 -> (source p s j).2 = (source p' s' j').2 ->
    p = p' /\ s = s' /\ j = j'.
  Proof.
    intros Hs Hs' Hp Hp' Hj Hj' Ht Hi. unfold told in Ht.
    destruct p as [| | | |k|k], p' as [| | | |k'|k']; cbn -[string_bytes Nat.div Nat.modulo] in *; try discriminate Ht;
      try (exfalso; injection Ht; intros; discriminate); try (exfalso; lia).
    - injection Ht as ->. done.
    - injection Ht as ->. split_and!; [done|done|lia].
    - injection Ht as ->. split_and!; [done|done|lia].
    - injection Ht as -> Hd. split_and!; [done|done|].
      apply Nat2N.inj in Hd. pose proof (Nat.div_mod_eq j 64). pose proof (Nat.div_mod_eq j' 64). change (j / 64 = j' / 64) in Hd. lia.
    - injection Ht as Hk. apply app_inj_1 in Hk as [-> ->]; [done|lia].
    - injection Ht as Hk. apply app_inj_1 in Hk as [-> ->]; [done|lia].
  Qed.
  Theorem C63_mac (actions pad key : bytes) (p : purpose) (s : bytes) (j : nat) :
    length key = 16 ->
    let c := HashCall 16 key [] [] (actions ++ pad) in
    compute_mac pr actions pad key = hash pr c /\
    (forall mac, mac_ok pr mac (actions ++ pad) key = true <-> mac = hash pr c) /\
    fits c /\ told c <> told (source p s j).1.
  Proof.
    intros Hk c. split_and!.
    - done.
    - intros mac. unfold mac_ok. by rewrite bool_decide_eq_true.
    - unfold fits. cbn. rewrite Hk. lia.
    - unfold told. destruct p; cbn; intros [=].
  Qed.
End derive.

(** ** Clamping *)
Lemma clamp_low x : (x < 256)%N -> N.land x 248 = (8 * (x / 8))%N.
Proof.
  intros Hx.
  assert (H : forallb (fun x => N.land x 248 =? 8 * (x / 8))%N (map N.of_nat (seq 0 256)) = true) by (vm_compute; done).
  rewrite forallb_forall in H. apply N.eqb_eq, H, elem_of_list_In, elem_of_list_fmap.
  exists (N.to_nat x). rewrite elem_of_seq. split; lia.
Qed.
Lemma clamp_high x : (x < 256)%N -> N.lor (N.land x 127) 64 = (64 + x mod 64)%N.
Proof.
  intros Hx.
  assert (H : forallb (fun x => N.lor (N.land x 127) 64 =? 64 + x mod 64)%N (map N.of_nat (seq 0 256)) = true) by (vm_compute; done).
  rewrite forallb_forall in H. apply N.eqb_eq, H, elem_of_list_In, elem_of_list_fmap.
  exists (N.to_nat x). rewrite elem_of_seq. split; lia.
Qed.

Lemma clamp_scalar (b : bytes) :
  length b = 32 -> Forall (fun x => (x < 256)%N) b -> scalar_of b (from_le (clamp_integer b)).
Proof.
  intros Hl Hb. unfold scalar_of. set (n := from_le (clamp_integer b)).
  assert (Hsplit : exists x m y, b = x :: m ++ [y] /\ length m = 30).
  { destruct b as [|x b]; [done|]. destruct b as [|y m _] using rev_ind; [done|]. exists x, m, y.
    split; [done|]. cbn in Hl. rewrite app_length in Hl. cbn in Hl. lia. }
  destruct Hsplit as (x & m & y & -> & Hm).
  apply Forall_cons in Hb as [Hx Hb]. apply Forall_app in Hb as [Hmb Hy]. apply Forall_cons in Hy as [Hy _].
  assert (En : n = (8 * (x / 8) + 256 * (from_le m + 2 ^ 240 * (64 + y mod 64)))%N).
  { unfold n, clamp_integer.
    assert (Ea : alter (fun x => N.lor (N.land x 127) 64) 31 (alter (fun x => N.land x 248) 0 (x :: m ++ [y])) =
                 N.land x 248 :: m ++ [N.lor (N.land y 127) 64]).
    { cbn. f_equal. replace 30 with (length m + 0) by lia. rewrite alter_app_r. done. }
    rewrite Ea. cbn [from_le]. rewrite from_le_app, Hm. cbn [from_le].
    rewrite clamp_low, clamp_high by done. change (256 ^ N.of_nat 30)%N with (2 ^ 240)%N. lia. }
  assert (Ev : from_le (x :: m ++ [y]) = (x + 256 * (from_le m + 2 ^ 240 * y))%N).
  { cbn [from_le]. rewrite from_le_app, Hm. cbn [from_le]. change (256 ^ N.of_nat 30)%N with (2 ^ 240)%N. lia. }
  pose proof (from_le_lt m Hmb) as Hlm. rewrite Hm in Hlm. change (256 ^ N.of_nat 30)%N with (2 ^ 240)%N in Hlm.
  set (M := from_le m) in *. clearbody M.
  pose proof (N.div_mod x 8 ltac:(done)) as Hdx. pose proof (N.mod_lt x 8 ltac:(done)) as Hmx.
  pose proof (N.div_mod y 64 ltac:(done)) as Hdy. pose proof (N.mod_lt y 64 ltac:(done)) as Hmy.
  set (qx := (x / 8)%N) in *. set (qy := (y / 64)%N) in *. set (ry := (y mod 64)%N) in *. set (rx := (x mod 8)%N) in *.
  clearbody qx qy ry rx.
  change (2 ^ 254)%N with (256 * (2 ^ 240 * 64))%N. change (2 ^ 255)%N with (256 * (2 ^ 240 * 128))%N.
  set (P := (2 ^ 240)%N) in *. split_and!.
  - rewrite En. nia.
  - rewrite En. assert (H : (ry + 1 <= 64)%N) by lia. assert (qx < 32)%N by lia.
    assert (M + P * (64 + ry) + 1 <= P * 128)%N by nia. lia.
  - rewrite En. replace (8 * qx + 256 * (M + P * (64 + ry)))%N with ((qx + 32 * (M + P * (64 + ry))) * 8)%N by lia.
    by apply N.mod_mul.
  - intros i Hi.
    assert (Hdiv : (n / 8 mod 2 ^ 251 = from_le (x :: m ++ [y]) / 8 mod 2 ^ 251)%N).
    { rewrite En, Ev.
      replace (8 * qx + 256 * (M + P * (64 + ry)))%N with ((qx + 32 * (M + P * (64 + ry))) * 8)%N by lia.
      rewrite N.div_mul by done.
      replace (x + 256 * (M + P * y))%N with (rx + (qx + 32 * (M + P * y)) * 8)%N by lia.
      rewrite N.div_add by done. rewrite (N.div_small rx 8) by done. rewrite N.add_0_l.
      change (2 ^ 251)%N with (32 * (P * 64))%N.
      replace (qx + 32 * (M + P * (64 + ry)))%N with (qx + 32 * (M + P * ry) + 1 * (32 * (P * 64)))%N by lia.
      replace (qx + 32 * (M + P * y))%N with (qx + 32 * (M + P * ry) + qy * (32 * (P * 64)))%N by (rewrite Hdy; lia).
      rewrite !N.mod_add by done. done. }
    assert (Hbit : forall v, N.testbit v i = N.testbit (v / 8 mod 2 ^ 251) (i - 3)).
    { intros v. rewrite N.mod_pow2_bits_low by lia. change 8%N with (2 ^ 3)%N. rewrite N.div_pow2_bits. f_equal. lia. }
    by rewrite Hbit, Hdiv, <- Hbit.
Qed.

(** All points are multiplied by such integers. *)
Theorem C63_clamped (pr : prims) (b : bytes) :
  length b = 32 -> Forall (fun x => (x < 256)%N) b ->
  exists n, scalar_of b n /\ derive_kx_public pr b = pr_mont_mul pr (pr_mont_base pr) n /\
    forall kx_public, derive_kx_shared_secret pr kx_public b = pr_mont_mul pr kx_public n.
Proof. intros Hl Hb. exists (from_le (clamp_integer b)). split; [by apply clamp_scalar|]. done. Qed.
Theorem C63_blinded (pr : prims) (kx_public s : bytes) :
  prims_ok pr -> byte_hash pr ->
  exists n, scalar_of (derived pr (ForBlinding kx_public) s) n /\
    blind_kx_public pr kx_public s = pr_mont_mul pr kx_public n.
Proof.
  intros Hok Hb. exists (from_le (clamp_integer (derived pr (ForBlinding kx_public) s))). split; [|done].
  apply clamp_scalar.
  - apply (hash_length pr Hok (HashCall 32 (kx_public ++ s) [] (string_bytes "sphinx-blind-fac") [])).
  - apply (Hb (HashCall 32 (kx_public ++ s) [] (string_bytes "sphinx-blind-fac") [])).
Qed.

(** ** Examples *)
From Verif Require Import Toy.
Definition ex_secret : bytes := map (fun i => ((N.of_nat i * 37 + 5) mod 256)%N) (seq 0 32).
Definition ex_public : bytes := map (fun i => ((N.of_nat i * 11 + 200) mod 256)%N) (seq 0 32).
Lemma toy_byte_hash : byte_hash toy_prims.
Proof.
  intros c. unfold hash. cbn [toy_prims pr_blake2b]. cbv zeta. apply Forall_forall. intros x Hx.
  apply elem_of_list_In, in_map_iff in Hx as (i & <- & _). by apply N.mod_lt.
Qed.
(** The hypotheses of [C63_derived] and [C63_separate] are met; the last byte of the payload key is
    the last byte of the third call. *)
Example ex_derived :
  byte_hash toy_prims /\ length ex_secret = 32 /\ purpose_ok (ForReplay ex_public) /\
  purpose_ok (ForBlinding ex_public) /\
  source ForPayload ex_secret 191 =
    (HashCall 64 ex_secret (2 :: replicate 7 0)%N (string_bytes "sphinx-pl-en-key") [], 63) /\
  derived toy_prims ForPayload ex_secret !! 191 =
    hash toy_prims (HashCall 64 ex_secret (2 :: replicate 7 0)%N (string_bytes "sphinx-pl-en-key") []) !! 63 /\
  length (derived toy_prims (ForReplay ex_public) ex_secret) = 8 /\
  derived toy_prims (ForReplay ex_public) ex_secret <> derived toy_prims (ForReplay ex_public) ex_public.
Proof. split; [exact toy_byte_hash|]. split_and!; vm_compute; try reflexivity; try exact I. intros [=]. Qed.
Example ex_clamped :
  length ex_secret = 32 /\ Forall (fun x => (x < 256)%N) ex_secret /\
  from_le (clamp_integer ex_secret) <> from_le ex_secret.
Proof.
  split; [done|]. split; [|vm_compute; intros [=]].
  apply Forall_forall. intros x Hx. apply elem_of_list_In, in_map_iff in Hx as (i & <- & _). by apply N.mod_lt.
Qed.
