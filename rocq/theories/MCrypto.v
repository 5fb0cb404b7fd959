(** Model of src/core/sphinx/crypto.rs and src/core/kx_pair.rs. *)
From Coq Require Import Ascii String.
From stdpp Require Import list.
From Verif Require Export Prims.

(** A byte string literal [b"..."]. *)
Definition string_bytes (s : String.string) : bytes := map Ascii.N_of_ascii (String.list_ascii_of_string s).

(** crypto.rs:45-47 *)
Definition KX_BLINDING_FACTOR_PERSONAL : bytes := string_bytes "sphinx-blind-fac".
Definition SMALL_DERIVED_SECRETS_PERSONAL : bytes := string_bytes "sphinx-small-d-s".
Definition PAYLOAD_ENCRYPTION_KEY_PERSONAL : bytes := string_bytes "sphinx-pl-en-key".
(** replay_filter.rs:78 *)
Definition REPLAY_TAG_PERSONAL : bytes := string_bytes "sphinx-replay-tg".

(** crypto.rs:50 *)
Definition SHARED_SECRET_SIZE : nat := 32.

(** curve25519-dalek's [clamp_integer]: clear the low three bits of byte 0, clear the top bit of
    byte 31 and set its second highest bit. *)
Definition clamp_integer (b : bytes) : bytes :=
  alter (fun x => N.lor (N.land x 127) 64) 31 (alter (fun x => N.land x 248) 0 b).

Section crypto.
  Context (pr : prims).

  (** dalek's [MontgomeryPoint::mul_clamped] and [mul_base_clamped] *)
  Definition mul_clamped (p : bytes) (n : bytes) : bytes := pr_mont_mul pr p (from_le (clamp_integer n)).
  Definition mul_base_clamped (n : bytes) : bytes := mul_clamped (pr_mont_base pr) n.
  (** [Scalar::from_bytes_mod_order] *)
  Definition scalar_from_bytes_mod_order (b : bytes) : N := (from_le b mod GROUP_ORDER)%N.

  (** crypto.rs:62-66 *)
  Definition gen_kx_secret (r : rng) : bytes * rng := rng_fill 32 r.

  (** crypto.rs:69-71 *)
  Definition derive_kx_public (kx_secret : bytes) : bytes := mul_base_clamped kx_secret.

  (** crypto.rs:74-80 *)
  Definition derive_kx_blinding_factor (kx_public kx_shared_secret : bytes) : bytes :=
    pr_blake2b pr 32 (kx_public ++ kx_shared_secret) [] KX_BLINDING_FACTOR_PERSONAL [].

  (** crypto.rs:83-87 *)
  Definition blind_kx_public (kx_public kx_shared_secret : bytes) : bytes :=
    mul_clamped kx_public (derive_kx_blinding_factor kx_public kx_shared_secret).

  (** crypto.rs:89-91 *)
  Definition derive_kx_shared_secret (kx_public kx_secret : bytes) : bytes :=
    mul_clamped kx_public kx_secret.

  (** crypto.rs:105-120: the loop over [their_kx_publics.iter().enumerate()]; [i] is the iteration
      number, [kx_public] and [kx_secret] (a scalar) the loop variables, [secrets] the shared secrets
      pushed so far. *)
  Fixpoint gen_kx_loop (i : nat) (kx_public : bytes) (kx_secret : N) (secrets : list bytes)
      (their_kx_publics : list bytes) : outcome (list bytes) :=
    match their_kx_publics with
    | [] => Val secrets
    | their_kx_public :: rest =>
        '(kx_public', kx_secret') ←
          (if decide (i ≠ 0)
           then
             let kx_public' :=
               if decide (i ≠ 1) then pr_mont_mul pr (pr_mont_base pr) kx_secret else kx_public in
             kx_shared_secret ← expect (list.last secrets);
             Val (kx_public',
                  (kx_secret *
                   scalar_from_bytes_mod_order
                     (clamp_integer (derive_kx_blinding_factor kx_public' kx_shared_secret)))
                    mod GROUP_ORDER)%N
           else Val (kx_public, kx_secret));
        secrets' ← av_push MAX_HOPS secrets (pr_mont_mul pr their_kx_public kx_secret');
        gen_kx_loop (S i) kx_public' kx_secret' secrets' rest
    end.

  (** crypto.rs:94-121. Returns the public key and the shared secrets. [kx_shared_secrets] is always
      empty on entry. *)
  Definition gen_kx_public_and_shared_secrets (their_kx_publics : list bytes) (r : rng)
    : outcome (bytes * list bytes * rng) :=
    let '(kx_secret, r) := gen_kx_secret r in
    let kx_public := derive_kx_public kx_secret in
    secrets ← gen_kx_loop 0 kx_public (scalar_from_bytes_mod_order (clamp_integer kx_secret)) []
                          their_kx_publics;
    Val (kx_public, secrets, r).

  (** crypto.rs:127-139. [blocks] is the number of 64-byte chunks of [derived], whose length is a
      multiple of 64 at both call sites. *)
  Definition derive_secret (blocks : nat) (shared_secret personal : bytes) : bytes :=
    concat (map (fun i => pr_blake2b pr 64 shared_secret (to_le 8 (N.of_nat i)) personal [])
                (seq 0 blocks)).

  (** crypto.rs:141-146, 174 *)
  Definition MAC_KEY_SIZE : nat := 16.
  Definition ACTIONS_ENCRYPTION_KEY_SIZE : nat := 32.
  Definition SMALL_DERIVED_SECRETS_SIZE : nat :=
    MAC_KEY_SIZE + ACTIONS_ENCRYPTION_KEY_SIZE + DELAY_SEED_SIZE.
  Definition PAYLOAD_ENCRYPTION_KEY_SIZE : nat := 192.

  (** crypto.rs:151-155 *)
  Definition small_derived_secrets (shared_secret : bytes) : bytes :=
    derive_secret (SMALL_DERIVED_SECRETS_SIZE / 64) shared_secret SMALL_DERIVED_SECRETS_PERSONAL.
  (** crypto.rs:157-171 *)
  Definition sds_mac_key (sds : bytes) : bytes := slice sds 0 MAC_KEY_SIZE.
  Definition sds_actions_encryption_key (sds : bytes) : bytes :=
    slice sds MAC_KEY_SIZE ACTIONS_ENCRYPTION_KEY_SIZE.
  Definition sds_delay_seed (sds : bytes) : bytes :=
    slice sds (MAC_KEY_SIZE + ACTIONS_ENCRYPTION_KEY_SIZE) DELAY_SEED_SIZE.

  (** crypto.rs:177-181 *)
  Definition derive_payload_encryption_key (shared_secret : bytes) : bytes :=
    derive_secret (PAYLOAD_ENCRYPTION_KEY_SIZE / 64) shared_secret PAYLOAD_ENCRYPTION_KEY_PERSONAL.

  (** crypto.rs:187-192 *)
  Definition compute_mac (actions pad key : bytes) : bytes :=
    pr_blake2b pr MAC_SIZE key [] [] (actions ++ pad).

  (** crypto.rs:194-198 *)
  Definition mac_ok (mac actions key : bytes) : bool :=
    bool_decide (mac = pr_blake2b pr MAC_SIZE key [] [] actions).

  (** crypto.rs:210-214: xor of the common prefix, the rest of [data] is unchanged *)
  Fixpoint apply_keystream (data keystream : bytes) : bytes :=
    match data, keystream with
    | d :: data', k :: keystream' => N.lxor d k :: apply_keystream data' keystream'
    | _, _ => data
    end.

  (** crypto.rs:204-208 *)
  Definition actions_keystream (key : bytes) (n : nat) : bytes :=
    map (fun i => (pr_chacha20 pr key (replicate 8 0%N) i mod 256)%N) (seq 0 n).
  Definition apply_actions_encryption_keystream (data key : bytes) : bytes :=
    apply_keystream data (actions_keystream key (length data)).

  (** crypto.rs:220-228. [expect]: lioness only fails on short inputs. *)
  Definition encrypt_payload (payload key : bytes) : bytes := pr_lioness_encrypt pr key payload.
  Definition decrypt_payload (payload key : bytes) : bytes := pr_lioness_decrypt pr key payload.

  (** ** kx_pair.rs *)

  (** kx_pair.rs:29-33 *)
  Record kx_pair := KxPair { kp_secret : bytes; kp_public : bytes }.
  (** kx_pair.rs:49-58 *)
  Definition kx_pair_from (secret : bytes) : kx_pair :=
    {| kp_secret := secret; kp_public := derive_kx_public secret |}.
  (** kx_pair.rs:36-38 *)
  Definition kx_pair_gen (r : rng) : kx_pair * rng :=
    let '(secret, r) := gen_kx_secret r in (kx_pair_from secret, r).
  (** kx_pair.rs:44-46 *)
  Definition kx_pair_exchange (k : kx_pair) (their_public : bytes) : bytes :=
    derive_kx_shared_secret their_public (kp_secret k).
End crypto.
