(** Third-party primitives used by the crate, as a record of functions, and the laws assumed of them.

    The primitives themselves (blake2, c2-chacha, lioness, curve25519-dalek, rand_distr crates) are
    not part of the repository and are not modelled further. The laws appear as an explicit
    hypothesis [prims_ok pr] of every theorem that needs them. *)
From Verif Require Export MPacket MTime.

Record prims := {
  (** [Blake2bMac::<n>::new_with_salt_and_personal(key, salt, personal)], updated with the message,
      finalised: [pr_blake2b n key salt personal message]. [new_from_slice(key)] is the same with
      empty salt and personalisation. Consecutive [update]s are one message. *)
  pr_blake2b : nat -> bytes -> bytes -> bytes -> bytes -> bytes;
  (** [ChaCha20::new(key, nonce)]: the byte of the keystream at a position *)
  pr_chacha20 : bytes -> bytes -> nat -> N;
  (** [LionessDefault::new_raw(key)], [encrypt] and [decrypt] *)
  pr_lioness_encrypt : bytes -> bytes -> bytes;
  pr_lioness_decrypt : bytes -> bytes -> bytes;
  (** [(MontgomeryPoint(p) * n).to_bytes()] for an integer [n] *)
  pr_mont_mul : bytes -> N -> bytes;
  (** the base point of Curve25519 *)
  pr_mont_base : bytes;
  (** [ChaChaRng::from_seed(seed).sample(rand_distr::Exp1)] *)
  pr_exp1 : bytes -> f64
}.

(** Order of the base point of Curve25519 (the modulus of dalek's [Scalar]). *)
Definition GROUP_ORDER : N := 2 ^ 252 + 27742317777372353535851937790883648493.

Record prims_ok (pr : prims) : Prop := {
  (** a MAC has the requested size *)
  blake2b_length : forall n key salt personal msg,
    length (pr_blake2b pr n key salt personal msg) = n;
  (** the wide-block cipher is a permutation of the payload-sized strings *)
  lioness_encrypt_length : forall key p,
    length p = PAYLOAD_SIZE -> length (pr_lioness_encrypt pr key p) = PAYLOAD_SIZE;
  lioness_decrypt_length : forall key p,
    length p = PAYLOAD_SIZE -> length (pr_lioness_decrypt pr key p) = PAYLOAD_SIZE;
  lioness_decrypt_encrypt : forall key p,
    length p = PAYLOAD_SIZE -> pr_lioness_decrypt pr key (pr_lioness_encrypt pr key p) = p;
  lioness_encrypt_decrypt : forall key p,
    length p = PAYLOAD_SIZE -> pr_lioness_encrypt pr key (pr_lioness_decrypt pr key p) = p;
  (** points are 32 bytes; multiples of the base point form a cyclic group of order [GROUP_ORDER] *)
  mont_mul_length : forall p n, length (pr_mont_mul pr p n) = KX_PUBLIC_SIZE;
  mont_mul_base_mul : forall a b,
    pr_mont_mul pr (pr_mont_mul pr (pr_mont_base pr) a) b = pr_mont_mul pr (pr_mont_base pr) (a * b);
  mont_mul_base_mod : forall a,
    pr_mont_mul pr (pr_mont_base pr) (a mod GROUP_ORDER) = pr_mont_mul pr (pr_mont_base pr) a
}.
