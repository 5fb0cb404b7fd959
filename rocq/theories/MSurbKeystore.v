(** Model of src/core/surb_keystore.rs. *)
From Verif Require Export MFragment.

(** surb_keystore.rs:31-34 *)
Record surb_value := SurbValue { sv_keys : list bytes; sv_message_id : bytes }.

(** surb_keystore.rs:52-57 *)
Record surb_keystore := SurbKeystore { sk_capacity : N; sk_surbs : lhm bytes surb_value }.

(** surb_keystore.rs:60-63 *)
Definition sk_new (capacity : N) : outcome surb_keystore :=
  _ ← assert_or_panic (negb (capacity =? 0)%N);
  Val {| sk_capacity := capacity; sk_surbs := [] |}.

(** surb_keystore.rs:67-94. The caller fills the keys in with [sk_set_keys]. *)
Definition sk_insert (ks : surb_keystore) (message_id : bytes) (r : rng)
  : outcome (surb_keystore * bytes * rng) :=
  _ ← assert_or_panic (N.of_nat (length (sk_surbs ks)) <=? sk_capacity ks)%N;
  let surbs :=
    if (N.of_nat (length (sk_surbs ks)) =? sk_capacity ks)%N
    then snd (lhm_pop_front (sk_surbs ks)) else sk_surbs ks in
  let '(id, r) := rng_fill SURB_ID_SIZE r in
  match lhm_get surbs id with
  | Some _ => Panic
  | None =>
      Val ({| sk_capacity := sk_capacity ks;
              sk_surbs := lhm_push_back surbs id
                            {| sv_keys := []; sv_message_id := message_id |} |}, id, r)
  end.

(** Writing through the [&mut SurbPayloadEncryptionKeys] returned by [insert]. *)
Definition sk_set_keys (ks : surb_keystore) (id : bytes) (keys : list bytes) : surb_keystore :=
  match lhm_get (sk_surbs ks) id with
  | Some v =>
      {| sk_capacity := sk_capacity ks;
         sk_surbs := lhm_set (sk_surbs ks) id
                       {| sv_keys := keys; sv_message_id := sv_message_id v |} |}
  | None => ks
  end.

(** surb_keystore.rs:97-102, 38-45: the value of the entry, if there is one *)
Definition sk_entry (ks : surb_keystore) (id : bytes) : option surb_value :=
  lhm_get (sk_surbs ks) id.

(** surb_keystore.rs:47-49 *)
Definition sk_remove (ks : surb_keystore) (id : bytes) : surb_keystore :=
  {| sk_capacity := sk_capacity ks; sk_surbs := lhm_remove (sk_surbs ks) id |}.
