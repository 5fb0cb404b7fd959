(** Model of src/core/replay_filter.rs. *)
From Verif Require Export MCrypto.
Local Open Scope N_scope.

(** replay_filter.rs:42-44 *)
Definition NUM_BITS : N := 64 * 1024 * 1024.
Definition NUM_WORDS : N := NUM_BITS / 64.
Definition NUM_TAG_BITS : nat := 8.

(** replay_filter.rs:47-50 *)
Record replay_tag := ReplayTag { rt_base : N; rt_inc : N }.

(** replay_filter.rs:58-62. The boxed array is a function from word index to word. *)
Record replay_filter := ReplayFilter { rf_key : bytes; rf_words : option (N -> N) }.

(** replay_filter.rs:65-73 *)
Definition rf_new (r : rng) : replay_filter * rng :=
  let '(key, r) := rng_fill 32 r in ({| rf_key := key; rf_words := None |}, r).

(** replay_filter.rs:75-82 *)
Definition rf_tag (pr : prims) (rf : replay_filter) (shared_secret : bytes) : replay_tag :=
  let tag := from_le (pr_blake2b pr 8 (rf_key rf ++ shared_secret) [] REPLAY_TAG_PERSONAL []) in
  {| rt_base := tag mod 2 ^ 32; rt_inc := N.shiftr tag 32 mod 2 ^ 32 |}.

Definition word_index (i : N) : N := N.shiftr i 6 mod NUM_WORDS.
Definition word_bit (i : N) : N := N.shiftl 1 (N.land i 63).

Definition set_word (words : N -> N) (w v : N) : N -> N :=
  fun w' => if w' =? w then v else words w'.

(** replay_filter.rs:89-92 *)
Fixpoint rf_insert_loop (n : nat) (i inc : N) (words : N -> N) : N -> N :=
  match n with
  | O => words
  | S n' =>
      let w := word_index i in
      rf_insert_loop n' ((i + inc) mod 2 ^ 32) inc (set_word words w (N.lor (words w) (word_bit i)))
  end.

(** replay_filter.rs:84-93 *)
Definition rf_insert (rf : replay_filter) (tag : replay_tag) : replay_filter :=
  let words := default (fun _ => 0) (rf_words rf) in
  {| rf_key := rf_key rf;
     rf_words := Some (rf_insert_loop NUM_TAG_BITS (rt_base tag) (rt_inc tag) words) |}.

(** replay_filter.rs:99-106 *)
Fixpoint rf_contains_loop (n : nat) (i inc : N) (words : N -> N) : bool :=
  match n with
  | O => true
  | S n' =>
      if N.land (words (word_index i)) (word_bit i) =? 0 then false
      else rf_contains_loop n' ((i + inc) mod 2 ^ 32) inc words
  end.

(** replay_filter.rs:95-109 *)
Definition rf_contains (rf : replay_filter) (tag : replay_tag) : bool :=
  match rf_words rf with
  | None => false
  | Some words => rf_contains_loop NUM_TAG_BITS (rt_base tag) (rt_inc tag) words
  end.
