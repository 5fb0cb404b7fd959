(** Common definitions used by the model: outcomes (panics), results, bytes, buffers, random tape.

    Nothing here models a particular Rust function of the crate; these are the Rust features the
    modelled functions are written with. *)
From Coq Require Export NArith ZArith Lia.
From stdpp Require Export base tactics numbers list_numbers option decidable list.
Global Open Scope nat_scope.

(** ** Panics

    [Val a] is a normal return, [Panic] is a Rust panic: [expect] on [None]/[Err], an index or slice
    out of range, [ArrayVec] overflow, a failed [assert!], an arithmetic underflow, or a failed
    [debug_assert!] (modelled as in a debug build). *)
Inductive outcome (A : Type) : Type :=
| Val (a : A)
| Panic.
Global Arguments Val {A} a.
Global Arguments Panic {A}.

(** Sequencing *)
Definition out_bind {A B : Type} (m : outcome A) (f : A -> outcome B) : outcome B :=
  match m with Val a => f a | Panic => Panic end.
Declare Scope outcome_scope.
Notation "x ← y ; z" := (out_bind y (fun x => z))
  (at level 20, y at level 100, z at level 200, only parsing) : outcome_scope.
Notation "' x ← y ; z" := (out_bind y (fun x => z))
  (at level 20, x pattern, y at level 100, z at level 200, only parsing) : outcome_scope.
Global Open Scope outcome_scope.

(** [Result<A, E>] *)
Inductive result (A E : Type) : Type :=
| Ok (a : A)
| Err (e : E).
Global Arguments Ok {A E} a.
Global Arguments Err {A E} e.

(** The [?] operator inside a function returning [Result] (that may also panic). *)
Definition try_bind {A B E : Type} (m : outcome (result A E)) (f : A -> outcome (result B E))
  : outcome (result B E) :=
  match m with
  | Val (Ok a) => f a
  | Val (Err e) => Val (Err e)
  | Panic => Panic
  end.
Notation "x ←? y ; z" := (try_bind y (fun x => z))
  (at level 20, y at level 100, z at level 200, only parsing).
Notation "' x ←? y ; z" := (try_bind y (fun x => z))
  (at level 20, x pattern, y at level 100, z at level 200, only parsing).

(** [assert!]/[debug_assert!] *)
Definition assert_or_panic (b : bool) : outcome unit := if b then Val tt else Panic.

(** [Option::expect] *)
Definition expect {A} (o : option A) : outcome A :=
  match o with Some a => Val a | None => Panic end.

(** [a - b] on an unsigned machine integer, with the overflow check of a debug build. *)
Definition sub_or_panic (a b : N) : outcome N :=
  if (b <=? a)%N then Val (a - b)%N else Panic.

(** [a.checked_sub(b)] *)
Definition checked_sub (a b : N) : option N :=
  if (b <=? a)%N then Some (a - b)%N else None.

(** 64-bit [usize]: [saturating_mul], [saturating_add], [saturating_sub]. *)
Definition USIZE_MAX : N := (2 ^ 64 - 1)%N.
Definition saturating_mul (a b : N) : N := N.min (a * b) USIZE_MAX.
Definition saturating_add (a b : N) : N := N.min (a + b) USIZE_MAX.
Definition saturating_sub (a b : N) : N := (a - b)%N.

(** ** Bytes and buffers *)
Notation bytes := (list N) (only parsing).

(** [array_ref!\[l, off, len\]] / [&l\[off..off + len\]] where the range is in bounds *)
Definition slice {A} (l : list A) (off len : nat) : list A := take len (drop off l).

(** Overwriting [l\[off .. off + v.len()\]] with [v] where the range is in bounds
    ([array_mut_ref!] ranges are checked at compile time). *)
Definition put {A} (l : list A) (off : nat) (v : list A) : list A :=
  take off l ++ v ++ drop (off + length v) l.

(** Overwriting through a run-time checked slice. *)
Definition write_at {A} (l : list A) (off : nat) (v : list A) : outcome (list A) :=
  if decide (off + length v ≤ length l) then Val (put l off v) else Panic.

(** [&l\[off..\]], panics if [off > l.len()] *)
Definition slice_from {A} (l : list A) (off : nat) : outcome (list A) :=
  if decide (off ≤ length l) then Val (drop off l) else Panic.

(** [&l\[..n\]], panics if [n > l.len()] *)
Definition slice_to {A} (l : list A) (n : nat) : outcome (list A) :=
  if decide (n ≤ length l) then Val (take n l) else Panic.

(** [slice::split_at] *)
Definition slice_split_at {A} (l : list A) (mid : nat) : outcome (list A * list A) :=
  if decide (mid ≤ length l) then Val (take mid l, drop mid l) else Panic.

(** [ArrayVec::push] with capacity [cap] *)
Definition av_push {A} (cap : nat) (l : list A) (x : A) : outcome (list A) :=
  if decide (length l < cap) then Val (l ++ [x]) else Panic.

(** [u16::to_le_bytes] / [u16::from_le_bytes] *)
Definition to_le16 (v : N) : bytes := [(v mod 256)%N; (v / 256 mod 256)%N].
Definition from_le16 (b : bytes) : N :=
  match b with
  | [b0; b1] => (b0 + 256 * b1)%N
  | _ => 0%N
  end.

(** Little-endian conversion of a byte string of any length. *)
Fixpoint from_le (b : bytes) : N :=
  match b with
  | [] => 0%N
  | x :: b' => (x + 256 * from_le b')%N
  end.
Fixpoint to_le (n : nat) (v : N) : bytes :=
  match n with
  | O => []
  | S n' => (v mod 256)%N :: to_le n' (v / 256)%N
  end.

(** ** Randomness

    A random generator is a tape of arbitrary numbers and a read position. Every draw reads the next
    number. Theorems quantify over the tape, hence over every possible random choice. *)
Record rng := Rng { rng_tape : nat -> N; rng_pos : nat }.

Definition rng_draw (r : rng) : N * rng :=
  (rng_tape r (rng_pos r), Rng (rng_tape r) (S (rng_pos r))).

(** [rng.fill_bytes(&mut \[0; n\])] *)
Definition rng_fill (n : nat) (r : rng) : bytes * rng :=
  (map (fun i => (rng_tape r (rng_pos r + i) mod 256)%N) (seq 0 n),
   Rng (rng_tape r) (rng_pos r + n)).

(** [rng.gen_range(0..n)]; panics on the empty range *)
Definition rng_range (n : N) (r : rng) : outcome (N * rng) :=
  if (n =? 0)%N then Panic
  else let '(v, r') := rng_draw r in Val ((v mod n)%N, r').

(** [slice.choose(rng)] of [rand::seq::SliceRandom] *)
Definition rng_choose {A} (l : list A) (r : rng) : option A * rng :=
  match l with
  | [] => (None, r)
  | _ => let '(v, r') := rng_draw r in (l !! N.to_nat (v mod N.of_nat (length l)), r')
  end.

(** [rand::seq::index::sample(rng, length, amount)]: [amount] distinct indices below [length], in
    any order. Modelled by repeatedly picking one of the remaining indices, so that every such list
    is produced by some tape. *)
Fixpoint rng_pick (pool : list N) (amount : nat) (r : rng) : list N * rng :=
  match amount with
  | O => ([], r)
  | S amount' =>
      let '(v, r1) := rng_draw r in
      let i := N.to_nat (v mod N.of_nat (length pool)) in
      match pool !! i with
      | None => ([], r1)
      | Some x =>
          let '(xs, r2) := rng_pick (delete i pool) amount' r1 in
          (x :: xs, r2)
      end
  end.
Definition rng_sample (len amount : N) (r : rng) : outcome (list N * rng) :=
  if (len <? amount)%N then Panic
  else Val (rng_pick (map N.of_nat (seq 0 (N.to_nat len))) (N.to_nat amount) r).

(** ** [hashlink::LinkedHashMap]

    Key/value pairs in link order, oldest at the front; keys are unique (an invariant of the
    operations below). *)
Definition lhm (K V : Type) := list (K * V).

Section lhm.
  Context {K V : Type} `{EqDecision K}.
  Implicit Types (m : lhm K V) (k : K) (v : V).

  Fixpoint lhm_get m k : option V :=
    match m with
    | [] => None
    | (k', v) :: m' => if decide (k' = k) then Some v else lhm_get m' k
    end.
  (** [OccupiedEntry::remove] *)
  Fixpoint lhm_remove m k : lhm K V :=
    match m with
    | [] => []
    | (k', v) :: m' => if decide (k' = k) then m' else (k', v) :: lhm_remove m' k
    end.
  (** assignment through [OccupiedEntry::get_mut]/[into_mut] (position unchanged) *)
  Fixpoint lhm_set m k v : lhm K V :=
    match m with
    | [] => []
    | (k', v') :: m' => if decide (k' = k) then (k', v) :: m' else (k', v') :: lhm_set m' k v
    end.
  (** [VacantEntry::insert]: new entries go to the back *)
  Definition lhm_push_back m k v : lhm K V := m ++ [(k, v)].
  (** [OccupiedEntry::to_back] *)
  Definition lhm_to_back m k : lhm K V :=
    match lhm_get m k with
    | Some v => lhm_remove m k ++ [(k, v)]
    | None => m
    end.
  (** [pop_front] *)
  Definition lhm_pop_front m : option (K * V) * lhm K V :=
    match m with
    | [] => (None, [])
    | kv :: m' => (Some kv, m')
    end.
End lhm.
