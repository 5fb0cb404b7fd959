(** Model of src/core/scattered.rs. *)
From Verif Require Export Base.

(** scattered.rs:24-29 *)
Record scattered (A : Type) := Scattered {
  sc_len : nat;
  sc_first : list A;
  sc_mids : list (list A);
  sc_last : list A
}.
Global Arguments Scattered {A}.
Global Arguments sc_len {A}.
Global Arguments sc_first {A}.
Global Arguments sc_mids {A}.
Global Arguments sc_last {A}.

Section scattered.
  Context {A : Type}.
  Implicit Types s : scattered A.

  (** scattered.rs:33-35, 38-40 *)
  Definition sc_is_empty s : bool := bool_decide (sc_len s = 0).

  (** [usize::checked_sub] on lengths *)
  Definition nat_checked_sub (a b : nat) : option nat :=
    if decide (b ≤ a) then Some (a - b) else None.

  (** scattered.rs:61-85, the loop over [mid_slices]: [i] is the index of the head of [rest].
      [inl] is the early return, [inr] the value of [mid_in_remaining] after the loop. *)
  Fixpoint sc_split_mids (s : scattered A) (mid right_len : nat) (i : nat) (mid_in_remaining : nat)
      (rest : list (list A)) : outcome ((scattered A * scattered A) + nat) :=
    match rest with
    | [] => Val (inr mid_in_remaining)
    | mid_slice :: rest' =>
        match nat_checked_sub mid_in_remaining (length mid_slice) with
        | Some mid_in_remaining => sc_split_mids s mid right_len (S i) mid_in_remaining rest'
        | None =>
            '(mid_slices_left, mid_slices_right) ← slice_split_at (sc_mids s) i;
            mid_slices_right ← (match mid_slices_right with [] => Panic | _ :: tl => Val tl end);
            '(mid_slice_left, mid_slice_right) ← slice_split_at mid_slice mid_in_remaining;
            Val (inl (Scattered mid (sc_first s) mid_slices_left mid_slice_left,
                      Scattered right_len mid_slice_right mid_slices_right (sc_last s)))
        end
    end.

  (** scattered.rs:43-103 *)
  Definition sc_split_at s (mid : nat) : outcome (scattered A * scattered A) :=
    right_len ← expect (nat_checked_sub (sc_len s) mid);
    match nat_checked_sub mid (length (sc_first s)) with
    | None =>
        '(first_left, first_right) ← slice_split_at (sc_first s) mid;
        Val (Scattered mid first_left [] [],
             Scattered right_len first_right (sc_mids s) (sc_last s))
    | Some mid_in_remaining =>
        res ← sc_split_mids s mid right_len 0 mid_in_remaining (sc_mids s);
        match res with
        | inl r => Val r
        | inr mid_in_remaining =>
            '(last_left, last_right) ← slice_split_at (sc_last s) mid_in_remaining;
            Val (Scattered mid (sc_first s) (sc_mids s) last_left,
                 Scattered right_len last_right [] [])
        end
    end.

  (** [dst.split_at_mut(l.len())] then [copy_from_slice(l)] into the left part: the copied part and
      the remaining destination *)
  Definition copy_part (dst l : list A) : outcome (list A * list A) :=
    if decide (length l ≤ length dst) then Val (l, drop (length l) dst) else Panic.

  Fixpoint copy_mids (dst : list A) (mids : list (list A)) : outcome (list A * list A) :=
    match mids with
    | [] => Val ([], dst)
    | m :: mids' =>
        '(c, dst) ← copy_part dst m;
        '(cs, dst) ← copy_mids dst mids';
        Val (c ++ cs, dst)
    end.

  (** scattered.rs:108-117: the new contents of [dst]. The last [copy_from_slice] panics unless the
      lengths are equal. *)
  Definition sc_copy_to_slice s (dst : list A) : outcome (list A) :=
    '(c1, dst) ← copy_part dst (sc_first s);
    '(c2, dst) ← copy_mids dst (sc_mids s);
    if decide (length (sc_last s) = length dst) then Val (c1 ++ c2 ++ sc_last s) else Panic.

  (** scattered.rs:122-130 *)
  Definition sc_to_vec s : list A := (sc_first s ++ foldr app [] (sc_mids s)) ++ sc_last s.

  (** scattered.rs:133-137 *)
  Definition sc_from_slice (l : list A) : scattered A := Scattered (length l) l [] [].

  (** scattered.rs:139-148 *)
  Definition sc_from_slices (ls : list (list A)) : scattered A :=
    Scattered (sum_list_with length ls) [] ls [].
End scattered.
