(** Model of src/core/fragment.rs.

    Simplifications: logging is omitted; [with_capacity] has no effect; counters of fragments held
    ([num_incomplete_fragments]) do not wrap (they are bounded by memory). *)
From Verif Require Export MScattered MBuild.

(** fragment.rs:33-52 *)
Definition MESSAGE_ID_SIZE : nat := 16.
Definition FRAGMENT_INDEX_SIZE : nat := 2.
Definition FRAGMENT_DATA_SIZE_SIZE : nat := 2.
Definition FRAGMENT_NUM_SURBS_SIZE : nat := 1.
Definition FRAGMENT_HEADER_SIZE : nat :=
  MESSAGE_ID_SIZE + FRAGMENT_INDEX_SIZE + FRAGMENT_INDEX_SIZE + FRAGMENT_DATA_SIZE_SIZE +
  FRAGMENT_NUM_SURBS_SIZE.
Definition FRAGMENT_SIZE : nat := PAYLOAD_DATA_SIZE.
Definition FRAGMENT_PAYLOAD_SIZE : nat := FRAGMENT_SIZE - FRAGMENT_HEADER_SIZE.
Definition MAX_SURBS_PER_FRAGMENT : nat := FRAGMENT_PAYLOAD_SIZE / SURB_SIZE.
(** [FragmentIndex::MAX] *)
Definition FRAGMENT_INDEX_MAX : N := 65535.

(** fragment.rs:55-98, with the offsets of [split_fragment] *)
Definition message_id (f : bytes) : bytes := slice f 0 MESSAGE_ID_SIZE.
Definition num_fragments (f : bytes) : N := (from_le16 (slice f 16 2) + 1)%N.
Definition fragment_index (f : bytes) : N := from_le16 (slice f 18 2).
Definition fragment_data_size (f : bytes) : N := from_le16 (slice f 20 2).
Definition fragment_num_surbs (f : bytes) : N := from_le (slice f 22 1).
Definition fragment_payload (f : bytes) : bytes := slice f FRAGMENT_HEADER_SIZE FRAGMENT_PAYLOAD_SIZE.

(** fragment.rs:101-106 (the fields only appear in log messages and are omitted) *)
Inductive check_fragment_err := CfeIndex | CfePayloadSize.

(** fragment.rs:108-124 *)
Definition check_fragment (f : bytes) : result unit check_fragment_err :=
  if (num_fragments f <=? fragment_index f)%N then Err CfeIndex
  else
    let payload_size := (fragment_data_size f + fragment_num_surbs f * N.of_nat SURB_SIZE)%N in
    if (N.of_nat FRAGMENT_PAYLOAD_SIZE <? payload_size)%N then Err CfePayloadSize else Ok tt.

Definition check_fragment_is_ok (f : bytes) : bool :=
  match check_fragment f with Ok _ => true | Err _ => false end.

(** fragment.rs:127-131 *)
Record generic_message := GenericMessage {
  gm_id : bytes; gm_data : bytes; gm_surbs : list bytes
}.

(** [rchunks_exact]: whole chunks of [size] elements taken from the end, in that order *)
Definition rchunks_exact (size : nat) (l : bytes) : list bytes :=
  map (fun j => slice l (length l - (j + 1) * size) size) (seq 0 (length l / size)).

(** fragment.rs:141-155 *)
Fixpoint from_fragments_loop (data : bytes) (surbs : list bytes) (fragments : list bytes)
  : outcome (bytes * list bytes) :=
  match fragments with
  | [] => Val (data, surbs)
  | f :: rest =>
      _ ← assert_or_panic (check_fragment_is_ok f);
      let payload := fragment_payload f in
      d ← slice_to payload (N.to_nat (fragment_data_size f));
      from_fragments_loop (data ++ d)
        (surbs ++ take (N.to_nat (fragment_num_surbs f)) (rchunks_exact SURB_SIZE payload)) rest
  end.

(** fragment.rs:136-158 *)
Definition from_fragments (fragments : list bytes) : outcome generic_message :=
  f0 ← expect (head fragments);
  '(data, surbs) ← from_fragments_loop [] [] fragments;
  Val {| gm_id := message_id f0; gm_data := data; gm_surbs := surbs |}.

(** fragment.rs:162-167 *)
Inductive im_insert_err := InconsistentNumFragments | AlreadyHave.

(** fragment.rs:169-173 *)
Record incomplete_message := IncompleteMessage {
  im_fragments : list (option bytes);
  im_num_received : N
}.

(** fragment.rs:176-178 *)
Definition im_new (n : N) : incomplete_message :=
  {| im_fragments := replicate (N.to_nat n) None; im_num_received := 0 |}.

(** fragment.rs:183-202 *)
Definition im_insert (im : incomplete_message) (f : bytes)
  : outcome (result incomplete_message im_insert_err) :=
  _ ← assert_or_panic (check_fragment_is_ok f);
  if negb (num_fragments f =? N.of_nat (length (im_fragments im)))%N
  then Val (Err InconsistentNumFragments)
  else
    slot ← expect (im_fragments im !! N.to_nat (fragment_index f));
    match slot with
    | Some _ => Val (Err AlreadyHave)
    | None =>
        let im' := {| im_fragments := <[N.to_nat (fragment_index f) := Some f]> (im_fragments im);
                      im_num_received := (im_num_received im + 1)%N |} in
        _ ← assert_or_panic (im_num_received im' <=? N.of_nat (length (im_fragments im')))%N;
        Val (Ok im')
    end.

(** The iterator of fragment.rs:208-210, forced: every slot must be filled. *)
Fixpoint expect_all (l : list (option bytes)) : outcome (list bytes) :=
  match l with
  | [] => Val []
  | o :: l' => x ← expect o; xs ← expect_all l'; Val (x :: xs)
  end.

(** fragment.rs:206-212 *)
Definition im_complete_fragments (im : incomplete_message) : outcome (option (list bytes)) :=
  if (im_num_received im =? N.of_nat (length (im_fragments im)))%N
  then fs ← expect_all (im_fragments im); Val (Some fs)
  else Val None.

(** fragment.rs:215-229 *)
Record fragment_assembler := FragmentAssembler {
  fa_incomplete : lhm bytes incomplete_message;
  fa_num_fragments : N;
  fa_max_messages : N;
  fa_max_fragments : N;
  fa_max_per_message : N
}.

(** fragment.rs:232-247 *)
Definition fa_new (max_messages max_fragments max_per_message : N) : fragment_assembler :=
  {| fa_incomplete := []; fa_num_fragments := 0; fa_max_messages := max_messages;
     fa_max_fragments := max_fragments; fa_max_per_message := max_per_message |}.

Definition fa_set (fa : fragment_assembler) (m : lhm bytes incomplete_message) (n : N)
  : fragment_assembler :=
  {| fa_incomplete := m; fa_num_fragments := n; fa_max_messages := fa_max_messages fa;
     fa_max_fragments := fa_max_fragments fa; fa_max_per_message := fa_max_per_message fa |}.

(** fragment.rs:249-252 *)
Definition fa_need_eviction (fa : fragment_assembler) : bool :=
  (fa_max_messages fa <? N.of_nat (length (fa_incomplete fa)))%N
  || (fa_max_fragments fa <? fa_num_fragments fa)%N.

(** fragment.rs:256-273 *)
Definition fa_maybe_evict (fa : fragment_assembler) : outcome fragment_assembler :=
  if fa_need_eviction fa then
    let '(popped, rest) := lhm_pop_front (fa_incomplete fa) in
    '(_, im) ← expect popped;
    n ← sub_or_panic (fa_num_fragments fa) (im_num_received im);
    let fa' := fa_set fa rest n in
    _ ← assert_or_panic (negb (fa_need_eviction fa'));
    Val fa'
  else Val fa.

(** fragment.rs:277-321 *)
Definition fa_insert (fa : fragment_assembler) (f : bytes)
  : outcome (fragment_assembler * option generic_message) :=
  if negb (check_fragment_is_ok f) then Val (fa, None)
  else
    let n := num_fragments f in
    if (fa_max_per_message fa <? n)%N then Val (fa, None)
    else if (n =? 1)%N then m ← from_fragments [f]; Val (fa, Some m)
    else
      match lhm_get (fa_incomplete fa) (message_id f) with
      | Some im =>
          res ← im_insert im f;
          match res with
          | Err _ => Val (fa, None)
          | Ok im' =>
              let num := (fa_num_fragments fa + 1)%N in
              let messages := lhm_set (fa_incomplete fa) (message_id f) im' in
              complete ← im_complete_fragments im';
              match complete with
              | Some fragments =>
                  m ← from_fragments fragments;
                  num ← sub_or_panic num (im_num_received im');
                  Val (fa_set fa (lhm_remove messages (message_id f)) num, Some m)
              | None =>
                  fa' ← fa_maybe_evict (fa_set fa (lhm_to_back messages (message_id f)) num);
                  Val (fa', None)
              end
          end
      | None =>
          res ← im_insert (im_new n) f;
          match res with
          | Err _ => Panic
          | Ok im' =>
              fa' ← fa_maybe_evict
                      (fa_set fa (lhm_push_back (fa_incomplete fa) (message_id f) im')
                         (fa_num_fragments fa + 1)%N);
              Val (fa', None)
          end
      end.

(** fragment.rs:324-330 *)
Record fragment_blueprint := FragmentBlueprint {
  fb_message_id : bytes;
  fb_last_index : N;
  fb_index : N;
  fb_data : scattered N;
  fb_num_surbs : N
}.

(** fragment.rs:333-353: the new contents of [fragment]. [as FragmentDataSize] truncates. *)
Definition fb_write_except_surbs (b : fragment_blueprint) (f : bytes) : outcome bytes :=
  let data_len := sc_len (fb_data b) in
  let payload := fragment_payload f in
  dst ← slice_to payload data_len;
  data ← sc_copy_to_slice (fb_data b) dst;
  Val (fb_message_id b ++ to_le16 (fb_last_index b) ++ to_le16 (fb_index b) ++
       to_le16 (N.of_nat data_len mod 65536) ++ [fb_num_surbs b] ++
       data ++ drop data_len payload).

(** fragment.rs:355-367: the offsets in the fragment of the SURB slots handed out, in order *)
Definition fb_surb_offsets (b : fragment_blueprint) : list nat :=
  take (N.to_nat (fb_num_surbs b))
    (map (fun j => FRAGMENT_HEADER_SIZE + (FRAGMENT_PAYLOAD_SIZE - (j + 1) * SURB_SIZE))
         (seq 0 (FRAGMENT_PAYLOAD_SIZE / SURB_SIZE))).

(** fragment.rs:371-377 *)
Definition div_ceil (x y : N) : N := if (x =? 0)%N then 0%N else ((x - 1) / y + 1)%N.

(** fragment.rs:390-397: the number of fragments needed *)
Definition plan_num_fragments (data_len num_surbs : N) : outcome N :=
  let num_fragments_for_surbs := div_ceil num_surbs (N.of_nat MAX_SURBS_PER_FRAGMENT) in
  surb_fragments_unused_size ←
    sub_or_panic (saturating_mul num_fragments_for_surbs (N.of_nat FRAGMENT_PAYLOAD_SIZE))
                 (saturating_mul num_surbs (N.of_nat SURB_SIZE));
  let remaining_data_size := saturating_sub data_len surb_fragments_unused_size in
  let num_fragments_for_remaining_data :=
    div_ceil remaining_data_size (N.of_nat FRAGMENT_PAYLOAD_SIZE) in
  Val (N.max (saturating_add num_fragments_for_surbs num_fragments_for_remaining_data) 1).

(** fragment.rs:401-415: the blueprints for indices [index .. index + count) *)
Fixpoint blueprint_loop (id : bytes) (last_index : N) (index : N) (count : nat)
    (data : scattered N) (num_surbs : N) : outcome (list fragment_blueprint) :=
  match count with
  | O => Val []
  | S count' =>
      let fragment_num_surbs := N.min num_surbs (N.of_nat MAX_SURBS_PER_FRAGMENT) in
      let num_surbs := (num_surbs - fragment_num_surbs)%N in
      fragment_unused_size ← sub_or_panic (N.of_nat FRAGMENT_PAYLOAD_SIZE)
                                          (fragment_num_surbs * N.of_nat SURB_SIZE);
      let fragment_data_size := Nat.min (sc_len data) (N.to_nat fragment_unused_size) in
      '(fragment_data, remaining_data) ← sc_split_at data fragment_data_size;
      rest ← blueprint_loop id last_index (index + 1) count' remaining_data num_surbs;
      Val ({| fb_message_id := id;
              fb_last_index := (last_index mod 65536)%N;
              fb_index := (index mod 65536)%N;
              fb_data := fragment_data;
              fb_num_surbs := (fragment_num_surbs mod 256)%N |} :: rest)
  end.

(** fragment.rs:383-417. The blueprints are produced lazily by the iterator; here they are computed
    at once (their computation has no effect). *)
Definition fragment_blueprints (id : bytes) (data : scattered N) (num_surbs : N)
  : outcome (option (list fragment_blueprint)) :=
  num_fragments ← plan_num_fragments (N.of_nat (sc_len data)) num_surbs;
  last_index ← sub_or_panic num_fragments 1;
  if (last_index <=? FRAGMENT_INDEX_MAX)%N
  then bs ← blueprint_loop id last_index 0 (N.to_nat num_fragments) data num_surbs; Val (Some bs)
  else Val None.
