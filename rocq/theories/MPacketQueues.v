(** Model of src/core/packet_queues.rs. *)
From Verif Require Export MTime MPacket.

(** packet_queues.rs:31-36 *)
Record addressed_packet := AddressedPacket { ap_peer_id : bytes; ap_packet : bytes }.

(** packet_queues.rs:40-45 *)
Record forward_packet := ForwardPacket { fp_deadline : instant; fp_packet : addressed_packet }.

(** packet_queues.rs:68-73. The [BinaryHeap] is the list of its elements in insertion order;
    which of several elements with the least deadline is popped first is not determined (see
    [fq_pop]). *)
Record forward_queue := ForwardQueue { fq_capacity : N; fq_queue : list forward_packet }.

(** packet_queues.rs:76-78 *)
Definition fq_new (capacity : N) : forward_queue := {| fq_capacity := capacity; fq_queue := [] |}.

(** The least deadline: [BinaryHeap::peek] with the reversed order of packet_queues.rs:61-66. *)
Fixpoint min_deadline (l : list forward_packet) : option instant :=
  match l with
  | [] => None
  | p :: l' =>
      match min_deadline l' with
      | None => Some (fp_deadline p)
      | Some d => Some (N.min (fp_deadline p) d)
      end
  end.

(** packet_queues.rs:80-82 *)
Definition fq_next_deadline (q : forward_queue) : option instant := min_deadline (fq_queue q).

(** packet_queues.rs:84-86 *)
Definition fq_has_space (q : forward_queue) : bool :=
  (N.of_nat (length (fq_queue q)) <? fq_capacity q)%N.

(** packet_queues.rs:91-96 *)
Definition fq_insert (q : forward_queue) (deadline : instant) (packet : addressed_packet)
  : outcome (forward_queue * bool) :=
  _ ← assert_or_panic (fq_has_space q);
  let prev_deadline := fq_next_deadline q in
  let q' := {| fq_capacity := fq_capacity q;
               fq_queue := fq_queue q ++ [{| fp_deadline := deadline; fp_packet := packet |}] |} in
  Val (q', negb (bool_decide (fq_next_deadline q' = prev_deadline))).

(** Positions in [l] of the elements with deadline [d]; [i] is the position of the head. *)
Fixpoint deadline_positions (i : nat) (d : instant) (l : list forward_packet) : list nat :=
  match l with
  | [] => []
  | p :: l' =>
      if decide (fp_deadline p = d) then i :: deadline_positions (S i) d l'
      else deadline_positions (S i) d l'
  end.

(** packet_queues.rs:98-100. [tie] decides which of the packets with the least deadline is popped;
    theorems quantify over it. *)
Definition fq_pop (q : forward_queue) (tie : N) : forward_queue * option addressed_packet :=
  match min_deadline (fq_queue q) with
  | None => (q, None)
  | Some d =>
      let ps := deadline_positions 0 d (fq_queue q) in
      match ps !! N.to_nat (tie mod N.of_nat (length ps)) with
      | None => (q, None)
      | Some i =>
          ({| fq_capacity := fq_capacity q; fq_queue := delete i (fq_queue q) |},
           fp_packet <$> (fq_queue q !! i))
      end
  end.

(** packet_queues.rs:104-110 *)
Record apq_config := ApqConfig { apc_capacity : N; apc_multiple_messages : bool }.

(** packet_queues.rs:112-117 *)
Inductive check_space_err := CseCapacity | CseLen.

(** packet_queues.rs:119-122 *)
Record authored_queue := AuthoredQueue { aq_config : apq_config; aq_queue : list addressed_packet }.

(** packet_queues.rs:125-127 *)
Definition aq_new (config : apq_config) : authored_queue := {| aq_config := config; aq_queue := [] |}.

(** packet_queues.rs:129-131 *)
Definition aq_len (q : authored_queue) : N := N.of_nat (length (aq_queue q)).

(** packet_queues.rs:133-145 *)
Definition aq_check_space (q : authored_queue) (num_packets : N) : result unit check_space_err :=
  match checked_sub (apc_capacity (aq_config q)) num_packets with
  | None => Err CseCapacity
  | Some max_len =>
      let max_len := if negb (apc_multiple_messages (aq_config q)) then 0%N else max_len in
      if (max_len <? aq_len q)%N then Err CseLen else Ok tt
  end.

(** packet_queues.rs:149-152 *)
Definition aq_push (q : authored_queue) (packet : addressed_packet) : outcome authored_queue :=
  _ ← assert_or_panic (aq_len q <? apc_capacity (aq_config q))%N;
  Val {| aq_config := aq_config q; aq_queue := aq_queue q ++ [packet] |}.

(** packet_queues.rs:157-161 *)
Definition aq_pop (q : authored_queue) : authored_queue * option addressed_packet * bool :=
  match aq_queue q with
  | [] => (q, None, false)
  | p :: rest =>
      ({| aq_config := aq_config q; aq_queue := rest |}, Some p,
       apc_multiple_messages (aq_config q) || bool_decide (rest = []))
  end.
