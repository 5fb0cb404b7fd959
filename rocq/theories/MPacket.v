(** Model of src/core/sphinx/packet.rs (packet format constants) and src/core/sphinx/target.rs. *)
From Verif Require Export Base.

(** packet.rs:42-56 *)
Definition KX_PUBLIC_SIZE : nat := 32.
Definition MAC_SIZE : nat := 16.
Definition MAX_HOPS : nat := 6.
Definition RAW_MIXNODE_INDEX_SIZE : nat := 2.
(** packet.rs:58 *)
Definition MAX_MIXNODE_INDEX : N := 65279 (* 0xfeff *).
(** packet.rs:59-65 *)
Definition RAW_ACTION_SIZE : nat := RAW_MIXNODE_INDEX_SIZE.
Definition RAW_ACTION_FORWARD_TO_PEER_ID : N := 65280 (* 0xff00 *).
Definition RAW_ACTION_DELIVER_REQUEST : N := 65281 (* 0xff01 *).
Definition RAW_ACTION_DELIVER_REPLY : N := 65282 (* 0xff02 *).
Definition RAW_ACTION_DELIVER_COVER : N := 65283 (* 0xff03 *).
Definition RAW_ACTION_DELIVER_COVER_WITH_ID : N := 65284 (* 0xff04 *).
(** packet.rs:66-77 *)
Definition PEER_ID_SIZE : nat := 32.
Definition MAX_ACTIONS_PAD_SIZE : nat := RAW_ACTION_SIZE + PEER_ID_SIZE + MAC_SIZE.
Definition SURB_COVER_ID_SIZE : nat := 16.
Definition SURB_ID_SIZE : nat := SURB_COVER_ID_SIZE.
Definition COVER_ID_SIZE : nat := SURB_COVER_ID_SIZE.
(** packet.rs:78-81 *)
Definition ACTIONS_SIZE : nat :=
  MAX_HOPS * (RAW_ACTION_SIZE + MAC_SIZE) + PEER_ID_SIZE + SURB_COVER_ID_SIZE - MAC_SIZE.
(** packet.rs:84-97 (2048 written so as not to build a large unary numeral) *)
Definition PAYLOAD_DATA_SIZE : nat := N.to_nat 2048.
Definition PAYLOAD_TAG_SIZE : nat := 16.
Definition PAYLOAD_TAG : bytes := replicate PAYLOAD_TAG_SIZE 0%N.
Definition HEADER_SIZE : nat := KX_PUBLIC_SIZE + MAC_SIZE + ACTIONS_SIZE.
Definition PAYLOAD_SIZE : nat := PAYLOAD_DATA_SIZE + PAYLOAD_TAG_SIZE.
Definition PACKET_SIZE : nat := HEADER_SIZE + PAYLOAD_SIZE.

(** target.rs:28-29: [struct MixnodeIndex(RawMixnodeIndex)]; the newtype is modelled by [N], values
    are only produced by [mixnode_index_try_from]. *)
Notation mixnode_index := N (only parsing).

(** target.rs:38-56: [TryFrom<usize>] and [TryFrom<RawMixnodeIndex>] for [MixnodeIndex] *)
Definition mixnode_index_try_from (index : N) : option mixnode_index :=
  if (index <=? MAX_MIXNODE_INDEX)%N then Some index else None.

(** target.rs:64-68 *)
Inductive target :=
| TMixnodeIndex (i : mixnode_index)
| TPeerId (p : bytes).

Global Instance target_eq_dec : EqDecision target.
Proof. solve_decision. Defined.
