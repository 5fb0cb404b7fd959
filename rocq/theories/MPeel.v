(** Model of src/core/sphinx/peel.rs. *)
From Verif Require Export MBuild.

(** peel.rs:34-44 *)
Inductive action :=
| AForwardTo (tgt : target) (d : delay)
| ADeliverRequest
| ADeliverReply (surb_id : bytes)
| ADeliverCover (cover_id : option bytes).

(** peel.rs:47-54 *)
Inductive peel_err := PeMac | PeAction | PePayloadTag.

(** peel.rs:28-30 *)
Definition kx_public (packet : bytes) : bytes := slice packet 0 KX_PUBLIC_SIZE.

(** peel.rs:56-63 *)
Definition check_payload_tag (tag : bytes) : result unit peel_err :=
  if decide (tag = PAYLOAD_TAG) then Ok tt else Err PePayloadTag.

Section peel.
  Context (pr : prims).

  (** peel.rs:67-157. [out] is the initial contents of the output buffer; its new contents are
      returned with the result. All ranges are constant and checked at compile time. *)
  Definition peel (out packet kx_shared_secret : bytes) : bytes * result action peel_err :=
    let kx_pub := slice packet 0 KX_PUBLIC_SIZE in
    let mac := slice packet KX_PUBLIC_SIZE MAC_SIZE in
    let actions := slice packet (KX_PUBLIC_SIZE + MAC_SIZE) ACTIONS_SIZE in
    let payload := slice packet HEADER_SIZE PAYLOAD_SIZE in
    let sds := small_derived_secrets pr kx_shared_secret in
    if negb (mac_ok pr mac actions (sds_mac_key sds)) then (out, Err PeMac)
    else
      let da_off := KX_PUBLIC_SIZE - RAW_ACTION_SIZE in
      let decrypted :=
        apply_actions_encryption_keystream pr (actions ++ replicate MAX_ACTIONS_PAD_SIZE 0%N)
          (sds_actions_encryption_key sds) in
      let out := put out da_off decrypted in
      let raw_action := from_le16 (slice decrypted 0 RAW_ACTION_SIZE) in
      if (raw_action =? RAW_ACTION_DELIVER_REQUEST)%N then
        let out :=
          put out 0 (decrypt_payload pr payload (derive_payload_encryption_key pr kx_shared_secret)) in
        match check_payload_tag (slice out PAYLOAD_DATA_SIZE PAYLOAD_TAG_SIZE) with
        | Ok _ => (out, Ok ADeliverRequest)
        | Err e => (out, Err e)
        end
      else if (raw_action =? RAW_ACTION_DELIVER_REPLY)%N then
        (put out 0 payload, Ok (ADeliverReply (slice decrypted RAW_ACTION_SIZE SURB_ID_SIZE)))
      else if (raw_action =? RAW_ACTION_DELIVER_COVER)%N then (out, Ok (ADeliverCover None))
      else if (raw_action =? RAW_ACTION_DELIVER_COVER_WITH_ID)%N then
        (out, Ok (ADeliverCover (Some (slice decrypted RAW_ACTION_SIZE COVER_ID_SIZE))))
      else
        let determine_target :=
          if (raw_action =? RAW_ACTION_FORWARD_TO_PEER_ID)%N then
            let peer_id := slice decrypted RAW_ACTION_SIZE PEER_ID_SIZE in
            (* copy_within *)
            let moved := slice decrypted (RAW_ACTION_SIZE + PEER_ID_SIZE) (MAC_SIZE + ACTIONS_SIZE) in
            (put out (da_off + RAW_ACTION_SIZE) moved, Some (TPeerId peer_id))
          else (out, TMixnodeIndex <$> mixnode_index_try_from raw_action) in
        match determine_target with
        | (out, None) => (out, Err PeAction)
        | (out, Some tgt) =>
            let d := delay_exp (pr_exp1 pr) (sds_delay_seed sds) in
            let out := put out 0 (blind_kx_public pr kx_pub kx_shared_secret) in
            let out :=
              put out HEADER_SIZE
                (decrypt_payload pr payload (derive_payload_encryption_key pr kx_shared_secret)) in
            (out, Ok (AForwardTo tgt d))
        end.

  (** peel.rs:161-170 *)
  Definition decrypt_reply_payload (payload : bytes) (keys : list bytes)
    : bytes * result unit peel_err :=
    let payload := foldl (fun p key => encrypt_payload pr p key) payload (reverse keys) in
    (payload, check_payload_tag (slice payload PAYLOAD_DATA_SIZE PAYLOAD_TAG_SIZE)).
End peel.
