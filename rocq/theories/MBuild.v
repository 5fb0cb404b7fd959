(** Model of src/core/sphinx/build.rs. *)
From Verif Require Export MCrypto.

(** build.rs:39-43 *)
Inductive packet_kind :=
| KRequest
| KReply (surb_id : bytes)
| KCover (cover_id : option bytes).

(** Mutating a sub-slice in place through a run-time checked range: [f(&mut buf\[off..\])] and
    [f(&mut buf\[..n\])], where [f] preserves the length. *)
Definition modify_from (buf : bytes) (off : nat) (f : bytes -> bytes) : outcome bytes :=
  if decide (off ≤ length buf) then Val (take off buf ++ f (drop off buf)) else Panic.
Definition modify_to (buf : bytes) (n : nat) (f : bytes -> bytes) : outcome bytes :=
  if decide (n ≤ length buf) then Val (f (take n buf) ++ drop n buf) else Panic.

(** build.rs:73-77 *)
Record hop := Hop { hop_mac_key : bytes; hop_keystream : bytes; hop_start_offset : nat }.

(** The variables live during the forward loop of [build_header]. [bs_buf] is [mac_plus_actions]:
    [actions] is the part starting at [MAC_SIZE]. *)
Record build_state := BuildState {
  bs_buf : bytes;
  bs_offset : nat;
  bs_total_delay : delay;
  bs_hops : list hop;
  bs_pad : bytes
}.

Section build.
  Context (pr : prims).

  (** build.rs:33-37 applied to [actions]: the bounds are those of [actions] *)
  Definition write_actions (buf : bytes) (off : nat) (v : bytes) : outcome bytes :=
    write_at buf (MAC_SIZE + off) v.

  (** build.rs:85-118: one iteration of the forward loop *)
  Definition forward_step (st : build_state) (tgt : target) (kx_shared_secret : bytes)
    : outcome build_state :=
    let start_offset := bs_offset st in
    let offset := start_offset + RAW_ACTION_SIZE in
    '(buf, offset, raw_action) ←
      match tgt with
      | TMixnodeIndex mixnode_index => Val (bs_buf st, offset, mixnode_index)
      | TPeerId peer_id =>
          buf ← write_actions (bs_buf st) offset peer_id;
          Val (buf, offset + PEER_ID_SIZE, RAW_ACTION_FORWARD_TO_PEER_ID)
      end;
    buf ← write_actions buf start_offset (to_le16 raw_action);
    let offset := offset + MAC_SIZE in
    let sds := small_derived_secrets pr kx_shared_secret in
    let total_delay := delay_add (bs_total_delay st) (delay_exp (pr_exp1 pr) (sds_delay_seed sds)) in
    let keystream :=
      apply_actions_encryption_keystream pr
        (replicate (ACTIONS_SIZE + MAX_ACTIONS_PAD_SIZE) 0%N) (sds_actions_encryption_key sds) in
    hops ← av_push (MAX_HOPS - 1) (bs_hops st)
             {| hop_mac_key := sds_mac_key sds;
                hop_keystream := keystream;
                hop_start_offset := start_offset |};
    ks_tail ← (if decide (start_offset ≤ ACTIONS_SIZE)
               then slice_from keystream (ACTIONS_SIZE - start_offset) else Panic);
    pad ← modify_to (bs_pad st) offset (fun p => apply_keystream p ks_tail);
    Val {| bs_buf := buf; bs_offset := offset; bs_total_delay := total_delay;
           bs_hops := hops; bs_pad := pad |}.

  Fixpoint forward_loop (st : build_state) (targets : list target) (secrets : list bytes)
    : outcome build_state :=
    match targets, secrets with
    | tgt :: targets', s :: secrets' =>
        st' ← forward_step st tgt s;
        forward_loop st' targets' secrets'
    | _, _ => Val st
    end.

  (** build.rs:121-161: the last hop. Returns the buffer; [pad] is not changed. *)
  Definition last_hop (st : build_state) (secrets : list bytes) (kind : packet_kind) (r : rng)
    : outcome (bytes * rng) :=
    let start_offset := bs_offset st in
    let offset := start_offset + RAW_ACTION_SIZE in
    '(buf, offset, raw_action) ←
      match kind with
      | KRequest => Val (bs_buf st, offset, RAW_ACTION_DELIVER_REQUEST)
      | KReply surb_id =>
          buf ← write_actions (bs_buf st) offset surb_id;
          Val (buf, offset + SURB_ID_SIZE, RAW_ACTION_DELIVER_REPLY)
      | KCover None => Val (bs_buf st, offset, RAW_ACTION_DELIVER_COVER)
      | KCover (Some cover_id) =>
          buf ← write_actions (bs_buf st) offset cover_id;
          Val (buf, offset + COVER_ID_SIZE, RAW_ACTION_DELIVER_COVER_WITH_ID)
      end;
    buf ← write_actions buf start_offset (to_le16 raw_action);
    (* rng.fill_bytes(&mut actions[offset..]) *)
    '(buf, r) ← (if decide (MAC_SIZE + offset ≤ length buf)
                 then let '(random, r) := rng_fill (length buf - (MAC_SIZE + offset)) r in
                      Val (take (MAC_SIZE + offset) buf ++ random, r)
                 else Panic);
    last_secret ← expect (list.last secrets);
    let sds := small_derived_secrets pr last_secret in
    buf ← modify_from buf (MAC_SIZE + start_offset)
            (fun d => apply_actions_encryption_keystream pr d (sds_actions_encryption_key sds));
    actions_tail ← slice_from buf (MAC_SIZE + start_offset);
    pad_head ← slice_to (bs_pad st) start_offset;
    buf ← write_at buf start_offset (compute_mac pr actions_tail pad_head (sds_mac_key sds));
    Val (buf, r).

  (** build.rs:164-178: one iteration of the backward loop *)
  Definition backward_step (buf pad : bytes) (h : hop) : outcome (bytes * bytes) :=
    let start_offset := hop_start_offset h in
    buf ← modify_from buf (MAC_SIZE + start_offset) (fun d => apply_keystream d (hop_keystream h));
    ks_tail ← (if decide (start_offset ≤ ACTIONS_SIZE)
               then slice_from (hop_keystream h) (ACTIONS_SIZE - start_offset) else Panic);
    pad ← modify_to pad start_offset (fun p => apply_keystream p ks_tail);
    actions_tail ← slice_from buf (MAC_SIZE + start_offset);
    pad_head ← slice_to pad start_offset;
    buf ← write_at buf start_offset (compute_mac pr actions_tail pad_head (hop_mac_key h));
    Val (buf, pad).

  (** [rev_hops] is [hops.iter().rev()] *)
  Fixpoint backward_loop (buf pad : bytes) (rev_hops : list hop) : outcome (bytes * bytes) :=
    match rev_hops with
    | [] => Val (buf, pad)
    | h :: rest =>
        '(buf, pad) ← backward_step buf pad h;
        backward_loop buf pad rest
    end.

  (** build.rs:48-181. [header] is the initial contents of the header buffer. Returns the new
      contents, the shared secrets and the total delay. *)
  Definition build_header (header : bytes) (targets : list target) (their_kx_publics : list bytes)
      (kind : packet_kind) (r : rng) : outcome (bytes * list bytes * delay * rng) :=
    _ ← assert_or_panic (bool_decide (length targets + 1 = length their_kx_publics));
    _ ← assert_or_panic (bool_decide (length their_kx_publics ≤ MAX_HOPS));
    '(kx_public, secrets, r) ← gen_kx_public_and_shared_secrets pr their_kx_publics r;
    let st := {| bs_buf := drop KX_PUBLIC_SIZE header;
                 bs_offset := 0;
                 bs_total_delay := delay_zero;
                 bs_hops := [];
                 bs_pad := replicate (ACTIONS_SIZE - RAW_ACTION_SIZE) 0%N |} in
    st ← forward_loop st targets secrets;
    '(buf, r) ← last_hop st secrets kind r;
    '(buf, _) ← backward_loop buf (bs_pad st) (reverse (bs_hops st));
    Val (kx_public ++ buf, secrets, bs_total_delay st, r).

  (** build.rs:186-188: writing payload data through [mut_payload_data] *)
  Definition set_payload_data (packet data : bytes) : bytes := put packet HEADER_SIZE data.
  Definition get_payload_data (packet : bytes) : bytes := slice packet HEADER_SIZE PAYLOAD_DATA_SIZE.

  (** build.rs:220-222 *)
  Definition encrypt_payload_layers (payload : bytes) (rev_secrets : list bytes) : bytes :=
    foldl (fun p s => encrypt_payload pr p (derive_payload_encryption_key pr s)) payload rev_secrets.

  (** build.rs:194-225 *)
  Definition complete_request_packet (packet : bytes) (targets : list target)
      (their_kx_publics : list bytes) (r : rng) : outcome (bytes * delay * rng) :=
    _ ← assert_or_panic (bool_decide (length targets + 1 = length their_kx_publics));
    _ ← assert_or_panic (bool_decide (length their_kx_publics ≤ MAX_HOPS));
    let header := take HEADER_SIZE packet in
    let payload := drop HEADER_SIZE packet in
    '(header, secrets, total_delay, r) ← build_header header targets their_kx_publics KRequest r;
    let payload := put payload PAYLOAD_DATA_SIZE PAYLOAD_TAG in
    let payload := encrypt_payload_layers payload (reverse secrets) in
    Val (header ++ payload, total_delay, r).

  (** build.rs:228 *)
  Definition SURB_SIZE : nat := RAW_MIXNODE_INDEX_SIZE + HEADER_SIZE + SHARED_SECRET_SIZE.

  Fixpoint push_payload_keys (keys : list bytes) (secrets : list bytes) : outcome (list bytes) :=
    match secrets with
    | [] => Val keys
    | s :: rest =>
        keys ← av_push MAX_HOPS keys (derive_payload_encryption_key pr s);
        push_payload_keys keys rest
    end.

  (** build.rs:240-281. [surb] is the initial contents of the SURB buffer, [keys] of the payload
      encryption keys. *)
  Definition build_surb (surb : bytes) (keys : list bytes) (first_mixnode_index : mixnode_index)
      (targets : list target) (their_kx_publics : list bytes) (id : bytes) (r : rng)
    : outcome (bytes * list bytes * delay * rng) :=
    _ ← assert_or_panic (bool_decide (length targets + 1 = length their_kx_publics));
    _ ← assert_or_panic (bool_decide (length their_kx_publics ≤ MAX_HOPS));
    let header := slice surb RAW_MIXNODE_INDEX_SIZE HEADER_SIZE in
    '(header, secrets, total_delay, r) ← build_header header targets their_kx_publics (KReply id) r;
    let '(shared_secret, r) := rng_fill SHARED_SECRET_SIZE r in
    keys ← av_push MAX_HOPS keys (derive_payload_encryption_key pr shared_secret);
    (* kx_shared_secrets.pop() *)
    let secrets := take (length secrets - 1) secrets in
    keys ← push_payload_keys keys secrets;
    Val (to_le16 first_mixnode_index ++ header ++ shared_secret, keys, total_delay, r).

  (** build.rs:287-305 *)
  Definition complete_reply_packet (packet surb : bytes) : bytes * option mixnode_index :=
    let payload := drop HEADER_SIZE packet in
    let raw_first_mixnode_index := slice surb 0 RAW_MIXNODE_INDEX_SIZE in
    let surb_header := slice surb RAW_MIXNODE_INDEX_SIZE HEADER_SIZE in
    let shared_secret := slice surb (RAW_MIXNODE_INDEX_SIZE + HEADER_SIZE) SHARED_SECRET_SIZE in
    let payload := put payload PAYLOAD_DATA_SIZE PAYLOAD_TAG in
    let payload := decrypt_payload pr payload (derive_payload_encryption_key pr shared_secret) in
    (surb_header ++ payload, mixnode_index_try_from (from_le16 raw_first_mixnode_index)).

  (** build.rs:310-338 *)
  Definition build_cover_packet (packet : bytes) (targets : list target)
      (their_kx_publics : list bytes) (id : option bytes) (r : rng) : outcome (bytes * delay * rng) :=
    _ ← assert_or_panic (bool_decide (length targets + 1 = length their_kx_publics));
    _ ← assert_or_panic (bool_decide (length their_kx_publics ≤ MAX_HOPS));
    let header := take HEADER_SIZE packet in
    '(header, secrets, total_delay, r) ←
      build_header header targets their_kx_publics (KCover id) r;
    let '(payload, r) := rng_fill PAYLOAD_SIZE r in
    Val (header ++ payload, total_delay, r).
End build.
