(** C12, C13, C16: peeling a packet, for arbitrary packets. *)
From Verif Require Export LSphinx.

(** ** Specification: the parts of a packet *)
Definition p_kx (p : bytes) : bytes := take 32 p.
Definition p_mac (p : bytes) : bytes := take 16 (drop 32 p).
Definition p_actions (p : bytes) : bytes := take 140 (drop 48 p).
Definition p_payload (p : bytes) : bytes := drop 188 p.
Definition is_packet (p : bytes) : Prop :=
  length p = N.to_nat 2252 /\ Forall (fun b => b < 256)%N p.

(** The MAC the header should have for a hop with shared secret [s]. *)
Definition good_mac (pr : prims) (p s : bytes) : Prop :=
  p_mac p = pr_blake2b pr 16 (take 16 (small_derived_secrets pr s)) [] [] (p_actions p).
Global Instance good_mac_dec pr p s : Decision (good_mac pr p s).
Proof. unfold good_mac. apply _. Defined.

(** The decrypted routing actions, extended by 50 bytes of decrypted zeros. *)
Definition routing (pr : prims) (actions s : bytes) : bytes :=
  apply_keystream (actions ++ replicate 50 0%N)
    (map (fun i => (pr_chacha20 pr (take 32 (drop 16 (small_derived_secrets pr s)))
                                (replicate 8 0%N) i mod 256)%N) (seq 0 190)).
Definition action_code (pr : prims) (p s : bytes) : N :=
  from_le16 (take 2 (routing pr (p_actions p) s)).
Definition plain_payload (pr : prims) (p s : bytes) : bytes :=
  pr_lioness_decrypt pr (derive_payload_encryption_key pr s) (p_payload p).
Definition hop_delay (pr : prims) (s : bytes) : delay :=
  let seed := take 16 (drop 48 (small_derived_secrets pr s)) in
  f_min (pr_exp1 pr (seed ++ seed)) f_ten.

Section peel_facts.
  Context (pr : prims).
  Implicit Types (p s out : bytes).

  Lemma p_actions_length p : length p = N.to_nat 2252 -> length (p_actions p) = 140.
  Proof. intros. unfold p_actions. rewrite take_length, drop_length. lia. Qed.
  Lemma p_payload_length p : length p = N.to_nat 2252 -> length (p_payload p) = PAYLOAD_SIZE.
  Proof. intros. unfold p_payload. rewrite drop_length. szlia. Qed.
  Lemma routing_length a s : length (routing pr a s) = length a + 50.
  Proof. unfold routing. rewrite apply_keystream_length, app_length, replicate_length. done. Qed.

  Lemma mac_ok_spec p s :
    mac_ok pr (slice p KX_PUBLIC_SIZE MAC_SIZE) (slice p (KX_PUBLIC_SIZE + MAC_SIZE) ACTIONS_SIZE)
           (sds_mac_key (small_derived_secrets pr s)) = true <-> good_mac pr p s.
  Proof. unfold mac_ok. rewrite bool_decide_eq_true. done. Qed.

  Lemma peel_routing p s :
    length p = N.to_nat 2252 ->
    apply_actions_encryption_keystream pr
      (slice p (KX_PUBLIC_SIZE + MAC_SIZE) ACTIONS_SIZE ++ replicate MAX_ACTIONS_PAD_SIZE 0%N)
      (sds_actions_encryption_key (small_derived_secrets pr s)) = routing pr (p_actions p) s.
  Proof.
    intros Hp. unfold apply_actions_encryption_keystream, routing, actions_keystream.
    rewrite app_length, replicate_length.
    change (slice p (KX_PUBLIC_SIZE + MAC_SIZE) ACTIONS_SIZE) with (p_actions p).
    by rewrite p_actions_length.
  Qed.
  Lemma payload_eq p : length p = N.to_nat 2252 -> slice p HEADER_SIZE PAYLOAD_SIZE = p_payload p.
  Proof.
    intros. unfold slice, p_payload. apply take_ge. rewrite drop_length. szlia.
  Qed.

  (** [peel] rewritten in terms of the specification. *)
  Definition peel_spec (out p s : bytes) : bytes * result action peel_err :=
    let rt := routing pr (p_actions p) s in
    let code := action_code pr p s in
    let out1 := put out 30 rt in
    if decide (good_mac pr p s) then
      if (code =? 65281)%N then
        let out2 := put out1 0 (plain_payload pr p s) in
        match check_payload_tag (slice out2 PAYLOAD_DATA_SIZE PAYLOAD_TAG_SIZE) with
        | Ok _ => (out2, Ok ADeliverRequest)
        | Err e => (out2, Err e)
        end
      else if (code =? 65282)%N then (put out1 0 (p_payload p), Ok (ADeliverReply (slice rt 2 16)))
      else if (code =? 65283)%N then (out1, Ok (ADeliverCover None))
      else if (code =? 65284)%N then (out1, Ok (ADeliverCover (Some (slice rt 2 16))))
      else
        match (if (code =? 65280)%N then (put out1 32 (slice rt 34 156), Some (TPeerId (slice rt 2 32)))
               else (out1, TMixnodeIndex <$> mixnode_index_try_from code)) with
        | (out2, None) => (out2, Err PeAction)
        | (out2, Some tgt) =>
            (put (put out2 0 (blind_kx_public pr (p_kx p) s)) 188 (plain_payload pr p s),
             Ok (AForwardTo tgt (hop_delay pr s)))
        end
    else (out, Err PeMac).

  Lemma peel_peel_spec out p s :
    length p = N.to_nat 2252 -> peel pr out p s = peel_spec out p s.
  Proof.
    intros Hp. unfold peel, peel_spec. cbv zeta.
    rewrite (peel_routing p s Hp), (payload_eq p Hp).
    destruct (decide (good_mac pr p s)) as [Hm|Hm].
    - apply mac_ok_spec in Hm. rewrite Hm. cbn [negb]. done.
    - destruct (mac_ok _ _ _ _) eqn:E; [|done]. by apply mac_ok_spec in E.
  Qed.

  (** The packet sent on. *)
  Lemma put4 (out rt kx pl : bytes) :
    length out = N.to_nat 2252 -> length rt = 190 -> length kx = 32 -> length pl = N.to_nat 2064 ->
    put (put (put out 30 rt) 0 kx) 188 pl = kx ++ slice rt 2 156 ++ pl.
  Proof.
    intros Ho Hr Hk Hl.
    rewrite (split3 out 30 190) by lia.
    set (o1 := take 30 out). set (o2 := slice out 30 190). set (o3 := drop (30 + 190) out).
    assert (length o1 = 30) by (unfold o1; rewrite take_length; lia).
    assert (length o2 = 190) by (unfold o2; apply slice_length; lia).
    assert (length o3 = N.to_nat 2032) by (unfold o3; rewrite drop_length; lia).
    rewrite put_at by lia.
    rewrite (split3 rt 2 156) by lia.
    set (d1 := take 2 rt). set (d2 := slice rt 2 156). set (d3 := drop (2 + 156) rt).
    assert (length d1 = 2) by (unfold d1; rewrite take_length; lia).
    assert (length d2 = 156) by (unfold d2; apply slice_length; lia).
    assert (length d3 = 32) by (unfold d3; rewrite drop_length; lia).
    replace (o1 ++ (d1 ++ d2 ++ d3) ++ o3) with ([] ++ (o1 ++ d1) ++ (d2 ++ d3 ++ o3))
      by (cbn [app]; by rewrite <- !app_assoc).
    rewrite put_at by (rewrite ?app_length; cbn [length]; lia).
    replace ([] ++ kx ++ d2 ++ d3 ++ o3) with ((kx ++ d2) ++ (d3 ++ o3) ++ [])
      by (cbn [app]; by rewrite app_nil_r, <- !app_assoc).
    rewrite put_at by (rewrite ?app_length; lia). rewrite app_nil_r, <- app_assoc.
    f_equal. f_equal. symmetry. apply slice_at; lia.
  Qed.
  Lemma put5 (out rt kx pl : bytes) :
    length out = N.to_nat 2252 -> length rt = 190 -> length kx = 32 -> length pl = N.to_nat 2064 ->
    put (put (put (put out 30 rt) 32 (slice rt 34 156)) 0 kx) 188 pl = kx ++ slice rt 34 156 ++ pl.
  Proof.
    intros Ho Hr Hk Hl.
    set (v := slice rt 34 156).
    assert (length v = 156) by (unfold v; apply slice_length; lia).
    assert (length (put out 30 rt) = N.to_nat 2252) by (rewrite put_length; lia).
    set (out1 := put out 30 rt) in *.
    rewrite (split3 out1 32 156) by lia.
    set (o1 := take 32 out1). set (o2 := slice out1 32 156). set (o3 := drop (32 + 156) out1).
    assert (length o1 = 32) by (unfold o1; rewrite take_length; lia).
    assert (length o2 = 156) by (unfold o2; apply slice_length; lia).
    assert (length o3 = N.to_nat 2064) by (unfold o3; rewrite drop_length; lia).
    rewrite put_at by lia.
    replace (o1 ++ v ++ o3) with ([] ++ o1 ++ (v ++ o3)) by done.
    rewrite put_at by (cbn [length]; lia).
    replace ([] ++ kx ++ v ++ o3) with ((kx ++ v) ++ o3 ++ [])
      by (cbn [app]; by rewrite app_nil_r, <- !app_assoc).
    rewrite put_at by (rewrite ?app_length; lia). by rewrite app_nil_r, <- app_assoc.
  Qed.
  Lemma put_payload (out rt pl : bytes) :
    length out = N.to_nat 2252 -> length rt = 190 -> length pl = N.to_nat 2064 ->
    put (put out 30 rt) 0 pl = pl ++ drop (N.to_nat 2064) out.
  Proof.
    intros Ho Hr Hl. unfold put at 1. rewrite take_0. cbn [app]. f_equal.
    rewrite Hl. cbn [plus]. unfold put. rewrite app_assoc.
    rewrite drop_app_ge by (rewrite app_length, take_length; lia).
    rewrite drop_drop. f_equal. rewrite app_length, take_length. lia.
  Qed.
End peel_facts.

Section theorems.
  Context (pr : prims) (Hok : prims_ok pr).

  Lemma plain_payload_length p s :
    length p = N.to_nat 2252 -> length (plain_payload pr p s) = N.to_nat 2064.
  Proof.
    intros. unfold plain_payload.
    rewrite (lioness_decrypt_length _ Hok); rewrite ?p_payload_length by done; szlia.
  Qed.
  Lemma blind_length kx s : length (blind_kx_public pr kx s) = 32.
  Proof. apply (mont_mul_length _ Hok). Qed.

  (** The packet passed on for a routing string whose next header starts at [off]. *)
  Definition next_packet (p s : bytes) (off : nat) : bytes :=
    blind_kx_public pr (p_kx p) s ++ slice (routing pr (p_actions p) s) off 156 ++
    plain_payload pr p s.

  (** Everything [peel] does, on any packet-sized input with any packet-sized output buffer. *)
  Lemma peel_eq out p s :
    length out = N.to_nat 2252 -> length p = N.to_nat 2252 ->
    let rt := routing pr (p_actions p) s in
    let code := action_code pr p s in
    peel pr out p s =
      if decide (good_mac pr p s) then
        if (code =? 65281)%N then
          (plain_payload pr p s ++ drop (N.to_nat 2064) out,
           if decide (drop (N.to_nat 2048) (plain_payload pr p s) = replicate 16 0%N)
           then Ok ADeliverRequest else Err PePayloadTag)
        else if (code =? 65282)%N then
          (p_payload p ++ drop (N.to_nat 2064) out, Ok (ADeliverReply (slice rt 2 16)))
        else if (code =? 65283)%N then (put out 30 rt, Ok (ADeliverCover None))
        else if (code =? 65284)%N then (put out 30 rt, Ok (ADeliverCover (Some (slice rt 2 16))))
        else if (code =? 65280)%N then
          (next_packet p s 34, Ok (AForwardTo (TPeerId (slice rt 2 32)) (hop_delay pr s)))
        else if (code <=? 65279)%N then
          (next_packet p s 2, Ok (AForwardTo (TMixnodeIndex code) (hop_delay pr s)))
        else (put out 30 rt, Err PeAction)
      else (out, Err PeMac).
  Proof.
    intros Ho Hp rt code. rewrite peel_peel_spec by done. unfold peel_spec. cbv zeta.
    fold rt code.
    assert (Hrt : length rt = 190).
    { unfold rt. rewrite routing_length, p_actions_length by done. done. }
    destruct (decide (good_mac pr p s)) as [_|_]; [|done].
    destruct (code =? 65281)%N.
    { rewrite (put_payload out rt) by (try done; by apply plain_payload_length).
      assert (E : slice (plain_payload pr p s ++ drop (N.to_nat 2064) out)
                    PAYLOAD_DATA_SIZE PAYLOAD_TAG_SIZE = drop (N.to_nat 2048) (plain_payload pr p s)).
      { pose proof (plain_payload_length p s Hp) as Hl.
        rewrite slice_app_l by (rewrite Hl; szlia).
        unfold slice. apply take_ge. rewrite drop_length, Hl. szlia. }
      rewrite E. unfold check_payload_tag.
      change PAYLOAD_TAG with (replicate 16 0%N).
      destruct (decide (_ = _)); done. }
    destruct (code =? 65282)%N.
    { rewrite (put_payload out rt); [done..|]. rewrite p_payload_length by done. szlia. }
    destruct (code =? 65283)%N; [done|]. destruct (code =? 65284)%N; [done|].
    destruct (code =? 65280)%N.
    { rewrite put5; [done..|apply blind_length|by apply plain_payload_length]. }
    unfold mixnode_index_try_from. change MAX_MIXNODE_INDEX with 65279%N.
    destruct (code <=? 65279)%N; cbn [fmap option_fmap option_map]; [|done].
    rewrite put4; [done..|apply blind_length|by apply plain_payload_length].
  Qed.

  Lemma next_packet_length p s off :
    length p = N.to_nat 2252 -> off ≤ 34 -> length (next_packet p s off) = N.to_nat 2252.
  Proof.
    intros Hp Hoff. unfold next_packet. rewrite !app_length, blind_length.
    rewrite plain_payload_length by done.
    rewrite slice_length by (rewrite routing_length, p_actions_length by done; lia). lia.
  Qed.

  Lemma lxor_byte a b : (a < 256 -> b < 256 -> N.lxor a b < 256)%N.
  Proof.
    intros Ha Hb. destruct (decide (N.lxor a b = 0%N)) as [->|Hn]; [lia|].
    change 256%N with (2 ^ 8)%N in *. apply N.log2_lt_pow2; [lia|].
    pose proof (N.log2_lxor a b).
    assert (N.log2 a < 8)%N.
    { destruct (decide (a = 0%N)) as [->|]; [done|]. apply N.log2_lt_pow2; lia. }
    assert (N.log2 b < 8)%N.
    { destruct (decide (b = 0%N)) as [->|]; [done|]. apply N.log2_lt_pow2; lia. }
    lia.
  Qed.
  Lemma apply_keystream_bytes d ks :
    Forall (fun b => b < 256)%N d -> Forall (fun b => b < 256)%N ks ->
    Forall (fun b => b < 256)%N (apply_keystream d ks).
  Proof.
    intros Hd. revert ks. induction Hd as [|x d Hx Hd IH]; intros ks Hks; [constructor|].
    destruct Hks as [|k ks Hk Hks]; simpl; [by constructor|].
    constructor; [by apply lxor_byte|by apply IH].
  Qed.
  Lemma routing_bytes a s :
    Forall (fun b => b < 256)%N a -> Forall (fun b => b < 256)%N (routing pr a s).
  Proof.
    intros Ha. unfold routing. apply apply_keystream_bytes.
    - apply Forall_app. split; [done|]. apply Forall_replicate. lia.
    - apply Forall_map, Forall_true. intros i. apply N.mod_lt. lia.
  Qed.
  Lemma from_le16_bound b : Forall (fun b => b < 256)%N b -> (from_le16 b ≤ 65535)%N.
  Proof.
    intros Hb. destruct b as [|b0 [|b1 [|]]]; cbn [from_le16]; try lia.
    apply Forall_cons in Hb as [? [? _]%Forall_cons]. lia.
  Qed.
  Lemma action_code_bound p s : is_packet p -> (action_code pr p s ≤ 65535)%N.
  Proof.
    intros [_ Hb]. unfold action_code. apply from_le16_bound, Forall_take, routing_bytes.
    unfold p_actions. by apply Forall_take, Forall_drop.
  Qed.

  (** C13. The outcome for every packet, secret and output buffer. The nine conditions on the right
      are mutually exclusive and cover everything (the theorem states that [peel] returns each
      outcome exactly under its condition; [peel] is a total function without panics). *)
  Theorem C13_classification (out p s : bytes) :
    length out = N.to_nat 2252 -> is_packet p ->
    let res := (peel pr out p s).2 in
    let code := action_code pr p s in
    let rt := routing pr (p_actions p) s in
    let mac := good_mac pr p s in
    (res = Err PeMac <-> ¬ mac) /\
    (res = Err PeAction <-> mac /\ (65285 ≤ code ≤ 65535)%N) /\
    (res = Err PePayloadTag <->
       mac /\ code = 65281%N /\ drop (N.to_nat 2048) (plain_payload pr p s) ≠ replicate 16 0%N) /\
    (res = Ok ADeliverRequest <->
       mac /\ code = 65281%N /\ drop (N.to_nat 2048) (plain_payload pr p s) = replicate 16 0%N) /\
    (forall id, res = Ok (ADeliverReply id) <-> mac /\ code = 65282%N /\ id = take 16 (drop 2 rt)) /\
    (res = Ok (ADeliverCover None) <-> mac /\ code = 65283%N) /\
    (forall id, res = Ok (ADeliverCover (Some id)) <->
       mac /\ code = 65284%N /\ id = take 16 (drop 2 rt)) /\
    (forall peer d, res = Ok (AForwardTo (TPeerId peer) d) <->
       mac /\ code = 65280%N /\ peer = take 32 (drop 2 rt) /\ d = hop_delay pr s) /\
    (forall i d, res = Ok (AForwardTo (TMixnodeIndex i) d) <->
       mac /\ (code ≤ 65279)%N /\ i = code /\ d = hop_delay pr s).
  Proof.
    intros Ho Hp. cbv zeta. rewrite peel_eq by (try done; apply Hp).
    pose proof (action_code_bound p s Hp) as Hb.
    generalize dependent (action_code pr p s). intros code Hb.
    generalize (routing pr (p_actions p) s). intros rt.
    destruct (decide (good_mac pr p s)) as [Hm|Hm]; [|cbn [snd]; naive_solver].
    repeat match goal with
    | |- context [if (code =? ?k)%N then _ else _] =>
        destruct (N.eqb_spec code k) as [->|]
    | |- context [if (code <=? ?k)%N then _ else _] => destruct (N.leb_spec code k)
    end;
    repeat match goal with |- context [if decide ?P then _ else _] => destruct (decide P) end;
    cbn [snd]; unfold slice;
    repeat match goal with |- _ /\ _ => split | |- forall _, _ => intros | |- _ <-> _ => split end;
    intros; destruct_and?; simplify_eq; try done; try lia; repeat split; try done; try lia.
  Qed.

  (** C12. A packet passed on has the fixed size; it does not depend on the output buffer. *)
  Theorem C12_forwarded (out out' p s q : bytes) tgt d :
    length out = N.to_nat 2252 -> length out' = N.to_nat 2252 -> length p = N.to_nat 2252 ->
    peel pr out p s = (q, Ok (AForwardTo tgt d)) ->
    length q = N.to_nat 2252 /\ peel pr out' p s = (q, Ok (AForwardTo tgt d)).
  Proof.
    intros Ho Ho' Hp. rewrite !peel_eq by done. cbv zeta.
    repeat match goal with
    | |- context [if ?b then _ else _] => destruct b; try done
    end; intros [= <- <- <-]; (split; [|done]); apply next_packet_length; (done || lia).
  Qed.
  (** ... nor do a delivered payload (all that is read of the buffer by a delivery) and the result. *)
  Theorem C12_delivered (out out' p s q : bytes) res :
    length out = N.to_nat 2252 -> length out' = N.to_nat 2252 -> length p = N.to_nat 2252 ->
    peel pr out p s = (q, res) ->
    length q = N.to_nat 2252 /\
    exists q', peel pr out' p s = (q', res) /\
      (res = Ok ADeliverRequest \/ (exists id, res = Ok (ADeliverReply id)) ->
       take (N.to_nat 2064) q' = take (N.to_nat 2064) q).
  Proof.
    intros Ho Ho' Hp. rewrite !peel_eq by done. cbv zeta.
    pose proof (plain_payload_length p s Hp) as Hpl.
    pose proof (p_payload_length p Hp) as Hpp. rewrite PAYLOAD_SIZE_eq in Hpp.
    assert (Hrt : length (routing pr (p_actions p) s) = 190).
    { rewrite routing_length, p_actions_length by done. done. }
    repeat match goal with
    | |- context [if ?b then _ else _] => destruct b
    end; intros [= <- <-];
      (split; [rewrite ?app_length, ?drop_length, ?put_length, ?next_packet_length; lia|]);
      (eexists; split; [reflexivity|]); intros [|[]]; simplify_eq; try done;
      rewrite !take_app_alt by done; done.
  Qed.

  (** C16. Two packets with the same public key reaching the same node use the same shared secret
      [s]. If one is accepted and the other has a different MAC or different routing actions, the
      other is rejected, unless its MAC is a valid MAC, under the same key, of routing actions that
      differ from those of the accepted one. *)
  Theorem C16_tamper (out out' p p' s : bytes) :
    length p = N.to_nat 2252 -> length p' = N.to_nat 2252 ->
    length out = N.to_nat 2252 -> length out' = N.to_nat 2252 ->
    (peel pr out p s).2 ≠ Err PeMac ->
    p_mac p' ≠ p_mac p \/ p_actions p' ≠ p_actions p ->
    peel pr out' p' s = (out', Err PeMac) \/
    (p_actions p' ≠ p_actions p /\
     p_mac p' = pr_blake2b pr 16 (take 16 (small_derived_secrets pr s)) [] [] (p_actions p')).
  Proof.
    intros Hp Hp' Ho Ho' Hacc Hdiff. rewrite peel_eq in Hacc |- * by done. cbv zeta in *.
    destruct (decide (good_mac pr p s)) as [Hm|]; [|done].
    destruct (decide (good_mac pr p' s)) as [Hm'|]; [|by left]. right. split; [|done].
    destruct Hdiff as [Hd|Hd]; [|done]. intros He. apply Hd.
    unfold good_mac in *. congruence.
  Qed.
  (** In particular every change of the MAC alone is rejected. *)
  Theorem C16_mac_changed (out out' p p' s : bytes) :
    length p = N.to_nat 2252 -> length p' = N.to_nat 2252 ->
    length out = N.to_nat 2252 -> length out' = N.to_nat 2252 ->
    (peel pr out p s).2 ≠ Err PeMac ->
    p_mac p' ≠ p_mac p -> p_actions p' = p_actions p ->
    peel pr out' p' s = (out', Err PeMac).
  Proof.
    intros Hp Hp' Ho Ho' Hacc Hd He.
    destruct (C16_tamper out out' p p' s) as [|[]]; try done. by left.
  Qed.
  (** A request is delivered only if its payload decrypts to something ending in the zero tag. *)
  Theorem C16_payload_tag (out p s q : bytes) :
    length p = N.to_nat 2252 -> length out = N.to_nat 2252 ->
    peel pr out p s = (q, Ok ADeliverRequest) ->
    exists data, length data = N.to_nat 2048 /\
      pr_lioness_decrypt pr (derive_payload_encryption_key pr s) (p_payload p) =
        data ++ replicate 16 0%N /\
      take (N.to_nat 2048) q = data.
  Proof.
    intros Hp Ho. rewrite peel_eq by done. cbv zeta.
    repeat match goal with
    | |- context [if decide ?b then _ else _] => destruct (decide b) as [?E|?E]; try done
    | |- context [if ?b then _ else _] => destruct b; try done
    end; intros [= <-].
    pose proof (plain_payload_length p s Hp) as Hpl.
    exists (take (N.to_nat 2048) (plain_payload pr p s)).
    split; [rewrite take_length; lia|]. split.
    - rewrite <- E0. by rewrite take_drop.
    - rewrite take_app_le by lia. done.
  Qed.
End theorems.
