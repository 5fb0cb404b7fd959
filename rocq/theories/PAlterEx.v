(** Concrete cases of C79: the request of PExample, with one byte of its payload changed. *)
From Verif Require Import PAlter PExample.

(** [p] with another byte in position [i]. *)
Definition ex_flip (i : nat) (p : bytes) : bytes :=
  map (fun jb => if Nat.eqb (fst jb) i then N.lxor (snd jb) 1 else snd jb) (zip (seq 0 (length p)) p).
Global Instance altered_dec p p' : Decision (altered p p').
Proof. unfold altered. apply _. Defined.
Definition ex_zeros : bytes := replicate (N.to_nat 2252) 0%N.
(** What a node with secret [k] makes of a packet. *)
Definition ex_peel (k : N) (p : bytes) : bytes * result action peel_err :=
  peel toy_prims ex_zeros p (derive_kx_shared_secret toy_prims (take 32 p) (ex_secret k)).
Definition kind_of (r : result action peel_err) : nat :=
  match r with
  | Ok (AForwardTo _ _) => 1 | Ok ADeliverRequest => 2 | Ok (ADeliverReply _) => 3 | Ok (ADeliverCover _) => 4
  | Err PeMac => 5 | Err PePayloadTag => 6 | Err _ => 7
  end.
Definition forwards_b (k : N) (p q : bytes) : bool :=
  match ex_peel k p with (q', Ok (AForwardTo _ _)) => bool_decide (q' = q) | _ => false end.
Lemma forwards_b_goes k1 k2 p q r :
  forwards_b k1 p q = true -> forwards_b k2 q r = true ->
  exists l, goes toy_prims [ex_secret k1; ex_secret k2] p l r /\ length l = 2.
Proof.
  unfold forwards_b, ex_peel. intros H1 H2.
  destruct (peel _ _ p _) as [q' [[t d| | |]|]] eqn:E1 in H1; try discriminate H1. apply bool_decide_eq_true in H1 as ->.
  destruct (peel _ _ q _) as [r' [[t' d'| | |]|]] eqn:E2 in H2; try discriminate H2. apply bool_decide_eq_true in H2 as ->.
  exists [(t, d); (t', d')]. split; [|done].
  assert (Hz : length ex_zeros = N.to_nat 2252) by apply replicate_length.
  econstructor; [exact Hz|exact E1|]. econstructor; [exact Hz|exact E2|]. constructor.
Qed.

(** A byte of the payload is changed before node 32: the packet still goes through 32 and 16. *)
Lemma ex_forwards : forwards_b 32 ex_p1 ex_p2 && forwards_b 16 ex_p2 ex_p3 && bool_decide (altered ex_p1 (ex_flip 300 ex_p1)) = true.
Proof. by vm_compute. Qed.
Example C79_route_example :
  exists l q', goes toy_prims [ex_secret 32; ex_secret 16] ex_p1 l ex_p3 /\ length l = 2 /\
    altered ex_p1 (ex_flip 300 ex_p1) /\ goes toy_prims [ex_secret 32; ex_secret 16] (ex_flip 300 ex_p1) l q' /\ altered ex_p3 q'.
Proof.
  pose proof ex_forwards as H. apply andb_true_iff in H as [H H3]. apply andb_true_iff in H as [H1 H2]. apply bool_decide_eq_true in H3.
  destruct (forwards_b_goes _ _ _ _ _ H1 H2) as (l & Hg & Hl).
  destruct (C79_route toy_prims toy_prims_ok _ _ _ _ _ Hg H3) as (q' & Hg' & Ha).
  exists l, q'. exact (conj Hg (conj Hl (conj H3 (conj Hg' Ha)))).
Qed.

(** At node 24 the request is delivered as another one or, if the byte is one of the last, rejected. *)
Definition ex_end : bool :=
  bool_decide (altered ex_p3 (ex_flip 300 ex_p3)) && (bool_decide (altered ex_p3 (ex_flip 2251 ex_p3)) &&
  ((kind_of (snd (ex_peel 24 ex_p3)) =? 2) && ((kind_of (snd (ex_peel 24 (ex_flip 300 ex_p3))) =? 2) &&
   (kind_of (snd (ex_peel 24 (ex_flip 2251 ex_p3))) =? 6)))).
Lemma ex_end_true : ex_end = true.
Proof. by vm_compute. Qed.
Lemma kind_request r : (kind_of r =? 2) = true -> r = Ok ADeliverRequest.
Proof. by destruct r as [[]|[]]. Qed.
Lemma kind_tag r : (kind_of r =? 6) = true -> r = Err PePayloadTag.
Proof. by destruct r as [[]|[]]. Qed.
Example C79_peel_example :
  exists s q q' q'', altered ex_p3 (ex_flip 300 ex_p3) /\ altered ex_p3 (ex_flip 2251 ex_p3) /\
    peel toy_prims ex_zeros ex_p3 s = (q, Ok ADeliverRequest) /\
    peel toy_prims ex_zeros (ex_flip 300 ex_p3) s = (q', Ok ADeliverRequest) /\ take (N.to_nat 2048) q' <> take (N.to_nat 2048) q /\
    peel toy_prims ex_zeros (ex_flip 2251 ex_p3) s = (q'', Err PePayloadTag).
Proof.
  pose proof ex_end_true as H. unfold ex_end in H. apply andb_true_iff in H as [H1 H]. apply andb_true_iff in H as [H2 H].
  apply andb_true_iff in H as [H3 H]. apply andb_true_iff in H as [H4 H5]. apply bool_decide_eq_true in H1, H2.
  apply kind_request in H3, H4. apply kind_tag in H5. unfold ex_peel in H3, H4, H5.
  destruct (altered_header _ _ H1) as (K1 & _). destruct (altered_header _ _ H2) as (K2 & _). unfold p_kx in K1, K2.
  rewrite K1 in H4. rewrite K2 in H5. set (s := derive_kx_shared_secret toy_prims (take 32 ex_p3) (ex_secret 24)) in *.
  destruct (peel toy_prims ex_zeros ex_p3 s) as [q r] eqn:E. cbn [snd] in H3. subst r.
  destruct (peel toy_prims ex_zeros (ex_flip 300 ex_p3) s) as [q' r'] eqn:E'. cbn [snd] in H4. subst r'.
  destruct (peel toy_prims ex_zeros (ex_flip 2251 ex_p3) s) as [q'' r''] eqn:E''. cbn [snd] in H5. subst r''.
  exists s, q, q', q''. split; [exact H1|]. split; [exact H2|]. split; [exact E|]. split; [exact E'|]. split; [|exact E''].
  assert (Hz : length ex_zeros = N.to_nat 2252) by apply replicate_length.
  destruct (C79_peel toy_prims toy_prims_ok ex_zeros ex_zeros _ _ s q q' _ _ Hz Hz H1 E E') as [Hx|[_ Hx]]; [discriminate Hx|exact Hx].
Qed.

(** The reply, at node 8, which has the keys. *)
Definition ex_payload : bytes := drop 188 ex_q3.
Definition ex_payload' : bytes := drop 188 (ex_flip 300 ex_q3).
Definition decrypts_b (m : mixnet) : bool :=
  match sk_surbs (mx_keystore m) with
  | [(_, v)] =>
      match snd (decrypt_reply_payload toy_prims ex_payload (sv_keys v)), snd (decrypt_reply_payload toy_prims ex_payload' (sv_keys v)) with
      | Ok _, Ok _ => bool_decide (length ex_payload = N.to_nat 2064) && (bool_decide (length ex_payload' = N.to_nat 2064) &&
                        bool_decide (ex_payload' <> ex_payload))
      | _, _ => false
      end
  | _ => false
  end.
Lemma decrypts_true : after 8 (ex_send 8) decrypts_b = true.
Proof. by vm_compute. Qed.
Example C79_reply_example :
  exists keys plain plain', length ex_payload = N.to_nat 2064 /\ length ex_payload' = N.to_nat 2064 /\ ex_payload' <> ex_payload /\
    decrypt_reply_payload toy_prims ex_payload keys = (plain, Ok tt) /\ decrypt_reply_payload toy_prims ex_payload' keys = (plain', Ok tt) /\
    take (N.to_nat 2048) plain' <> take (N.to_nat 2048) plain.
Proof.
  destruct (after_reachable _ _ _ (ex_send_ok 8) decrypts_true) as (h & m & _ & H). unfold decrypts_b in H.
  destruct (sk_surbs (mx_keystore m)) as [|[id v] [|]]; try discriminate H.
  destruct (decrypt_reply_payload toy_prims ex_payload (sv_keys v)) as [plain r] eqn:E.
  destruct (decrypt_reply_payload toy_prims ex_payload' (sv_keys v)) as [plain' r'] eqn:E'. cbn [snd] in H.
  destruct r as [[]|]; [|discriminate H]. destruct r' as [[]|]; [|discriminate H].
  apply andb_true_iff in H as [H1 H]. apply andb_true_iff in H as [H2 H3]. apply bool_decide_eq_true in H1, H2, H3.
  exists (sv_keys v), plain, plain'. do 5 (split; [assumption|]).
  destruct (C79_reply toy_prims toy_prims_ok _ _ _ _ _ _ H1 H2 H3 E E') as [Hx|[_ Hx]]; [discriminate Hx|exact Hx].
Qed.

(** Node 32 forwards the one as it does the other. *)
Definition queues_b (m : mixnet) : bool :=
  match handle_packet toy_prims m ex_p1 5, handle_packet toy_prims m (ex_flip 300 ex_p1) 5 with
  | Val (m1, _), Val (m2, _) =>
      (length (fq_queue (mx_forward m)) =? 0) && ((length (fq_queue (mx_forward m1)) =? 1) && (length (fq_queue (mx_forward m2)) =? 1))
  | _, _ => false
  end.
Lemma queues_true : after 32 ex_setup queues_b = true.
Proof. by vm_compute. Qed.
Example C79_node_example :
  exists cf hist m m1 msg m1' msg' deadline peer n n',
    reachable toy_prims cf hist m /\ altered ex_p1 (ex_flip 300 ex_p1) /\
    handle_packet toy_prims m ex_p1 5 = Val (m1, msg) /\ handle_packet toy_prims m (ex_flip 300 ex_p1) 5 = Val (m1', msg') /\
    fq_queue (mx_forward m1) = [ForwardPacket deadline (AddressedPacket peer n)] /\
    fq_queue (mx_forward m1') = [ForwardPacket deadline (AddressedPacket peer n')] /\ altered n n'.
Proof.
  destruct (after_reachable _ _ _ ex_setup_ok queues_true) as (h & m & Hr & H). unfold queues_b in H.
  destruct (handle_packet toy_prims m ex_p1 5) as [[m1 msg]|] eqn:E; [|discriminate H].
  destruct (handle_packet toy_prims m (ex_flip 300 ex_p1) 5) as [[m2 msg']|] eqn:E'; [|discriminate H].
  apply andb_true_iff in H as [H1 H]. apply andb_true_iff in H as [H2 H3]. apply Nat.eqb_eq in H1, H2, H3.
  pose proof ex_forwards as H. apply andb_true_iff in H as [_ Ha]. apply bool_decide_eq_true in Ha.
  destruct (fq_queue (mx_forward m)) as [|] eqn:Eq; [|discriminate H1].
  destruct (C79_node toy_prims toy_prims_ok m _ _ 5 _ _ _ _ Ha E E') as [[(Hf & _)|(dl & peer & n & n' & Hn & Hq & Hq' & _)] _].
  - rewrite Hf, Eq in H2. discriminate H2.
  - rewrite Eq in Hq, Hq'. exists (ex_config 32), h, m, m1, msg, m2, msg', dl, peer, n, n'. do 4 (split; [assumption|]).
    split; [exact Hq|]. split; [exact Hq'|exact Hn].
Qed.

