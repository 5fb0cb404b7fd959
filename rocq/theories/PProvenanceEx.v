(** Concrete cases for C56 and C57: a message made of a fragment that came as a reply and one that came
    as a request. *)
From Verif Require Import PProvenance Toy PExample.

(** Node 24 sends the first fragment of a reply with the SURB of node 8 (and fails to send the second,
    having no other SURB). *)
Definition mx_id : bytes := replicate 16 7%N.
Definition mx_reply : list call := ex_receive ++ [ex_bad_reply; CallPopAuthored (ex_ns 24) ex_big].
Definition mx_q1 : bytes := Eval vm_compute in ex_packet (answer 24 mx_reply).
Definition mx_q2 : bytes := Eval vm_compute in ex_packet (answer 32 (ex_hop mx_q1)).
Definition mx_q3 : bytes := Eval vm_compute in ex_packet (answer 16 (ex_hop mx_q2)).
(** The second fragment, in a request packet straight to node 8. *)
Definition mx_fragment : bytes := Eval vm_compute in
  match fragment_blueprints mx_id ex_long 0 with
  | Val (Some [_; b]) =>
      match fb_write_except_surbs b (replicate FRAGMENT_SIZE 0%N) with Val f => f | Panic => [] end
  | _ => []
  end.
Definition mx_request : bytes := Eval vm_compute in
  match complete_request_packet toy_prims (set_payload_data default_packet mx_fragment) []
          [derive_kx_public toy_prims (ex_secret 8)] ex_small with
  | Val (p, _, _) => p
  | Panic => []
  end.

(** The fragment that the node takes out of a packet that came as a reply. *)
Definition reply_fragment (m : mixnet) (p : bytes) : option bytes :=
  match ss_current (mx_sessions m) with
  | SlFull s =>
      match content_of toy_prims s p with
      | CtReply id pl =>
          match sk_entry (mx_keystore m) id with
          | Some v => Some (take (N.to_nat 2048) (decrypt_reply_payload toy_prims pl (sv_keys v)).1)
          | None => None
          end
      | _ => None
      end
  | _ => None
  end.
(** Every fragment that comes as a reply in these calls is the first of its message. *)
Definition first_only (m : mixnet) (c : call) : bool :=
  match c with
  | CallHandle p _ =>
      match ss_prev (mx_sessions m) with SlDisabled => true | _ => false end &&
      match reply_fragment m p with Some f => (sp_index f =? 0)%N | None => true end
  | _ => true
  end.
Fixpoint checked (ok : mixnet -> call -> bool) (m : mixnet) (l : list call) : bool :=
  match l with
  | [] => true
  | c :: l => ok m c && match exec toy_prims m c with Val (m1, _) => checked ok m1 l | Panic => false end
  end.
Lemma checked_at ok m0 h1 m1 c a h2 :
  checked ok m0 (map fst (h1 ++ (c, a) :: h2)) = true -> run toy_prims m0 h1 m1 -> ok m1 c = true.
Proof.
  intros H Hr. induction Hr as [m|m c0 a0 m2 h m3 _ He _ IH]; cbn in H.
  - by apply andb_true_iff in H as [H _].
  - apply andb_true_iff in H as [_ H]. rewrite He in H. by apply IH.
Qed.
Lemma first_only_spec m0 hist f :
  checked first_only m0 (map fst hist) = true -> received_as_reply toy_prims m0 hist f -> sp_index f = 0%N.
Proof.
  intros H (h1 & p & now & a & h2 & m1 & -> & Hr & rel & s & id & pl & v & plain & Hread & Hc & Hk & Hd & ->).
  pose proof (checked_at _ _ _ _ _ _ _ H Hr) as Hf. cbn in Hf. apply andb_true_iff in Hf as [Hp Hf].
  apply reads_get in Hread. unfold reply_fragment in Hf.
  destruct rel; cbn in Hread; [|by rewrite Hread in Hp].
  rewrite Hread, Hc, Hk, Hd in Hf. by apply N.eqb_eq in Hf.
Qed.

Definition mixed_calls : list call := ex_send 8 ++ [CallHandle mx_request 9%N].
Definition mixed_last : call := CallHandle mx_q3 10%N.
Definition mixed_check : bool :=
  match mx_new toy_prims (ex_config 8) with
  | Val m0 =>
      match play m0 mixed_calls with
      | Some (h, m) =>
          returns m mixed_last (fun _ a =>
            match a with
            | RespMessage (Some (MReply q)) =>
                bool_decide (rp_request_id q = ex_id) && bool_decide (length (rp_data q) = N.to_nat 3000)
            | _ => false
            end) && checked first_only m0 (mixed_calls ++ [mixed_last])
      | None => false
      end
  | Panic => false
  end.
Lemma mixed_ok : mixed_check = true.
Proof. by vm_compute. Qed.
Lemma mx_lengths : length mx_q3 = N.to_nat 2252 /\ length mx_request = N.to_nat 2252.
Proof. split; vm_compute; reflexivity. Qed.
Lemma mixed_calls_ok : Forall call_ok mixed_calls.
Proof. apply Forall_app. split; [apply ex_send_ok|]. constructor; [exact (proj2 mx_lengths)|constructor]. Qed.
Lemma play_calls l m h m' : play m l = Some (h, m') -> map fst h = l.
Proof.
  revert m h. induction l as [|c l IH]; intros m h; cbn [play]; [by intros [= <- _]|].
  destruct (exec toy_prims m c) as [[m1 a]|]; [|done]. destruct (play m1 l) as [[h' m2]|] eqn:E; [|done].
  intros [= <- <-]. cbn. f_equal. by eapply IH.
Qed.

Lemma mixed_found : exists m0 h m m' q,
  mx_new toy_prims (ex_config 8) = Val m0 /\ run toy_prims m0 h m /\
  exec toy_prims m mixed_last = Val (m', RespMessage (Some (MReply q))) /\
  rp_request_id q = ex_id /\ length (rp_data q) = N.to_nat 3000 /\
  checked first_only m0 (map fst (h ++ [(mixed_last, RespMessage (Some (MReply q)))])) = true.
Proof.
  pose proof mixed_ok as H. unfold mixed_check in H.
  destruct (mx_new toy_prims (ex_config 8)) as [m0|]; [|discriminate H].
  destruct (play m0 mixed_calls) as [[h m]|] eqn:Ep; [|discriminate H].
  apply andb_true_iff in H as [H Hc]. apply returns_spec in H as (m' & a & He & H).
  destruct a as [| | |[[q|q]|]| | | |]; try discriminate H.
  apply andb_true_iff in H as [H1 H2]. apply bool_decide_eq_true in H1. apply bool_decide_eq_true in H2.
  exists m0, h, m, m', q. split; [reflexivity|]. split; [exact (play_run _ _ _ _ mixed_calls_ok Ep)|].
  split; [exact He|]. split; [exact H1|]. split; [exact H2|].
  rewrite map_app, (play_calls _ _ _ _ Ep). exact Hc.
Qed.

(** The hypotheses of C57 hold of this history, in which the message is made of two fragments. *)
Example C57_example : exists m0 h m m' q,
  config_ok (ex_config 8) /\ mx_new toy_prims (ex_config 8) = Val m0 /\ run toy_prims m0 h m /\
  length mx_q3 = N.to_nat 2252 /\ exec toy_prims m (CallHandle mx_q3 10%N) = Val (m', RespMessage (Some (MReply q))) /\
  rp_request_id q = ex_id /\ length (rp_data q) = N.to_nat 3000.
Proof.
  destruct mixed_found as (m0 & h & m & m' & q & H1 & H2 & H3 & H4 & H5 & _).
  exists m0, h, m, m', q. split; [apply ex_config_ok|]. split; [exact H1|]. split; [exact H2|].
  split; [exact (proj1 mx_lengths)|]. split; [exact H3|]. split; [exact H4|exact H5].
Qed.

(** It is not the case that a message reported as a reply is made of fragments that came as replies:
    anybody who knows the ID of the reply can supply the rest of it in request packets. *)
Theorem C57_replies_only_refuted : exists m0 hist m p now m' q,
  config_ok (ex_config 8) /\ mx_new toy_prims (ex_config 8) = Val m0 /\ run toy_prims m0 hist m /\
  length p = N.to_nat 2252 /\
  exec toy_prims m (CallHandle p now) = Val (m', RespMessage (Some (MReply q))) /\
  ~ exists fs,
      Forall (received_as_reply toy_prims m0 (hist ++ [(CallHandle p now, RespMessage (Some (MReply q)))])) fs /\
      (forall j g, fs !! j = Some g -> sp_count g = N.of_nat (length fs) /\ sp_index g = N.of_nat j) /\
      rp_data q = concat (map sp_data fs).
Proof.
  destruct mixed_found as (m0 & h & m & m' & q & H1 & H2 & H3 & H4 & H5 & H6).
  exists m0, h, m, mx_q3, 10%N, m', q. split; [apply ex_config_ok|]. split; [exact H1|]. split; [exact H2|].
  split; [exact (proj1 mx_lengths)|]. split; [exact H3|].
  intros (fs & Hfs & Hix & Hdata). rewrite Hdata in H5.
  assert (Hall : Forall (fun f => sp_index f = 0%N /\ length f <= N.to_nat 2048) fs).
  { eapply Forall_impl; [exact Hfs|]. intros f Hf. split; [exact (first_only_spec _ _ _ H6 Hf)|].
    destruct Hf as (? & ? & ? & ? & ? & ? & _ & _ & ? & ? & ? & ? & ? & ? & _ & _ & _ & _ & ->).
    rewrite take_length. apply Nat.le_min_l. }
  clear -Hall Hix H5. destruct fs as [|f fs]; [cbn in H5; lia|].
  destruct fs as [|g fs].
  - apply Forall_cons in Hall as [[_ Hl] _]. cbn in H5. rewrite app_nil_r in H5. unfold sp_data, slice in H5.
    rewrite take_length, drop_length in H5. lia.
  - destruct (Hix 1 g eq_refl) as [_ Hg]. apply Forall_cons in Hall as [_ Hall].
    apply Forall_cons in Hall as [[Hg0 _] _]. rewrite Hg0 in Hg. discriminate Hg.
Qed.

(** C56: node 8 after posting a request: one packet queued, the SURB of the reply in the keystore, and
    a fragment of another message held. *)
Example C56_example : exists hist m s,
  reachable toy_prims (ex_config 8) hist m /\ ss_current (mx_sessions m) = SlFull s /\
  length (aq_queue (se_authored s)) = 1 /\ length (sk_surbs (mx_keystore m)) = 1 /\
  length (fa_incomplete (mx_assembler m)) = 1.
Proof.
  set (l := ex_setup ++ [ex_post 8 (Some 2%N); CallHandle mx_request 9%N]).
  set (f := fun m => on_current m (fun s => bool_decide (length (aq_queue (se_authored s)) = 1)) &&
              bool_decide (length (sk_surbs (mx_keystore m)) = 1) &&
              bool_decide (length (fa_incomplete (mx_assembler m)) = 1)).
  assert (Hl : Forall call_ok l).
  { apply Forall_app. split; [apply ex_setup_ok|]. constructor; [by apply ex_post_ok|].
    constructor; [exact (proj2 mx_lengths)|constructor]. }
  assert (H : after 8 l f = true) by (vm_compute; reflexivity).
  destruct (after_reachable 8 l f Hl H) as (h & m & Hr & Hf). unfold f in Hf.
  apply andb_true_iff in Hf as [Hf H3]. apply andb_true_iff in Hf as [H1 H2].
  unfold on_current in H1. destruct (ss_current (mx_sessions m)) as [| | |s] eqn:Es; try discriminate H1.
  apply bool_decide_eq_true in H1. apply bool_decide_eq_true in H2. apply bool_decide_eq_true in H3.
  exists h, m, s. split; [exact Hr|]. split; [exact Es|]. split; [exact H1|]. split; [exact H2|exact H3].
Qed.
