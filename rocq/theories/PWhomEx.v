(** Concrete cases of C81. *)
From Verif Require Import PWhom PExample.

Definition whom_calls (k : N) : list call := ex_setup ++ [ex_post k (Some 2%N)].
Definition no_reply (h : list (call * resp)) : bool := forallb (fun ca => match ca.1 with CallPostReply _ _ _ _ => false | _ => true end) h.
Definition whom_check (k : N) (calls : list call) (c : call) (mix : bool) (peer : bytes) : bool :=
  match start k calls with
  | Some (h, m) => no_reply h && returns m c (fun _ a =>
      match a, ss_get (mx_sessions m) RCurrent with
      | RespPacket (Some p), SlFull s =>
          bool_decide (ap_peer_id p = peer) &&
          match tp_local_node (se_topology s) with LMixnode _ => mix | LNonMixnode gs => negb mix && (length gs =? 3)%nat end
      | _, _ => false
      end)
  | None => false
  end.
Lemma whom_spec k calls c mix peer :
  Forall call_ok calls -> call_ok c -> whom_check k calls c mix peer = true ->
  exists h m m' p, reachable toy_prims (ex_config k) h m /\ call_ok c /\
    exec toy_prims m c = Val (m', RespPacket (Some p)) /\
    (forall surbs index id data a, (CallPostReply surbs index id data, a) ∉ h) /\ ap_peer_id p = peer /\
    exists s, ss_get (mx_sessions m) RCurrent = SlFull s /\
      match tp_local_node (se_topology s) with LMixnode _ => mix = true | LNonMixnode gs => mix = false /\ length gs = 3 end.
Proof.
  intros Hc Hok H. unfold whom_check in H. destruct (start k calls) as [[h m]|] eqn:E; [|done].
  apply andb_true_iff in H as [Hn H]. destruct (returns_spec _ _ _ H) as (m' & a & Ex & Ha).
  destruct a as [| | | |[p|]| | |]; try done. destruct (ss_get (mx_sessions m) RCurrent) as [| | |s] eqn:Es; try done.
  apply andb_true_iff in Ha as [Hp Hk]. apply bool_decide_eq_true in Hp.
  exists h, m, m', p. split; [by eapply start_reachable|]. split; [exact Hok|]. split; [exact Ex|]. split.
  { intros surbs index id data a Hin. unfold no_reply in Hn. rewrite forallb_forall in Hn.
    apply elem_of_list_In in Hin. by specialize (Hn _ Hin). }
  split; [exact Hp|]. exists s. split; [exact Es|]. destruct (tp_local_node _); [exact Hk|].
  apply andb_true_iff in Hk as [Hk Hl]. apply Nat.eqb_eq in Hl. destruct mix; [discriminate Hk|]. exact (conj eq_refl Hl).
Qed.
Lemma whom_ok k : Forall call_ok (whom_calls k).
Proof. apply Forall_app. split; [apply ex_setup_ok|]. constructor; [apply ex_post_ok; lia|constructor]. Qed.

(** Node 8, a mixnode, and node 40, which is none and has three gateways, each send their first packet to node 32. *)
Example C81_example : forall k mix, (k, mix) ∈ [(8%N, true); (40%N, false)] ->
  exists h m m' p, reachable toy_prims (ex_config k) h m /\ call_ok (CallPopAuthored (ex_ns k) ex_big) /\
    exec toy_prims m (CallPopAuthored (ex_ns k) ex_big) = Val (m', RespPacket (Some p)) /\
    (forall surbs index id data a, (CallPostReply surbs index id data, a) ∉ h) /\ ap_peer_id p = ex_peer 32 /\
    exists s, ss_get (mx_sessions m) RCurrent = SlFull s /\
      match tp_local_node (se_topology s) with LMixnode _ => mix = true | LNonMixnode gs => mix = false /\ length gs = 3 end.
Proof.
  intros k mix H. assert (Hk : whom_check k (whom_calls k) (CallPopAuthored (ex_ns k) ex_big) mix (ex_peer 32) = true).
  { apply elem_of_cons in H as [E|H]; [injection E as -> ->; by vm_compute|].
    apply elem_of_cons in H as [E|H]; [injection E as -> ->; by vm_compute|by apply elem_of_nil in H]. }
  exact (whom_spec k (whom_calls k) (CallPopAuthored (ex_ns k) ex_big) mix (ex_peer 32) (whom_ok k) (replicate_length 32 _) Hk).
Qed.

Definition passed_calls : list call := ex_setup ++ [CallHandle ex_p1 5%N; CallHandle ex_p1 6%N; CallHandle ex_c1 7%N; CallPopForward 0].
Definition passed_check (k : N) (calls : list call) : bool :=
  match start k calls with
  | Some (h, m) => (length (passed h) =? 1)%nat && (length (fq_queue (mx_forward m)) =? 1)%nat
  | None => false
  end.
Lemma passed_check_spec k calls :
  passed_check k calls = true -> Forall call_ok calls ->
  exists m0 h m, config_ok (ex_config k) /\ mx_new toy_prims (ex_config k) = Val m0 /\ run toy_prims m0 h m /\
    length (passed h) = 1 /\ length (fq_queue (mx_forward m)) = 1.
Proof.
  unfold passed_check. intros H Hc. destruct (start k calls) as [[h m]|] eqn:E; [|done].
  apply andb_true_iff in H as [H1 H2]. apply Nat.eqb_eq in H1, H2.
  destruct (start_reachable _ _ _ _ Hc E) as (Hcf & m0 & Hn & Hr). by exists m0, h, m.
Qed.
(** Node 32 handles one packet twice and another once, and passes on two in all: one is gone, one is waiting. *)
Example C81_passed_example :
  exists m0 h m, config_ok (ex_config 32) /\ mx_new toy_prims (ex_config 32) = Val m0 /\ run toy_prims m0 h m /\
    length (passed h) = 1 /\ length (fq_queue (mx_forward m)) = 1.
Proof.
  apply (passed_check_spec 32 passed_calls); [by vm_compute|]. apply Forall_app. split; [apply ex_setup_ok|].
  constructor; [apply ex_p1_length|]. constructor; [apply ex_p1_length|].
  constructor; [by vm_compute|]. constructor; [done|constructor].
Qed.
