(** Concrete cases for C85. *)
From Verif Require Import PFresh PExample.

(** Node 8 posts a request with two SURBs, sends a drop cover packet, gets a session for which it had no
    key pair, and generates one ahead of a session. *)
Definition fresh_case (m : mixnet) : bool :=
  match mx_keystore m with
  | SurbKeystore _ [] =>
      match post_request toy_prims m 0 (Some 2%N) ex_id ex_data 2 (ex_ns 8) ex_r with
      | Val (m', _, Ok _) => (length (sk_surbs (mx_keystore m')) =? 2) &&
          match ss_get (mx_sessions m) RCurrent, ss_get (mx_sessions m') RCurrent with
          | SlFull s, SlFull s' =>
              bool_decide (aq_queue (se_authored s) = []) && (length (aq_queue (se_authored s')) =? 1) &&
              match pop_next_authored_packet toy_prims m (ex_ns 8) ex_drop with
              | Val (_, Some p) => length (ap_packet p) =? N.to_nat 2252
              | _ => false
              end
          | _, _ => false
          end
      | _ => false
      end
  | _ => false
  end.
Lemma fresh_case_spec m :
  fresh_case m = true ->
  sk_surbs (mx_keystore m) = [] /\
  (exists m' d mt s s',
    post_request toy_prims m 0 (Some 2%N) ex_id ex_data 2 (ex_ns 8) ex_r = Val (m', d, Ok mt) /\
    length (sk_surbs (mx_keystore m')) = 2 /\
    ss_get (mx_sessions m) RCurrent = SlFull s /\ ss_get (mx_sessions m') RCurrent = SlFull s' /\
    aq_queue (se_authored s) = [] /\ length (aq_queue (se_authored s')) = 1) /\
  exists m' p, pop_next_authored_packet toy_prims m (ex_ns 8) ex_drop = Val (m', Some p).
Proof.
  unfold fresh_case. intros H. destruct (mx_keystore m) as [c [|]]; [|discriminate H]. split; [done|].
  destruct (post_request _ _ _ _ _ _ _ _ _) as [[[m' d] [mt|]]|]; try discriminate H.
  apply andb_true_iff in H as [H1 H]. apply Nat.eqb_eq in H1.
  destruct (ss_get (mx_sessions m) RCurrent) as [| | |s] eqn:Es; try discriminate H.
  destruct (ss_get (mx_sessions m') RCurrent) as [| | |s'] eqn:Es'; try discriminate H.
  apply andb_true_iff in H as [H H2]. apply andb_true_iff in H as [H3 H4].
  apply bool_decide_eq_true in H3. apply Nat.eqb_eq in H4. split.
  - exists m', d, mt, s, s'. split_and!; done.
  - destruct (pop_next_authored_packet _ _ _ _) as [[m1 [p|]]|]; try discriminate H2. by exists m1, p.
Qed.
Example ex_fresh : exists hist m, reachable toy_prims (ex_config 8) hist m /\ ks_ok (mx_keystore m) /\
  sk_surbs (mx_keystore m) = [] /\
  (exists m' d mt s s',
    post_request toy_prims m 0 (Some 2%N) ex_id ex_data 2 (ex_ns 8) ex_r = Val (m', d, Ok mt) /\
    length (sk_surbs (mx_keystore m')) = 2 /\
    ss_get (mx_sessions m) RCurrent = SlFull s /\ ss_get (mx_sessions m') RCurrent = SlFull s' /\
    aq_queue (se_authored s) = [] /\ length (aq_queue (se_authored s')) = 1) /\
  exists m' p, pop_next_authored_packet toy_prims m (ex_ns 8) ex_drop = Val (m', Some p).
Proof.
  destruct (after_reachable 8 ex_setup fresh_case ex_setup_ok) as (hist & m & Hr & H); [by vm_compute|].
  exists hist, m. split; [exact Hr|].
  split; [exact (proj1 (mo_keystore _ _ _ (reachable_ok toy_prims toy_prims_ok _ _ _ Hr)))|].
  exact (fresh_case_spec m H).
Qed.

Definition session_case (m : mixnet) : bool :=
  match mx_next_kx_pair m, ss_get (mx_sessions m) RCurrent with
  | None, SlEmpty =>
      match maybe_set_mixnodes toy_prims m RCurrent (Ok ex_nodes) ex_r with
      | Val (m', _) => match ss_get (mx_sessions m') RCurrent with SlFull _ => true | _ => false end
      | Panic => false
      end
  | _, _ => false
  end.
Lemma session_case_spec m :
  session_case m = true ->
  mx_next_kx_pair m = None /\ ss_get (mx_sessions m) RCurrent = SlEmpty /\
  exists m' b s, maybe_set_mixnodes toy_prims m RCurrent (Ok ex_nodes) ex_r = Val (m', b) /\
    ss_get (mx_sessions m') RCurrent = SlFull s.
Proof.
  unfold session_case. intros H. destruct (mx_next_kx_pair m); [discriminate H|].
  destruct (ss_get (mx_sessions m) RCurrent); try discriminate H. split; [done|]. split; [done|].
  destruct (maybe_set_mixnodes _ _ _ _ _) as [[m' b]|]; [|discriminate H].
  destruct (ss_get (mx_sessions m') RCurrent) as [| | |s] eqn:Es; try discriminate H. by exists m', b, s.
Qed.
Example ex_fresh_session : exists m, mx_new toy_prims default_config = Val m /\
  mx_next_kx_pair m = None /\ ss_get (mx_sessions m) RCurrent = SlEmpty /\
  exists m' b s, maybe_set_mixnodes toy_prims m RCurrent (Ok ex_nodes) ex_r = Val (m', b) /\
    ss_get (mx_sessions m') RCurrent = SlFull s.
Proof.
  assert (H : match mx_new toy_prims default_config with Val m => session_case m | Panic => false end = true) by by vm_compute.
  destruct (mx_new toy_prims default_config) as [m|]; [|discriminate H]. exists m. split; [done|].
  exact (session_case_spec m H).
Qed.
