(** A node whose request manager waits for room in the authored packet queue. *)
From stdpp Require Import relations.
From Verif Require Import PWake Toy PExample.

Inductive op := ONode (c : call) | OStatus (st : session_status) | OManager (c : rm_call user_request).

Definition wake_world (m : mixnet) : world :=
  World m (ex_ns 40) (fun i => Rng (fun j => (N.of_nat (i + j) * 7 + 3) mod 256)%N 0) 0 (fun i => N.of_nat i) 0.
Definition play_op (s : system) (o : op) : option system :=
  match o with
  | ONode (CallSetStatus _) => None
  | ONode c =>
      match exec toy_prims (sy_node s) c with
      | Val (m, a) => Some (System m (sy_rm s) (sy_owed s || told a))
      | Panic => None
      end
  | OStatus st =>
      match rm_exec (w_post_request toy_prims) w_now w_fresh_id rqt_handling_delay (sy_rm s)
              (wake_world (set_session_status (sy_node s) st), []) (RmUpdate st) with
      | Val (rm, (w, _), _) => Some (System (w_mixnet w) rm (sy_owed s))
      | Panic => None
      end
  | OManager (RmUpdate _) => None
  | OManager c =>
      match rm_exec (w_post_request toy_prims) w_now w_fresh_id rqt_handling_delay (sy_rm s)
              (wake_world (sy_node s), []) c with
      | Val (rm, (w, _), _) =>
          Some (System (w_mixnet w) rm (match c with RmProcess => false | _ => sy_owed s end))
      | Panic => None
      end
  end.
Fixpoint play_ops (s : system) (l : list op) : option system :=
  match l with
  | [] => Some s
  | o :: l => match play_op s o with Some s => play_ops s l | None => None end
  end.
Lemma play_op_step s o s' : play_op s o = Some s' -> sys_step toy_prims s s'.
Proof.
  destruct s as [m rm ow]. destruct o as [c|st|c]; cbn [play_op sy_node sy_rm sy_owed].
  - destruct (match c with CallSetStatus _ => true | _ => false end) eqn:E; [by destruct c|].
    intros H.
    assert (match exec toy_prims m c with
            | Val (m, a) => Some (System m rm (ow || told a)) | Panic => None end = Some s') as H'
      by by destruct c. clear H.
    destruct (exec toy_prims m c) as [[m' a]|] eqn:Ee; [|done]. injection H' as <-.
    eapply SyNode; [|exact Ee]. intros st ->. done.
  - destruct (rm_exec _ _ _ _ _ _ _) as [[[rm' [w' d']] a]|] eqn:Ee; [|done]. intros [= <-].
    eapply SyStatus; [|exact Ee]. done.
  - destruct (match c with RmUpdate _ => true | _ => false end) eqn:E; [by destruct c|].
    intros H.
    assert (match rm_exec (w_post_request toy_prims) w_now w_fresh_id rqt_handling_delay rm (wake_world m, []) c with
            | Val (rm, (w, _), _) =>
               Some (System (w_mixnet w) rm (match c with RmProcess => false | _ => ow end))
            | Panic => None end = Some s') as H' by by destruct c. clear H.
    destruct (rm_exec _ _ _ _ _ _ _) as [[[rm' [w' d']] a]|] eqn:Ee; [|done]. injection H' as <-.
    eapply (SyManager _ rm ow (wake_world m)); [|exact Ee]. intros st ->. done.
Qed.
Lemma play_ops_rtc s l s' : play_ops s l = Some s' -> rtc (sys_step toy_prims) s s'.
Proof.
  revert s. induction l as [|o l IH]; intros s; cbn [play_ops]; [intros [= <-]; constructor|].
  destruct (play_op s o) as [s1|] eqn:E; [|done]. intros H. apply play_op_step in E.
  econstructor; [exact E|]. by apply IH.
Qed.

(** The node is not a mixnode, so that its queue takes one message at a time. *)
Definition wake_cf : rm_config := RmConfig 5 2 2 1.
Definition wake_start : option system :=
  match mx_new toy_prims (ex_config 40) with
  | Val m => Some (System m (rqm_new w_now wake_cf (wake_world m)).1 false)
  | Panic => None
  end.
Definition wake_request (t : N) : user_request := UserRequest t ex_data 1 (fun _ => 1%N).
Definition wake_ops : list op :=
  [OStatus (SessionStatus 0 PRequestsToCurrent);
   ONode (CallSetMixnodes RCurrent (Ok ex_nodes) ex_r);
   OManager (RmInsert (wake_request 1)); OManager (RmInsert (wake_request 2))].
Definition wake_pop : list op := [ONode (CallPopAuthored (ex_ns 40) ex_big)].
Definition wake_state (l : list op) : option system :=
  match wake_start with Some s => play_ops s l | None => None end.

(** What is seen of a state: requests waiting in the default queue and for the retry deadline, packets
    left in the queue of the session, event pending, call of the manager due. *)
Definition wake_view (s : system) : list N * list N * option nat * bool * bool :=
  (map (fun st => rqt_tag (rst_request st)) (pq_default (rqm_post_queues (sy_rm s))),
   map (fun st => rqt_tag (rst_request st)) (rqm_retry_queue (sy_rm s)),
   match ss_current (mx_sessions (sy_node s)) with
   | SlFull s => Some (length (aq_queue (se_authored s)))
   | _ => None
   end,
   ev_space (mx_events (sy_node s)), sy_owed s).
Definition wake_sees (l : list op) v : bool :=
  match wake_state l with Some s => bool_decide (wake_view s = v) | None => false end.
Lemma wake_sees_spec l v :
  wake_sees l v = true ->
  exists s, sys_reach toy_prims (ex_config 40) wake_cf s /\ wake_view s = v.
Proof.
  unfold wake_sees, wake_state, wake_start.
  destruct (mx_new toy_prims (ex_config 40)) as [m|] eqn:Em; [|discriminate].
  set (s0 := System m _ false).
  destruct (play_ops s0 l) as [s|] eqn:E; [|discriminate].
  intros H. apply bool_decide_eq_true in H. exists s. split; [|exact H].
  exists s0. split.
  - split; [exact Em|]. split; [|reflexivity]. exists (wake_world m). reflexivity.
  - apply (play_ops_rtc _ l). exact E.
Qed.

(** Request 2 waits: the session is busy with request 1; once that is dispatched there is an event
    pending; once that is taken a call of the manager is due; and that call posts request 2. *)
Example C55_example :
  let seen v := exists s, sys_reach toy_prims (ex_config 40) wake_cf s /\ wake_view s = v in
  seen ([2%N], [1%N], Some 1, false, false) /\
  seen ([2%N], [1%N], Some 0, true, false) /\
  seen ([2%N], [1%N], Some 0, false, true) /\
  seen ([], [2%N; 1%N], Some 1, false, false).
Proof.
  split; [|split; [|split]].
  - apply (wake_sees_spec wake_ops). by vm_compute.
  - apply (wake_sees_spec (wake_ops ++ wake_pop)). by vm_compute.
  - apply (wake_sees_spec (wake_ops ++ wake_pop ++ [ONode CallTakeEvents])). by vm_compute.
  - apply (wake_sees_spec (wake_ops ++ wake_pop ++ [ONode CallTakeEvents; OManager RmProcess])). by vm_compute.
Qed.
