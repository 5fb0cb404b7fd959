(** Concrete cases for C83: a node with the default configuration posts a request in a session where it is a mixnode,
    and one in a session where it is not. *)
From Coq Require Import Reals Lra.
From Verif Require Import PWait PExample PDefaultEx.
Local Open Scope nat_scope.

(** the same node, but not one of the mixnodes *)
Definition wt_setup : list call :=
  [CallSetStatus (SessionStatus 0 PRequestsToCurrent);
   CallSetMixnodes RCurrent (Ok (map ex_node [72; 16; 24; 32; 40; 48; 56; 64]%N)) ex_r].
Lemma wt_setup_ok : Forall call_ok wt_setup.
Proof. unfold wt_setup. constructor; [done|]. constructor; [|done]. cbn. repeat constructor. Qed.
(** Calls [l], then a request of 5000 bytes with two SURBs: it is accepted, three packets are then queued, and they
    are estimated to take [t] ns, in a session where the node is a mixnode if [mixnode]. *)
Definition wt_posted (m : mixnet) (c : call) (f : mixnet -> request_metrics -> bool) : bool :=
  match exec toy_prims m c with Val (m', RespPost _ (Ok mt)) => f m' mt | _ => false end.
Definition wt_check (l : list call) (c : call) (t : N) (mixnode : bool) : bool :=
  match st_start l with
  | Some (_, m) => wt_posted m c (fun m' mt =>
      (rqm_authored_packet_queue_delay mt =? t)%N &&
      on_current m' (fun s => eqb (tp_is_mixnode (se_topology s)) mixnode && (length (aq_queue (se_authored s)) =? 3)))
  | None => false
  end.
Definition wt_case (c : call) (t : N) (mixnode : bool) : Prop :=
  exists hist m m' dest mt s',
    reachable toy_prims (stock (Some (ex_secret 8))) hist m /\ call_ok c /\
    exec toy_prims m c = Val (m', RespPost dest (Ok mt)) /\
    rqm_authored_packet_queue_delay mt = t /\
    ss_current (mx_sessions m') = SlFull s' /\ tp_is_mixnode (se_topology s') = mixnode /\
    length (aq_queue (se_authored s')) = 3.
Lemma wt_check_spec l c t mixnode : Forall call_ok l -> call_ok c -> wt_check l c t mixnode = true -> wt_case c t mixnode.
Proof.
  unfold wt_check, wt_posted, on_current. intros Hl Hc H. destruct (st_start l) as [[h m]|] eqn:E; [|discriminate H].
  destruct (exec toy_prims m c) as [[m' a]|] eqn:Ex; [|discriminate H].
  destruct a as [| | | | |d [mt|]| |]; try discriminate H. apply andb_true_iff in H as [H1 H].
  destruct (ss_current (mx_sessions m')) as [| | |s'] eqn:Es; try discriminate H.
  apply andb_true_iff in H as [H2 H3]. apply N.eqb_eq in H1. apply eqb_prop in H2. apply Nat.eqb_eq in H3.
  exists h, m, m', d, mt, s'. split; [eapply st_reachable; [exact Hl|exact E]|]. by split_and!.
Qed.
Lemma wt_check_true :
  wt_check st_setup (st_post 5000 2 None) 22975664392 true && wt_check wt_setup (st_post 5000 2 None) 52529634733 false = true.
Proof. by vm_compute. Qed.
Example C83_example :
  wt_case (st_post 5000 2 None) 22975664392 true /\ wt_case (st_post 5000 2 None) 52529634733 false.
Proof.
  destruct (andb_prop _ _ wt_check_true) as [H1 H2].
  assert (Hc : call_ok (st_post 5000 2 None)) by (apply st_call_ok; by vm_compute).
  split; [exact (wt_check_spec _ _ _ _ st_setup_ok Hc H1)|exact (wt_check_spec _ _ _ _ wt_setup_ok Hc H2)].
Qed.
(** What the theorem says about them: about 22.98 s and 52.53 s. *)
Local Open Scope R_scope.
Lemma wt_values : 22.974 <= stock_wait true 3 <= 22.977 /\ 52.528 <= stock_wait false 3 <= 52.531.
Proof.
  unfold stock_wait. replace (INR 3) with 3 by (cbn; lra).
  assert (H1 : 7.28010 <= R_sqrt.sqrt (3 + 50) <= 7.28012).
  { split; [rewrite <- (sqrt_square 7.28010) by lra|rewrite <- (sqrt_square 7.28012) by lra]; apply sqrt_le_1; lra. }
  assert (H2 : 1.74642 <= R_sqrt.sqrt (3 + 1 / 20) <= 1.74643).
  { split; [rewrite <- (sqrt_square 1.74642) by lra|rewrite <- (sqrt_square 1.74643) by lra]; apply sqrt_le_1; lra. }
  lra.
Qed.
Print Assumptions C83_example.
