(** A concrete case of C61_forwarding_delay: the request of PEndEx. *)
From Coq Require Import Reals.
From Verif Require Import PTiming PExample PEndEx PRateEx LBase.
Local Open Scope N_scope.

Definition ex_timed (w : world) : bool :=
  session_b w (ex_peer 8) (fun s => bool_decide (tp_local_kx_public (se_topology s) = derive_kx_public toy_prims (ex_secret 8))) &&
  ((cf_mean_forwarding_delay (mx_config (w_node w (ex_peer 8))) =? NANOS_PER_SEC) &&
  match next w (ADo (ex_peer 8) ex_ask) with
  | Some (Moment _ (EvCall _ _ (RespPost (Some d) (Ok mt))) w1) => (d =? 2) && (rqm_forwarding_delay mt =? 40 * NANOS_PER_SEC)
  | _ => false
  end).
Lemma ex_timed_true : with_world ex_timed = true.
Proof. by vm_compute. Qed.

(** The packets of the request pass two mixnodes before the destination, and so do those of a reply; each
    keeps them for 10 seconds. *)
Example C61_example :
  exists w mt w1 s,
    world_ok toy_prims w /\ exp1_ok (pr_exp1 toy_prims) /\
    happens toy_prims w (EvCall (ex_peer 8) ex_ask (RespPost (Some 2) (Ok mt))) w1 /\
    usable (w_node w (ex_peer 8)) 0 RCurrent s /\ honest toy_prims (se_topology s) ex_key /\
    cf_mean_forwarding_delay (mx_config (w_node w (ex_peer 8))) <= 2 ^ 50 * NANOS_PER_SEC /\
    rqm_forwarding_delay mt = 40 * NANOS_PER_SEC.
Proof.
  destruct (with_world_spec _ ex_timed_true) as (w & Hw & _ & H). unfold ex_timed in H.
  apply andb_true_iff in H as [Hs H]. apply andb_true_iff in H as [Hu H].
  destruct (session_b_spec _ _ _ Hs) as (s & Hus & Hnodes & _ & Hloc). clear Hs. apply bool_decide_eq_true in Hloc.
  destruct (next w (ADo (ex_peer 8) ex_ask)) as [[w0 e w1]|] eqn:E1; [|discriminate H].
  destruct (next_happens _ _ _ ex_ask_ok E1) as [Hhap Hw0]. cbn [mt_event mt_after mt_before] in Hhap, Hw0. subst w0.
  assert (Hev : exists a, e = EvCall (ex_peer 8) ex_ask a).
  { cbn [next] in E1. destruct (exec _ _ _) as [[m a]|]; [|discriminate E1]. injection E1 as <- _. by exists a. }
  destruct Hev as [a ->]. clear E1.
  destruct a as [| | | | |[d|] [mt|]| |]; try discriminate H. apply andb_true_iff in H as [Hd H].
  apply N.eqb_eq in Hd, H, Hu. subst d. exists w, mt, w1, s. split; [exact Hw|]. split; [exact toy_exp1_ok|].
  split; [exact Hhap|]. split; [exact Hus|]. split.
  - split; [|intros p; exact Hloc]. rewrite Hnodes. intros i mn Hi. cbn [ex_key].
    revert Hi. destruct (N.to_nat i) as [|[|[|[|n]]]]; unfold ex_nodes; cbn [map lookup list_lookup]; intros [= <-]; reflexivity.
  - split; [rewrite Hu; vm_compute; discriminate|exact H].
Qed.

Print Assumptions C61_forwarding_delay.
