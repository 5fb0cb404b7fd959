(** A concrete case for [C83_seldom_client]: the node of [C83_example] that is no mixnode; three packets, given 52.53 s. *)
From Coq Require Import Reals Lra.
From Verif Require Import PTail PExample PWaitEx PDefaultEx.
Local Open Scope R_scope.

Lemma ex_slow_pos : 0 <= 52529634733 / 1000000000.
Proof. lra. Qed.
Example ex_slow : exists hist m m' dest mt s' g,
  reachable toy_prims (stock (Some (ex_secret 8))) hist m /\ call_ok (st_post 5000 2 None) /\
  exec toy_prims m (st_post 5000 2 None) = Val (m', RespPost dest (Ok mt)) /\
  ss_current (mx_sessions m') = SlFull s' /\ tp_is_mixnode (se_topology s') = false /\
  length (aq_queue (se_authored s')) = 3%nat /\
  waiting (52529634733 / 1000000000) g /\ secs (rqm_authored_packet_queue_delay mt) <= 52529634733 / 1000000000.
Proof.
  destruct (proj2 C83_example) as (hist & m & m' & dest & mt & s' & H1 & H2 & H3 & H4 & H5 & H6 & H7).
  exists hist, m, m', dest, mt, s', (fun rates => proj1_sig (chances _ ex_slow_pos rates)).
  split; [exact H1|]. split; [exact H2|]. split; [exact H3|]. split; [exact H5|]. split; [exact H6|]. split; [exact H7|].
  split; [apply waiting_exists|]. rewrite H4. right. reflexivity.
Qed.
Print Assumptions ex_slow.
