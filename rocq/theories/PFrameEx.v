(** Concrete case for C77: node 8 has two sessions and posts a request with a SURB to the previous one;
    that changes this session and the keystore, and nothing else. *)
From Verif Require Import PFrame PExample PRateEx.
Local Open Scope nat_scope.

Definition queue_len (sl : session_slot) : nat :=
  match sl with SlFull s => length (aq_queue (se_authored s)) | _ => 0 end.
Definition frame_check (m : mixnet) : bool :=
  both m (fun _ _ => true) && (bool_decide (st_current_index (mx_status m) = 1%N) &&
  returns m (ex_post 8 (Some 2%N)) (fun m' _ =>
    negb (queue_len (ss_prev (mx_sessions m')) =? queue_len (ss_prev (mx_sessions m))) &&
    negb (length (sk_surbs (mx_keystore m')) =? length (sk_surbs (mx_keystore m))))).
Lemma post_about m dest id data n ns r p :
  st_current_index (mx_status m) = 1%N -> p <> PtSlot RPrev -> p <> PtKeystore ->
  ~ about toy_prims m (CallPostRequest 0 dest id data n ns r) p.
Proof.
  intros Hi Hp1 Hp2 Ha. destruct p as [| |[]| | | | |]; cbn in Ha; try done.
  destruct Ha as (s & Ht & _). destruct (mx_status m) as [i ph]. cbn in Hi. subst i. by inversion Ht.
Qed.
Example C77_example :
  exists hist m s0 s1 m' a,
    reachable toy_prims (ex_config 8) hist m /\
    ss_get (mx_sessions m) RCurrent = SlFull s0 /\ ss_get (mx_sessions m) RPrev = SlFull s1 /\
    call_ok (ex_post 8 (Some 2%N)) /\ exec toy_prims m (ex_post 8 (Some 2%N)) = Val (m', a) /\
    carried m (ex_post 8 (Some 2%N)) RPrev RPrev /\ run toy_prims m [(ex_post 8 (Some 2%N), a)] m' /\
    ~ same_part (PtSlot RPrev) m m' /\ ~ same_part PtKeystore m m' /\
    forall p, p <> PtSlot RPrev -> p <> PtKeystore -> ~ about toy_prims m (ex_post 8 (Some 2%N)) p /\ same_part p m m'.
Proof.
  destruct (after_reachable 8 ex_two frame_check) as (hist & m & Hr & H).
  { apply ex_two_ok. }
  { by vm_compute. }
  unfold frame_check, both in H. apply andb_true_iff in H as [Hb H]. apply andb_true_iff in H as [Hi H].
  destruct (ss_current (mx_sessions m)) as [| | |s0] eqn:E0; try discriminate Hb.
  destruct (ss_prev (mx_sessions m)) as [| | |s1] eqn:E1; try discriminate Hb. apply bool_decide_eq_true in Hi.
  destruct (returns_spec _ _ _ H) as (m' & a & E & H'). apply andb_true_iff in H' as [H1 H2].
  apply negb_true_iff, Nat.eqb_neq in H1, H2.
  assert (Hc : call_ok (ex_post 8 (Some 2%N))) by (exact (ex_post_ok 8 2 ltac:(done))).
  assert (Hn : forall p, p <> PtSlot RPrev -> p <> PtKeystore -> ~ about toy_prims m (ex_post 8 (Some 2%N)) p).
  { intros p Hp1 Hp2. apply post_about; [exact Hi|exact Hp1|exact Hp2]. }
  exists hist, m, s0, s1, m', a. split; [exact Hr|]. split; [exact E0|]. split; [exact E1|]. split; [exact Hc|].
  split; [exact E|]. split; [exact eq_refl|]. split; [eapply RunCons; [exact Hc|exact E|constructor]|].
  split; [cbn [same_part]; intros Heq; apply H1; rewrite Heq, E1; reflexivity|]. split; [cbn [same_part]; intros Heq; apply H2; rewrite Heq; reflexivity|].
  intros p Hp1 Hp2. split; [exact (Hn p Hp1 Hp2)|].
  destruct (C77_frame toy_prims toy_prims_ok _ _ _ _ _ _ p Hr Hc E) as [Hs|Ha]; [exact Hs|]. destruct (Hn p Hp1 Hp2 Ha).
Qed.

Print Assumptions C77_frame.
Print Assumptions C77_one_session.
Print Assumptions C77_session.
Print Assumptions C77_untouched.
