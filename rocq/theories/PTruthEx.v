(** Concrete cases for C68, and what happens if the phase goes back. *)
From Verif Require Import PTruth Toy PExample.
Local Open Scope N_scope.

Definition post_at (i : session_index) : call := CallPostRequest i None ex_id ex_data 1 (ex_ns 8) ex_r.
Lemma post_at_ok i : call_ok (post_at i).
Proof. split_and!; [|done|done]. split_and!; [done|done|by vm_compute|by vm_compute]. Qed.

Lemma play_calls l : forall m h m', play m l = Some (h, m') -> map fst h = l.
Proof.
  induction l as [|c l IH]; intros m h m' H; cbn [play] in H; [by injection H as <- <-|].
  destruct (exec toy_prims m c) as [[m1 a]|]; [|done]. destruct (play m1 l) as [[h' m2]|] eqn:E; [|done].
  injection H as <- <-. cbn. f_equal. by eapply IH.
Qed.
Fixpoint forward_calls (st : session_status) (l : list call) : bool :=
  match l with
  | [] => true
  | CallSetStatus st' :: l =>
      ((st_current_index st <? st_current_index st') ||
       ((st_current_index st =? st_current_index st') && (phase_number (st_phase st) <=? phase_number (st_phase st'))%nat)) &&
      forward_calls st' l
  | _ :: l => forward_calls st l
  end.
Lemma forward_calls_spec h : forall st, forward_calls st (map fst h) = true -> forwards st h.
Proof.
  induction h as [|[c a] h IH]; intros st H; [done|]. destruct c as [st'| | | | | | | |]; cbn in H |- *; try by apply IH.
  apply andb_true_iff in H as [H1 H2]. split; [|by apply IH]. apply orb_true_iff in H1 as [H1|H1].
  - left. by apply N.ltb_lt.
  - right. apply andb_true_iff in H1 as [H1 H3]. split; [by apply N.eqb_eq|by apply Nat.leb_le].
Qed.

(** The answer to a post of [post_at i]. *)
Definition answer_at (m : mixnet) (i : session_index) : option (option post_err) :=
  match exec toy_prims m (post_at i) with
  | Val (_, RespPost _ (Ok _)) => Some None
  | Val (_, RespPost _ (Err e)) => Some (Some e)
  | _ => None
  end.
Lemma answer_at_spec m i e :
  answer_at m i = Some e -> exists m' a, exec toy_prims m (post_at i) = Val (m', a) /\ posts i (post_at i) a e.
Proof.
  unfold answer_at. destruct (exec toy_prims m (post_at i)) as [[m' a]|]; [|done].
  destruct a as [| | | | |d res| |]; try done.
  destruct res as [x|x]; intros [= <-]; exists m', (RespPost d (Ok x)) || exists m', (RespPost d (Err x)); split; try done.
  - exact (PostsRequest i None ex_id ex_data 1 (ex_ns 8) ex_r d (Ok x)).
  - exact (PostsRequest i None ex_id ex_data 1 (ex_ns 8) ex_r d (Err x)).
Qed.
Local Instance topology_err_eq : EqDecision topology_err.
Proof. solve_decision. Defined.
Local Instance post_err_eq : EqDecision post_err.
Proof. solve_decision. Defined.

(** Session 0 is set up, session 1 is given up for good, session 2 waits for its mixnodes. *)
Definition tr_first : list call :=
  ex_setup ++ [CallSetStatus (SessionStatus 1 PRequestsToCurrent); CallSetMixnodes RCurrent (Err MePermanent) ex_r].
Definition tr_second : list call := [CallSetStatus (SessionStatus 2 PCoverToCurrent); CallSetStatus (SessionStatus 2 PRequestsToCurrent)].
Lemma tr_first_ok : Forall call_ok tr_first.
Proof. apply Forall_app. split; [exact ex_setup_ok|by repeat constructor]. Qed.
Definition tr_answers (m : mixnet) : list (option (option post_err)) := map (answer_at m) [0; 1; 2].
Definition tr_check (l1 l2 : list call) (c1 c2 : list (option (option post_err))) : bool :=
  match mx_new toy_prims (ex_config 8) with
  | Val m0 =>
      match play m0 l1 with
      | Some (_, m1) =>
          match play m1 l2 with
          | Some (_, m) => bool_decide (tr_answers m1 = c1) && bool_decide (tr_answers m = c2) &&
                           bool_decide (mx_status m1 = SessionStatus 1 PRequestsToCurrent)
          | None => false
          end
      | None => false
      end
  | Panic => false
  end.
Definition tr_early : list (option (option post_err)) := [Some None; Some (Some (PeSessionDisabled 1)); Some (Some (PeSessionNotActiveYet 2))].
Definition tr_late : list (option (option post_err)) :=
  [Some (Some (PeSessionNoLongerActive 0)); Some (Some (PeSessionDisabled 1)); Some (Some (PeSessionMixnodesNotKnown 2))].
Lemma tr_checked : tr_check tr_first tr_second tr_early tr_late = true.
Proof. vm_compute. reflexivity. Qed.

Lemma tr_spec l1 l2 c1 c2 :
  tr_check l1 l2 c1 c2 = true -> Forall call_ok l1 -> Forall call_ok l2 ->
  forward_calls (SessionStatus 0 PCoverToCurrent) (l1 ++ l2) = true -> forward_calls (SessionStatus 1 PRequestsToCurrent) l2 = true ->
  exists m0 h1 m1 h2 m, mx_new toy_prims (ex_config 8) = Val m0 /\
    run toy_prims m0 h1 m1 /\ run toy_prims m1 h2 m /\ run toy_prims m0 (h1 ++ h2) m /\
    map fst h1 = l1 /\ map fst h2 = l2 /\
    forwards (SessionStatus 0 PCoverToCurrent) (h1 ++ h2) /\ forwards (mx_status m1) h2 /\ tr_answers m1 = c1 /\ tr_answers m = c2.
Proof.
  unfold tr_check. intros H Hl1 Hl2 Hf Hf2. destruct (mx_new _ _) as [m0|]; [|discriminate H].
  destruct (play m0 l1) as [[h1 m1]|] eqn:E1; [|discriminate H]. destruct (play m1 l2) as [[h2 m]|] eqn:E2; [|discriminate H].
  apply andb_true_iff in H as [H Hst]. apply andb_true_iff in H as [Ha Hb]. apply bool_decide_eq_true in Ha, Hb, Hst.
  pose proof (play_run _ _ _ _ Hl1 E1) as Hr1. pose proof (play_run _ _ _ _ Hl2 E2) as Hr2.
  pose proof (play_calls _ _ _ _ E1) as Hc1. pose proof (play_calls _ _ _ _ E2) as Hc2.
  exists m0, h1, m1, h2, m. split_and!; try done.
  - clear -Hr1 Hr2. induction Hr1; [done|]. cbn. econstructor; eauto.
  - apply forward_calls_spec. by rewrite map_app, Hc1, Hc2.
  - rewrite Hst. apply forward_calls_spec. by rewrite Hc2.
Qed.

Lemma tr_at m f : forall l, map (answer_at m) l = map (fun i => Some (f i)) l -> forall i, i ∈ l ->
  exists m' a, exec toy_prims m (post_at i) = Val (m', a) /\ posts i (post_at i) a (f i).
Proof.
  intros l H i Hi. apply answer_at_spec. generalize dependent l. induction l as [|x l IH]; intros H Hi; [by apply elem_of_nil in Hi|].
  rewrite !map_cons in H. apply elem_of_cons in Hi as [->|Hi]; [by apply (f_equal head) in H; injection H|].
  apply IH; [|done]. by apply (f_equal tail) in H.
Qed.

(** The hypotheses of C68_post and C68_lasting hold, with every kind of answer. *)
Definition early_answer (i : session_index) : option post_err :=
  match i with 0 => None | 1 => Some (PeSessionDisabled 1) | _ => Some (PeSessionNotActiveYet i) end.
Definition late_answer (i : session_index) : option post_err :=
  match i with 0 => Some (PeSessionNoLongerActive 0) | 1 => Some (PeSessionDisabled 1) | _ => Some (PeSessionMixnodesNotKnown i) end.
Example C68_example :
  exists m0 h1 m1 h2 m, mx_new toy_prims (ex_config 8) = Val m0 /\ run toy_prims m0 h1 m1 /\ run toy_prims m1 h2 m /\
    run toy_prims m0 (h1 ++ h2) m /\ forwards (SessionStatus 0 PCoverToCurrent) (h1 ++ h2) /\ forwards (mx_status m1) h2 /\
    (forall i, call_ok (post_at i)) /\
    (forall i, i ∈ [0; 1; 2] -> exists m' a, exec toy_prims m1 (post_at i) = Val (m', a) /\ posts i (post_at i) a (early_answer i)) /\
    (forall i, i ∈ [0; 1; 2] -> exists m' a, exec toy_prims m (post_at i) = Val (m', a) /\ posts i (post_at i) a (late_answer i)).
Proof.
  destruct (tr_spec _ _ _ _ tr_checked tr_first_ok) as (m0 & h1 & m1 & h2 & m & E0 & Hr1 & Hr2 & Hr & _ & _ & Hf & Hf2 & Ha & Hb).
  { by repeat constructor. }
  { by vm_compute. }
  { by vm_compute. }
  exists m0, h1, m1, h2, m.
  split; [exact E0|]. split; [exact Hr1|]. split; [exact Hr2|]. split; [exact Hr|]. split; [exact Hf|]. split; [exact Hf2|].
  split; [exact post_at_ok|]. split; [exact (tr_at m1 early_answer [0; 1; 2] Ha)|exact (tr_at m late_answer [0; 1; 2] Hb)].
Qed.

(** Without the hypothesis that the status only moves on, "disabled" may be wrong: going back from
    DisconnectFromPrev to RequestsToCurrent, the previous session, which nobody has given up, is found disabled
    (the comment in mod.rs:168-169 says that this point is not reached then). *)
Definition back_calls : list call := [CallSetStatus (SessionStatus 1 PDisconnectFromPrev); CallSetStatus (SessionStatus 1 PRequestsToCurrent)].
Definition back_check (l : list call) (i : session_index) (e : option post_err) : bool :=
  match mx_new toy_prims (ex_config 8) with
  | Val m0 => match play m0 l with Some (_, m) => bool_decide (answer_at m i = Some e) | None => false end
  | Panic => false
  end.
Lemma back_spec l i e :
  back_check l i e = true -> Forall call_ok l ->
  exists m0 h m m' a, mx_new toy_prims (ex_config 8) = Val m0 /\ run toy_prims m0 h m /\ map fst h = l /\
    exec toy_prims m (post_at i) = Val (m', a) /\ posts i (post_at i) a e.
Proof.
  unfold back_check. intros H Hl. destruct (mx_new _ _) as [m0|]; [|discriminate H].
  destruct (play m0 l) as [[h m]|] eqn:E; [|discriminate H]. apply bool_decide_eq_true, answer_at_spec in H as (m' & a & He & Hp).
  exists m0, h, m, m', a. split; [reflexivity|]. split; [exact (play_run _ _ _ _ Hl E)|]. split; [exact (play_calls _ _ _ _ E)|]. by split.
Qed.
Lemma sometime_mixnodes pr P m h :
  sometime pr P m h -> (forall m c m', P m c m' -> exists rel mixnodes r, c = CallSetMixnodes rel mixnodes r) ->
  exists rel mixnodes r, CallSetMixnodes rel mixnodes r ∈ map fst h.
Proof.
  intros H HP. induction H as [m c a h m1 _ H|m c a h m1 _ _ (rel & mixnodes & r & IH)].
  - destruct (HP _ _ _ H) as (rel & mixnodes & r & ->). exists rel, mixnodes, r. by left.
  - exists rel, mixnodes, r. by right.
Qed.
Theorem C68_backwards_refuted :
  exists pr cf m0 hist m index c m' a, prims_ok pr /\ config_ok cf /\
    mx_new pr cf = Val m0 /\ run pr m0 hist m /\ call_ok c /\ exec pr m c = Val (m', a) /\
    posts index c a (Some (PeSessionDisabled index)) /\ ~ sometime pr (gives_up pr cf index) m0 hist.
Proof.
  assert (Hb : back_check back_calls 0 (Some (PeSessionDisabled 0)) = true) by (vm_compute; reflexivity).
  destruct (back_spec _ _ _ Hb) as (m0 & h & m & m' & a & E0 & Hr & Hc & He & Hp); [by repeat constructor|].
  exists toy_prims, (ex_config 8), m0, h, m, 0, (post_at 0), m', a.
  split; [exact toy_prims_ok|]. split; [apply ex_config_ok|]. split; [exact E0|]. split; [exact Hr|]. split; [apply post_at_ok|].
  split; [exact He|]. split; [exact Hp|].
  intros H. apply sometime_mixnodes in H as (rel & mixnodes & r & H).
  - rewrite Hc in H. unfold back_calls in H. rewrite !elem_of_cons, elem_of_nil in H. destruct H as [H|[H|[]]]; discriminate H.
  - intros ? ? ? (rel & mixnodes & r & -> & _). eauto.
Qed.
