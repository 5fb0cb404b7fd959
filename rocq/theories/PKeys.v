(** C31: how the key pairs of sessions are drawn, handed over and dropped. *)
From Verif Require Export PCalls.

(** ** Specification *)

(** The secret key in a slot. *)
Definition slot_secret (sl : session_slot) : option bytes :=
  match sl with
  | SlKxPair k => Some (kp_secret k)
  | SlFull s => Some (kp_secret (se_kx_pair s))
  | SlEmpty | SlDisabled => None
  end.
(** The three places of a node where secret keys are kept, with the session they are for. *)
Inductive place := AtNext | AtCurrent | AtPrev.
Definition secret_at (m : mixnet) (pl : place) : option bytes :=
  match pl with
  | AtNext => kp_secret <$> mx_next_kx_pair m
  | AtCurrent => slot_secret (ss_current (mx_sessions m))
  | AtPrev => slot_secret (ss_prev (mx_sessions m))
  end.
Definition index_at (m : mixnet) (pl : place) (i : session_index) : Prop :=
  match pl with
  | AtNext => i = (st_current_index (mx_status m) + 1)%N
  | AtCurrent => i = st_current_index (mx_status m)
  | AtPrev => (i + 1)%N = st_current_index (mx_status m)
  end.
(** The node holds secret key [k] for session [i]. *)
Definition holds (m : mixnet) (k : bytes) (i : session_index) : Prop :=
  exists pl, secret_at m pl = Some k /\ index_at m pl i.

(** The secret that a call draws, if it draws one. *)
Definition draws_of (m : mixnet) (c : call) : list bytes :=
  match c with
  | CallNextKx r => match mx_next_kx_pair m with None => [(gen_kx_secret r).1] | Some _ => [] end
  | CallSetMixnodes rel (Ok _) r =>
      match ss_get (mx_sessions m) rel with SlEmpty => [(gen_kx_secret r).1] | _ => [] end
  | _ => []
  end.
Fixpoint draws (pr : prims) (m : mixnet) (hist : list (call * resp)) : list bytes :=
  match hist with
  | [] => []
  | (c, _) :: hist =>
      draws_of m c ++ match exec pr m c with Val (m', _) => draws pr m' hist | Panic => [] end
  end.
(** The secret given for session 0. *)
Definition given (cf : config) : list bytes :=
  match cf_session_0_kx_secret cf with Some k => [k] | None => [] end.

(** ** Proofs *)
Global Instance place_eq_dec : EqDecision place.
Proof. solve_decision. Defined.

Section keys.
  Context (pr : prims) (Hok : prims_ok pr) (cf : config) (Hcf : config_ok cf).

  (** Any call but [set_session_status]: every place keeps its secret, or drops it, or gets the drawn one. *)
  Lemma secret_step m c m' a pl k :
    mx_ok pr cf m -> step pr m c m' a -> (forall st, c <> CallSetStatus st) ->
    mx_status m' = mx_status m /\
    (secret_at m' pl = Some k ->
     secret_at m pl = Some k \/ (k ∈ draws_of m c /\ forall pl' k', pl' <> pl -> secret_at m' pl' = Some k' -> secret_at m pl' = Some k')).
  Proof.
    intros Hm Hst Hns.
    assert (Hput : forall rel s s', mx_status m' = mx_status m -> mx_next_kx_pair m' = mx_next_kx_pair m ->
      ss_get (mx_sessions m) rel = SlFull s -> mx_sessions m' = ss_set (mx_sessions m) rel (SlFull s') ->
      se_kx_pair s' = se_kx_pair s ->
      mx_status m' = mx_status m /\ (secret_at m' pl = Some k ->
        secret_at m pl = Some k \/ (k ∈ draws_of m c /\ forall pl' k', pl' <> pl -> secret_at m' pl' = Some k' -> secret_at m pl' = Some k'))).
    { intros rel s s' E1 E2 Hs Es Ek. split; [done|]. intros H. left. rewrite <- H.
      destruct pl; unfold secret_at; [by rewrite E2|..]; rewrite Es; destruct rel; cbn in Hs |- *; try done;
        rewrite Hs; cbn; by rewrite Ek. }
    destruct Hst; try (by split; [|auto]).
    - by destruct (Hns st).
    - split; [done|]. intros H'. left. destruct pl, rel; cbn in H' |- *; done.
    - split; [done|]. pose proof (fs_key _ _ _ _ _ _ H0) as Hk. intros H'.
      destruct H as [He|[k0 He]].
      + rewrite He in Hk.
        destruct (decide (pl = match rel with RCurrent => AtCurrent | RPrev => AtPrev end)) as [->|Hne].
        * right. split.
          { cbn [draws_of]. rewrite He. apply elem_of_list_singleton. destruct rel; cbn in H'; injection H' as <-; by rewrite Hk. }
          intros pl' k' Hp. destruct rel, pl'; cbn; done.
        * left. destruct rel, pl; cbn in H' |- *; done.
      + left. rewrite He in Hk. destruct rel, pl; cbn in He, H' |- *; try done; rewrite He; cbn; by rewrite <- Hk.
    - split; [done|]. intros H'. destruct pl; cbn in H' |- *; [|by left..].
      right. rewrite H. injection H' as <-. split; [by left|]. intros [] k' Hp; cbn; done.
    - eapply (Hput rel s); [unfold enqueue; by destruct (decide _)..|by eapply reads_get|unfold enqueue; by destruct (decide _)|done].
    - eapply (Hput rel s); [done|done|by eapply reads_get|done|done].
    - eapply (Hput rel s); [done|done|by eapply reads_get|done|done].
    - eapply (Hput rel s); [unfold m1; by destruct (aq_pop _).2..|done|unfold m1; by destruct (aq_pop _).2|done].
    - destruct H as [Hu _ _ _ _ _ _ _ _ -> _ _ _ _ _]. apply usable_get in Hu. by eapply (Hput rel s).
    - match goal with H : usable _ _ _ _ |- _ => apply usable_get in H; by eapply (Hput rel s) end.
  Qed.

  (** [set_session_status] moves secrets along with the indices. *)
  Lemma secret_status m st pl k :
    mx_ok pr cf m -> secret_at (set_session_status m st) pl = Some k ->
    exists pl0, secret_at m pl0 = Some k /\ (forall i, index_at (set_session_status m st) pl i -> index_at m pl0 i) /\
      forall pl' k', pl' <> pl -> secret_at (set_session_status m st) pl' = Some k' ->
        exists pl1, pl1 <> pl0 /\ secret_at m pl1 = Some k'.
  Proof.
    intros Hm. destruct (status_index m st) as [Ei _].
    assert (Hix : forall i, index_at (set_session_status m st) pl i ->
      match pl with AtNext => i = (st_current_index st + 1)%N | AtCurrent => i = st_current_index st
                  | AtPrev => (i + 1)%N = st_current_index st end).
    { intros i. destruct pl; cbn [index_at]; by rewrite Ei. }
    revert Hix. generalize (index_at (set_session_status m st) pl). intros Ix Hix.
    unfold set_session_status. destruct (decide (mx_status m = st)) as [Est|Hne].
    { intros H. exists pl. split_and!; [done| |by eauto]. intros i Hi. apply Hix in Hi. rewrite <- Est in Hi. by destruct pl. }
    cbv zeta. unfold shift_sessions.
    destruct (N.eqb_spec (st_current_index (mx_status m)) (st_current_index st)) as [Eq|Hneq].
    { destruct (_ || _); intros H.
      - destruct pl; cbn in H; [| |done].
        + exists AtNext. split_and!; [done|intros i Hi; apply Hix in Hi; cbn; by rewrite Eq|].
          intros [] k' ? H'; cbn in H'; try done. by exists AtCurrent.
        + exists AtCurrent. split_and!; [done|intros i Hi; apply Hix in Hi; cbn; by rewrite Eq|].
          intros [] k' ? H'; cbn in H'; try done. by exists AtNext.
      - exists pl. split_and!; [by destruct pl|intros i Hi; apply Hix in Hi; destruct pl; cbn; by rewrite Eq|].
        intros pl' k' ? H'. exists pl'. split; [done|by destruct pl']. }
    unfold saturating_sub.
    remember (st_current_index st - st_current_index (mx_status m))%N as df eqn:Edf.
    assert (Hsl : forall k0, slot_secret (match mx_next_kx_pair m with None => SlEmpty | Some k => SlKxPair k end) = Some k0 ->
      secret_at m AtNext = Some k0) by (cbn; by destruct (mx_next_kx_pair m)).
    assert (Hdrop : forall pl0, secret_at
      (mx_set_sessions (mx_set_next_kx_pair m None) (if negb (ss_is_empty (mx_sessions m)) || negb (slot_is_empty
        (match mx_next_kx_pair m with None => SlEmpty | Some k => SlKxPair k end))
        then {| ss_current := SlEmpty; ss_prev := SlEmpty |} else mx_sessions m)) pl0 = None).
    { intros pl0. destruct (negb _ || negb _) eqn:E; [by destruct pl0|]. apply orb_false_iff in E as [E _].
      apply negb_false_iff, andb_true_iff in E as [E1 E2].
      destruct pl0; cbn; [done|by destruct (ss_current (mx_sessions m))|by destruct (ss_prev (mx_sessions m))]. }
    assert (Hdrop' : forall e, secret_at
      (mx_set_status (mx_or_events (if negb (need_prev (st_phase st)) || (st_current_index st =? 0)%N
        then mx_set_sessions (mx_set_sessions (mx_set_next_kx_pair m None) (if negb (ss_is_empty (mx_sessions m)) || negb (slot_is_empty
        (match mx_next_kx_pair m with None => SlEmpty | Some k => SlKxPair k end))
        then {| ss_current := SlEmpty; ss_prev := SlEmpty |} else mx_sessions m))
           {| ss_current := ss_current (if negb (ss_is_empty (mx_sessions m)) || negb (slot_is_empty
        (match mx_next_kx_pair m with None => SlEmpty | Some k => SlKxPair k end))
        then {| ss_current := SlEmpty; ss_prev := SlEmpty |} else mx_sessions m); ss_prev := SlDisabled |}
        else mx_set_sessions (mx_set_next_kx_pair m None) (if negb (ss_is_empty (mx_sessions m)) || negb (slot_is_empty
        (match mx_next_kx_pair m with None => SlEmpty | Some k => SlKxPair k end))
        then {| ss_current := SlEmpty; ss_prev := SlEmpty |} else mx_sessions m)) e) st) pl = Some k -> False).
    { intros e H. destruct (_ || (_ =? 0)%N).
      - destruct pl; cbn in H; [done| |done]. pose proof (Hdrop AtCurrent) as Hd. cbn in Hd. congruence.
      - pose proof (Hdrop pl) as Hd. destruct pl; cbn in H, Hd; congruence. }
    destruct df as [|[[?|?|]|[?|?|]|]]; try (intros H; exfalso; exact (Hdrop' _ H)).
    - (* two sessions on *)
      clear Hdrop Hdrop'. destruct (_ || _); intros H; destruct pl; cbn in H; try done.
      exists AtNext. split_and!; [by apply Hsl|intros i Hi; apply Hix in Hi; cbn; lia|].
      intros [] k' ? H'; cbn in H'; done.
    - (* one session on *)
      clear Hdrop Hdrop'. destruct (_ || _); intros H; destruct pl; cbn in H; try done.
      + exists AtNext. split_and!; [by apply Hsl|intros i Hi; apply Hix in Hi; cbn; lia|].
        intros [] k' ? H'; cbn in H'; done.
      + exists AtNext. split_and!; [by apply Hsl|intros i Hi; apply Hix in Hi; cbn; lia|].
        intros [] k' ? H'; cbn in H'; try done. by exists AtCurrent.
      + exists AtCurrent. split_and!; [done|intros i Hi; apply Hix in Hi; cbn; lia|].
        intros [] k' ? H'; cbn in H'; try done. exists AtNext. split; [done|by apply Hsl].
  Qed.

  (** All held secrets are different. *)
  Definition distinct (m : mixnet) : Prop :=
    forall pl pl' k, secret_at m pl = Some k -> secret_at m pl' = Some k -> pl = pl'.

  Lemma keys_step m c m' a D :
    mx_ok pr cf m -> step pr m c m' a ->
    (forall pl k, secret_at m pl = Some k -> k ∈ D) -> distinct m -> NoDup (D ++ draws_of m c) ->
    (forall pl k, secret_at m' pl = Some k -> k ∈ D ++ draws_of m c) /\ distinct m' /\
    (forall k i, holds m' k i -> holds m k i \/ k ∈ draws_of m c).
  Proof.
    intros Hm Hst HD Hdi Hnd.
    assert (Hcase : (exists st, c = CallSetStatus st) \/ ~ exists st, c = CallSetStatus st).
    { destruct c; (by left; eexists) || (right; by intros [? ?]). }
    destruct Hcase as [[st ->]|Hns].
    { inversion Hst; subst. split_and!.
      - intros pl k H. destruct (secret_status _ _ _ _ Hm H) as (pl0 & H0 & _). apply elem_of_app. left. by eapply HD.
      - intros pl pl' k H H'. destruct (decide (pl' = pl)) as [->|Hne]; [done|]. exfalso.
        destruct (secret_status _ _ _ _ Hm H) as (pl0 & H0 & _ & H1).
        destruct (H1 _ _ Hne H') as (pl1 & Hn & H2). apply Hn. by eapply Hdi.
      - intros k i (pl & H & Hi). destruct (secret_status _ _ _ _ Hm H) as (pl0 & H0 & H1 & _).
        left. exists pl0. auto. }
    assert (Hns' : forall st, c <> CallSetStatus st) by (intros st ->; apply Hns; by eexists).
    assert (Hnew : forall k, k ∈ D -> k ∈ draws_of m c -> False).
    { intros k. apply NoDup_app in Hnd as (_ & Hx & _). intros. by eapply Hx. }
    split_and!.
    - intros pl k H. destruct (secret_step _ _ _ _ pl k Hm Hst Hns') as [_ Hs].
      apply elem_of_app. destruct (Hs H) as [H0|[H0 _]]; [left; by eapply HD|by right].
    - intros pl pl' k H H'. destruct (decide (pl' = pl)) as [->|Hne]; [done|]. exfalso.
      destruct (secret_step _ _ _ _ pl k Hm Hst Hns') as [_ Hs].
      destruct (secret_step _ _ _ _ pl' k Hm Hst Hns') as [_ Hs'].
      destruct (Hs H) as [H0|[Hd H0]].
      + destruct (Hs' H') as [H1|[Hd H1]]; [apply Hne; by eapply Hdi|]. by eapply Hnew; [by eapply HD|].
      + pose proof (H0 _ _ Hne H') as H1. by eapply Hnew; [by eapply HD|].
    - intros k i (pl & H & Hi). destruct (secret_step _ _ _ _ pl k Hm Hst Hns') as [Est Hs].
      destruct (Hs H) as [H0|[Hd H0]]; [|by right]. left. exists pl. split; [done|].
      destruct pl; cbn in Hi |- *; by rewrite <- Est.
  Qed.

  Lemma keys_run m hist m' D :
    mx_ok pr cf m -> run pr m hist m' ->
    (forall pl k, secret_at m pl = Some k -> k ∈ D) -> distinct m -> NoDup (D ++ draws pr m hist) ->
    (forall pl k, secret_at m' pl = Some k -> k ∈ D ++ draws pr m hist) /\ distinct m' /\ mx_ok pr cf m' /\
    (forall k i, holds m' k i -> holds m k i \/ k ∈ draws pr m hist).
  Proof.
    intros Hm H. revert D. induction H as [|m c a m1 hist m2 Hc He Hr IH]; intros D HD Hdi Hnd.
    { rewrite app_nil_r. split_and!; auto. }
    pose proof (exec_step pr Hok cf _ _ _ _ Hcf Hm Hc He) as Hst.
    cbn [draws] in Hnd |- *. rewrite He in Hnd |- *. rewrite app_assoc in Hnd.
    destruct (keys_step m c m1 a D Hm Hst HD Hdi) as (H1 & H2 & H3); [by apply NoDup_app in Hnd as [? _]|].
    destruct (IH (step_inv pr Hok cf _ _ _ _ Hcf Hm Hc Hst) _ H1 H2 Hnd) as (H4 & H5 & H6 & H7).
    split_and!; try done.
    - rewrite <- app_assoc in H4. exact H4.
    - intros k i Hk. rewrite elem_of_app. destruct (H7 k i Hk) as [Hk'|]; [|by auto]. destruct (H3 k i Hk'); auto.
  Qed.

  Lemma run_app m h1 m1 h2 m2 : run pr m h1 m1 -> run pr m1 h2 m2 ->
    run pr m (h1 ++ h2) m2 /\ draws pr m (h1 ++ h2) = draws pr m h1 ++ draws pr m1 h2.
  Proof.
    intros H1 H2. induction H1 as [|m c a m1' hist m' Hc He Hr IH]; [done|].
    destruct (IH H2) as [H3 H4]. cbn [app draws]. rewrite He, H4. split; [by econstructor|]. by rewrite app_assoc.
  Qed.

  (** ** C31: a key pair serves one session only

      Given that no secret is drawn twice: the node holds a secret in one place only, for one session only,
      at all times; after it has dropped it, it never holds it again. *)
  Theorem C31_one_session m0 h1 m1 h2 m2 k i j :
    mx_new pr cf = Val m0 -> run pr m0 h1 m1 -> run pr m1 h2 m2 -> NoDup (given cf ++ draws pr m0 (h1 ++ h2)) ->
    holds m1 k i -> holds m2 k j -> i = j.
  Proof.
    intros E0 H1 H2 Hnd Hi Hj. pose proof (mx_new_ok pr cf m0 Hcf E0) as Hm0.
    destruct (run_app _ _ _ _ _ H1 H2) as [_ Ed]. rewrite Ed, app_assoc in Hnd.
    assert (Hg : forall pl k, secret_at m0 pl = Some k -> pl = AtCurrent /\ k ∈ given cf).
    { unfold mx_new in E0. apply out_bind_Val in E0 as (ks & _ & E0). injection E0 as <-. unfold given.
      intros [] k'; cbn; destruct (cf_session_0_kx_secret cf) eqn:E; try done.
      cbn. intros [= <-]. split; [done|]. apply elem_of_list_singleton. done. }
    destruct (keys_run m0 h1 m1 (given cf) Hm0 H1) as (HD & Hdi & Hm1 & _).
    { intros pl k' Hk. by apply Hg in Hk as [_ ?]. }
    { intros pl pl' k' Hk Hk'. apply Hg in Hk as [-> _], Hk' as [-> _]. done. }
    { by apply NoDup_app in Hnd as [? _]. }
    destruct (keys_run m1 h2 m2 _ Hm1 H2 HD Hdi Hnd) as (_ & _ & _ & Hh).
    destruct Hi as (pl & Hk & Hi). destruct (Hh k j Hj) as [(pl' & Hk' & Hj')|Hnew].
    - pose proof (Hdi _ _ _ Hk Hk'). subst pl'. destruct pl; cbn in *; lia.
    - exfalso. apply NoDup_app in Hnd as (_ & Hx & _). by eapply Hx; [eapply HD|].
  Qed.
  Theorem C31_dropped m0 h1 m1 h2 m2 h3 m3 k i :
    mx_new pr cf = Val m0 -> run pr m0 h1 m1 -> run pr m1 h2 m2 -> run pr m2 h3 m3 ->
    NoDup (given cf ++ draws pr m0 (h1 ++ h2 ++ h3)) ->
    holds m1 k i -> (forall j, ~ holds m2 k j) -> forall j, ~ holds m3 k j.
  Proof.
    intros E0 H1 H2 H3 Hnd Hi Hno j Hj. pose proof (mx_new_ok pr cf m0 Hcf E0) as Hm0.
    destruct (run_app _ _ _ _ _ H2 H3) as [H23 Ed2]. destruct (run_app _ _ _ _ _ H1 H23) as [_ Ed].
    rewrite Ed, Ed2, app_assoc in Hnd.
    assert (Hg : forall pl k, secret_at m0 pl = Some k -> pl = AtCurrent /\ k ∈ given cf).
    { unfold mx_new in E0. apply out_bind_Val in E0 as (ks & _ & E0). injection E0 as <-. unfold given.
      intros [] k'; cbn; destruct (cf_session_0_kx_secret cf) eqn:E; try done.
      cbn. intros [= <-]. split; [done|]. apply elem_of_list_singleton. done. }
    destruct (keys_run m0 h1 m1 (given cf) Hm0 H1) as (HD & Hdi & Hm1 & _).
    { intros pl k' Hk. by apply Hg in Hk as [_ ?]. }
    { intros pl pl' k' Hk Hk'. apply Hg in Hk as [-> _], Hk' as [-> _]. done. }
    { by apply NoDup_app in Hnd as [? _]. }
    rewrite app_assoc in Hnd.
    destruct (keys_run m1 h2 m2 _ Hm1 H2 HD Hdi) as (HD2 & Hdi2 & Hm2 & _); [by apply NoDup_app in Hnd as [? _]|].
    destruct (keys_run m2 h3 m3 _ Hm2 H3 HD2 Hdi2 Hnd) as (_ & _ & _ & Hh).
    destruct (Hh k j Hj) as [Hj'|Hnew]; [by eapply Hno|].
    destruct Hi as (pl & Hk & _). apply NoDup_app in Hnd as (_ & Hx & _). eapply Hx; [|exact Hnew].
    apply elem_of_app. left. by eapply HD.
  Qed.
  (** Once session [i] is neither the previous, the current nor the next one, its secret is gone. *)
  Theorem C31_left_behind m0 h1 m1 h2 m2 k i :
    mx_new pr cf = Val m0 -> run pr m0 h1 m1 -> run pr m1 h2 m2 -> NoDup (given cf ++ draws pr m0 (h1 ++ h2)) ->
    holds m1 k i ->
    (i + 1 < st_current_index (mx_status m2) \/ st_current_index (mx_status m2) + 1 < i)%N ->
    forall j, ~ holds m2 k j.
  Proof.
    intros E0 H1 H2 Hnd Hi Hc j Hj. pose proof (C31_one_session _ _ _ _ _ _ _ _ E0 H1 H2 Hnd Hi Hj) as <-.
    destruct Hj as ([] & _ & Hj); cbn in Hj; lia.
  Qed.

  (** ** C31: handing over *)
  Lemma next_step m c m' a k :
    step pr m c m' a -> mx_next_kx_pair m = Some k ->
    (forall st, c = CallSetStatus st -> st_current_index st = st_current_index (mx_status m)) ->
    mx_next_kx_pair m' = Some k.
  Proof.
    intros Hst Hk Hi. destruct Hst; try done.
    - specialize (Hi st eq_refl). unfold set_session_status. destruct (decide (mx_status m = st)); [done|]. cbv zeta.
      unfold shift_sessions. rewrite (proj2 (N.eqb_eq _ _) (eq_sym Hi)). by destruct (_ || _).
    - congruence.
    - unfold enqueue. by destruct (decide _).
    - unfold m1. by destruct (aq_pop _).2.
    - destruct H as [_ _ _ _ _ _ _ _ _ -> _ _ _ _ _]. done.
  Qed.
  Lemma next_run m hist m' k :
    mx_ok pr cf m -> run pr m hist m' -> same_index m hist -> mx_next_kx_pair m = Some k ->
    mx_ok pr cf m' /\ mx_next_kx_pair m' = Some k /\ st_current_index (mx_status m') = st_current_index (mx_status m).
  Proof.
    intros Hm H. induction H as [|m c a m1 hist m2 Hc He _ IH]; intros Hi Hk; [done|].
    pose proof (exec_step pr Hok cf _ _ _ _ Hcf Hm Hc He) as Hst.
    assert (Hi1 : forall st, c = CallSetStatus st -> st_current_index st = st_current_index (mx_status m)).
    { intros st ->. apply (Hi st a). by left. }
    destruct (closed_step pr cf _ _ _ _ RCurrent Hm Hst Hi1) as (Ei & _).
    destruct (IH (step_inv pr Hok cf _ _ _ _ Hcf Hm Hc Hst)) as (H3 & H4 & H5).
    { intros st a' Hin. rewrite Ei. apply (Hi st a'). by right. }
    { by eapply next_step. }
    split_and!; [done|done|congruence].
  Qed.

  (** The announced key stays the same until the index of the current session changes. *)
  Theorem C31_stable m r m1 public hist m2 r' :
    mx_ok pr cf m -> exec pr m (CallNextKx r) = Val (m1, RespKx public) ->
    run pr m1 hist m2 -> same_index m1 hist ->
    exec pr m2 (CallNextKx r') = Val (m2, RespKx public).
  Proof.
    intros Hm He Hr Hi. assert (Hc : call_ok (CallNextKx r)) by done.
    pose proof (exec_step pr Hok cf _ _ _ _ Hcf Hm Hc He) as Hst.
    pose proof (step_inv pr Hok cf _ _ _ _ Hcf Hm Hc Hst) as Hm1.
    assert (exists k, mx_next_kx_pair m1 = Some k /\ kp_public k = public) as (k & Hk & <-).
    { inversion Hst; subst; eexists; done. }
    destruct (next_run _ _ _ _ Hm1 Hr Hi Hk) as (_ & Hk2 & _). cbn [exec]. unfold next_kx_public. by rewrite Hk2.
  Qed.

  (** What becomes of the announced key pair (and of the sessions) when the index changes. *)
  Theorem C31_handover m st k :
    mx_ok pr cf m -> mx_next_kx_pair m = Some k ->
    let cur := st_current_index (mx_status m) in
    let m' := set_session_status m st in
    st_current_index st <> cur ->
    mx_next_kx_pair m' = None /\
    (* one on: it is for the current session, and the current session becomes the previous one *)
    (st_current_index st = (cur + 1)%N ->
       ss_current (mx_sessions m') = SlKxPair k /\
       ss_prev (mx_sessions m') = if decide (st_phase st = PDisconnectFromPrev) then SlDisabled
                                  else ss_current (mx_sessions m)) /\
    (* two on: it is for the previous session *)
    (st_current_index st = (cur + 2)%N ->
       ss_current (mx_sessions m') = SlEmpty /\
       ss_prev (mx_sessions m') = if decide (st_phase st = PDisconnectFromPrev) then SlDisabled
                                  else SlKxPair k) /\
    (* otherwise no key is kept *)
    (st_current_index st <> (cur + 1)%N -> st_current_index st <> (cur + 2)%N -> forall k i, ~ holds m' k i).
  Proof.
    intros Hm Hk cur m' Hne.
    assert (Hdec : negb (need_prev (st_phase st)) = bool_decide (st_phase st = PDisconnectFromPrev)).
    { by destruct (st_phase st). }
    subst m'. unfold set_session_status. rewrite decide_False by (by intros <-). cbv zeta. unfold shift_sessions.
    destruct (N.eqb_spec (st_current_index (mx_status m)) (st_current_index st)) as [?|_]; [by destruct Hne|].
    rewrite Hk, Hdec. unfold saturating_sub. fold cur.
    split_and!.
    - by destruct (_ || _).
    - intros E. replace (st_current_index st - cur)%N with 1%N by lia.
      rewrite (proj2 (N.eqb_neq _ _)) by lia. rewrite orb_false_r.
      by destruct (decide (st_phase st = PDisconnectFromPrev)) as [Ed|Ed];
        [rewrite bool_decide_eq_true_2 by done|rewrite bool_decide_eq_false_2 by done].
    - intros E. replace (st_current_index st - cur)%N with 2%N by lia.
      rewrite (proj2 (N.eqb_neq _ _)) by lia. rewrite orb_false_r.
      by destruct (decide (st_phase st = PDisconnectFromPrev)) as [Ed|Ed];
        [rewrite bool_decide_eq_true_2 by done|rewrite bool_decide_eq_false_2 by done].
    - intros H1 H2 k' i (pl & Hs & _).
      assert (Hem : (negb (ss_is_empty (mx_sessions m)) || negb (slot_is_empty (SlKxPair k))) = true) by (by rewrite orb_true_r).
      rewrite Hem in Hs.
      remember (st_current_index st - cur)%N as df eqn:Edf.
      destruct df as [|[[?|?|]|[?|?|]|]]; try lia;
      (destruct (bool_decide _ || _); destruct pl; cbn in Hs; done).
  Qed.

  (** The session that is set up with an announced key pair uses it. *)
  Theorem C31_used m r m1 public hist m2 st m3 hist' m4 rel s :
    mx_ok pr cf m -> exec pr m (CallNextKx r) = Val (m1, RespKx public) ->
    run pr m1 hist m2 -> same_index m1 hist ->
    exec pr m2 (CallSetStatus st) = Val (m3, RespUnit) -> run pr m3 hist' m4 -> same_index m3 hist' ->
    (st_current_index st = (st_current_index (mx_status m1) + 1)%N /\ rel = RCurrent \/
     st_current_index st = (st_current_index (mx_status m1) + 2)%N /\ rel = RPrev) ->
    ss_get (mx_sessions m4) rel = SlFull s ->
    kp_public (se_kx_pair s) = public.
  Proof.
    intros Hm He Hr Hi He2 Hr2 Hi2 Hrel Hs. assert (Hc : call_ok (CallNextKx r)) by done.
    pose proof (exec_step pr Hok cf _ _ _ _ Hcf Hm Hc He) as Hst.
    pose proof (step_inv pr Hok cf _ _ _ _ Hcf Hm Hc Hst) as Hm1.
    assert (exists k, mx_next_kx_pair m1 = Some k /\ kp_public k = public) as (k & Hk & <-).
    { inversion Hst; subst; eexists; done. }
    destruct (next_run _ _ _ _ Hm1 Hr Hi Hk) as (Hm2 & Hk2 & Ei). cbn [exec] in He2. injection He2 as <-.
    assert (Hm3 : mx_ok pr cf (set_session_status m2 st)).
    { eapply (step_inv pr Hok cf m2 (CallSetStatus st)); [done|done|done|constructor]. }
    assert (Hne : st_current_index st <> st_current_index (mx_status m2)) by (rewrite Ei; lia).
    pose proof (C31_handover m2 st k Hm2 Hk2 Hne) as Hh. cbv zeta in Hh. rewrite Ei in Hh. destruct Hh as (_ & Hh1 & Hh2 & _).
    set (m3 := set_session_status m2 st) in *.
    assert (Hkey : ss_get (mx_sessions m3) rel = SlDisabled \/
                   slot_secret (ss_get (mx_sessions m3) rel) = Some (kp_secret k) /\ ss_get (mx_sessions m3) rel <> SlEmpty).
    { destruct Hrel as [[E ->]|[E ->]].
      - destruct (Hh1 E) as [E1 _]. right. cbn [ss_get]. by rewrite E1.
      - destruct (Hh2 E) as [_ E2]. cbn [ss_get]. rewrite E2. destruct (decide _); [by left|by right]. }
    assert (Hpk : kp_public k = derive_kx_public pr (kp_secret k)).
    { pose proof (mo_next _ _ _ Hm1) as Hn. rewrite Hk in Hn. destruct Hn as (sec & _ & ->). done. }
    rewrite Hpk. clear Hpk Hh1 Hh2 Hrel.
    clearbody m3. clear Hm Hm1 Hm2 He Hst Hr Hi Hk Hk2 Ei Hne. revert Hm3 Hi2 Hkey.
    induction Hr2 as [m3|m3 c a m3' hist' m4' Hc' He' Hr' IH]; intros Hm3 Hi2 Hkey.
    { rewrite Hs in Hkey. destruct Hkey as [?|[Hkey _]]; [done|]. injection Hkey as <-.
      pose proof (mx_ok_full pr cf m3 rel s Hm3 Hs) as Hso. destruct (so_key _ _ _ Hso) as (sec & _ & ->). done. }
    pose proof (exec_step pr Hok cf _ _ _ _ Hcf Hm3 Hc' He') as Hst.
    assert (Hi1 : forall st', c = CallSetStatus st' -> st_current_index st' = st_current_index (mx_status m3)).
    { intros st' ->. apply (Hi2 st' a). by left. }
    destruct (closed_step pr cf _ _ _ _ rel Hm3 Hst Hi1) as (Ei & Hcl & Hdis).
    apply IH; [done|exact (step_inv pr Hok cf _ _ _ _ Hcf Hm3 Hc' Hst)| |].
    { intros st' a' Hin. rewrite Ei. apply (Hi2 st' a'). by right. }
    destruct Hkey as [Hd|[Hkey Hne]]; [left; auto|].
    (* the secret stays or the slot is disabled *)
    clear IH Hr' Hs.
    assert (Hset : forall sl', ss_get (mx_sessions m3') rel = sl' -> sl' = ss_get (mx_sessions m3) rel ->
      ss_get (mx_sessions m3') rel = SlDisabled \/
      slot_secret (ss_get (mx_sessions m3') rel) = Some (kp_secret k) /\ ss_get (mx_sessions m3') rel <> SlEmpty).
    { intros sl' -> ->. by right. }
    assert (Hsame : mx_sessions m3' = mx_sessions m3 ->
      ss_get (mx_sessions m3') rel = SlDisabled \/
      slot_secret (ss_get (mx_sessions m3') rel) = Some (kp_secret k) /\ ss_get (mx_sessions m3') rel <> SlEmpty).
    { intros ->. by right. }
    assert (Hput : forall rel' s0 s', ss_get (mx_sessions m3) rel' = SlFull s0 ->
      mx_sessions m3' = ss_set (mx_sessions m3) rel' (SlFull s') -> se_kx_pair s' = se_kx_pair s0 ->
      ss_get (mx_sessions m3') rel = SlDisabled \/
      slot_secret (ss_get (mx_sessions m3') rel) = Some (kp_secret k) /\ ss_get (mx_sessions m3') rel <> SlEmpty).
    { intros rel' s0 s' Hg E Ek. right. rewrite E, ss_get_set. destruct (decide (rel' = rel)) as [->|]; [|done].
      rewrite Hg in Hkey. cbn in Hkey |- *. by rewrite Ek. }
    destruct Hst; try (by apply Hsame).
    - unfold set_session_status. destruct (decide (mx_status m3 = st0)); [by right|]. cbv zeta.
      unfold shift_sessions. rewrite (proj2 (N.eqb_eq _ _) (eq_sym (Hi1 st0 eq_refl))).
      destruct (_ || _); [|by right]. destruct rel; [by right|by left].
    - rewrite get_set_slot. destruct (decide (rel0 = rel)); [by left|by right].
    - change (mx_sessions (mx_or_events (set_slot m3 rel0 (SlFull s0)) slot_changed)) with
        (mx_sessions (set_slot m3 rel0 (SlFull s0))). rewrite get_set_slot.
      destruct (decide (rel0 = rel)) as [->|]; [|by right]. right.
      pose proof (fs_key _ _ _ _ _ _ H0) as Hfk. destruct H as [He|[k0 He]]; [done|].
      rewrite He in Hfk, Hkey. cbn in Hkey |- *. by rewrite Hfk.
    - eapply (Hput rel0 s0); [by eapply reads_get|unfold enqueue; by destruct (decide _)|done].
    - eapply (Hput rel0 s0); [by eapply reads_get|done|done].
    - eapply (Hput rel0 s0); [by eapply reads_get|done|done].
    - eapply (Hput rel0 s0); [done|by destruct (aq_pop _).2|done].
    - destruct H as [Hu _ _ _ _ _ _ _ _ -> _ _ _ _ _]. apply usable_get in Hu. by eapply (Hput rel0 s0).
    - match goal with H : usable _ _ _ _ |- _ => apply usable_get in H; by eapply (Hput rel0 s0) end.
  Qed.
End keys.
