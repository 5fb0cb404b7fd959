(** C68: what posting says about a session is true. *)
From Verif Require Export PCalls PEvents.

(** ** Specification *)

(** The phases in their order; the session status moves on if the index grows, or the phase does. *)
Definition phase_number (p : session_phase) : nat :=
  match p with PCoverToCurrent => 0 | PRequestsToCurrent => 1 | PCoverToPrev => 2 | PDisconnectFromPrev => 3 end.
Definition onward (st st' : session_status) : Prop :=
  (st_current_index st < st_current_index st')%N \/
  (st_current_index st = st_current_index st' /\ phase_number (st_phase st) ≤ phase_number (st_phase st')).
(** From [st], the status only moves on. *)
Fixpoint forwards (st : session_status) (hist : list (call * resp)) : Prop :=
  match hist with
  | [] => True
  | (CallSetStatus st', _) :: hist => onward st st' /\ forwards st' hist
  | _ :: hist => forwards st hist
  end.

(** Session [i] is told its mixnodes. *)
Definition sets_up (i : session_index) (m : mixnet) (c : call) (m' : mixnet) : Prop :=
  exists rel mixnodes r, c = CallSetMixnodes rel mixnodes r /\ index_of m rel i /\
    (forall s, ss_get (mx_sessions m) rel <> SlFull s) /\ exists s, ss_get (mx_sessions m') rel = SlFull s.
(** Session [i] is given up: the mixnodes are said to be unavailable for good, or the node is none of them
    and its configuration says not to take part then. *)
Definition gives_up (pr : prims) (cf : config) (i : session_index) (m : mixnet) (c : call) (m' : mixnet) : Prop :=
  exists rel mixnodes r, c = CallSetMixnodes rel mixnodes r /\ index_of m rel i /\ open_slot (ss_get (mx_sessions m) rel) /\
    (mixnodes = Err MePermanent \/
     exists l, mixnodes = Ok l /\ cf_non_mixnode_session cf = None /\
       own_public pr (ss_get (mx_sessions m) rel) r ∉ map mn_kx_public (take (N.to_nat 65280) l)).

(** A post to session [index] and its result. *)
Inductive posts (index : session_index) : call -> resp -> option post_err -> Prop :=
| PostsRequest dest id data k ns r d res :
    posts index (CallPostRequest index dest id data k ns r) (RespPost d res) (match res with Ok _ => None | Err e => Some e end)
| PostsReply surbs id data lft res :
    posts index (CallPostReply surbs index id data) (RespReply lft res) (match res with Ok _ => None | Err e => Some e end).

(** ** Proof *)
Section truth.
  Context (pr : prims) (Hok : prims_ok pr) (cf : config) (Hcf : config_ok cf).

  (** The slot of session [j], if it is needed. *)
  Definition slot_at (m : mixnet) (j : session_index) : option session_slot :=
    if decide (j = st_current_index (mx_status m)) then Some (ss_current (mx_sessions m))
    else if decide ((j + 1)%N = st_current_index (mx_status m) /\ st_phase (mx_status m) <> PDisconnectFromPrev)
         then Some (ss_prev (mx_sessions m)) else None.
  Definition full (sl : session_slot) : Prop := exists s, sl = SlFull s.
  Lemma slot_at_get m rel j : index_of m rel j ->
    (rel = RPrev -> st_phase (mx_status m) <> PDisconnectFromPrev) -> slot_at m j = Some (ss_get (mx_sessions m) rel).
  Proof.
    intros Hi Hp. unfold slot_at. destruct rel; cbn in Hi |- *.
    - by rewrite decide_True.
    - rewrite decide_False by lia. rewrite decide_True; [done|]. split; [done|by apply Hp].
  Qed.
  Lemma slot_at_inv m j sl : slot_at m j = Some sl ->
    exists rel, index_of m rel j /\ ss_get (mx_sessions m) rel = sl /\ (rel = RPrev -> st_phase (mx_status m) <> PDisconnectFromPrev).
  Proof.
    unfold slot_at. destruct (decide _) as [E|E].
    - intros [= <-]. by exists RCurrent.
    - destruct (decide _) as [[E1 E2]|]; [|done]. intros [= <-]. by exists RPrev.
  Qed.
  Lemma index_of_inj m rel rel' j : index_of m rel j -> index_of m rel' j -> rel = rel'.
  Proof. destruct rel, rel'; cbn; intros; try done; lia. Qed.

  (** What a call does to the slot. *)
  Definition changes (m : mixnet) (c : call) (m' : mixnet) (j : session_index) (sl' : session_slot) : Prop :=
    ((st_current_index (mx_status m) < j)%N /\ sl' <> SlDisabled /\ ~ full sl') \/
    exists sl, slot_at m j = Some sl /\ (sl' = SlDisabled <-> sl = SlDisabled \/ gives_up pr cf j m c m') /\
      (full sl' <-> full sl \/ sets_up j m c m').
  Lemma put_changes m c m' j sl' rel s s' :
    (forall rel mixnodes r, c <> CallSetMixnodes rel mixnodes r) ->
    mx_status m' = mx_status m -> ss_get (mx_sessions m) rel = SlFull s ->
    mx_sessions m' = ss_set (mx_sessions m) rel (SlFull s') -> slot_at m' j = Some sl' -> changes m c m' j sl'.
  Proof.
    intros Hc Est Hs Ess Hsl. apply slot_at_inv in Hsl as (rel' & Hi & Hg & Hp). unfold index_of in Hi. rewrite Est in Hi, Hp. right.
    eexists. split; [by apply slot_at_get|].
    assert (Hno1 : ~ gives_up pr cf j m c m') by (intros (? & ? & ? & -> & _); by eapply Hc).
    assert (Hno2 : ~ sets_up j m c m') by (intros (? & ? & ? & -> & _); by eapply Hc).
    rewrite Ess in Hg. destruct rel, rel'; cbn in Hg, Hs |- *; subst sl'; rewrite ?Hs; unfold full; split; intuition (try done; eauto).
  Qed.
  Lemma same_changes m c m' j sl' :
    (forall rel mixnodes r, c <> CallSetMixnodes rel mixnodes r) ->
    mx_status m' = mx_status m -> mx_sessions m' = mx_sessions m -> slot_at m' j = Some sl' -> changes m c m' j sl'.
  Proof.
    intros Hc Est Ess Hsl. right. exists sl'. split; [revert Hsl; unfold slot_at; by rewrite Est, Ess|].
    assert (Hno1 : ~ gives_up pr cf j m c m') by (intros (? & ? & ? & -> & _); by eapply Hc).
    assert (Hno2 : ~ sets_up j m c m') by (intros (? & ? & ? & -> & _); by eapply Hc).
    tauto.
  Qed.
  Lemma mixnodes_changes m rel0 mixnodes r m' a j sl' :
    mx_ok pr cf m -> step pr m (CallSetMixnodes rel0 mixnodes r) m' a -> slot_at m' j = Some sl' ->
    changes m (CallSetMixnodes rel0 mixnodes r) m' j sl'.
  Proof.
    intros Hm Hst Hsl. apply slot_at_inv in Hsl as (rel & Hi & Hg & Hp).
    assert (Est : mx_status m' = mx_status m) by (inversion Hst; subst; done).
    unfold index_of in Hi. rewrite Est in Hi, Hp. right. eexists. split; [by apply slot_at_get|].
    assert (Hgu : gives_up pr cf j m (CallSetMixnodes rel0 mixnodes r) m' -> rel = rel0).
    { intros (? & ? & ? & [= <- <- <-] & Hi' & _). by eapply index_of_inj. }
    assert (Hsu : sets_up j m (CallSetMixnodes rel0 mixnodes r) m' -> rel = rel0).
    { intros (? & ? & ? & [= <- <- <-] & Hi' & _). by eapply index_of_inj. }
    destruct (decide (rel = rel0)) as [->|Hne].
    2:{ assert (ss_get (mx_sessions m') rel = ss_get (mx_sessions m) rel) as E.
        { inversion Hst; subst; cbn; try done; by destruct rel, rel0. }
        rewrite Hg in E. rewrite <- E. tauto. }
    clear Hgu Hsu. subst sl'.
    assert (Hout : open_slot (ss_get (mx_sessions m) rel0) -> ss_get (mx_sessions m) rel0 <> SlDisabled /\ ~ full (ss_get (mx_sessions m) rel0)).
    { intros [E|[k E]]; rewrite E; split; try done; by intros [? ?]. }
    inversion Hst; subst.
    - assert (H1 : ~ gives_up pr cf j m' (CallSetMixnodes rel0 mixnodes r) m') by (intros (? & ? & ? & [= <- <- <-] & _ & Ho & _); done).
      assert (H2 : ~ sets_up j m' (CallSetMixnodes rel0 mixnodes r) m').
      { intros (? & ? & ? & [= <- <- <-] & _ & Ho & s & E). by apply (Ho s). }
      tauto.
    - assert (H1 : ~ gives_up pr cf j m' (CallSetMixnodes rel0 (Err MeTransient) r) m').
      { intros (? & ? & ? & [= <- <- <-] & _ & Ho & [?|(? & ? & _)]); done. }
      assert (H2 : ~ sets_up j m' (CallSetMixnodes rel0 (Err MeTransient) r) m').
      { intros (? & ? & ? & [= <- <- <-] & _ & Ho & s & E). by apply (Ho s). }
      tauto.
    - rewrite get_set_slot, decide_True by done.
      match goal with H : open_slot _ |- _ => rename H into Ho end.
      match goal with H : mixnodes = _ \/ _ |- _ => rename H into Hwhy end. destruct (Hout Ho) as [Hd Hf].
      split.
      + split; [intros _; right|done]. exists rel0, mixnodes, r. split_and!; try done. rewrite <- (mo_config _ _ _ Hm). done.
      + split; [by intros [? ?]|]. intros [?|(? & ? & ? & [= <- <- <-] & _ & _ & s & E)]; [done|].
        rewrite get_set_slot, decide_True in E by done. done.
    - match goal with H : open_slot _ |- _ => rename H into Ho end.
      match goal with H : fresh_session _ _ _ _ _ _ |- _ => rename H into Hfs end. destruct (Hout Ho) as [Hd Hf].
      assert (E : forall rel', rel' = rel0 -> ss_get (mx_sessions (mx_or_events (set_slot m rel0 (SlFull s)) slot_changed)) rel' = SlFull s).
      { intros ? ->. cbn. by destruct rel0. }
      rewrite E by done. split.
      + split; [done|]. intros [?|(? & ? & ? & [= <- <- <-] & _ & _ & [?|(l' & Hl & Hn & Hk)])]. { done. } { done. } injection Hl as <-.
        exfalso. pose proof (fs_key _ _ _ _ _ _ Hfs) as Hkey. pose proof (fs_config _ _ _ _ _ _ Hfs) as Hco.
        pose proof (fs_mixnode _ _ _ _ _ _ Hfs) as Hmx. rewrite (mo_config _ _ _ Hm) in Hco.
        assert (Eo : own_public pr (ss_get (mx_sessions m) rel0) r = kp_public (se_kx_pair s)).
        { unfold own_public. f_equal. by destruct (ss_get (mx_sessions m) rel0). }
        rewrite Eo, <- Hmx in Hk. destruct (tp_is_mixnode (se_topology s)); [done|]. destruct Hco as (c & Ec & _). by rewrite Hn in Ec.
      + split; [intros _; right|by intros _; exists s]. exists rel0, (Ok l), r. split_and!; [done|done| |exists s; by apply E].
        intros s' Es. apply Hf. by exists s'.
  Qed.

  Lemma slot_at_le m j sl : slot_at m j = Some sl -> (j <= st_current_index (mx_status m))%N.
  Proof. intros H. apply slot_at_inv in H as ([] & H & _); cbn in H; lia. Qed.
  Lemma index_of_le m rel j : index_of m rel j -> (j <= st_current_index (mx_status m))%N.
  Proof. destruct rel; cbn; lia. Qed.

  Lemma status_changes m st j sl' :
    onward (mx_status m) st -> slot_at (set_session_status m st) j = Some sl' ->
    changes m (CallSetStatus st) (set_session_status m st) j sl'.
  Proof.
    intros Hon Hsl.
    assert (Hno1 : ~ gives_up pr cf j m (CallSetStatus st) (set_session_status m st)) by (intros (? & ? & ? & ? & _); done).
    assert (Hno2 : ~ sets_up j m (CallSetStatus st) (set_session_status m st)) by (intros (? & ? & ? & ? & _); done).
    assert (Hold : slot_at m j = Some sl' -> changes m (CallSetStatus st) (set_session_status m st) j sl').
    { intros E. right. exists sl'. tauto. }
    assert (Hnew : (st_current_index (mx_status m) < j)%N -> sl' <> SlDisabled -> ~ full sl' ->
      changes m (CallSetStatus st) (set_session_status m st) j sl') by (intros; by left).
    clear Hno1 Hno2. revert Hsl Hold Hnew.
    generalize (changes m (CallSetStatus st) (set_session_status m st) j sl') as G. intros G Hsl Hold Hnew.
    unfold set_session_status in Hsl. destruct (decide (mx_status m = st)) as [E|E]; [by apply Hold|]. cbv zeta in Hsl.
    assert (Hnx : forall sl, sl = match mx_next_kx_pair m with None => SlEmpty | Some k => SlKxPair k end ->
      sl <> SlDisabled /\ ~ full sl) by (intros ? ->; destruct (mx_next_kx_pair m); (split; [done|by intros [? ?]])).
    assert (Hem : SlEmpty <> SlDisabled /\ ~ full SlEmpty) by (split; [done|by intros [? ?]]).
    set (m1 := shift_sessions m (st_current_index st)) in Hsl.
    (** the slot after the shift *)
    assert (H1 : (j = st_current_index st /\ sl' = ss_current (mx_sessions m1)) \/
                 ((j + 1)%N = st_current_index st /\ st_phase st <> PDisconnectFromPrev /\ sl' = ss_prev (mx_sessions m1))).
    { revert Hsl. unfold slot_at. cbn [mx_status mx_set_status mx_or_events mx_sessions].
      destruct (decide (j = _)) as [Ej|Ej].
      - intros [= <-]. left. split; [done|]. by destruct (_ || _).
      - destruct (decide _) as [[Ej' Hph]|]; [|done]. intros [= <-]. right. split_and!; [done..|].
        assert (negb (need_prev (st_phase st)) || (st_current_index st =? 0)%N = false) as ->; [|done].
        apply orb_false_iff. split; [by destruct (st_phase st)|apply N.eqb_neq; lia]. }
    clear Hsl. unfold m1, shift_sessions in H1. clear m1.
    destruct (N.eqb_spec (st_current_index (mx_status m)) (st_current_index st)) as [Ei|Ei].
    - destruct Hon as [Hon|[_ Hon]]; [lia|]. apply Hold. destruct H1 as [[Ej ->]|(Ej & Hph & ->)].
      + apply (slot_at_get m RCurrent); [cbn; congruence|done].
      + apply (slot_at_get m RPrev); [cbn; congruence|]. intros _ Hd. rewrite Hd in Hon.
        destruct (st_phase st); cbn in Hon; (done || lia).
    - destruct Hon as [Hon|[? _]]; [|done].
      assert (Hd : exists k, saturating_sub (st_current_index st) (st_current_index (mx_status m)) = k /\
        (st_current_index st = st_current_index (mx_status m) + k)%N /\ k <> 0%N).
      { eexists. split; [done|]. unfold saturating_sub. lia. }
      destruct Hd as (k & Ek & Hk & Hk0). rewrite Ek in H1.
      destruct (decide (k = 1%N)) as [->|Hk1]; [|destruct (decide (k = 2%N)) as [->|Hk2]].
      + cbn in H1. destruct H1 as [[Ej ->]|(Ej & Hph & ->)].
        * destruct (Hnx _ eq_refl). apply Hnew; [lia|done..].
        * apply Hold. apply (slot_at_get m RCurrent); [cbn; lia|done].
      + cbn in H1. destruct H1 as [[Ej ->]|(Ej & Hph & ->)].
        * destruct Hem. apply Hnew; [lia|done..].
        * destruct (Hnx _ eq_refl). apply Hnew; [lia|done..].
      + assert (sl' = SlEmpty) as ->.
        { assert (Hmt : negb (ss_is_empty (mx_sessions m)) || negb (slot_is_empty match mx_next_kx_pair m with None => SlEmpty | Some k => SlKxPair k end) = false ->
             ss_current (mx_sessions m) = SlEmpty /\ ss_prev (mx_sessions m) = SlEmpty).
          { intros [H _]%orb_false_iff. apply negb_false_iff, andb_true_iff in H as [Ha Hb].
            split; [clear -Ha; destruct (ss_current (mx_sessions m)); done|clear -Hb; destruct (ss_prev (mx_sessions m)); done]. }
          destruct k as [|[p|[p|p|]|]]; try done; destruct (_ || _); cbn in H1;
            try destruct (Hmt eq_refl) as [Ha Hb]; destruct H1 as [[_ H1]|(_ & _ & H1)]; congruence. }
        destruct Hem. apply Hnew; [|done..]. destruct H1 as [[Ej _]|[Ej _]]; lia.
  Qed.

  Lemma step_changes m c m' a j sl' :
    mx_ok pr cf m -> step pr m c m' a -> (forall st, c = CallSetStatus st -> onward (mx_status m) st) ->
    slot_at m' j = Some sl' -> changes m c m' j sl'.
  Proof.
    intros Hm Hst Hon Hsl.
    assert (Hd : (exists st, c = CallSetStatus st) \/ (exists rel mixnodes r, c = CallSetMixnodes rel mixnodes r) \/
      ((forall st, c <> CallSetStatus st) /\ forall rel mixnodes r, c <> CallSetMixnodes rel mixnodes r)).
    { destruct c; [left; by eexists|right; left; by repeat eexists|by right; right..]. }
    destruct Hd as [[st ->]|[(rel & mixnodes & r & ->)|[Hc1 Hc]]].
    { inversion Hst; subst. apply status_changes; [by apply Hon|done]. }
    { by eapply mixnodes_changes. }
    destruct Hst; try (by apply same_changes); try (by edestruct Hc); try (by edestruct Hc1).
    - pose proof (reads_get _ _ _ _ _ H) as Hg. eapply (put_changes _ _ _ _ _ rel s); [done| |done| |done].
      + unfold enqueue. by destruct (decide _).
      + unfold enqueue. by destruct (decide _).
    - pose proof (reads_get _ _ _ _ _ H) as Hg. by eapply (put_changes _ _ _ _ _ rel s).
    - pose proof (reads_get _ _ _ _ _ H) as Hg. by eapply (put_changes _ _ _ _ _ rel s).
    - eapply (put_changes _ _ _ _ _ rel s); [done| |done| |done].
      + unfold m1. by destruct (aq_pop _).2.
      + unfold m1. by destruct (aq_pop _).2.
    - destruct H as [Hu _ _ _ _ _ _ _ _ -> _ _ _ _ _]. apply usable_get in Hu. by eapply (put_changes _ _ _ _ _ rel s).
    - match goal with H : usable _ _ _ _ |- _ => apply usable_get in H; by eapply (put_changes _ _ _ _ _ rel s) end.
  Qed.

  Lemma onward_refl st : onward st st.
  Proof. right. done. Qed.
  Lemma onward_trans a b c : onward a b -> onward b c -> onward a c.
  Proof. unfold onward. intros [H|[H H']] [I|[I I']]; lia. Qed.
  Lemma step_status m c m' a :
    step pr m c m' a -> mx_status m' = match c with CallSetStatus st => st | _ => mx_status m end.
  Proof.
    intros Hst. destruct Hst; try done.
    - apply status_index.
    - unfold enqueue. by destruct (decide _).
    - unfold m1. by destruct (aq_pop _).2.
    - destruct H as [Hu _ _ _ _ _ _ _ _ -> _ _ _ _ _]. done.
  Qed.
  Lemma forwards_step st c a hist :
    forwards st ((c, a) :: hist) ->
    (forall st', c = CallSetStatus st' -> onward st st') /\
    let st1 := match c with CallSetStatus st' => st' | _ => st end in onward st st1 /\ forwards st1 hist.
  Proof.
    destruct c as [st'| | | | | | | |]; cbn; intros H.
    1:{ destruct H. split; [by intros ? [= <-]|done]. }
    all: split; [done|split; [apply onward_refl|done]].
  Qed.
  Lemma sometime_cons P m c a m1 hist :
    exec pr m c = Val (m1, a) -> (sometime pr P m ((c, a) :: hist) <-> P m c m1 \/ sometime pr P m1 hist).
  Proof.
    intros He. split.
    - intros H. inversion H as [? ? ? ? m1' He' HP|? ? ? ? m1' He' HP]; subst; rewrite He in He'; injection He' as <-; tauto.
    - intros [HP|HP]; [by eapply SoNow|by eapply SoLater].
  Qed.

  Lemma run_changes m hist m' :
    mx_ok pr cf m -> run pr m hist m' -> forwards (mx_status m) hist ->
    onward (mx_status m) (mx_status m') /\
    forall j sl', slot_at m' j = Some sl' ->
      ((st_current_index (mx_status m) < j)%N /\
       (sl' = SlDisabled <-> sometime pr (gives_up pr cf j) m hist) /\ (full sl' <-> sometime pr (sets_up j) m hist)) \/
      exists sl, slot_at m j = Some sl /\
       (sl' = SlDisabled <-> sl = SlDisabled \/ sometime pr (gives_up pr cf j) m hist) /\
       (full sl' <-> full sl \/ sometime pr (sets_up j) m hist).
  Proof.
    intros Hm H. induction H as [m|m c a m1 hist m2 Hc He Hr IH]; intros Hf.
    { split; [apply onward_refl|]. intros j sl' Hsl. right. exists sl'.
      assert (Hn : forall P, ~ sometime pr P m []) by (intros P H; inversion H).
      pose proof (Hn (gives_up pr cf j)). pose proof (Hn (sets_up j)). tauto. }
    pose proof (exec_step pr Hok cf _ _ _ _ Hcf Hm Hc He) as Hst.
    pose proof (step_inv pr Hok cf _ _ _ _ Hcf Hm Hc Hst) as Hm1.
    apply forwards_step in Hf as (Hon & Hon1 & Hf). cbv zeta in Hon1, Hf.
    rewrite <- (step_status _ _ _ _ Hst) in Hon1, Hf. destruct (IH Hm1 Hf) as [Hon2 IH']. clear IH.
    split; [by eapply onward_trans|]. intros j sl' Hsl. rewrite !(sometime_cons _ _ _ _ _ _ He).
    assert (Hle : (st_current_index (mx_status m) <= st_current_index (mx_status m1))%N) by (destruct Hon1 as [|[]]; lia).
    assert (Hno : (st_current_index (mx_status m) < j)%N -> ~ gives_up pr cf j m c m1 /\ ~ sets_up j m c m1).
    { intros Hlt. split; intros (? & ? & ? & _ & Hi & _); apply index_of_le in Hi; lia. }
    destruct (IH' j sl' Hsl) as [(Hlt & H1 & H2)|(sl & Hs & H1 & H2)].
    - destruct (Hno ltac:(lia)). left. split; [lia|]. tauto.
    - destruct (step_changes _ _ _ _ _ _ Hm Hst Hon Hs) as [(Hlt & H3 & H4)|(sl0 & Hs0 & H3 & H4)].
      + destruct (Hno Hlt). left. split; [done|]. tauto.
      + right. exists sl0. split; [done|]. rewrite !(sometime_cons _ _ _ _ _ _ He). tauto.
  Qed.

  (** The slot of a session that is needed tells what has happened to the session. *)
  Lemma slot_history m0 hist m j sl :
    mx_new pr cf = Val m0 -> run pr m0 hist m -> forwards (SessionStatus 0 PCoverToCurrent) hist -> slot_at m j = Some sl ->
    (sl = SlDisabled <-> sometime pr (gives_up pr cf j) m0 hist) /\ (full sl <-> sometime pr (sets_up j) m0 hist).
  Proof.
    intros E0 Hr Hf Hsl. pose proof (mx_new_ok _ _ _ Hcf E0) as Hm0.
    assert (E : mx_status m0 = SessionStatus 0 PCoverToCurrent /\ open_slot (ss_current (mx_sessions m0))).
    { unfold mx_new in E0. apply out_bind_Val in E0 as (ks & _ & E0). injection E0 as <-.
      split; [done|]. unfold open_slot. cbn. destruct (cf_session_0_kx_secret cf); [right; by eexists|by left]. }
    destruct E as [Est Ess]. rewrite <- Est in Hf.
    destruct (run_changes _ _ _ Hm0 Hr Hf) as [_ H]. destruct (H j sl Hsl) as [(_ & H1 & H2)|(sl0 & Hs0 & H1 & H2)]; [done|].
    assert (Ho : open_slot sl0).
    { apply slot_at_inv in Hs0 as ([] & Hi & Hg & _); cbn in Hi, Hg; [congruence|]. rewrite Est in Hi. cbn in Hi. lia. }
    assert (sl0 <> SlDisabled /\ ~ full sl0) as [] by (destruct Ho as [->|[k ->]]; (split; [done|by intros [? ?]])).
    tauto.
  Qed.

  (** What a post answers and what [post_session] says. *)
  Lemma posts_session m c m' a index e :
    mx_ok pr cf m -> call_ok c -> exec pr m c = Val (m', a) -> posts index c a e ->
    e = Some PeTooManyFragments \/
    (exists rel s, usable m index rel s /\ forall e', e = Some e' -> ~ session_error e') \/
    (exists e', e = Some e' /\ unusable m index e').
  Proof.
    intros Hm Hc He Hp. pose proof (mx_posting _ _ _ Hcf Hm) as Hpost. pose proof (post_session_spec m index) as Hs.
    destruct Hp as [dest id data k ns r d res|surbs id data lft res]; cbn [exec] in He;
      apply out_bind_Val in He as ([[m1 b] res'] & E & He); injection He as <- <- <-.
    - unfold post_request in E. apply out_bind_Val in E as ([bs|] & _ & E); [|injection E as _ _ <-; by left].
      destruct (_ <? _)%N; [injection E as _ _ <-; by left|].
      destruct (post_session _ _ _) as [[rel s]|e]; [|injection E as _ _ <-; right; right; by eexists].
      destruct (aq_check_space _ _) as [|e].
      2:{ injection E as _ _ <-. destruct e; [by left|]. right; left. exists rel, s. split; [done|]. intros e' Ee; injection Ee as <-; by intros []. }
      right; left. exists rel, s. split; [done|]. intros e'.
      apply out_bind_Val in E as ([[rb r']|e] & _ & E); [|injection E as _ _ <-; intros Ee; injection Ee as <-; by intros []].
      apply out_bind_Val in E as ([st lres] & _ & E). destruct lres as [|e]; [|injection E as _ _ <-; intros Ee; injection Ee as <-; by intros []].
      apply out_bind_Val in E as (? & _ & E). apply out_bind_Val in E as (? & _ & E). injection E as _ _ <-. done.
    - destruct Hc as (Ha & _).
      destruct (C37_post_reply pr m surbs index id data Hpost Ha) as [H|H].
      + destruct H as (e & E' & H). rewrite E' in E. injection E as _ _ <-.
        destruct e; try (right; right; eexists; by split); try done; [by left|].
        right; left. destruct H as (rel & s & n & Hu & _). exists rel, s. split; [done|]. intros e' Ee; injection Ee as <-; by intros [].
      + destruct H as (rel & s & bs & used & packets & lft' & res2 & Hu & _ & _ & _ & E' & Hres). rewrite E' in E. injection E as _ _ <-.
        right; left. exists rel, s. split; [done|]. intros e' Ee. destruct res2 as [|e]; [done|]. injection Ee as <-.
        destruct Hres as (? & ? & ? & bad & _ & _ & _ & Hb). unfold bad_surb in Hb. destruct e; try done; naive_solver.
  Qed.

  Lemma in_time_index m index rel :
    in_time (mx_status m) index rel -> index_of m rel index /\ (rel = RPrev -> st_phase (mx_status m) <> PDisconnectFromPrev).
  Proof.
    intros H. unfold index_of. inversion H as [i ph Hph E|i ph Hph E]; subst; cbn; [done|].
    split; [done|]. by destruct Hph as [-> | ->].
  Qed.
  Lemma in_time_slot m index rel :
    in_time (mx_status m) index rel -> slot_at m index = Some (ss_get (mx_sessions m) rel).
  Proof. intros [H1 H2]%in_time_index. by apply slot_at_get. Qed.

  (** C68: if the session status has only moved on, then what a post says about the session is what has
      happened to it. *)
  Theorem C68_post m0 hist m index c m' a e :
    mx_new pr cf = Val m0 -> run pr m0 hist m -> forwards (SessionStatus 0 PCoverToCurrent) hist ->
    call_ok c -> exec pr m c = Val (m', a) -> posts index c a e ->
    let up := sometime pr (sets_up index) m0 hist in
    let off := sometime pr (gives_up pr cf index) m0 hist in
    match e with
    | Some PeTooManyFragments => True
    | Some (PeSessionNoLongerActive i) =>
        i = index /\ ((index + 1 < st_current_index (mx_status m))%N \/
          (index + 1 = st_current_index (mx_status m))%N /\ 2 ≤ phase_number (st_phase (mx_status m)))
    | Some (PeSessionNotActiveYet i) =>
        i = index /\ ((st_current_index (mx_status m) < index)%N \/
          index = st_current_index (mx_status m) /\ phase_number (st_phase (mx_status m)) = 0)
    | Some (PeSessionMixnodesNotKnown i) => i = index /\ ~ up /\ ~ off
    | Some (PeSessionDisabled i) => i = index /\ ~ up /\ off
    | _ => up /\ ~ off
    end.
  Proof.
    intros E0 Hr Hf Hc He Hp.
    assert (Hm : mx_ok pr cf m) by (eapply run_ok; [done..| |done]; by apply mx_new_ok).
    destruct (posts_session _ _ _ _ _ _ Hm Hc He Hp) as [->|[(rel & s & Hu & Hne)|(e' & -> & Hu)]]; cbv zeta.
    - done.
    - assert (Hs : slot_at m index = Some (SlFull s)).
      { rewrite (in_time_slot _ _ _ (proj1 Hu)). by rewrite (usable_get _ _ _ _ Hu). }
      destruct (slot_history _ _ _ _ _ E0 Hr Hf Hs) as [H1 H2].
      assert (HH : sometime pr (sets_up index) m0 hist /\ ~ sometime pr (gives_up pr cf index) m0 hist).
      { rewrite <- H1, <- H2. split; [by exists s|done]. }
      destruct e as [[]|]; try exact HH; try exact I; exfalso; eapply (Hne _ eq_refl); exact I.
    - destruct Hu as [Hx|Hx|rel Ht Hx|rel Ht Hx].
      + split; [done|]. destruct Hx as [Hx|[Hx Hy]]; [by left|]. right. split; [done|]. destruct Hy as [-> | ->]; cbn; lia.
      + split; [done|]. destruct Hx as [Hx|[Hx Hy]]; [by left|]. right. split; [done|]. by rewrite Hy.
      + assert (Ho : open_slot (ss_get (mx_sessions m) rel)) by (by destruct rel).
        pose proof (in_time_slot _ _ _ Ht) as Hs. destruct (slot_history _ _ _ _ _ E0 Hr Hf Hs) as [H1 H2].
        split; [done|]. rewrite <- H1, <- H2. destruct Ho as [-> |[k ->]]; (split; [by intros [? ?]|done]).
      + assert (Ho : ss_get (mx_sessions m) rel = SlDisabled) by (by destruct rel).
        pose proof (in_time_slot _ _ _ Ht) as Hs. destruct (slot_history _ _ _ _ _ E0 Hr Hf Hs) as [H1 H2].
        split; [done|]. rewrite <- H1, <- H2, Ho. split; [by intros [? ?]|done].
  Qed.

  (** What it says stays true: a session that is no longer active is never active again, a session that is
      disabled stays so for as long as it is active, and a session that could be used was not inactive for
      being too old before. *)
  Theorem C68_lasting m0 hist m h m2 index c m' a e c2 m2' a2 e2 :
    mx_new pr cf = Val m0 -> run pr m0 hist m -> run pr m h m2 -> forwards (mx_status m) h ->
    call_ok c -> exec pr m c = Val (m', a) -> posts index c a e ->
    call_ok c2 -> exec pr m2 c2 = Val (m2', a2) -> posts index c2 a2 e2 ->
    match e with
    | Some (PeSessionNoLongerActive _) => e2 = Some (PeSessionNoLongerActive index) \/ e2 = Some PeTooManyFragments
    | Some (PeSessionDisabled _) =>
        e2 = Some (PeSessionDisabled index) \/ e2 = Some (PeSessionNoLongerActive index) \/ e2 = Some PeTooManyFragments
    | Some (PeSessionNotActiveYet _) | Some PeTooManyFragments => True
    | Some (PeSessionMixnodesNotKnown _) => forall i, e2 <> Some (PeSessionNotActiveYet i)
    | _ => forall i, e2 <> Some (PeSessionNotActiveYet i) /\ e2 <> Some (PeSessionMixnodesNotKnown i) /\ e2 <> Some (PeSessionDisabled i)
    end.
  Proof.
    intros E0 Hr Hr2 Hf Hc He Hp Hc2 He2 Hp2.
    assert (Hm : mx_ok pr cf m) by (eapply run_ok; [done..| |done]; by apply mx_new_ok).
    assert (Hm2 : mx_ok pr cf m2) by (by eapply run_ok).
    destruct (run_changes _ _ _ Hm Hr2 Hf) as [Hon Hch].
    assert (Hle : (st_current_index (mx_status m) <= st_current_index (mx_status m2))%N) by (destruct Hon as [|[]]; lia).
    (** while it is in time at both moments *)
    assert (Hboth : forall rel rel2, in_time (mx_status m) index rel -> in_time (mx_status m2) index rel2 ->
      (ss_get (mx_sessions m) rel = SlDisabled -> ss_get (mx_sessions m2) rel2 = SlDisabled) /\
      (full (ss_get (mx_sessions m) rel) -> full (ss_get (mx_sessions m2) rel2))).
    { intros rel rel2 Ht Ht2. apply in_time_slot in Ht, Ht2. destruct (Hch _ _ Ht2) as [[Hlt _]|(sl & Hs & H1 & H2)].
      - apply slot_at_le in Ht. lia.
      - rewrite Ht in Hs. injection Hs as <-. tauto. }
    assert (Hpast : forall e', unusable m2 index e' ->
      ((index + 1 < st_current_index (mx_status m))%N \/
       (index + 1 = st_current_index (mx_status m))%N /\
         (st_phase (mx_status m) = PCoverToPrev \/ st_phase (mx_status m) = PDisconnectFromPrev)) ->
      e' = PeSessionNoLongerActive index).
    { intros e' Hu Hx. eapply unusable_unique; [done|]. apply UnPast.
      destruct Hon as [Hon|[Ei Hon]]; [left; destruct Hx as [|[]]; lia|]. rewrite <- Ei. destruct Hx as [Hx|[Hx Hy]]; [by left|].
      right. split; [done|]. destruct Hy as [Hy|Hy]; rewrite Hy in Hon; destruct (st_phase (mx_status m2)); cbn in Hon; (lia || auto). }
    assert (Hpast' : forall rel2 s, usable m2 index rel2 s ->
      ~ ((index + 1 < st_current_index (mx_status m))%N \/
       (index + 1 = st_current_index (mx_status m))%N /\
         (st_phase (mx_status m) = PCoverToPrev \/ st_phase (mx_status m) = PDisconnectFromPrev))).
    { intros rel2 s Hu Hx. eapply usable_unusable; [exact Hu|]. apply UnPast.
      destruct Hon as [Hon|[Ei Hon]]; [left; destruct Hx as [|[]]; lia|]. rewrite <- Ei. destruct Hx as [Hx|[Hx Hy]]; [by left|].
      right. split; [done|]. destruct Hy as [Hy|Hy]; rewrite Hy in Hon; destruct (st_phase (mx_status m2)); cbn in Hon; (lia || auto). }
    assert (Hnot : forall rel, in_time (mx_status m) index rel -> ~ unusable m2 index (PeSessionNotActiveYet index)).
    { intros rel Ht Hu. inversion Hu as [|Hx| |]; subst.
      inversion Ht as [i ph Hph E|i ph Hph E]; subst; rewrite <- E in Hle, Hon; cbn in Hle; destruct Hx as [Hx|[Hx Hy]]; try lia.
      destruct Hon as [Hon|[_ Hon]]; cbn in Hon; [lia|]. rewrite Hy in Hon. by destruct Hph as [->|[-> | ->]]; cbn in Hon; lia. }
    (** the two posts *)
    destruct (posts_session _ _ _ _ _ _ Hm Hc He Hp) as [->|[(rel & s & Hu & Hne)|(e' & -> & Hu)]]; [done| |].
    - assert (Hgoal : forall i, e2 <> Some (PeSessionNotActiveYet i) /\ e2 <> Some (PeSessionMixnodesNotKnown i) /\ e2 <> Some (PeSessionDisabled i)).
      { destruct (posts_session _ _ _ _ _ _ Hm2 Hc2 He2 Hp2) as [->|[(rel2 & s2 & Hu2 & Hne2)|(e2' & -> & Hu2)]]; [done| |].
        - intros i. split_and!; intros ->; eapply (Hne2 _ eq_refl); exact I.
        - pose proof (usable_get _ _ _ _ Hu) as Hg. destruct Hu as [Ht _].
          inversion Hu2 as [Hx|Hx|rel2 Ht2 Hx|rel2 Ht2 Hx]; subst; [done| | |].
          + by destruct (Hnot _ Ht).
          + destruct (Hboth _ _ Ht Ht2) as [_ Hfu]. destruct (Hfu ltac:(by eexists)) as [s2 Es]. destruct rel2; cbn in Es, Hx; rewrite Es in Hx; by destruct Hx as [|[]].
          + destruct (Hboth _ _ Ht Ht2) as [_ Hfu]. destruct (Hfu ltac:(by eexists)) as [s2 Es]. destruct rel2; cbn in Es, Hx; by rewrite Es in Hx. }
      destruct e as [[]|]; try exact Hgoal; try exact I; exfalso; eapply (Hne _ eq_refl); exact I.
    - inversion Hu as [Hx|Hx|rel Ht Hx|rel Ht Hx]; subst; [| done| |].
      + destruct (posts_session _ _ _ _ _ _ Hm2 Hc2 He2 Hp2) as [->|[(rel2 & s2 & Hu2 & Hne2)|(e2' & -> & Hu2)]]; [by right| |].
        * by destruct (Hpast' _ _ Hu2).
        * left. by rewrite (Hpast _ Hu2 Hx).
      + intros i ->. destruct (posts_session _ _ _ _ _ _ Hm2 Hc2 He2 Hp2) as [[=]|[(rel2 & s2 & Hu2 & Hne2)|(e2' & [= <-] & Hu2)]].
        * eapply (Hne2 _ eq_refl); exact I.
        * inversion Hu2; subst. by destruct (Hnot _ Ht).
      + destruct (posts_session _ _ _ _ _ _ Hm2 Hc2 He2 Hp2) as [->|[(rel2 & s2 & Hu2 & Hne2)|(e2' & -> & Hu2)]]; [by right; right| |].
        * exfalso. pose proof (usable_get _ _ _ _ Hu2) as Hg. destruct (Hboth _ _ Ht (proj1 Hu2)) as [Hd _]. rewrite Hd in Hg; [done|by destruct rel].
        * inversion Hu2 as [Hy|Hy|rel2 Ht2 Hy|rel2 Ht2 Hy]; subst; [by right; left|by destruct (Hnot _ Ht)| |by left].
          exfalso. destruct (Hboth _ _ Ht Ht2) as [Hd _]. specialize (Hd ltac:(by destruct rel)).
          destruct rel2; cbn in Hd, Hy; rewrite Hd in Hy; by destruct Hy as [|[]].
  Qed.
End truth.
