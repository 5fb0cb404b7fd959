(** First come, first served in the request manager: C59. *)
From Verif Require Export PRequests.
Local Open Scope N_scope.

(** ** Specification *)
Section spec.
  Context {Req : Type}.
  Implicit Types (m : request_manager Req) (st : request_state Req).

  (** The request an event is about *)
  Definition about (e : rm_event Req) : Req :=
    match e with EvPosted r _ _ _ _ _ | EvNoSpace r | EvPostErr r _ | EvRetryLimit r => r end.
  (** The session that the requests of a post queue are for: the one of the queue, or the one the
      phase says new requests go to. *)
  Definition session_of m (rel : option rel_session_index) : rel_session_index :=
    match rel with
    | Some rel => rel
    | None => default_request_session (st_phase (rqm_status m))
    end.
  (** Before session 0 there is none. *)
  Definition missing m rel : Prop := session_of m rel = RPrev /\ st_current_index (rqm_status m) = 0.
  (** [st] waits for the session that queue [rel] is for, in that queue or in another one. *)
  Definition waits_for m rel st : Prop :=
    exists rel', session_of m rel' = session_of m rel /\ st ∈ pq_get (rqm_post_queues m) rel'.
  (** Posts go to the session of queue [rel]. *)
  Definition posts_to m rel (e : rm_event Req) : Prop :=
    match e with
    | EvPosted _ _ i _ _ _ =>
        match session_of m rel with
        | RCurrent => i = st_current_index (rqm_status m)
        | RPrev => i + 1 = st_current_index (rqm_status m)
        end
    | EvNoSpace _ | EvPostErr _ _ => True
    | EvRetryLimit _ => False
    end.

  (** What is done with a request that is new or to be retried. *)
  Inductive admitted m (r : Req) (evs : list (rm_event Req)) m' : Prop :=
  | AdGivenUp : evs = [EvRetryLimit r] -> rqm_post_queues m' = rqm_post_queues m -> admitted m r evs m'
  | AdWaits rel st :
      (exists st', waits_for m rel st') \/ missing m rel ->
      rst_request st = r -> evs = [] ->
      pq_get (rqm_post_queues m') rel = (pq_get (rqm_post_queues m) rel ++ [st])%list ->
      (forall rel', rel' <> rel -> pq_get (rqm_post_queues m') rel' = pq_get (rqm_post_queues m) rel') ->
      admitted m r evs m'
  | AdTried rel :
      ~ (exists st', waits_for m rel st') -> ~ missing m rel -> evs <> [] ->
      Forall (fun e => about e = r /\ posts_to m rel e) evs ->
      admitted m r evs m'.

  (** The requests [q] get their turns in order: as far as both lists go, the events are about the
      requests of [q] one after the other; and nobody is left out unless room in the authored packet
      queue runs out. *)
  Definition in_turn (q : list (request_state Req)) (evs : list (rm_event Req)) : Prop :=
    take (length q) (map about evs) = take (length evs) (map rst_request q) /\
    ((length q <= length evs)%nat \/ exists r, last evs = Some (EvNoSpace r)).
  (** What is left of the requests [q]: nothing, or, when room has run out, those who had no turn, in
      the same order, starting with the one there was no room for, perhaps followed by others. *)
  Definition stays (q : list (request_state Req)) (evs : list (rm_event Req)) (q' : list (request_state Req)) : Prop :=
    q' = [] \/
    ((exists r, last evs = Some (EvNoSpace r)) /\
     exists others, map rst_request q' = (drop (length evs - 1) (map rst_request q) ++ others)%list).
  (** What happens to queue [rel]. *)
  Definition served m rel (evs : list (rm_event Req)) m' : Prop :=
    let q := pq_get (rqm_post_queues m) rel in
    let q' := pq_get (rqm_post_queues m') rel in
    (missing m rel /\ evs = [] /\ q' = q) \/
    (~ missing m rel /\ in_turn q evs /\ Forall (posts_to m rel) evs /\ stays q evs q').
End spec.

Section turn.
  Context {W Req : Type}.
  Context (post : W -> session_index -> option mixnode_index -> bytes -> Req ->
                  outcome (W * option mixnode_index * result request_metrics post_err)).
  Context (now : W -> instant * W).
  Context (fresh_id : W -> bytes * W).
  Context (hd : Req -> bytes -> duration).
  Notation manager := (request_manager Req).
  Notation state := (request_state Req).
  Implicit Types (m : manager) (st : state).

  Lemma in_turn_cons st (q extra : list state) e evs :
    about e = rst_request st -> in_turn (q ++ extra) evs -> in_turn (st :: q) (e :: evs).
  Proof.
    intros He [H1 H2]. split.
    - cbn. rewrite He. f_equal. apply (f_equal (take (length q))) in H1. rewrite app_length in H1.
      rewrite take_take, Nat.min_l in H1 by lia. rewrite H1, map_app, take_take.
      destruct (decide (length q <= length evs)%nat) as [Hl|Hl].
      + rewrite Nat.min_l by done. rewrite take_app_le by (rewrite map_length; lia).
        rewrite !take_ge by (rewrite map_length; lia). done.
      + rewrite Nat.min_r by lia. by rewrite take_app_le by (rewrite map_length; lia).
    - destruct H2 as [H2|[r H2]]; [left; rewrite app_length in H2; cbn; lia|]. right. exists r. by destruct evs.
  Qed.
  Lemma in_turn_mono (q extra : list state) evs : in_turn (q ++ extra) evs -> in_turn q evs.
  Proof.
    intros [H1 H2]. split.
    - apply (f_equal (take (length q))) in H1. rewrite app_length in H1.
      rewrite take_take, Nat.min_l in H1 by lia. rewrite H1, map_app, take_take.
      destruct (decide (length q <= length evs)%nat) as [Hl|Hl].
      + rewrite Nat.min_l by done. rewrite take_app_le by (rewrite map_length; lia).
        rewrite !take_ge by (rewrite map_length; lia). done.
      + rewrite Nat.min_r by lia. by rewrite take_app_le by (rewrite map_length; lia).
    - destruct H2 as [H2|H2]; [left; rewrite app_length in H2; lia|by right].
  Qed.

  Lemma stays_mono (q extra : list state) evs q' : stays (q ++ extra) evs q' -> stays q evs q'.
  Proof.
    intros [->|[Hl [o Ho]]]; [by left|]. right. split; [done|]. rewrite Ho, map_app, skipn_app, <-(assoc_L (++)%list). eauto.
  Qed.
  Lemma stays_cons st (q extra : list state) e evs q' :
    (forall r, e <> EvNoSpace r) -> stays (q ++ extra) evs q' -> stays (st :: q) (e :: evs) q'.
  Proof.
    intros He [->|[[r Hl] [o Ho]]]; [by left|]. right. destruct evs as [|e' evs]; [done|]. split; [by exists r|].
    rewrite Ho, map_app, skipn_app, <-(assoc_L (++)%list). cbn [length map]. rewrite Nat.sub_succ, Nat.sub_0_r. cbn [drop]. eauto.
  Qed.

  (** What the loop over queue [rel] does to the log and to the other queues. *)
  Record looped rel (rod : rel_session_index) (i : session_index) m (evs : list (rm_event Req)) m' : Prop := {
    lo_status : rqm_status m' = rqm_status m;
    lo_log : rqm_log m' = (rqm_log m ++ evs)%list;
    lo_turn : in_turn (pq_get (rqm_post_queues m) rel) evs;
    lo_ne : pq_get (rqm_post_queues m) rel <> [] -> evs <> [];
    lo_other rel' : rel' <> rel -> exists extra,
      pq_get (rqm_post_queues m') rel' = (pq_get (rqm_post_queues m) rel' ++ extra)%list;
    lo_same rel' : rel' <> rel -> rel' <> Some rod ->
      pq_get (rqm_post_queues m') rel' = pq_get (rqm_post_queues m) rel';
    lo_stays : stays (pq_get (rqm_post_queues m) rel) evs (pq_get (rqm_post_queues m') rel);
    lo_to e : e ∈ evs ->
      match e with EvPosted _ _ j _ _ _ => j = i | EvRetryLimit _ => False | _ => True end;
    lo_about (P : Req -> Prop) :
      Forall (fun st => P (rst_request st)) (pq_get (rqm_post_queues m) rel) ->
      Forall (fun st => P (rst_request st)) (pq_get (rqm_post_queues m) (Some rod)) ->
      Forall (fun e => P (about e)) evs /\ Forall (fun st => P (rst_request st)) (pq_get (rqm_post_queues m') (Some rod))
  }.
  Lemma pq_get_other {T} (q : post_queues T) rel rel' l : rel' <> rel -> pq_get (pq_set q rel l) rel' = pq_get q rel'.
  Proof. by destruct rel as [[]|], rel' as [[]|]. Qed.
  Lemma pq_get_eq {T} (q : post_queues T) rel l : pq_get (pq_set q rel l) rel = l.
  Proof. by destruct rel as [[]|]. Qed.

  Lemma val_pair {A B} (a a' : A) (b b' : B) : Val (a, b) = Val (a', b') -> a = a' /\ b = b'.
  Proof. by intros [= -> ->]. Qed.
  Lemma looped_cons rel rod i m st rest extra e m1 evs m' :
    pq_get (rqm_post_queues m) rel = st :: rest -> about e = rst_request st ->
    rqm_status m1 = rqm_status m -> rqm_log m1 = (rqm_log m ++ [e])%list ->
    (match e with EvPosted _ _ j _ _ _ => j = i | EvRetryLimit _ | EvNoSpace _ => False | _ => True end) ->
    (forall rel', pq_get (rqm_post_queues m1) rel' =
       ((if decide (rel' = rel) then rest else pq_get (rqm_post_queues m) rel') ++
        (if decide (rel' = Some rod) then extra else []))%list) ->
    Forall (fun st' => rst_request st' = rst_request st) extra ->
    looped rel rod i m1 evs m' -> looped rel rod i m (e :: evs) m'.
  Proof.
    intros Hq He Hst Hlog Hto Hqs Hex [L1 L2 L3 L4 L5 L5a L5b L6 L7]. split.
    - congruence.
    - rewrite L2, Hlog. by rewrite <-(assoc_L (++)%list).
    - rewrite Hq. rewrite Hqs, decide_True in L3 by done. by eapply in_turn_cons.
    - done.
    - intros rel' Hne. destruct (L5 rel' Hne) as [ex ->]. rewrite Hqs, decide_False by done.
      eexists. by rewrite <-(assoc_L (++)%list).
    - intros rel' Hne Hne'. rewrite (L5a rel' Hne Hne'), Hqs. by rewrite !decide_False, app_nil_r by done.
    - rewrite Hq. rewrite Hqs, decide_True in L5b by done. eapply stays_cons; [|exact L5b]. by intros r ->.
    - intros e' [->|Hin]%elem_of_cons; [by destruct e|by apply L6].
    - intros P H1 H2. rewrite Hq in H1. apply Forall_cons in H1 as [Hs H1].
      assert (Hexp : Forall (fun st => P (rst_request st)) extra).
      { eapply Forall_impl; [exact Hex|]. by intros x ->. }
      destruct (L7 P) as [H3 H4].
      + rewrite Hqs, decide_True by done. apply Forall_app. split; [done|]. by case_decide.
      + rewrite Hqs, (decide_True _ _ (eq_refl (Some rod))). apply Forall_app. split; [|done]. case_decide as Hd; [done|done].
      + split; [|done]. constructor; [by rewrite He|done].
  Qed.

  Lemma loop_looped fuel rel rod idx i m w m' w' :
    post_loop post now hd fuel rel rod idx i m w = Val (m', w') -> exists evs, looped rel rod i m evs m'.
  Proof.
    revert m w. induction fuel as [|fuel IH]; intros m w H; [done|]. cbn in H.
    destruct (pq_get (rqm_post_queues m) rel) as [|st rest] eqn:Hq.
    { injection H as <- <-. exists []. split; rewrite ?Hq, ?app_nil_r; try done.
      - split; [done|]. left. cbn. lia.
      - intros rel' _. exists []. by rewrite app_nil_r.
      - by left.
      - by intros e He%elem_of_nil. }
    apply out_bind_Val in H as (u & _ & H). apply out_bind_Val in H as ([[w1 dest] res] & _ & H).
    destruct res as [mt|e].
    - apply out_bind_Val in H as ([m1 w2] & Ho & H). apply IH in H as [evs H].
      unfold post_ok in Ho. cbn [rst_request rst_message_id rst_destination_index rst_posts_remaining] in Ho.
      apply out_bind_Val in Ho as (rtt & _ & Ho). destruct (now w1) as [t w3].
      destruct (checked_sub (rst_posts_remaining st) 1) as [k|].
      + apply val_pair in Ho as [<- <-].
        match type of H with looped _ _ _ (rqm_set_queues (rqm_emit _ ?e) (pq_set _ _ (_ ++ [?st1])%list)) _ _ =>
          exists (e :: evs); refine (looped_cons _ _ _ m st rest [st1] e _ evs m' Hq _ _ _ _ _ _ H); [done|done|done|done| |by constructor] end.
        intros rel'. cbn [rqm_set_queues rqm_emit rqm_post_queues].
        destruct (decide (rel' = Some rod)) as [->|Hn].
        * rewrite pq_get_eq. f_equal. destruct (decide (Some rod = rel)) as [<-|Hn']; [by rewrite pq_get_eq|by rewrite pq_get_other].
        * rewrite pq_get_other by done. rewrite app_nil_r.
          destruct (decide (rel' = rel)) as [->|Hn']; [by rewrite pq_get_eq|by rewrite pq_get_other].
      + apply val_pair in Ho as [<- <-].
        match type of H with looped _ _ _ (retry_insert (rqm_emit _ ?e) _) _ _ =>
          exists (e :: evs); refine (looped_cons _ _ _ m st rest [] e _ evs m' Hq _ _ _ _ _ _ H); [done|done|done|done| |by constructor] end.
        intros rel'. cbn [retry_insert rqm_set_retry rqm_set_queues rqm_emit rqm_post_queues].
        destruct (decide (rel' = rel)) as [->|Hn']; [rewrite pq_get_eq|rewrite pq_get_other by done]; case_decide; by rewrite app_nil_r.
    - assert (Hloop : forall e, post_loop post now hd fuel rel rod idx i
          (rqm_emit (rqm_set_queues m (pq_set (rqm_post_queues m) rel rest)) (EvPostErr (rst_request st) e)) w1 = Val (m', w') ->
        exists evs, looped rel rod i m evs m').
      { intros e0 H0. apply IH in H0 as [evs H0]. exists (EvPostErr (rst_request st) e0 :: evs).
        refine (looped_cons _ _ _ m st rest [] _ _ evs m' Hq _ _ _ _ _ _ H0); [done|done|done|done| |by constructor].
        intros rel'. cbn [rqm_set_queues rqm_emit rqm_post_queues].
        destruct (decide (rel' = rel)) as [->|Hn']; [rewrite pq_get_eq|rewrite pq_get_other by done]; case_decide; by rewrite app_nil_r. }
      destruct e; try (by eapply Hloop). injection H as <- <-. exists [EvNoSpace (rst_request st)].
      cbn [rst_request]. split; cbn [rqm_set_queues rqm_emit rqm_post_queues rqm_status rqm_log]; try done.
      + rewrite Hq. split; [cbn; by rewrite take_nil|]. right. by exists (rst_request st).
      + intros rel' Hn. exists []. by rewrite !pq_get_other, app_nil_r.
      + intros rel' Hn _. by rewrite !pq_get_other.
      + rewrite Hq. rewrite !pq_get_eq. right. split; [by exists (rst_request st)|]. exists []. by rewrite app_nil_r.
      + intros e He. apply elem_of_list_singleton in He as ->. done.
      + intros P H1 H2. rewrite Hq in H1. apply Forall_cons in H1 as [H1 H1']. split; [by constructor|].
        destruct (decide (Some rod = rel)) as [<-|Hn]; [rewrite !pq_get_eq; by constructor|].
        by rewrite !pq_get_other by done.
  Qed.

  (** ** A queue *)
  Lemma process_looped rel m w m' w' :
    process_post_queue post now hd rel m w = Val (m', w') ->
    (missing m rel /\ m' = m) \/
    (~ missing m rel /\ exists i evs, looped rel (session_of m rel) i m evs m' /\
       match session_of m rel with
       | RCurrent => i = st_current_index (rqm_status m)
       | RPrev => i + 1 = st_current_index (rqm_status m)
       end).
  Proof.
    unfold process_post_queue. cbv zeta.
    assert (Ero : default (default_request_session (st_phase (rqm_status m))) rel = session_of m rel) by (by destruct rel).
    rewrite Ero. destruct (bool_decide (session_of m rel = RPrev) && (st_current_index (rqm_status m) =? 0)) eqn:Ez.
    - apply andb_true_iff in Ez as [E1 E2]. apply bool_decide_eq_true in E1. apply N.eqb_eq in E2.
      intros H. apply out_bind_Val in H as (u & _ & H). injection H as <- <-. by left.
    - intros H. right. split.
      { intros [E1 E2]. rewrite (bool_decide_true _ E1), E2 in Ez. done. }
      apply out_bind_Val in H as (idx & _ & H). apply out_bind_Val in H as (i & Hi & H).
      apply loop_looped in H as [evs H]. exists i, evs. split; [done|].
      apply rsi_add_val in Hi. by destruct (session_of m rel).
  Qed.

  Lemma looped_posts rel i m0 m evs m' :
    looped rel (session_of m0 rel) i m evs m' ->
    match session_of m0 rel with
    | RCurrent => i = st_current_index (rqm_status m0)
    | RPrev => i + 1 = st_current_index (rqm_status m0)
    end -> Forall (posts_to m0 rel) evs.
  Proof.
    intros H Hi. apply Forall_forall. intros e He. pose proof (lo_to _ _ _ _ _ _ H e He) as Ht. unfold posts_to. destruct e; try done.
    subst. done.
  Qed.
  Lemma missing_status m m' rel : rqm_status m' = rqm_status m -> missing m' rel <-> missing m rel.
  Proof. unfold missing, session_of. by intros ->. Qed.
  Lemma session_status m m' rel : rqm_status m' = rqm_status m -> session_of m' rel = session_of m rel.
  Proof. unfold session_of. by intros ->. Qed.

  Lemma process_served rel m0 m w m' w' :
    rqm_status m = rqm_status m0 ->
    (exists extra, pq_get (rqm_post_queues m) rel = (pq_get (rqm_post_queues m0) rel ++ extra)%list) ->
    (missing m0 rel -> pq_get (rqm_post_queues m) rel = pq_get (rqm_post_queues m0) rel) ->
    process_post_queue post now hd rel m w = Val (m', w') ->
    exists evs, rqm_log m' = (rqm_log m ++ evs)%list /\ served m0 rel evs m' /\ rqm_status m' = rqm_status m0 /\
      (forall rel', rel' <> rel -> exists extra,
        pq_get (rqm_post_queues m') rel' = (pq_get (rqm_post_queues m) rel' ++ extra)%list) /\
      (forall rel', rel' <> rel -> missing m0 rel \/ rel' <> Some (session_of m0 rel) ->
         pq_get (rqm_post_queues m') rel' = pq_get (rqm_post_queues m) rel').
  Proof.
    intros Hst [extra Hq] Hmi H. apply process_looped in H as [[Hm ->]|(Hm & i & evs & H & Hi)].
    - exists []. rewrite app_nil_r. apply (missing_status m0 m) in Hm; [|done]. split_and!; [done| |done| |done].
      + left. split_and!; [done|done|by apply Hmi].
      + intros rel' _. exists []. by rewrite app_nil_r.
    - exists evs. rewrite (session_status m0 m rel Hst) in H, Hi. rewrite Hst in Hi.
      split_and!; [apply H| |rewrite <-Hst; apply H|apply H|].
      + right. split_and!.
        * intros Hm'. by apply Hm, (missing_status m0 m).
        * apply (in_turn_mono _ extra). rewrite <-Hq. apply H.
        * by eapply looped_posts.
        * apply (stays_mono _ extra). rewrite <-Hq. apply H.
      + intros rel' Hn [Hm'|Hn']; [by destruct Hm; apply (missing_status m0 m)|]. by apply H.
  Qed.

  Lemma served_later m rel evs m1 m2 :
    pq_get (rqm_post_queues m2) rel = pq_get (rqm_post_queues m1) rel -> served m rel evs m1 -> served m rel evs m2.
  Proof. unfold served. by intros ->. Qed.

  Lemma queues_served m w m' w' :
    process_post_queues post now hd m w = Val (m', w') ->
    exists ed ec ep, rqm_log m' = (rqm_log m ++ ed ++ ec ++ ep)%list /\
      served m None ed m' /\ served m (Some RCurrent) ec m' /\ served m (Some RPrev) ep m'.
  Proof.
    intros H. unfold process_post_queues in H. apply out_bind_Val in H as ([m1 w1] & H1 & H). apply out_bind_Val in H as ([m2 w2] & H2 & H3).
    apply (process_served None m m) in H1 as (ed & L1 & S1 & T1 & Q1 & R1); [|done|exists []; by rewrite app_nil_r|done].
    apply (process_served _ m) in H2 as (ec & L2 & S2 & T2 & Q2 & R2); [|done|by apply Q1|by intros [? _]].
    assert (R12 : forall rel', rel' <> Some RCurrent -> pq_get (rqm_post_queues m2) rel' = pq_get (rqm_post_queues m1) rel').
    { intros rel' Hn. apply R2; [done|]. by right. }
    apply (process_served _ m) in H3 as (ep & L3 & S3 & _ & _ & R3); [|done| |].
    { assert (R23 : forall rel', rel' <> Some RPrev -> pq_get (rqm_post_queues m') rel' = pq_get (rqm_post_queues m2) rel').
      { intros rel' Hn. apply R3; [done|]. by right. }
      exists ed, ec, ep. split_and!; try done.
      - rewrite L3, L2, L1. by rewrite <-!(assoc_L (++)%list).
      - eapply served_later; [|exact S1]. by rewrite R23, R12.
      - eapply served_later; [|exact S2]. by rewrite R23. }
    - rewrite R12 by done. by apply Q1.
    - rewrite R12 by done. intros [_ Hz]. apply R1; [done|].
      destruct (decide (session_of m None = RPrev)) as [Hs|Hs]; [by left|]. right. cbn [session_of] in *. congruence.
  Qed.

  (** ** A new or retried request *)
  Lemma empty_spec m rel :
    session_post_queues_empty m rel = true <-> ~ exists st, waits_for m rel st.
  Proof.
    unfold session_post_queues_empty. split.
    - intros H (st & rel' & Hs & Hin).
      destruct (bool_decide (pq_get (rqm_post_queues m) rel = [])) eqn:E1; [|done]. apply bool_decide_eq_true in E1. cbn [negb] in H.
      destruct (decide (rel' = rel)) as [->|Hn]; [rewrite E1 in Hin; by apply elem_of_nil in Hin|].
      destruct rel as [r|]; destruct rel' as [r'|]; cbn [session_of] in Hs; try congruence.
      + rewrite Hs in H. rewrite decide_True in H by done. apply bool_decide_eq_true in H. cbn in Hin. rewrite H in Hin. by apply elem_of_nil in Hin.
      + rewrite Hs in Hin. apply bool_decide_eq_true in H. rewrite H in Hin. by apply elem_of_nil in Hin.
    - intros H.
      assert (Hnil : forall rel', session_of m rel' = session_of m rel -> pq_get (rqm_post_queues m) rel' = []).
      { intros rel' Hs. destruct (pq_get (rqm_post_queues m) rel') as [|st l] eqn:E; [done|]. exfalso. apply H. exists st, rel'.
        split; [done|]. rewrite E. by left. }
      rewrite (bool_decide_true _ (Hnil rel eq_refl)). cbn [negb]. destruct rel as [r|].
      + case_decide as Hd; [|done]. apply bool_decide_true, (Hnil None). by cbn.
      + apply bool_decide_true, Hnil. done.
  Qed.

  Lemma end_admitted m rel st w m' w' :
    (if session_post_queues_empty m rel : bool then
       '(m, w) ← process_post_queue post now hd rel (push m rel st) w;
       match rel with
       | None => process_post_queue post now hd (Some (default_request_session (st_phase (rqm_status m)))) m w
       | Some _ => Val (m, w)
       end
     else Val (push m rel st, w)) = Val (m', w') ->
    exists evs, rqm_log m' = (rqm_log m ++ evs)%list /\ admitted m (rst_request st) evs m'.
  Proof.
    destruct (session_post_queues_empty m rel) eqn:Ee; intros H.
    - pose proof (proj1 (empty_spec _ _) Ee) as Hno.
      assert (Hnil : forall rel', session_of m rel' = session_of m rel -> pq_get (rqm_post_queues m) rel' = []).
      { intros rel' Hs. destruct (pq_get (rqm_post_queues m) rel') as [|st' l] eqn:E; [done|]. exfalso. apply Hno. exists st', rel'.
        split; [done|]. rewrite E. by left. }
      apply out_bind_Val in H as ([m1 w1] & H1 & H).
      assert (Hpush : pq_get (rqm_post_queues (push m rel st)) rel = [st]).
      { unfold push. cbn [rqm_set_queues rqm_post_queues]. rewrite pq_get_eq, (Hnil rel eq_refl). done. }
      assert (Hoth : forall rel', rel' <> rel -> pq_get (rqm_post_queues (push m rel st)) rel' = pq_get (rqm_post_queues m) rel').
      { intros rel' Hn. unfold push. cbn [rqm_set_queues rqm_post_queues]. by rewrite pq_get_other. }
      assert (Hmiss : forall rel', missing (push m rel st) rel' <-> missing m rel') by done.
      apply process_looped in H1 as [[Hm ->]|(Hm & i & evs & H1 & Hi)].
      + assert (m' = push m rel st) as ->.
        { destruct rel as [r|]; [by injection H as <- <-|]. apply process_looped in H as [[_ ->]|(Hm' & _)]; [done|]. by destruct Hm'. }
        exists []. rewrite app_nil_r. split; [done|]. apply (AdWaits _ _ _ _ rel st); [by right|done|done| |done].
        by rewrite Hpush, (Hnil rel eq_refl).
      + change (session_of (push m rel st) rel) with (session_of m rel) in H1, Hi. change (rqm_status (push m rel st)) with (rqm_status m) in Hi.
        assert (Hab : Forall (fun e => about e = rst_request st) evs /\
          Forall (fun st' => rst_request st' = rst_request st) (pq_get (rqm_post_queues m1) (Some (session_of m rel)))).
        { apply (lo_about _ _ _ _ _ _ H1 (fun r => r = rst_request st)).
          - rewrite Hpush. by constructor.
          - destruct (decide (Some (session_of m rel) = rel)) as [->|Hn]; [rewrite Hpush; by constructor|].
            rewrite (Hoth _ Hn). rewrite (Hnil (Some (session_of m rel))); [constructor|done]. }
        destruct Hab as [Hab1 Hab2].
        assert (Hne : evs <> []) by (apply (lo_ne _ _ _ _ _ _ H1); by rewrite Hpush).
        assert (Hpo : Forall (posts_to m rel) evs) by (by eapply looped_posts).
        destruct rel as [r|].
        * injection H as <- <-. exists evs. split; [apply H1|]. apply (AdTried _ _ _ _ (Some r)); try done.
          apply Forall_and. by split.
        * assert (Est : rqm_status m1 = rqm_status m) by apply H1. rewrite Est in H.
          change (default_request_session (st_phase (rqm_status m))) with (session_of m None) in H.
          apply process_looped in H as [[_ ->]|(_ & i2 & evs2 & H2 & Hi2)].
          { exists evs. split; [apply H1|]. apply (AdTried _ _ _ _ None); try done. apply Forall_and. by split. }
          exists (evs ++ evs2)%list. split.
          { rewrite (lo_log _ _ _ _ _ _ H2), (lo_log _ _ _ _ _ _ H1). by rewrite <-(assoc_L (++)%list). }
          change (session_of m1 (Some (session_of m None))) with (session_of m None) in H2, Hi2. rewrite Est in Hi2.
          apply (AdTried _ _ _ _ None); try done; [by destruct evs|].
          apply Forall_app. split; [apply Forall_and; by split|]. apply Forall_and. split.
          -- apply (lo_about _ _ _ _ _ _ H2 (fun r => r = rst_request st)); done.
          -- apply Forall_forall. intros e He. pose proof (lo_to _ _ _ _ _ _ H2 e He) as Ht. unfold posts_to. destruct e; try done. subst. done.
    - injection H as <- <-. exists []. rewrite app_nil_r. split; [done|].
      apply (AdWaits _ _ _ _ rel st); [|done|done| |].
      + left. destruct (pq_get (rqm_post_queues m) rel) as [|st' l] eqn:E.
        * unfold session_post_queues_empty in Ee. rewrite (bool_decide_true _ E) in Ee. cbn [negb] in Ee. destruct rel as [r|].
          -- case_decide as Hd; [|done]. destruct (pq_default (rqm_post_queues m)) as [|st' l] eqn:E'; [done|].
             exists st', None. split; [done|]. cbn. rewrite E'. by left.
          -- destruct (pq_get (rqm_post_queues m) (Some (default_request_session (st_phase (rqm_status m))))) as [|st' l] eqn:E'; [done|].
             exists st', (Some (default_request_session (st_phase (rqm_status m)))). split; [done|]. rewrite E'. by left.
        * exists st', rel. split; [done|]. rewrite E. by left.
      + unfold push. cbn [rqm_set_queues rqm_post_queues]. by rewrite pq_get_eq.
      + intros rel' Hn. unfold push. cbn [rqm_set_queues rqm_post_queues]. by rewrite pq_get_other.
  Qed.

  Lemma retry_admitted m st w m' w' :
    rqm_retry post now fresh_id hd m st w = Val (m', w') ->
    exists evs, rqm_log m' = (rqm_log m ++ evs)%list /\ admitted m (rst_request st) evs m'.
  Proof.
    intros H. unfold rqm_retry in H. apply out_bind_Val in H as (u & _ & H). apply out_bind_Val in H as (next & Hn & H).
    assert (Hreq : forall st1 w1, next = Some (st1, w1) -> rst_request st1 = rst_request st).
    { intros st1 w1 ->. destruct (checked_sub (rst_attempts_remaining st) 1) as [a|].
      - by injection Hn as <- <-.
      - destruct (checked_sub (rst_destinations_remaining st) 1) as [k|]; [|done]. apply out_bind_Val in Hn as (a & _ & Hn).
        unfold new_destination in Hn. destruct (fresh_id w) as [id w2]. by injection Hn as <- <-. }
    destruct next as [[st1 w1]|].
    2:{ injection H as <- <-. exists [EvRetryLimit (rst_request st)]. split; [done|]. by apply AdGivenUp. }
    specialize (Hreq _ _ eq_refl). apply out_bind_Val in H as (posts & _ & H). rewrite <-Hreq.
    cbn [rst_session_index] in H.
    destruct (rst_session_index st1) as [index|].
    - destruct (negb _).
      + unfold new_destination in H. destruct (fresh_id w1) as [id w2]. by apply end_admitted in H.
      + by apply end_admitted in H.
    - by apply end_admitted in H.
  Qed.
End turn.

Section C59.
  Context {W Req : Type}.
  Context (post : W -> session_index -> option mixnode_index -> bytes -> Req ->
                  outcome (W * option mixnode_index * result request_metrics post_err)).
  Context (now : W -> instant * W).
  Context (fresh_id : W -> bytes * W).
  Context (hd : Req -> bytes -> duration).

  (** C59: a request that is inserted or retried is posted only if nobody waits for the session;
      otherwise it goes to the end of the queue and nothing is posted. *)
  Theorem C59_admission (m : request_manager Req) w c r m' w' a :
    c = RmInsert r \/ (c = RmPop /\ exists st rest, rqm_retry_queue m = st :: rest /\ rst_request st = r) ->
    rm_exec post now fresh_id hd m w c = Val (m', w', a) ->
    exists evs, rqm_log m' = (rqm_log m ++ evs)%list /\ admitted m r evs m'.
  Proof.
    intros [->|(-> & st & rest & Hq & <-)] H; cbn [rm_exec] in H.
    - apply out_bind_Val in H as ([m1 w1] & H & E). injection E as <- <- <-.
      unfold rqm_insert in H. apply out_bind_Val in H as (u & _ & H). by apply retry_admitted in H.
    - apply out_bind_Val in H as ([[m1 w1] b] & H & E). injection E as <- <- <-.
      unfold pop_next_retry in H. rewrite Hq in H. apply out_bind_Val in H as ([m2 w2] & H & E). injection E as <- <- <-.
      apply retry_admitted in H as (evs & H1 & H2). exists evs. split; [exact H1|].
      destruct H2 as [H2 H3|rel st' H3 H4 H5 H6 H7|rel H3 H4 H5 H6]; [by apply AdGivenUp|by eapply (AdWaits _ _ _ _ rel st')|by eapply (AdTried _ _ _ _ rel)].
  Qed.

  (** C59: [process_post_queues] serves the requests of each queue in order. *)
  Theorem C59_in_turn (m : request_manager Req) w m' w' a :
    rm_exec post now fresh_id hd m w RmProcess = Val (m', w', a) ->
    exists ed ec ep, rqm_log m' = (rqm_log m ++ ed ++ ec ++ ep)%list /\
      served m None ed m' /\ served m (Some RCurrent) ec m' /\ served m (Some RPrev) ep m'.
  Proof.
    intros H. cbn [rm_exec] in H. apply out_bind_Val in H as ([m1 w1] & H & E). injection E as <- <- <-.
    by apply queues_served in H.
  Qed.
End C59.
