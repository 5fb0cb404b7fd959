(** The request manager: histories of calls, and their decomposition into small steps. *)
From stdpp Require Import sorting.
From Verif Require Export MManagers LBase.
Local Open Scope N_scope.

(** What the manager needs to know of [Mixnet::post_request]: a success reports the destination,
    which is a valid one of the session, and the requested one if there was one; a failure leaves the
    destination as it was. *)
Definition post_law {W Req : Type} (valid : session_index -> mixnode_index -> Prop) (post : W -> session_index -> option mixnode_index -> bytes -> Req ->
    outcome (W * option mixnode_index * result request_metrics post_err)) : Prop :=
  forall w i dest id r w' dest' res, post w i dest id r = Val (w', dest', res) ->
    match res with
    | Ok _ => exists d, dest' = Some d /\ (dest = None \/ dest = Some d) /\ valid i d
    | Err _ => dest' = dest
    end.

(** ** Histories *)
Inductive rm_call (Req : Type) :=
| RmUpdate (status : session_status)
| RmInsert (r : Req)
| RmRemove (id : bytes)
| RmProcess
| RmPop
| RmChanged.
Global Arguments RmUpdate {Req}.
Global Arguments RmInsert {Req}.
Global Arguments RmRemove {Req}.
Global Arguments RmProcess {Req}.
Global Arguments RmPop {Req}.
Global Arguments RmChanged {Req}.

Inductive rm_resp (Req : Type) :=
| RmUnit
| RmRemoved (r : option Req)
| RmPopped (b : bool)
| RmFlag (b : bool).
Global Arguments RmUnit {Req}.
Global Arguments RmRemoved {Req}.
Global Arguments RmPopped {Req}.
Global Arguments RmFlag {Req}.

Section rm.
  Context {W Req : Type}.
  Context (post : W -> session_index -> option mixnode_index -> bytes -> Req ->
                  outcome (W * option mixnode_index * result request_metrics post_err)).
  Context (now : W -> instant * W).
  Context (fresh_id : W -> bytes * W).
  Context (handling_delay : Req -> bytes -> duration).
  Notation manager := (request_manager Req).
  Notation state := (request_state Req).

  (** The world, with the list of the message IDs drawn so far. *)
  Notation lworld := (W * list bytes)%type.
  Definition l_post (w : lworld) (i : session_index) (dest : option mixnode_index) (id : bytes) (r : Req)
    : outcome (lworld * option mixnode_index * result request_metrics post_err) :=
    '(w', dest', res) ← post w.1 i dest id r; Val ((w', w.2), dest', res).
  Definition l_now (w : lworld) : instant * lworld := ((now w.1).1, ((now w.1).2, w.2)).
  Definition l_fresh (w : lworld) : bytes * lworld :=
    ((fresh_id w.1).1, ((fresh_id w.1).2, (w.2 ++ [(fresh_id w.1).1])%list)).

  Definition rm_exec (m : manager) (w : lworld) (c : rm_call Req) : outcome (manager * lworld * rm_resp Req) :=
    match c with
    | RmUpdate status =>
        '(m, w) ← update_session_status l_post l_now l_fresh handling_delay m status w; Val (m, w, RmUnit)
    | RmInsert r => '(m, w) ← rqm_insert l_post l_now l_fresh handling_delay m r w; Val (m, w, RmUnit)
    | RmRemove id => let '(m, r) := rqm_remove m id in Val (m, w, RmRemoved r)
    | RmProcess => '(m, w) ← process_post_queues l_post l_now handling_delay m w; Val (m, w, RmUnit)
    | RmPop => '(m, w, b) ← pop_next_retry l_post l_now l_fresh handling_delay m w; Val (m, w, RmPopped b)
    | RmChanged => let '(m, b) := next_retry_deadline_changed m in Val (m, w, RmFlag b)
    end.

  (** [rm_run m d h m' d']: a sequence [h] of calls, none of which panics, takes manager [m] to [m'].
      Between calls the world changes in any way; [d] and [d'] are the message IDs drawn before and
      after. *)
  Inductive rm_run : manager -> list bytes -> list (rm_call Req * rm_resp Req) -> manager -> list bytes -> Prop :=
  | RrNil m d : rm_run m d [] m d
  | RrCall m d w c m1 w1 d1 a h m2 d2 :
      rm_exec m (w, d) c = Val (m1, (w1, d1), a) -> rm_run m1 d1 h m2 d2 ->
      rm_run m d ((c, a) :: h) m2 d2.
  (** The states of a manager. *)
  Definition rm_reach (cf : rm_config) (h : list (rm_call Req * rm_resp Req)) (m : manager) (d : list bytes) : Prop :=
    exists w, rm_run (rqm_new l_now cf (w, [])).1 [] h m d.

  Definition managed (m : manager) : list state :=
    (pq_current (rqm_post_queues m) ++ pq_prev (rqm_post_queues m) ++ pq_default (rqm_post_queues m) ++
     rqm_retry_queue m)%list.
  Definition inserted (h : list (rm_call Req * rm_resp Req)) : list Req :=
    omap (fun x => match x.1 with RmInsert r => Some r | _ => None end) h.
  Definition removed (h : list (rm_call Req * rm_resp Req)) : list Req :=
    omap (fun x => match x.2 with RmRemoved r => r | _ => None end) h.
  Definition pops (h : list (rm_call Req * rm_resp Req)) : nat :=
    length (omap (fun x => match x.2 with RmPopped true => Some tt | _ => None end) h).
  Definition post_errs (l : list (rm_event Req)) : list Req :=
    omap (fun e => match e with EvPostErr r _ => Some r | _ => None end) l.
  Definition limits (l : list (rm_event Req)) : list Req :=
    omap (fun e => match e with EvRetryLimit r => Some r | _ => None end) l.

  (** ** Small steps *)
  Definition cur (m : manager) : session_index := st_current_index (rqm_status m).
  Definition with_dest (st : state) (dest : option mixnode_index) : state :=
    RequestState (rst_request st) (rst_destinations_remaining st) (rst_attempts_remaining st)
      (rst_posts_remaining st) (rst_message_id st) (rst_session_index st) dest (rst_retry_deadline st).
  Definition with_counts (st : state) (dests attempts posts : N) : state :=
    RequestState (rst_request st) dests attempts posts (rst_message_id st) (rst_session_index st)
      (rst_destination_index st) (rst_retry_deadline st).
  Definition with_fresh (st : state) (id : bytes) (past : instant) : state :=
    RequestState (rst_request st) (rst_destinations_remaining st) (rst_attempts_remaining st)
      (rst_posts_remaining st) id None None past.
  Definition with_post (st : state) (posts : N) (i : session_index) (dest : mixnode_index) (deadline : instant) : state :=
    RequestState (rst_request st) (rst_destinations_remaining st) (rst_attempts_remaining st)
      posts (rst_message_id st) (Some i) (Some dest) deadline.
  Definition push (m : manager) (rel : option rel_session_index) (st : state) : manager :=
    rqm_set_queues m (pq_set (rqm_post_queues m) rel (pq_get (rqm_post_queues m) rel ++ [st])%list).
  Definition with_queue (m : manager) (rel : option rel_session_index) (l : list state) : manager :=
    rqm_set_queues m (pq_set (rqm_post_queues m) rel l).
  Definition initial (m : manager) (r : Req) : state :=
    RequestState r (rmc_num_destinations (rqm_config m)) 0 0 (replicate 16 0) None None (rqm_created_at m).

  Inductive label := LInsert (r : Req) | LRemove (r : Req) | LPop | LChanged | LOther.

  (** What becomes of a request that is to be retried: given up, or put in a post queue. *)
  Inductive reborn (m : manager) (d : list bytes) (st : state)
    : option (option rel_session_index * state) -> list bytes -> Prop :=
  | RbLimit :
      rst_attempts_remaining st = 0 -> rst_destinations_remaining st = 0 -> reborn m d st None d
  | RbSame i rel :
      0 < rst_attempts_remaining st -> 1 <= rmc_num_posts_per_attempt (rqm_config m) ->
      rst_session_index st = Some i -> rsi_from_session_index i (cur m) = Some rel ->
      allow_requests_and_replies (st_phase (rqm_status m)) rel = true ->
      reborn m d st (Some (Some rel, with_counts st (rst_destinations_remaining st)
        (rst_attempts_remaining st - 1) (rmc_num_posts_per_attempt (rqm_config m) - 1))) d
  | RbNone :
      0 < rst_attempts_remaining st -> 1 <= rmc_num_posts_per_attempt (rqm_config m) ->
      rst_session_index st = None ->
      reborn m d st (Some (None, with_counts st (rst_destinations_remaining st)
        (rst_attempts_remaining st - 1) (rmc_num_posts_per_attempt (rqm_config m) - 1))) d
  | RbMoved i id :
      0 < rst_attempts_remaining st -> 1 <= rmc_num_posts_per_attempt (rqm_config m) ->
      rst_session_index st = Some i ->
      (forall rel, rsi_from_session_index i (cur m) = Some rel ->
        allow_requests_and_replies (st_phase (rqm_status m)) rel = false) ->
      reborn m d st (Some (None, with_fresh (with_counts st (rst_destinations_remaining st)
        (rst_attempts_remaining st - 1) (rmc_num_posts_per_attempt (rqm_config m) - 1)) id (rqm_created_at m)))
        (d ++ [id])
  | RbNew id :
      rst_attempts_remaining st = 0 -> 0 < rst_destinations_remaining st ->
      1 <= rmc_num_attempts_per_destination (rqm_config m) ->
      1 <= rmc_num_posts_per_attempt (rqm_config m) ->
      reborn m d st (Some (None, with_fresh (with_counts st (rst_destinations_remaining st - 1)
        (rmc_num_attempts_per_destination (rqm_config m) - 1)
        (rmc_num_posts_per_attempt (rqm_config m) - 1)) id (rqm_created_at m)))
        (d ++ [id]).

  Definition settle (m : manager) (r : Req) (o : option (option rel_session_index * state)) : manager :=
    match o with
    | None => rqm_emit m (EvRetryLimit r)
    | Some (rel, st) => push m rel st
    end.

  (** The fields of a state that change when the session changes. *)
  Definition renewed (past : instant) (st st' : state) (id : bytes) : Prop := st' = with_fresh st id past.

  (** [target m rel rod i]: requests of queue [rel] are posted to session [rod], of index [i]. *)
  Definition target (m : manager) (rel : option rel_session_index) (rod : rel_session_index) (i : session_index) : Prop :=
    rod = default (default_request_session (st_phase (rqm_status m))) rel /\
    rsi_add rod (cur m) = Val i.
  Definition expected (rel : option rel_session_index) (i : session_index) : option session_index :=
    match rel with Some _ => Some i | None => None end.

  Context (valid : session_index -> mixnode_index -> Prop).

  Inductive rstep : manager * list bytes -> label -> manager * list bytes -> Prop :=
  | RsPostAgain m d rel rod i st rest dest t rtt :
      target m rel rod i -> pq_get (rqm_post_queues m) rel = st :: rest ->
      rst_session_index st = expected rel i ->
      (rst_destination_index st = None \/ rst_destination_index st = Some dest) /\ valid i dest ->
      0 < rst_posts_remaining st ->
      rstep (m, d) LOther
        (push (rqm_emit (with_queue m rel rest)
                 (EvPosted (rst_request st) (rst_message_id st) i (Some dest) t rtt))
              (Some rod)
              (with_post st (rst_posts_remaining st - 1) i dest (N.max (rst_retry_deadline st) (t + rtt))), d)
  | RsPostRetry m d rel rod i st rest dest t rtt :
      target m rel rod i -> pq_get (rqm_post_queues m) rel = st :: rest ->
      rst_session_index st = expected rel i ->
      (rst_destination_index st = None \/ rst_destination_index st = Some dest) /\ valid i dest ->
      rst_posts_remaining st = 0 ->
      rstep (m, d) LOther
        (retry_insert (rqm_emit (with_queue m rel rest)
                 (EvPosted (rst_request st) (rst_message_id st) i (Some dest) t rtt))
              (with_post st 0 i dest (N.max (rst_retry_deadline st) (t + rtt))), d)
  | RsNoSpace m d r : rstep (m, d) LOther (rqm_emit m (EvNoSpace r), d)
  | RsPostErr m d rel st rest e :
      pq_get (rqm_post_queues m) rel = st :: rest ->
      rstep (m, d) LOther (rqm_emit (with_queue m rel rest) (EvPostErr (rst_request st) e), d)
  | RsInsert m d r o d' :
      rqm_has_space m = true -> reborn m d (initial m r) o d' ->
      rstep (m, d) (LInsert r) (settle m r o, d')
  | RsPop m d st rest o d' :
      rqm_retry_queue m = st :: rest -> rst_posts_remaining st = 0 ->
      reborn (rqm_set_retry m rest true) d st o d' ->
      rstep (m, d) LPop (settle (rqm_set_retry m rest true) (rst_request st) o, d')
  | RsRemove m d rel l1 st l2 :
      pq_get (rqm_post_queues m) rel = (l1 ++ st :: l2)%list ->
      rstep (m, d) (LRemove (rst_request st)) (with_queue m rel (l1 ++ l2)%list, d)
  | RsRemoveRetry m d l1 st l2 changed :
      rqm_retry_queue m = (l1 ++ st :: l2)%list ->
      changed = (match l1 with [] => true | _ => rqm_deadline_changed m end) ->
      rstep (m, d) (LRemove (rst_request st)) (rqm_set_retry m (l1 ++ l2)%list changed, d)
  | RsUpdate m d status ids :
      rqm_status m <> status ->
      let q := shift_queues (rqm_post_queues m) (rqm_status m) status in
      let n := length (pq_default (rqm_post_queues m)) in
      length ids = length (drop n (pq_default q)) ->
      rstep (m, d) LOther
        (rqm_set_status (rqm_set_queues m (pq_set q None (take n (pq_default q) ++
           zip_with (fun st id => with_fresh st id (rqm_created_at m)) (drop n (pq_default q)) ids)%list))
           status, (d ++ ids)%list)
  | RsChanged m d : rstep (m, d) LChanged (rqm_set_retry m (rqm_retry_queue m) false, d).

  Inductive rsteps : manager * list bytes -> list label -> manager * list bytes -> Prop :=
  | RsNil x : rsteps x [] x
  | RsCons x y z l ls : rstep x l y -> rsteps y ls z -> rsteps x (l :: ls) z.
  Lemma rsteps_app x y z l1 l2 : rsteps x l1 y -> rsteps y l2 z -> rsteps x (l1 ++ l2) z.
  Proof. induction 1; intros H2; [done|]. econstructor; eauto. Qed.
  Lemma rsteps_one x y l : rstep x l y -> rsteps x [l] y.
  Proof. intros. econstructor; [done|constructor]. Qed.

  Definition quiet (ls : list label) : Prop := Forall (fun l => l = LOther) ls.

  Context (Hpost : post_law valid post).

  Lemma post_ok_step m d w rel rod i st rest dest metrics m' w' :
    target m rel rod i -> pq_get (rqm_post_queues m) rel = st :: rest ->
    rst_session_index st = expected rel i ->
    (rst_destination_index st = None \/ rst_destination_index st = Some dest) /\ valid i dest ->
    post_ok l_now handling_delay (with_queue m rel rest) rod i (with_dest st (Some dest)) metrics (w, d) = Val (m', w') ->
    rstep (m, d) LOther (m', w'.2) /\ w'.2 = d.
  Proof.
    intros Ht Hq Hs Hd E. unfold post_ok in E. cbn in E.
    destruct (estimate_rtt _ _) as [rtt|]; [|done]. cbn in E. unfold checked_sub in E.
    destruct (1 <=? rst_posts_remaining st) eqn:E1.
    - injection E as <- <-. cbn. split; [|done].
      apply N.leb_le in E1. refine (RsPostAgain m d rel rod i st rest dest _ rtt Ht Hq Hs Hd _). lia.
    - injection E as <- <-. cbn. split; [|done]. apply N.leb_gt in E1.
      assert (E0 : rst_posts_remaining st = 0) by lia. rewrite E0.
      exact (RsPostRetry m d rel rod i st rest dest _ rtt Ht Hq Hs Hd E0).
  Qed.

  Lemma rstep_status m d m' d' l : rstep (m, d) l (m', d') -> l <> LOther -> rqm_status m' = rqm_status m.
  Proof.
    inversion 1; subst; intros Hl; try done.
    - destruct o as [[[]?]|]; done.
    - destruct o as [[[]?]|]; done.
  Qed.

  Lemma with_queue_same m rel : with_queue m rel (pq_get (rqm_post_queues m) rel) = m.
  Proof. destruct m as [? ? ? [] ? ? ?]; by destruct rel as [[]|]. Qed.
  Lemma pq_get_set {T} (q : post_queues T) rel l : pq_get (pq_set q rel l) rel = l.
  Proof. by destruct rel as [[]|]. Qed.
  Lemma pq_set_set {T} (q : post_queues T) rel l l' : pq_set (pq_set q rel l) rel l' = pq_set q rel l'.
  Proof. by destruct rel as [[]|]. Qed.
  Lemma with_queue_twice m rel l l' : with_queue (with_queue m rel l) rel l' = with_queue m rel l'.
  Proof. unfold with_queue. cbn. by rewrite pq_set_set. Qed.

  Lemma post_ok_status m w rod i st metrics m' w' :
    post_ok l_now handling_delay m rod i st metrics w = Val (m', w') -> rqm_status m' = rqm_status m.
  Proof.
    unfold post_ok. destruct (estimate_rtt _ _) as [rtt|]; [|done]. cbn.
    destruct (checked_sub _ _); intros [= <- <-]; done.
  Qed.

  Lemma post_loop_steps fuel rel rod i m w m' w' :
    target m rel rod i ->
    post_loop l_post l_now handling_delay fuel rel rod (expected rel i) i m w = Val (m', w') ->
    (exists ls, quiet ls /\ rsteps (m, w.2) ls (m', w'.2)) /\ rqm_status m' = rqm_status m.
  Proof.
    revert m w. induction fuel as [|fuel IH]; intros m w Ht E; [done|]. cbn in E.
    destruct (pq_get (rqm_post_queues m) rel) as [|st rest] eqn:Hq.
    { injection E as <- <-. split; [|done]. exists []. split; [by constructor|constructor]. }
    fold (with_queue m rel rest) in E.
    unfold assert_or_panic in E. case_bool_decide as Hs; [|done]. cbn [out_bind] in E.
    unfold l_post in E at 1.
    destruct (post w.1 i (rst_destination_index st) (rst_message_id st) (rst_request st))
      as [[[w1 dest] res]|] eqn:Ep; [|done].
    cbn [out_bind] in E. pose proof (Hpost _ _ _ _ _ _ _ _ Ep) as Hl.
    fold (with_dest st dest) in E. destruct res as [metrics|e].
    - destruct Hl as (d1 & -> & Hd).
      destruct (post_ok _ _ _ _ _ _ _ _) as [[m1 w2]|] eqn:Eo; [|done]. cbn [out_bind] in E.
      destruct (post_ok_step _ _ _ _ _ _ _ _ _ _ _ _ Ht Hq Hs Hd Eo) as [Hst Hw2].
      assert (Est : rqm_status m1 = rqm_status m) by (by rewrite (post_ok_status _ _ _ _ _ _ _ _ Eo)).
      destruct (IH m1 w2) as [(ls & Hqt & Hls) Es].
      { unfold target, cur in *. by rewrite Est. }
      { done. }
      split; [|by rewrite Es]. exists (LOther :: ls). split; [by constructor|]. econstructor; done.
    - subst dest. assert (Hsame : with_dest st (rst_destination_index st) = st) by (by destruct st).
      assert (Hcase : (e = PeNotEnoughSpaceInQueue /\ m' = rqm_emit m (EvNoSpace (rst_request st)) /\ w' = (w1, w.2)) \/
        post_loop l_post l_now handling_delay fuel rel rod (expected rel i) i
          (rqm_emit (with_queue m rel rest) (EvPostErr (rst_request st) e)) (w1, w.2) = Val (m', w')).
      { destruct e; try (right; exact E). left. injection E as <- <-. split; [done|]. split; [|done].
        rewrite Hsame, pq_get_set, pq_set_set, <-Hq. destruct m as [? ? ? [] ? ? ?]; by destruct rel as [[]|]. }
      clear E. destruct Hcase as [(-> & -> & ->)|E].
      + split; [|done]. exists [LOther]. split; [by repeat constructor|]. apply rsteps_one, RsNoSpace.
      + destruct (IH (rqm_emit (with_queue m rel rest) (EvPostErr (rst_request st) e)) (w1, w.2)) as [(ls & Hqt & Hls) Es].
        { exact Ht. }
        { exact E. }
        split; [|by rewrite Es]. exists (LOther :: ls). split; [by constructor|].
        econstructor; [eapply RsPostErr; exact Hq|]. exact Hls.
  Qed.

  Lemma process_queue_steps rel m w m' w' :
    process_post_queue l_post l_now handling_delay rel m w = Val (m', w') ->
    (exists ls, quiet ls /\ rsteps (m, w.2) ls (m', w'.2)) /\ rqm_status m' = rqm_status m.
  Proof.
    intros E. unfold process_post_queue in E. cbv zeta in E.
    set (rod := default (default_request_session (st_phase (rqm_status m))) rel) in *.
    destruct (bool_decide (rod = RPrev) && (st_current_index (rqm_status m) =? 0)).
    { unfold assert_or_panic in E. case_bool_decide; [|done]. injection E as <- <-. split; [|done].
      exists []. split; [by constructor|constructor]. }
    assert (Hr : exists i, rsi_add rod (cur m) = Val i /\
      post_loop l_post l_now handling_delay (post_fuel (pq_get (rqm_post_queues m) rel)) rel rod (expected rel i) i m w = Val (m', w')).
    { fold (cur m) in E. destruct rel as [r|].
      - cbn in rod. subst rod. destruct (rsi_add r (cur m)) as [i|]; [|done]. exists i. by cbn in *.
      - cbn [out_bind] in E. destruct (rsi_add rod (cur m)) as [i|]; [|done]. exists i. by cbn in *. }
    destruct Hr as (i & Hi & Hl). eapply post_loop_steps; [|exact Hl]. by split.
  Qed.

  Lemma process_queues_steps m w m' w' :
    process_post_queues l_post l_now handling_delay m w = Val (m', w') ->
    exists ls, quiet ls /\ rsteps (m, w.2) ls (m', w'.2).
  Proof.
    intros E. unfold process_post_queues in E.
    destruct (process_post_queue _ _ _ None m w) as [[m1 w1]|] eqn:E1; [|done]. cbn [out_bind] in E.
    destruct (process_post_queue _ _ _ (Some RCurrent) m1 w1) as [[m2 w2]|] eqn:E2; [|done]. cbn [out_bind] in E.
    apply process_queue_steps in E1 as [(l1 & Q1 & S1) _]. apply process_queue_steps in E2 as [(l2 & Q2 & S2) _].
    apply process_queue_steps in E as [(l3 & Q3 & S3) _].
    exists (l1 ++ l2 ++ l3)%list. split; [by repeat apply Forall_app_2|].
    eapply rsteps_app; [exact S1|]. by eapply rsteps_app.
  Qed.

  Lemma retry_steps m st w m' w' :
    rqm_retry l_post l_now l_fresh handling_delay m st w = Val (m', w') ->
    exists o d1 ls, rst_posts_remaining st = 0 /\ reborn m w.2 st o d1 /\ quiet ls /\
      rsteps (settle m (rst_request st) o, d1) ls (m', w'.2).
  Proof.
    intros E. unfold rqm_retry in E. cbv zeta in E.
    unfold assert_or_panic in E. destruct (rst_posts_remaining st =? 0) eqn:E0; [|done]. apply N.eqb_eq in E0.
    cbn [out_bind] in E.
    (* the end of the function *)
    assert (Hend : forall rel st1 w1,
      (let empty := session_post_queues_empty m rel in
       if empty : bool then
         '(m, w) ← process_post_queue l_post l_now handling_delay rel (push m rel st1) w1;
         match rel with
         | None => process_post_queue l_post l_now handling_delay
                     (Some (default_request_session (st_phase (rqm_status m)))) m w
         | Some _ => Val (m, w)
         end
       else Val (push m rel st1, w1)) = Val (m', w') ->
      exists ls, quiet ls /\ rsteps (push m rel st1, w1.2) ls (m', w'.2)).
    { intros rel st1 w1 E2. cbv zeta in E2. destruct (session_post_queues_empty m rel).
      - destruct (process_post_queue _ _ _ rel (push m rel st1) w1) as [[m2 w2]|] eqn:E3; [|done].
        cbn [out_bind] in E2. apply process_queue_steps in E3 as [(l1 & Q1 & S1) _].
        destruct rel as [rel|]; [injection E2 as <- <-; eauto|].
        apply process_queue_steps in E2 as [(l2 & Q2 & S2) _]. exists (l1 ++ l2)%list.
        split; [by apply Forall_app_2|by eapply rsteps_app].
      - injection E2 as <- <-. exists []. split; [by constructor|constructor]. }
    unfold checked_sub in E.
    destruct (1 <=? rst_attempts_remaining st) eqn:Ea.
    - apply N.leb_le in Ea. cbn [out_bind] in E. unfold sub_or_panic in E.
      destruct (1 <=? rmc_num_posts_per_attempt (rqm_config m)) eqn:Ep; [|done]. apply N.leb_le in Ep.
      cbn [out_bind rst_session_index rst_request rst_destinations_remaining rst_attempts_remaining rst_posts_remaining
           rst_message_id rst_destination_index rst_retry_deadline] in E.
      destruct (rst_session_index st) as [i|] eqn:Es.
      + destruct (rsi_from_session_index i (st_current_index (rqm_status m))) as [rel|] eqn:Er.
        * destruct (allow_requests_and_replies (st_phase (rqm_status m)) rel) eqn:El.
          -- cbn [negb] in E. apply Hend in E as (ls & Hq & Hs). eexists _, _, ls. split; [done|]. split; [by eapply RbSame; eauto; lia|].
             split; [done|]. unfold with_counts, settle. rewrite Es. exact Hs.
          -- cbn [negb] in E. unfold new_destination, l_fresh in E.
             cbn [fst snd rst_request rst_destinations_remaining rst_attempts_remaining rst_posts_remaining] in E.
             apply Hend in E as (ls & Hq & Hs). eexists _, _, ls. split; [done|]. split; [eapply RbMoved; [lia|lia|exact Es|]|].
             { unfold cur. rewrite Er. by intros ? [= <-]. }
             split; [done|]. exact Hs.
        * cbn [negb] in E. unfold new_destination, l_fresh in E.
             cbn [fst snd rst_request rst_destinations_remaining rst_attempts_remaining rst_posts_remaining] in E.
          apply Hend in E as (ls & Hq & Hs). eexists _, _, ls. split; [done|]. split; [eapply RbMoved; [lia|lia|exact Es|]|].
          { unfold cur. by rewrite Er. }
          split; [done|]. exact Hs.
      + apply Hend in E as (ls & Hq & Hs). eexists _, _, ls. split; [done|]. split; [by eapply RbNone; eauto; lia|].
        split; [done|]. unfold with_counts, settle. rewrite Es. exact Hs.
    - apply N.leb_gt in Ea. destruct (1 <=? rst_destinations_remaining st) eqn:Ed.
      + apply N.leb_le in Ed. cbn [out_bind] in E. unfold sub_or_panic in E.
        destruct (1 <=? rmc_num_attempts_per_destination (rqm_config m)) eqn:Eb; [|done]. apply N.leb_le in Eb.
        cbn [out_bind] in E. unfold new_destination, l_fresh in E. cbn [fst snd] in E.
        destruct (1 <=? rmc_num_posts_per_attempt (rqm_config m)) eqn:Ep; [|done]. apply N.leb_le in Ep.
        cbn [out_bind rst_session_index rst_request rst_destinations_remaining rst_attempts_remaining rst_posts_remaining
           rst_message_id rst_destination_index rst_retry_deadline] in E.
        apply Hend in E as (ls & Hq & Hs). eexists _, _, ls. split; [done|]. split; [eapply RbNew; lia|].
        split; [done|]. exact Hs.
      + apply N.leb_gt in Ed. cbn [out_bind] in E. injection E as <- <-.
        eexists _, _, []. split; [done|]. split; [eapply RbLimit; lia|]. split; [by constructor|]. constructor.
  Qed.

  Lemma remove_first_spec {A} (p : A -> bool) (l : list A) :
    match remove_first p l with
    | Some (i, x, l') => exists l1 l2, l = (l1 ++ x :: l2)%list /\ l' = (l1 ++ l2)%list /\ i = length l1 /\
        p x = true /\ Forall (fun y => p y = false) l1
    | None => Forall (fun y => p y = false) l
    end.
  Proof.
    induction l as [|x l IH]; cbn; [done|]. destruct (p x) eqn:E.
    - exists [], l. repeat split; try done.
    - destruct (remove_first p l) as [[[i y] l']|].
      + destruct IH as (l1 & l2 & -> & -> & -> & Hp & Hf). exists (x :: l1), l2. repeat split; try done. by constructor.
      + by constructor.
  Qed.

  Lemma new_destinations_spec (l : list state) past w :
    exists ids, length ids = length l /\
      (new_destinations l_fresh l past w).1 = zip_with (fun st id => with_fresh st id past) l ids /\
      (new_destinations l_fresh l past w).2.2 = (w.2 ++ ids)%list.
  Proof.
    revert w. induction l as [|st l IH]; intros w; cbn.
    { exists []. by rewrite app_nil_r. }
    destruct (IH ((fresh_id w.1).2, (w.2 ++ [(fresh_id w.1).1])%list)) as (ids & H1 & H2 & H3). unfold l_fresh in H2, H3 |- *.
    destruct (new_destinations _ l past _) as [l' w']. cbn in *. exists ((fresh_id w.1).1 :: ids). cbn. rewrite H1, H2, H3.
    split; [done|]. split; [done|]. by rewrite <-app_assoc.
  Qed.

  Definition lab_ins (ls : list label) : list Req := omap (fun l => match l with LInsert r => Some r | _ => None end) ls.
  Definition lab_rem (ls : list label) : list Req := omap (fun l => match l with LRemove r => Some r | _ => None end) ls.
  Definition lab_pops (ls : list label) : nat :=
    length (omap (fun l => match l with LPop => Some tt | _ => None end) ls).
  Lemma quiet_ins ls : quiet ls -> lab_ins ls = [] /\ lab_rem ls = [] /\ lab_pops ls = 0%nat.
  Proof. induction 1 as [|l ls -> _ IH]; [done|]. done. Qed.
  Lemma quiet_changed ls : quiet ls -> Forall (fun l => l <> LChanged) ls.
  Proof. intros H. eapply Forall_impl; [exact H|]. by intros ? ->. Qed.

  (** Every call is a sequence of small steps. *)
  Lemma exec_steps m w d c m' w' a :
    rm_exec m (w, d) c = Val (m', w', a) ->
    exists ls, rsteps (m, d) ls (m', w'.2) /\
      lab_ins ls = inserted [(c, a)] /\ lab_rem ls = removed [(c, a)] /\ lab_pops ls = pops [(c, a)] /\ (c <> RmChanged -> Forall (fun l => l <> LChanged) ls).
  Proof.
    intros E. destruct c as [status|r|id| | |].
    - cbn in E. destruct (update_session_status _ _ _ _ m status (w, d)) as [[m1 w1]|] eqn:E1; [|done].
      injection E as <- <- <-. unfold update_session_status in E1. case_decide as Hs.
      { injection E1 as <- <-. exists []. split; [constructor|]. repeat split. by constructor. }
      cbv zeta in E1. set (q := shift_queues (rqm_post_queues m) (rqm_status m) status) in *.
      destruct (new_destinations_spec (drop (length (pq_default (rqm_post_queues m))) (pq_default q)) (rqm_created_at m) (w, d))
        as (ids & H1 & H2 & H3).
      destruct (new_destinations _ _ _ _) as [moved w2]. cbn [fst snd] in H2, H3. subst moved.
      apply process_queues_steps in E1 as (ls & Hq & Hls). rewrite H3 in Hls.
      exists (LOther :: ls). destruct (quiet_ins _ Hq) as (Q1 & Q2 & Q3).
      split; [|split; [exact Q1|split; [exact Q2|split; [exact Q3|]]]]; [|intros _; constructor; [done|by apply quiet_changed]].
      econstructor; [|exact Hls]. by apply (RsUpdate m d status ids).
    - cbn in E. destruct (rqm_insert _ _ _ _ m r (w, d)) as [[m1 w1]|] eqn:E1; [|done].
      injection E as <- <- <-. unfold rqm_insert, assert_or_panic in E1. destruct (rqm_has_space m) eqn:Hsp; [|done].
      cbn [out_bind] in E1. apply retry_steps in E1 as (o & d1 & ls & _ & Hr & Hq & Hls).
      destruct (quiet_ins _ Hq) as (Q1 & Q2 & Q3). exists (LInsert r :: ls). split.
      { econstructor; [by apply (RsInsert m d r o d1)|exact Hls]. }
      unfold lab_ins, lab_rem, lab_pops in *. cbn. rewrite Q1, Q2, Q3. repeat split. intros _. constructor; [done|by apply quiet_changed].
    - cbn in E. unfold rqm_remove in E. set (p := fun st : state => bool_decide (rst_message_id st = id)) in *.
      pose proof (remove_first_spec p (pq_current (rqm_post_queues m))) as Hc.
      destruct (remove_first p (pq_current (rqm_post_queues m))) as [[[i1 s1] l1]|].
      { injection E as <- <- <-. destruct Hc as (k1 & k2 & E1 & -> & _). exists [LRemove (rst_request s1)]. split; [|repeat split; by repeat constructor].
        apply rsteps_one. by apply (RsRemove m d (Some RCurrent) k1 s1 k2). }
      pose proof (remove_first_spec p (pq_prev (rqm_post_queues m))) as Hp.
      destruct (remove_first p (pq_prev (rqm_post_queues m))) as [[[i1 s1] l1]|].
      { injection E as <- <- <-. destruct Hp as (k1 & k2 & E1 & -> & _). exists [LRemove (rst_request s1)]. split; [|repeat split; by repeat constructor].
        apply rsteps_one. by apply (RsRemove m d (Some RPrev) k1 s1 k2). }
      pose proof (remove_first_spec p (pq_default (rqm_post_queues m))) as Hd.
      destruct (remove_first p (pq_default (rqm_post_queues m))) as [[[i1 s1] l1]|].
      { injection E as <- <- <-. destruct Hd as (k1 & k2 & E1 & -> & _). exists [LRemove (rst_request s1)]. split; [|repeat split; by repeat constructor].
        apply rsteps_one. by apply (RsRemove m d None k1 s1 k2). }
      pose proof (remove_first_spec p (rqm_retry_queue m)) as Hr.
      destruct (remove_first p (rqm_retry_queue m)) as [[[i1 s1] l1]|].
      { injection E as <- <- <-. destruct Hr as (k1 & k2 & E1 & -> & -> & _). exists [LRemove (rst_request s1)]. split; [|repeat split; by repeat constructor].
        apply rsteps_one. eapply (RsRemoveRetry m d k1 s1 k2); [done|]. by destruct k1. }
      injection E as <- <- <-. exists []. split; [constructor|]. repeat split. by constructor.
    - cbn in E. destruct (process_post_queues _ _ _ m (w, d)) as [[m1 w1]|] eqn:E1; [|done]. injection E as <- <- <-.
      apply process_queues_steps in E1 as (ls & Hq & Hls). destruct (quiet_ins _ Hq) as (Q1 & Q2 & Q3). exists ls.
      repeat split; [done..|]. intros _. by apply quiet_changed.
    - cbn in E. destruct (pop_next_retry _ _ _ _ m (w, d)) as [[[m1 w1] b]|] eqn:E1; [|done]. injection E as <- <- <-.
      unfold pop_next_retry in E1. destruct (rqm_retry_queue m) as [|st rest] eqn:Eq.
      { injection E1 as <- <- <-. exists []. split; [constructor|]. repeat split. by constructor. }
      destruct (rqm_retry _ _ _ _ _ st (w, d)) as [[m2 w2]|] eqn:E2; [|done]. injection E1 as <- <- <-.
      apply retry_steps in E2 as (o & d1 & ls & Hp0 & Hr & Hq & Hls). destruct (quiet_ins _ Hq) as (Q1 & Q2 & Q3).
      exists (LPop :: ls). split.
      { econstructor; [by apply (RsPop m d st rest o d1)|exact Hls]. }
      unfold lab_ins, lab_rem, lab_pops in *. cbn. rewrite Q1, Q2, Q3. repeat split. intros _. constructor; [done|by apply quiet_changed].
    - cbn in E. injection E as <- <- <-. exists [LChanged]. split; [|done]. apply rsteps_one, RsChanged.
  Qed.
End rm.
