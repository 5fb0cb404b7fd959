(** C55: a request waiting for room in an authored packet queue is never forgotten. *)
From stdpp Require Import relations.
From Verif Require Export PNode PReqMgr.

(** ** Specification *)

(** The session requests go to when they are not bound to one (sessions.rs:187-197). *)
Definition request_session (ph : session_phase) : rel_session_index :=
  match ph with PCoverToCurrent => RPrev | _ => RCurrent end.

(** Some request waits to be posted to session [rel]. *)
Definition waits {Req} (rm : request_manager Req) (rel : rel_session_index) : Prop :=
  match rel with
  | RCurrent => pq_current (rqm_post_queues rm) <> []
  | RPrev => pq_prev (rqm_post_queues rm) <> []
  end \/
  (pq_default (rqm_post_queues rm) <> [] /\ rel = request_session (st_phase (rqm_status rm))).

(** The session has packets of its own left to dispatch. *)
Definition busy (m : mixnet) (rel : rel_session_index) : Prop :=
  exists s, ss_get (mx_sessions m) rel = SlFull s /\ aq_queue (se_authored s) <> [].

(** A node with a request manager. [sy_owed]: [take_events] has reported room in an authored packet
    queue and [process_post_queues] has not been called since. *)
Record system := System {
  sy_node : mixnet;
  sy_rm : request_manager user_request;
  sy_owed : bool
}.
Definition told (a : resp) : bool := match a with RespEvents e => ev_space e | _ => false end.

(** Calls on the node and on the manager. The manager is told of every change of the session status
    (request_manager/mod.rs:128-129) before anything else happens. The clock, the random numbers and
    the network status seen by each call are arbitrary. *)
Inductive sys_step (pr : prims) : system -> system -> Prop :=
| SyNode m rm o c m' a :
    (forall st, c <> CallSetStatus st) -> exec pr m c = Val (m', a) ->
    sys_step pr (System m rm o) (System m' rm (o || told a))
| SyStatus m rm o st w w' d d' rm' a :
    w_mixnet w = set_session_status m st ->
    rm_exec (w_post_request pr) w_now w_fresh_id rqt_handling_delay rm (w, d) (RmUpdate st) =
      Val (rm', (w', d'), a) ->
    sys_step pr (System m rm o) (System (w_mixnet w') rm' o)
| SyManager rm o w c w' d d' rm' a :
    (forall st, c <> RmUpdate st) ->
    rm_exec (w_post_request pr) w_now w_fresh_id rqt_handling_delay rm (w, d) c =
      Val (rm', (w', d'), a) ->
    sys_step pr (System (w_mixnet w) rm o)
                (System (w_mixnet w') rm' (match c with RmProcess => false | _ => o end)).
Definition sys_start (pr : prims) (cf : config) (rcf : rm_config) (s : system) : Prop :=
  mx_new pr cf = Val (sy_node s) /\ (exists w, sy_rm s = (rqm_new w_now rcf w).1) /\ sy_owed s = false.
Definition sys_reach (pr : prims) (cf : config) (rcf : rm_config) (s : system) : Prop :=
  exists s0, sys_start pr cf rcf s0 /\ rtc (sys_step pr) s0 s.

(** ** The manager *)
Section wake.
  Context {W Req : Type}.
  Context (post : W -> session_index -> option mixnode_index -> bytes -> Req ->
                  outcome (W * option mixnode_index * result request_metrics post_err)).
  Context (now : W -> instant * W).
  Context (fresh_id : W -> bytes * W).
  Context (hd : Req -> bytes -> duration).
  Context (blocked : W -> session_index -> Prop).
  Context (keeps : W -> W -> Prop).
  Context (keeps_refl : forall w, keeps w w).
  Context (keeps_trans : forall w1 w2 w3, keeps w1 w2 -> keeps w2 w3 -> keeps w1 w3).
  Context (keeps_blocked : forall w w' i, keeps w w' -> blocked w i -> blocked w' i).
  Context (post_keeps : forall w i dest id r w' dest' res,
    post w i dest id r = Val (w', dest', res) -> keeps w w').
  Context (post_full : forall w i dest id r w' dest',
    post w i dest id r = Val (w', dest', Err PeNotEnoughSpaceInQueue) -> blocked w' i).
  Context (now_keeps : forall w, keeps w (now w).2).
  Context (fresh_keeps : forall w, keeps w (fresh_id w).2).
  Implicit Types (m : request_manager Req).

  Definition rod m (rel : option rel_session_index) : rel_session_index :=
    default (request_session (st_phase (rqm_status m))) rel.
  Lemma request_session_eq ph : default_request_session ph = request_session ph.
  Proof. by destruct ph. Qed.
  (** The session is blocked, or is the one before session 0. *)
  Definition stuck m w (rel : rel_session_index) : Prop :=
    (rel = RPrev /\ cur m = 0%N) \/ exists i, rsi_add rel (cur m) = Val i /\ blocked w i.
  Definition settled m w (rel : option rel_session_index) : Prop :=
    pq_get (rqm_post_queues m) rel = [] \/ stuck m w (rod m rel).

  Lemma pq_get_set {T} (q : post_queues T) a b l :
    pq_get (pq_set q a l) b = if decide (a = b) then l else pq_get q b.
  Proof. by destruct a as [[]|], b as [[]|]. Qed.

  (** [moved rel m w m' w']: nothing but queue [rel] and that of the session its requests go to has
      changed. *)
  Definition moved (rel : option rel_session_index) m w m' w' : Prop :=
    rqm_status m' = rqm_status m /\ keeps w w' /\
    forall rel', rel' <> rel -> rel' <> Some (rod m rel) ->
      pq_get (rqm_post_queues m') rel' = pq_get (rqm_post_queues m) rel'.
  Lemma moved_trans rel m w m1 w1 m2 w2 :
    moved rel m w m1 w1 -> moved rel m1 w1 m2 w2 -> moved rel m w m2 w2.
  Proof.
    intros (H1 & H2 & H3) (G1 & G2 & G3). split; [congruence|]. split; [by eapply keeps_trans|].
    intros rel' ? ?. rewrite G3, H3; [done..|]. unfold rod in *. by rewrite H1.
  Qed.
  Lemma settled_moved rel rel' m w m' w' :
    moved rel m w m' w' -> rel' <> rel -> rel' <> Some (rod m rel) -> settled m w rel' ->
    settled m' w' rel'.
  Proof.
    intros (H1 & H2 & H3) Hr Hd [H|H]; unfold settled; [left; by rewrite H3|right].
    unfold stuck, rod, cur in *. rewrite H1. destruct H as [H|(i & Hi & Hb)]; [by left|].
    right. exists i. split; [done|]. by eapply keeps_blocked.
  Qed.

  Lemma post_ok_moved m rel i st metrics w m' w' :
    post_ok now hd m (rod m rel) i st metrics w = Val (m', w') -> moved rel m w m' w'.
  Proof.
    unfold post_ok. intros H. apply out_bind_Val in H as (rtt & _ & H).
    destruct (now w) as [t w1] eqn:En. pose proof (now_keeps w) as Hk. rewrite En in Hk. cbn in Hk.
    destruct (checked_sub _ 1) eqn:E; injection H as <- <-.
    - split; [done|]. split; [done|]. intros rel' H1 H2. revert H2.
      generalize (rod m rel). intros x H2. destruct x, rel' as [[]|]; (done || by destruct H2).
    - split; [done|]. split; [done|]. by intros rel' H1 H2.
  Qed.

  Lemma post_loop_settled fuel rel index i m w m' w' :
    post_loop post now hd fuel rel (rod m rel) index i m w = Val (m', w') ->
    moved rel m w m' w' /\ (pq_get (rqm_post_queues m') rel = [] \/ blocked w' i).
  Proof.
    revert m w. induction fuel as [|fuel IH]; intros m w; cbn [post_loop]; [done|].
    destruct (pq_get (rqm_post_queues m) rel) as [|st rest] eqn:Eq.
    { intros [= <- <-]. split; [|by left]. split; [done|]. split; [apply keeps_refl|done]. }
    cbv zeta. intros H. apply out_bind_Val in H as (u & _ & H).
    apply out_bind_Val in H as ([[w1 dest] res] & Hp & H).
    assert (Hm1 : moved rel m w (rqm_set_queues m (pq_set (rqm_post_queues m) rel rest)) w1).
    { split; [done|]. split; [by eapply post_keeps|]. intros rel' H1 H2. cbn [rqm_post_queues rqm_set_queues rqm_emit push].
      by rewrite pq_get_set, decide_False by congruence. }
    assert (Hgo : forall m1 w2, moved rel m w m1 w2 ->
      post_loop post now hd fuel rel (rod m rel) index i m1 w2 = Val (m', w') ->
      moved rel m w m' w' /\ (pq_get (rqm_post_queues m') rel = [] \/ blocked w' i)).
    { intros m1 w2 Hmv Hl.
      assert (Hr : rod m1 rel = rod m rel) by (unfold rod; by rewrite (proj1 Hmv)).
      rewrite <- Hr in Hl. apply IH in Hl as [Hl1 Hl2]. split; [by eapply moved_trans|done]. }
    destruct res as [metrics|e].
    - apply out_bind_Val in H as ([m2 w2] & Hok & H).
      eapply Hgo; [|exact H]. eapply moved_trans; [exact Hm1|]. eapply post_ok_moved. exact Hok.
    - assert (Hrest : e = PeNotEnoughSpaceInQueue \/
        post_loop post now hd fuel rel (rod m rel) index i
          (rqm_emit (rqm_set_queues m (pq_set (rqm_post_queues m) rel rest))
             (EvPostErr (rst_request st) e)) w1 = Val (m', w')).
      { destruct e; (by left) || (right; exact H). }
      destruct Hrest as [->|Hl].
      + injection H as <- <-. split; [|right; by eapply post_full].
        split; [done|]. split; [by eapply post_keeps|]. intros rel' H1 H2. cbn [rqm_post_queues rqm_set_queues rqm_emit push].
        rewrite !pq_get_set, !(decide_False (P := rel = rel')) by congruence. done.
      + eapply Hgo; [|exact Hl]. exact Hm1.
  Qed.

  Lemma process_queue_settled rel m w m' w' :
    process_post_queue post now hd rel m w = Val (m', w') ->
    moved rel m w m' w' /\ settled m' w' rel.
  Proof.
    unfold process_post_queue. cbv zeta. rewrite request_session_eq. fold (rod m rel).
    destruct (bool_decide (rod m rel = RPrev) && (st_current_index (rqm_status m) =? 0)%N) eqn:E.
    - intros H. apply out_bind_Val in H as (u & _ & H). injection H as <- <-.
      apply andb_prop in E as [E1 E2]. apply bool_decide_eq_true in E1. apply N.eqb_eq in E2.
      split; [|right; left; done]. split; [done|]. split; [apply keeps_refl|done].
    - intros H. apply out_bind_Val in H as (index & _ & H). apply out_bind_Val in H as (i & Hi & H).
      apply post_loop_settled in H as [Hm Hq]. split; [done|]. destruct Hq as [Hq|Hb]; [by left|].
      right. right. exists i. unfold rod, cur. rewrite (proj1 Hm). done.
  Qed.

  Definition calm m w : Prop := forall rel, settled m w rel.

  Lemma process_calm m w m' w' :
    process_post_queues post now hd m w = Val (m', w') ->
    calm m' w' /\ rqm_status m' = rqm_status m /\ keeps w w'.
  Proof.
    unfold process_post_queues. intros H. apply out_bind_Val in H as ([m1 w1] & H1 & H).
    apply out_bind_Val in H as ([m2 w2] & H2 & H3).
    apply process_queue_settled in H1 as [M1 S1], H2 as [M2 S2], H3 as [M3 S3].
    split_and!.
    - intros [[]|].
      + by eapply settled_moved.
      + done.
      + eapply settled_moved; [exact M3|done|done|]. by eapply settled_moved.
    - destruct M1 as [E1 _], M2 as [E2 _], M3 as [E3 _]. congruence.
    - eapply keeps_trans; [apply M1|]. eapply keeps_trans; [apply M2|apply M3].
  Qed.

  Lemma calm_keeps m w w' : keeps w w' -> calm m w -> calm m w'.
  Proof.
    intros Hk H rel. destruct (H rel) as [|[?|(i & ? & ?)]]; [by left|right; by left|].
    right. right. exists i. split; [done|]. by eapply keeps_blocked.
  Qed.

  (** A request is added to a queue; the queues of its session are processed unless one of them was
      waiting already. *)
  Lemma push_calm m rel st w m' w' :
    (if session_post_queues_empty m rel then
       '(m, w) ← process_post_queue post now hd rel (push m rel st) w;
       match rel with
       | None => process_post_queue post now hd
                   (Some (default_request_session (st_phase (rqm_status m)))) m w
       | Some _ => Val (m, w)
       end
     else Val (push m rel st, w)) = Val (m', w') ->
    (calm m w -> calm m' w') /\ rqm_status m' = rqm_status m /\ keeps w w'.
  Proof.
    intros H. destruct (session_post_queues_empty m rel) eqn:Ee.
    - apply out_bind_Val in H as ([m1 w1] & H1 & H).
      apply process_queue_settled in H1 as [M1 S1].
      assert (Hrod : rod (push m rel st) rel = rod m rel) by done.
      assert (Hoth : calm m w -> forall rel', rel' <> rel -> rel' <> Some (rod m rel) -> settled m1 w1 rel').
      { intros Hc rel' Hn1 Hn2. eapply settled_moved; [exact M1|done|done|].
        destruct (Hc rel') as [Hq|Hs]; [left|by right]. cbn [rqm_post_queues rqm_set_queues rqm_emit push].
        by rewrite pq_get_set, decide_False by congruence. }
      destruct rel as [rel|].
      + injection H as <- <-. split; [|split; [apply M1|apply M1]].
        intros Hc rel'. destruct (decide (rel' = Some rel)) as [->|Hne]; [done|]. by apply Hoth.
      + rewrite request_session_eq in H. apply process_queue_settled in H as [M2 S2].
        assert (Hr1 : request_session (st_phase (rqm_status m1)) = rod m None).
        { unfold rod. cbn. destruct M1 as [E1 _]. by rewrite E1. }
        rewrite Hr1 in *. split_and!.
        * intros Hc rel'. destruct (decide (rel' = Some (rod m None))) as [->|Hne]; [done|].
          eapply settled_moved; [exact M2|done|done|].
          destruct (decide (rel' = None)) as [->|Hn]; [done|]. by apply Hoth.
        * destruct M1 as [E1 _], M2 as [E2 _]. rewrite E2, E1. done.
        * eapply keeps_trans; [apply M1|apply M2].
    - injection H as <- <-. split; [|split; [done|apply keeps_refl]].
      intros Hc rel'. destruct (decide (rel = rel')) as [<-|Hne].
      + right. change (stuck m w (rod m rel)).
        unfold session_post_queues_empty in Ee. cbv zeta in Ee.
        destruct (bool_decide (pq_get (rqm_post_queues m) rel = [])) eqn:E1.
        * rewrite request_session_eq in Ee. cbn in Ee. destruct rel as [rel|].
          -- destruct (decide (rel = request_session (st_phase (rqm_status m)))) as [->|]; [|done].
             apply bool_decide_eq_false in Ee. by destruct (Hc None) as [?|?].
          -- apply bool_decide_eq_false in Ee.
             by destruct (Hc (Some (request_session (st_phase (rqm_status m))))) as [?|?].
        * apply bool_decide_eq_false in E1. by destruct (Hc rel) as [?|?].
      + destruct (Hc rel') as [Hq|Hs]; [left|by right]. cbn [rqm_post_queues rqm_set_queues rqm_emit push].
        by rewrite pq_get_set, decide_False by congruence.
  Qed.

  Lemma retry_calm m st w m' w' :
    rqm_retry post now fresh_id hd m st w = Val (m', w') ->
    (calm m w -> calm m' w') /\ rqm_status m' = rqm_status m /\ keeps w w'.
  Proof.
    unfold rqm_retry. intros H. apply out_bind_Val in H as (u & _ & H).
    apply out_bind_Val in H as (next & Hn & H).
    destruct next as [[st1 w1]|].
    2:{ injection H as <- <-. split; [intros Hc; exact Hc|]. split; [done|apply keeps_refl]. }
    assert (Hk1 : keeps w w1).
    { destruct (checked_sub (rst_attempts_remaining st) 1); [injection Hn as _ <-; apply keeps_refl|].
      destruct (checked_sub (rst_destinations_remaining st) 1); [|done].
      apply out_bind_Val in Hn as (at' & _ & Hn). unfold new_destination in Hn.
      injection Hn as Hn. pose proof (fresh_keeps w) as Hf.
      destruct (fresh_id w). by injection Hn as _ <-. }
    apply out_bind_Val in H as (posts & _ & H).
    match type of H with (let '(_, _) := ?x in _) = _ => destruct x as [[rel st2] w2] eqn:E end.
    assert (Hk2 : keeps w1 w2).
    { cbn in E. destruct (rst_session_index st1); [|injection E as _ _ <-; apply keeps_refl].
      match type of E with (if ?b then _ else _) = _ => destruct b end;
        [|injection E as _ _ <-; apply keeps_refl].
      unfold new_destination in E. pose proof (fresh_keeps w1) as Hf.
      destruct (fresh_id w1). by injection E as _ _ <-. }
    assert (Hk : keeps w w2) by by eapply keeps_trans.
    apply push_calm in H as (H1 & H2 & H3). split_and!; [|done|by eapply keeps_trans].
    intros Hc. apply H1. by eapply calm_keeps.
  Qed.

  Lemma new_destinations_keeps (l : list (request_state Req)) past w l' w' :
    new_destinations fresh_id l past w = (l', w') -> keeps w w'.
  Proof.
    revert w l' w'. induction l as [|st l IH]; intros w l' w'; cbn.
    { intros [= _ <-]. apply keeps_refl. }
    unfold new_destination. pose proof (fresh_keeps w) as Hf. destruct (fresh_id w) as [id w1].
    destruct (new_destinations fresh_id l past w1) as [l1 w2] eqn:E. intros [= _ <-].
    eapply keeps_trans; [exact Hf|]. by eapply IH.
  Qed.

  Lemma update_calm m st w m' w' :
    update_session_status post now fresh_id hd m st w = Val (m', w') ->
    (calm m w \/ rqm_status m <> st -> calm m' w') /\ rqm_status m' = st /\ keeps w w'.
  Proof.
    unfold update_session_status.
    destruct (decide (rqm_status m = st)) as [Est|Est].
    { intros [= <- <-]. split; [by intros [?|?]|]. split; [done|apply keeps_refl]. }
    destruct (new_destinations _ _ _ _) as [l w1] eqn:En. intros H.
    apply process_calm in H as (H1 & H2 & H3). split_and!; [done|done|].
    eapply keeps_trans; [|exact H3]. by eapply new_destinations_keeps.
  Qed.

  Lemma remove_first_nil {A} (p : A -> bool) l i x l' :
    remove_first p l = Some (i, x, l') -> l <> [].
  Proof. by destruct l. Qed.
  Lemma remove_calm m id w : (calm m w -> calm (rqm_remove m id).1 w) /\ rqm_status (rqm_remove m id).1 = rqm_status m.
  Proof.
    unfold rqm_remove. cbv zeta.
    assert (Hset : calm m w -> forall rel i x l p, remove_first p (pq_get (rqm_post_queues m) rel) = Some (i, x, l) ->
      calm (rqm_set_queues m (pq_set (rqm_post_queues m) rel l)) w).
    { intros Hc rel i x l p H. apply remove_first_nil in H. intros rel'.
      destruct (decide (rel = rel')) as [<-|Hne].
      - destruct (Hc rel) as [?|Hs]; [done|]. right. exact Hs.
      - destruct (Hc rel') as [Hq|Hs]; [left|by right]. cbn [rqm_post_queues rqm_set_queues rqm_emit push]. by rewrite pq_get_set, decide_False. }
    repeat match goal with
    | |- context [match remove_first ?p ?l with _ => _ end] =>
        destruct (remove_first p l) as [[[? ?] ?]|] eqn:?
    end; (split; [|done]); cbn [fst]; intros Hc.
    - by eapply (Hset Hc (Some RCurrent)).
    - by eapply (Hset Hc (Some RPrev)).
    - by eapply (Hset Hc None).
    - exact Hc.
    - exact Hc.
  Qed.
  (** *** Service *)
  Context (post_refused : forall w i dest id r w' dest',
    post w i dest id r = Val (w', dest', Err PeNotEnoughSpaceInQueue) -> blocked w i).
  Context (post_other : forall w i dest id r w' dest' res j,
    post w i dest id r = Val (w', dest', res) -> j <> i -> blocked w' j -> blocked w j).
  Context (now_back : forall w j, blocked (now w).2 j -> blocked w j).

  (** [handled i st l]: the log entries [l] tell that request [st] was posted to session [i], or could
      not be posted at all. *)
  Definition handled (i : session_index) (st : request_state Req) (l : list (rm_event Req)) : Prop :=
    (exists dest t rtt, EvPosted (rst_request st) (rst_message_id st) i dest t rtt ∈ l) \/
    (exists e, e <> PeNotEnoughSpaceInQueue /\ EvPostErr (rst_request st) e ∈ l).
  Lemma handled_app i st l l' : handled i st l \/ handled i st l' -> handled i st (l ++ l').
  Proof.
    intros [H|H]; destruct H as [(d & t & x & H)|(e & He & H)];
      [left; exists d, t, x|right; exists e|left; exists d, t, x|right; exists e]; rewrite ?elem_of_app; auto.
  Qed.

  Lemma post_ok_log m rel i st metrics w m' w' :
    post_ok now hd m rel i st metrics w = Val (m', w') ->
    (exists t rtt, rqm_log m' = rqm_log m ++ [EvPosted (rst_request st) (rst_message_id st) i (rst_destination_index st) t rtt]) /\
    (forall j, blocked w' j -> blocked w j).
  Proof.
    unfold post_ok. intros H. apply out_bind_Val in H as (rtt & _ & H).
    destruct (now w) as [t w1] eqn:En. pose proof (now_back w) as Hk. rewrite En in Hk. cbn in Hk.
    destruct (checked_sub _ 1) eqn:E; injection H as <- <-; (split; [by exists t, rtt|done]).
  Qed.
  (** A pass over a queue adds to the log and blocks no other session. *)
  Lemma post_loop_log fuel rel index rod i m w m' w' :
    post_loop post now hd fuel rel rod index i m w = Val (m', w') ->
    (exists l, rqm_log m' = rqm_log m ++ l) /\ (forall j, j <> i -> blocked w' j -> blocked w j).
  Proof.
    revert m w. induction fuel as [|fuel IH]; intros m w; cbn [post_loop]; [done|].
    destruct (pq_get (rqm_post_queues m) rel) as [|st rest] eqn:Eq.
    { intros [= <- <-]. split; [|done]. exists []. by rewrite app_nil_r. }
    cbv zeta. intros H. apply out_bind_Val in H as (u & _ & H).
    apply out_bind_Val in H as ([[w1 dest] res] & Hp & H).
    destruct res as [metrics|e].
    - apply out_bind_Val in H as ([m2 w2] & Hok & H). apply post_ok_log in Hok as [(t & rtt & El) Hb].
      apply IH in H as [[l Hl] Hb2]. split.
      + eexists. rewrite Hl, El. cbn. rewrite <- app_assoc. done.
      + intros j Hj H. eapply post_other; [exact Hp|done|]. apply Hb. by apply Hb2.
    - assert (Hrest : (w' = w1 /\ exists l, rqm_log m' = rqm_log m ++ l) \/
        post_loop post now hd fuel rel rod index i
          (rqm_emit (rqm_set_queues m (pq_set (rqm_post_queues m) rel rest))
             (EvPostErr (rst_request st) e)) w1 = Val (m', w')).
      { destruct e; (right; exact H) || (left; injection H as <- <-; split; [done|by eexists]). }
      destruct Hrest as [[-> Hl]|Hl].
      + split; [done|]. intros j Hj H1. by eapply post_other.
      + apply IH in Hl as [[l Hl] Hb]. split.
        * eexists. rewrite Hl. cbn. rewrite <- app_assoc. done.
        * intros j Hj H1. eapply post_other; [exact Hp|done|]. by apply Hb.
  Qed.
  Lemma post_loop_serves fuel rel index rod i m w m' w' st rest :
    post_loop post now hd fuel rel rod index i m w = Val (m', w') ->
    pq_get (rqm_post_queues m) rel = st :: rest -> ~ blocked w i ->
    exists l, rqm_log m' = rqm_log m ++ l /\ handled i st l.
  Proof.
    destruct fuel as [|fuel]; cbn [post_loop]; [done|]. intros H Eq Hn. rewrite Eq in H.
    cbv zeta in H. apply out_bind_Val in H as (u & _ & H).
    apply out_bind_Val in H as ([[w1 dest] res] & Hp & H).
    destruct res as [metrics|e].
    - apply out_bind_Val in H as ([m2 w2] & Hok & H). apply post_ok_log in Hok as [(t & rtt & El) _].
      apply post_loop_log in H as [[l Hl] _]. eexists. split; [rewrite Hl, El; cbn; rewrite <- app_assoc; done|].
      apply handled_app. left. left. do 3 eexists. by apply elem_of_list_singleton.
    - assert (Hrest : e <> PeNotEnoughSpaceInQueue /\
        post_loop post now hd fuel rel rod index i
          (rqm_emit (rqm_set_queues m (pq_set (rqm_post_queues m) rel rest))
             (EvPostErr (rst_request st) e)) w1 = Val (m', w')).
      { destruct e; try (split; [done|exact H]). destruct Hn. by eapply post_refused. }
      destruct Hrest as [He Hl]. apply post_loop_log in Hl as [[l Hl] _].
      eexists. split; [rewrite Hl; cbn; rewrite <- app_assoc; done|].
      apply handled_app. left. right. exists e. split; [done|]. by apply elem_of_list_singleton.
  Qed.

  Lemma process_queue_log rel m w m' w' :
    process_post_queue post now hd rel m w = Val (m', w') ->
    (exists l, rqm_log m' = rqm_log m ++ l) /\
    (forall j, rsi_add (rod m rel) (cur m) <> Val j -> blocked w' j -> blocked w j).
  Proof.
    unfold process_post_queue. cbv zeta. rewrite request_session_eq. fold (rod m rel). fold (cur m).
    destruct (bool_decide (rod m rel = RPrev) && (cur m =? 0)%N) eqn:E.
    - intros H. apply out_bind_Val in H as (u & _ & H). injection H as <- <-.
      split; [|done]. exists []. by rewrite app_nil_r.
    - intros H. apply out_bind_Val in H as (index & _ & H). apply out_bind_Val in H as (i & Hi & H).
      apply post_loop_log in H as [Hl Hb]. split; [done|]. intros j Hj. apply Hb. congruence.
  Qed.
  Lemma process_queue_serves rel m w m' w' st rest i :
    process_post_queue post now hd rel m w = Val (m', w') ->
    pq_get (rqm_post_queues m) rel = st :: rest ->
    rsi_add (rod m rel) (cur m) = Val i -> ~ blocked w i ->
    exists l, rqm_log m' = rqm_log m ++ l /\ handled i st l.
  Proof.
    unfold process_post_queue. cbv zeta. rewrite request_session_eq. fold (rod m rel). fold (cur m).
    destruct (bool_decide (rod m rel = RPrev) && (cur m =? 0)%N) eqn:E.
    - intros _ _ Hi. exfalso. apply andb_prop in E as [E1 E2]. apply bool_decide_eq_true in E1.
      apply N.eqb_eq in E2. rewrite E1, E2 in Hi. done.
    - intros H Hq Hi Hn. apply out_bind_Val in H as (index & _ & H). apply out_bind_Val in H as (i' & Hi' & H).
      rewrite Hi in Hi'. injection Hi' as <-. by eapply post_loop_serves.
  Qed.

  (** The first request waiting for a session that is not blocked is taken care of. *)
  Lemma process_serves m w m' w' rel i :
    process_post_queues post now hd m w = Val (m', w') -> waits m rel ->
    rsi_add rel (cur m) = Val i -> ~ blocked w i ->
    exists q st l, (q = None \/ q = Some rel) /\ rod m q = rel /\
      head (pq_get (rqm_post_queues m) q) = Some st /\ rqm_log m' = rqm_log m ++ l /\ handled i st l.
  Proof.
    unfold process_post_queues. intros H Hw Hi Hn. apply out_bind_Val in H as ([m1 w1] & H1 & H).
    apply out_bind_Val in H as ([m2 w2] & H2 & H3).
    pose proof (process_queue_settled _ _ _ _ _ H1) as [M1 _].
    pose proof (process_queue_settled _ _ _ _ _ H2) as [M2 _].
    destruct (process_queue_log _ _ _ _ _ H1) as [[l1 L1] B1].
    destruct (process_queue_log _ _ _ _ _ H2) as [[l2 L2] B2].
    destruct (process_queue_log _ _ _ _ _ H3) as [[l3 L3] _].
    assert (Hcur1 : cur m1 = cur m) by (unfold cur; by rewrite (proj1 M1)).
    assert (Hcur2 : cur m2 = cur m) by (unfold cur; by rewrite (proj1 M2), (proj1 M1)).
    destruct (decide (request_session (st_phase (rqm_status m)) = rel)) as [Hd|Hd].
    - destruct (pq_default (rqm_post_queues m)) as [|st rest] eqn:Eq.
      + (* nothing in the default queue *)
        assert (m1 = m /\ w1 = w) as [-> ->].
        { revert H1. unfold process_post_queue. cbv zeta. intros H1.
          match type of H1 with (if ?b then _ else _) = _ => destruct b end.
          - apply out_bind_Val in H1 as (u & _ & H1). by injection H1 as <- <-.
          - apply out_bind_Val in H1 as (u & _ & H1). apply out_bind_Val in H1 as (u' & _ & H1).
            revert H1. cbn [pq_get]. rewrite Eq. cbn. rewrite Eq. by intros [= <- <-]. }
        destruct Hw as [Hw|[Hw _]]; [|done]. clear H1.
        destruct rel.
        * destruct (pq_current (rqm_post_queues m)) as [|st rest] eqn:Ec; [done|].
          destruct (process_queue_serves _ _ _ _ _ st rest i H2) as (l & El & Hl); [done..|].
          exists (Some RCurrent), st. exists (l ++ l3). split_and!; [by right|done|cbn; by rewrite Ec| |].
          -- by rewrite L3, El, app_assoc.
          -- apply handled_app. by left.
        * destruct (pq_prev (rqm_post_queues m)) as [|st rest] eqn:Ec; [done|].
          assert (Hq2 : pq_get (rqm_post_queues m2) (Some RPrev) = st :: rest).
          { destruct M2 as (_ & _ & M2). by rewrite M2. }
          destruct (process_queue_serves _ _ _ _ _ st rest i H3) as (l & El & Hl); [done|by rewrite Hcur2| |].
          { intros Hb. apply Hn. apply B2; [|done]. cbn. intros [= He]. cbn in Hi.
            unfold checked_sub in Hi. destruct (N.leb_spec 1 (cur m)); [|done]. injection Hi as <-. lia. }
          exists (Some RPrev), st. exists (l2 ++ l). split_and!; [by right|done|cbn; by rewrite Ec| |].
          -- by rewrite El, L2, app_assoc.
          -- apply handled_app. by right.
      + destruct (process_queue_serves _ _ _ _ _ st rest i H1) as (l & El & Hl); [done| |done|].
        { unfold rod. cbn. by rewrite Hd. }
        exists None, st. exists (l ++ l2 ++ l3). split_and!; [by left|done|cbn; by rewrite Eq| |].
        * by rewrite L3, L2, El, !app_assoc.
        * apply handled_app. by left.
    - destruct Hw as [Hw|[_ Hw]]; [|by rewrite Hw in Hd].
      assert (Hadd : forall a b j, a <> b -> rsi_add a (cur m) = Val j -> rsi_add b (cur m) <> Val j).
      { intros a b j Hab Ha Hb'. unfold rsi_add, checked_sub in Ha, Hb'.
        destruct a, b; try done; destruct (N.leb_spec 1 (cur m)); cbn in *; try done; injection Ha as Ha; injection Hb' as Hb'; lia. }
      assert (Hn1 : ~ blocked w1 i).
      { intros Hb. apply Hn. apply B1; [|done]. apply (Hadd rel); [|done]. unfold rod. cbn. congruence. }
      destruct rel.
      + destruct (pq_current (rqm_post_queues m)) as [|st rest] eqn:Ec; [done|].
        assert (Hq1 : pq_get (rqm_post_queues m1) (Some RCurrent) = st :: rest).
        { destruct M1 as (_ & _ & M1). rewrite M1; [done..|]. unfold rod. cbn. congruence. }
        destruct (process_queue_serves _ _ _ _ _ st rest i H2) as (l & El & Hl); [done|by rewrite Hcur1|done|].
        exists (Some RCurrent), st. exists (l1 ++ l ++ l3). split_and!; [by right|done|cbn; by rewrite Ec| |].
        * by rewrite L3, El, L1, !app_assoc.
        * apply handled_app. right. apply handled_app. by left.
      + destruct (pq_prev (rqm_post_queues m)) as [|st rest] eqn:Ec; [done|].
        assert (Hq1 : pq_get (rqm_post_queues m1) (Some RPrev) = st :: rest).
        { destruct M1 as (_ & _ & M1). rewrite M1; [done..|]. unfold rod. cbn. congruence. }
        assert (Hq2 : pq_get (rqm_post_queues m2) (Some RPrev) = st :: rest).
        { destruct M2 as (_ & _ & M2). by rewrite M2. }
        destruct (process_queue_serves _ _ _ _ _ st rest i H3) as (l & El & Hl); [done|by rewrite Hcur2| |].
        { intros Hb. apply Hn1. apply B2; [|done]. rewrite Hcur1. by apply (Hadd RPrev). }
        exists (Some RPrev), st. exists (l1 ++ l2 ++ l). split_and!; [by right|done|cbn; by rewrite Ec| |].
        * by rewrite El, L2, L1, !app_assoc.
        * apply handled_app. right. apply handled_app. by right.
  Qed.
End wake.

(** ** The node *)
Lemma check_space_busy q n : aq_check_space q n = Err CseLen -> aq_queue q <> [].
Proof.
  unfold aq_check_space. destruct (checked_sub _ n) as [k|]; [|done]. cbv zeta.
  destruct (N.ltb_spec (if negb (apc_multiple_messages (aq_config q)) then 0%N else k) (aq_len q)) as [H|]; [|done].
  intros _ E. unfold aq_len in H. rewrite E in H. cbn in H. lia.
Qed.

(** Neither the status nor a pending event nor the fact that a session is busy is lost. *)
Definition upheld (m m' : mixnet) : Prop :=
  mx_status m' = mx_status m /\ (ev_space (mx_events m) = true -> ev_space (mx_events m') = true) /\
  forall rel, busy m rel -> busy m' rel.
Lemma upheld_refl m : upheld m m.
Proof. done. Qed.
Lemma upheld_put m rel s s' :
  ss_get (mx_sessions m) rel = SlFull s ->
  (aq_queue (se_authored s) <> [] -> aq_queue (se_authored s') <> []) ->
  upheld m (mx_put_session m rel s').
Proof.
  intros Hs Hq. split; [done|]. split; [done|]. intros rel' (s1 & H1 & H2). unfold busy, mx_put_session. cbn.
  destruct rel, rel'; cbn in *; try (by exists s1).
  - exists s'. split; [done|]. apply Hq. congruence.
  - exists s'. split; [done|]. apply Hq. congruence.
Qed.

Section node.
  Context (pr : prims).

  Lemma post_request_loop_queue cf rb id bs st r st' res :
    post_request_loop pr cf rb id bs st r = Val (st', res) ->
    aq_queue (pst_queue st) <> [] -> aq_queue (pst_queue st') <> [].
  Proof.
    revert st r. induction bs as [|b bs IH]; intros st r; cbn [post_request_loop].
    { by intros [= <- _]. }
    intros H. apply out_bind_Val in H as ([sst res1] & _ & H).
    destruct res1 as [[[packet metrics] r1]|e]; [|by injection H as <- _].
    apply out_bind_Val in H as (q & Hq & H). apply out_bind_Val in H as (d & _ & H).
    intros Hne. eapply IH; [exact H|]. cbn. unfold aq_push in Hq.
    apply out_bind_Val in Hq as (u & _ & Hq). injection Hq as <-. cbn. by destruct (aq_queue (pst_queue st)).
  Qed.
  Lemma post_session_ok ss status i rel s :
    post_session ss status i = Ok (rel, s) ->
    ss_get ss rel = SlFull s /\ rsi_from_session_index i (st_current_index status) = Some rel /\
    phase_allows (st_phase status) rel.
  Proof.
    unfold post_session. destruct (rsi_from_session_index _ _) as [rel1|]; [|done].
    destruct (allow_requests_and_replies (st_phase status) rel1) eqn:E; cbn; [|done].
    destruct (ss_get ss rel1) eqn:Es; try done. intros [= <- <-]. split_and!; [done..|].
    by apply phase_allows_spec.
  Qed.

  Lemma post_request_upheld m i dest id data n ns r m' dest' res :
    post_request pr m i dest id data n ns r = Val (m', dest', res) ->
    upheld m m' /\
    (res = Err PeNotEnoughSpaceInQueue ->
     exists rel, rsi_from_session_index i (st_current_index (mx_status m)) = Some rel /\
       phase_allows (st_phase (mx_status m)) rel /\ busy m' rel).
  Proof.
    unfold post_request. intros H. apply out_bind_Val in H as (bs & _ & H).
    destruct bs as [bs|]; [|by injection H as <- _ <-].
    destruct (cf_max_fragments_per_message (mx_config m) <? N.of_nat (length bs))%N; [by injection H as <- _ <-|].
    destruct (post_session (mx_sessions m) (mx_status m) i) as [[rel s]|e] eqn:Ep.
    2:{ injection H as <- _ <-. split; [done|]. intros [= ->]. unfold post_session in Ep.
        repeat (case_match; try done). }
    apply post_session_ok in Ep as (Es & Ei & Ea).
    destruct (aq_check_space (se_authored s) (N.of_nat (length bs))) as [?|e] eqn:Ec.
    2:{ injection H as <- _ <-. split; [done|]. intros [= He]. destruct e; [done|].
        exists rel. split_and!; [done..|]. exists s. split; [done|]. by eapply check_space_busy. }
    apply out_bind_Val in H as (rbr & _ & H). destruct rbr as [[rb r1]|e]; [|by injection H as <- _ <-].
    apply out_bind_Val in H as ([st res1] & Hl & H).
    assert (Hup : upheld m (mx_put_session (mx_set_keystore m (sst_keystore (pst_surb st))) rel
                              (se_set_authored s (pst_queue st)))).
    { apply (upheld_put (mx_set_keystore m _) rel s); [done|]. cbn.
      intros Hne. by eapply post_request_loop_queue. }
    destruct res1 as [?|e]; [|by injection H as <- _ <-].
    apply out_bind_Val in H as (? & _ & H). apply out_bind_Val in H as (? & _ & H). by injection H as <- _ <-.
  Qed.

  Lemma post_request_other m i dest id data n ns r m' dest' res :
    post_request pr m i dest id data n ns r = Val (m', dest', res) ->
    m' = m \/
    (res <> Err PeNotEnoughSpaceInQueue /\
     exists rel s ks, rsi_from_session_index i (st_current_index (mx_status m)) = Some rel /\
       m' = mx_put_session (mx_set_keystore m ks) rel s).
  Proof.
    unfold post_request. intros H. apply out_bind_Val in H as (bs & _ & H).
    destruct bs as [bs|]; [|left; by injection H as <- _ <-].
    destruct (cf_max_fragments_per_message (mx_config m) <? N.of_nat (length bs))%N; [left; by injection H as <- _ <-|].
    destruct (post_session (mx_sessions m) (mx_status m) i) as [[rel s]|e] eqn:Ep; [|left; by injection H as <- _ <-].
    apply post_session_ok in Ep as (Es & Ei & Ea).
    destruct (aq_check_space (se_authored s) (N.of_nat (length bs))) as [?|e] eqn:Ec; [|left; by injection H as <- _ <-].
    apply out_bind_Val in H as (rbr & _ & H). destruct rbr as [[rb r1]|e]; [|left; by injection H as <- _ <-].
    apply out_bind_Val in H as ([st res1] & Hl & H). right.
    destruct res1 as [?|e].
    - apply out_bind_Val in H as (? & _ & H). apply out_bind_Val in H as (? & _ & H). injection H as <- _ <-.
      split; [done|]. by do 3 eexists.
    - injection H as <- _ <-. split; [done|]. by do 3 eexists.
  Qed.

  Lemma post_reply_loop_queue t bs surbs q surbs' q' res :
    post_reply_loop pr t bs surbs q = Val (surbs', q', res) -> aq_queue q <> [] -> aq_queue q' <> [].
  Proof.
    revert surbs q. induction bs as [|b bs IH]; intros surbs q; cbn [post_reply_loop].
    { by intros [= _ <- _]. }
    cbv zeta. intros H. apply out_bind_Val in H as (data & _ & H).
    apply out_bind_Val in H as ([surb surbs1] & _ & H).
    destruct (complete_reply_packet pr _ surb) as [packet [index|]]; [|by injection H as _ <- _].
    destruct (tp_index_to_peer_id t index) as [peer|e]; [|by injection H as _ <- _].
    apply out_bind_Val in H as (q1 & Hq & H). intros Hne. eapply IH; [exact H|].
    unfold aq_push in Hq. apply out_bind_Val in Hq as (u & _ & Hq). injection Hq as <-. cbn.
    by destruct (aq_queue q).
  Qed.

  Lemma try_peel_in out p l out' a rel s tag :
    try_peel pr out p l = TpOk out' a rel s tag -> (rel, s) ∈ l.
  Proof.
    revert out. induction l as [|[rel1 s1] l IH]; intros out; cbn; [done|]. cbv zeta.
    destruct (rf_contains _ _); [done|]. destruct (peel _ _ _ _) as [out1 [a1|e]].
    - intros [= _ _ <- <- _]. left.
    - destruct e; try done. intros H. right. by eapply IH.
  Qed.
  Lemma enumerate_in ss rel s : (rel, s) ∈ ss_enumerate ss -> ss_get ss rel = SlFull s.
  Proof.
    unfold ss_enumerate. rewrite elem_of_list_omap. intros ([i sl] & Hin & H).
    destruct sl; try done. cbn in H. injection H as -> ->.
    apply elem_of_cons in Hin as [[= -> ->]|Hin]; [done|].
    apply elem_of_list_singleton in Hin as [= -> ->]. done.
  Qed.

  (** What a call on the node other than a change of the status does. *)
  Lemma exec_upheld m c m' a :
    (forall st, c <> CallSetStatus st) -> exec pr m c = Val (m', a) ->
    mx_status m' = mx_status m /\
    (ev_space (mx_events m) = true -> ev_space (mx_events m') = true \/ told a = true) /\
    (forall rel, busy m rel -> busy m' rel \/ ev_space (mx_events m') = true).
  Proof.
    intros Hc He.
    assert (Hgo : upheld m m' -> mx_status m' = mx_status m /\
      (ev_space (mx_events m) = true -> ev_space (mx_events m') = true \/ told a = true) /\
      (forall rel, busy m rel -> busy m' rel \/ ev_space (mx_events m') = true)).
    { intros (H1 & H2 & H3). split; [done|]. split; [by left; apply H2|]. intros rel Hb. left. by apply H3. }
    destruct c; cbn in He.
    - by destruct (Hc st).
    - apply Hgo. apply out_bind_Val in He as ([m1 b] & Hm & He). injection He as <- <-.
      unfold maybe_set_mixnodes in Hm. cbv zeta in Hm.
      assert (Hslot : (forall s, ss_get (mx_sessions m) rel <> SlFull s) -> forall sl,
        upheld m (mx_set_sessions m (ss_set (mx_sessions m) rel sl))).
      { intros Hn sl. split; [done|]. split; [done|]. intros rel' (s1 & H1 & H2).
        exists s1. split; [|done]. destruct rel, rel'; cbn in *; try done; by destruct (Hn s1). }
      assert (Hev : forall m1 e, upheld m m1 -> upheld m (mx_or_events m1 e)).
      { intros m2 e (H1 & H2 & H3). split; [done|]. split; [|done]. intros H. cbn. by rewrite H2. }
      destruct (ss_get (mx_sessions m) rel) eqn:Es.
      3,4: by injection Hm as <- _.
      all: apply out_bind_Val in Hm as (? & _ & Hm); destruct mixnodes as [mixnodes|[]];
        [|by injection Hm as <- _|injection Hm as <- _; by apply Hslot].
      all: repeat match type of Hm with (let '(_, _) := ?x in _) = _ => destruct x end.
      all: apply out_bind_Val in Hm as ([t r1] & _ & Hm);
        match type of Hm with match ?x with _ => _ end = _ => destruct x end;
        [|injection Hm as <- _; by apply Hslot].
      all: destruct (rf_new r1); injection Hm as <- _; apply Hev; by apply Hslot.
    - apply Hgo. unfold next_kx_public in He. destruct (mx_next_kx_pair m); [by injection He as <- <-|].
      destruct (kx_pair_gen pr r). by injection He as <- <-.
    - apply Hgo. apply out_bind_Val in He as ([m1 b] & Hm & He). injection He as <- <-.
      unfold handle_packet in Hm.
      destruct (try_peel pr _ p _) as [| |out a rel s tag] eqn:Et; [by injection Hm as <- _..|].
      apply try_peel_in, enumerate_in in Et.
      assert (Hput : upheld m (mx_put_session m rel (se_set_filter s (rf_insert (se_filter s) tag)))).
      { by eapply upheld_put. }
      destruct a as [tgt d| |surb_id|id].
      + destruct (negb _); [by injection Hm as <- _|]. destruct (negb _); [by injection Hm as <- _|].
        cbv zeta in Hm. destruct (tp_target_to_peer_id _ tgt); [|by injection Hm as <- _].
        apply out_bind_Val in Hm as (dur & _ & Hm). apply out_bind_Val in Hm as ([q ch] & _ & Hm).
        injection Hm as <- _. destruct ch; [|done].
        destruct Hput as (H1 & H2 & H3). split; [done|]. split; [|done]. intros H. cbn. by rewrite H.
      + cbv zeta in Hm. destruct (negb _); [by injection Hm as <- _|].
        apply out_bind_Val in Hm as ([fa msg] & _ & Hm). destruct msg; [|by injection Hm as <- _].
        apply out_bind_Val in Hm as (ix & _ & Hm). by injection Hm as <- _.
      + cbv zeta in Hm. destruct (sk_entry _ _); [|by injection Hm as <- _].
        destruct (decrypt_reply_payload _ _ _) as [pl [?|?]]; [|by injection Hm as <- _].
        apply out_bind_Val in Hm as ([fa msg] & _ & Hm). by injection Hm as <- _.
      + by injection Hm as <- _.
    - apply Hgo. unfold pop_next_forward_packet in He. destruct (fq_pop _ _). injection He as <- _.
      split; [done|]. split; [|done]. intros H. cbn. by rewrite H.
    - apply out_bind_Val in He as ([m1 p] & Hm & He). injection He as <- <-.
      unfold pop_next_authored_packet in Hm. apply out_bind_Val in Hm as ([picked r1] & Hp & Hm).
      apply pick_session_spec in Hp. destruct picked as [[rel s]|]; [|apply Hgo; by injection Hm as <- _].
      cbv zeta in Hm. apply out_bind_Val in Hm as ([loop r2] & _ & Hm).
      match type of Hm with (let '(_, _) := ?x in _) = _ => destruct x as [m2 packet] eqn:E end.
      assert (m1 = m2) as ->.
      { destruct packet; [by injection Hm as <- _|].
        destruct (negb (cf_gen_cover_packets (mx_config m2))); [by injection Hm as <- _|].
        apply out_bind_Val in Hm as ([?|?] & _ & Hm); by injection Hm as <- _. }
      clear Hm. match type of E with (if ?b then _ else _) = _ => destruct b end.
      2:{ injection E as <- _. apply Hgo. split; [done|]. split; [|done]. intros H. cbn. by rewrite H. }
      unfold aq_pop in E. destruct (aq_queue (se_authored s)) as [|p0 rest] eqn:Eq.
      + injection E as <- _. apply Hgo.
        change (upheld m (mx_put_session (mx_or_events m NEXT_AUTHORED_PACKET_DEADLINE_CHANGED) rel
                            (se_set_authored s (se_authored s)))).
        destruct (upheld_put (mx_or_events m NEXT_AUTHORED_PACKET_DEADLINE_CHANGED) rel s
                    (se_set_authored s (se_authored s))) as (H1 & H2 & H3); [done..|].
        split; [done|]. split; [|done]. intros H. cbn. by rewrite H.
      + set (q := AuthoredQueue _ rest) in E.
        destruct (apc_multiple_messages (aq_config (se_authored s)) || bool_decide (rest = [])) eqn:Esp.
        * injection E as <- _. split; [done|]. split; [|].
          -- intros H. left. cbn. by rewrite orb_true_r.
          -- intros rel' _. right. cbn. by rewrite orb_true_r.
        * injection E as <- _. apply Hgo. apply orb_false_elim in Esp as [_ Esp].
          apply bool_decide_eq_false in Esp.
          destruct (upheld_put (mx_or_events m NEXT_AUTHORED_PACKET_DEADLINE_CHANGED) rel s
                      (se_set_authored s q)) as (H1 & H2 & H3); [done..|].
          split; [done|]. split; [|done]. intros H. cbn. by rewrite H.
    - apply out_bind_Val in He as ([[m1 d1] res] & Hm & He). injection He as <- <-. apply Hgo.
      by apply post_request_upheld in Hm as [? _].
    - apply Hgo. apply out_bind_Val in He as ([[m1 s1] res] & Hm & He). injection He as <- <-.
      unfold post_reply in Hm. apply out_bind_Val in Hm as (bs & _ & Hm).
      destruct bs as [bs|]; [|by injection Hm as <- _ _].
      destruct (_ <? _)%N; [by injection Hm as <- _ _|].
      destruct (post_session _ _ _) as [[rel s]|e] eqn:Ep; [|by injection Hm as <- _ _].
      apply post_session_ok in Ep as (Es & _ & _).
      destruct (aq_check_space _ _); [|by injection Hm as <- _ _].
      apply out_bind_Val in Hm as ([[s2 q] res2] & Hl & Hm). injection Hm as <- _ _.
      eapply upheld_put; [done|]. cbn. intros Hne. by eapply post_reply_loop_queue.
    - injection He as <- <-. split; [done|]. split; [by right|]. intros rel Hb. by left.
  Qed.
End node.

(** ** The two together *)
Section system.
  Context (pr : prims).
  Notation lworld := (world * list bytes)%type.
  Definition node_blocked (m : mixnet) (i : session_index) : Prop :=
    exists rel, rsi_from_session_index i (st_current_index (mx_status m)) = Some rel /\
      phase_allows (st_phase (mx_status m)) rel /\ busy m rel.
  Notation lblocked := (fun w : lworld => node_blocked (w_mixnet w.1)).
  Notation lkeeps := (fun w w' : lworld => upheld (w_mixnet w.1) (w_mixnet w'.1)).
  Notation lpost := (l_post (w_post_request pr)).
  Lemma upheld_trans m1 m2 m3 : upheld m1 m2 -> upheld m2 m3 -> upheld m1 m3.
  Proof. intros (H1 & H2 & H3) (G1 & G2 & G3). split; [congruence|]. split; auto. Qed.
  Lemma upheld_blocked m m' i : upheld m m' -> node_blocked m i -> node_blocked m' i.
  Proof.
    intros (H1 & H2 & H3) (rel & Hi & Ha & Hb). exists rel. rewrite H1. split_and!; [done..|]. by apply H3.
  Qed.
  Lemma lpost_val (w : lworld) i dest id r w' dest' res :
    lpost w i dest id r = Val (w', dest', res) ->
    exists r', post_request pr (w_mixnet w.1) i dest id (rqt_data r) (rqt_num_surbs r) (w_ns w.1) r' =
      Val (w_mixnet w'.1, dest', res).
  Proof.
    unfold l_post, w_post_request. intros H. apply out_bind_Val in H as ([[w1 d1] res1] & H1 & H).
    apply out_bind_Val in H1 as ([[m1 d2] res2] & H1 & H2). injection H2 as <- <- <-. injection H as <- <- <-.
    eexists. exact H1.
  Qed.
  Lemma lpost_keeps (w : lworld) i dest id r w' dest' res :
    lpost w i dest id r = Val (w', dest', res) -> lkeeps w w'.
  Proof. intros H. apply lpost_val in H as [r' H]. by apply post_request_upheld in H as [H _]. Qed.
  Lemma lpost_full (w : lworld) i dest id r w' dest' :
    lpost w i dest id r = Val (w', dest', Err PeNotEnoughSpaceInQueue) -> lblocked w' i.
  Proof.
    intros H. apply lpost_val in H as [r' H]. apply post_request_upheld in H as [H H'].
    destruct (H' eq_refl) as (rel & Hi & Ha & Hb). exists rel. by rewrite (proj1 H).
  Qed.
  Lemma lnow_keeps (w : lworld) : lkeeps w (l_now w_now w).2.
  Proof. done. Qed.
  Lemma lfresh_keeps (w : lworld) : lkeeps w (l_fresh w_fresh_id w).2.
  Proof. done. Qed.

  Lemma lpost_refused (w : lworld) i dest id r w' dest' :
    lpost w i dest id r = Val (w', dest', Err PeNotEnoughSpaceInQueue) -> lblocked w i.
  Proof.
    intros H. assert (Hb : lblocked w' i) by by eapply lpost_full. apply lpost_val in H as [r' H].
    apply post_request_other in H as [H|[H _]]; [|done]. by rewrite <- H.
  Qed.
  Lemma rsi_from_inj i j c rel :
    rsi_from_session_index i c = Some rel -> rsi_from_session_index j c = Some rel -> i = j.
  Proof.
    unfold rsi_from_session_index, checked_sub.
    destruct (N.leb_spec i c), (N.leb_spec j c); try done.
    destruct (c - i)%N as [|[]] eqn:Ei; try done; destruct (c - j)%N as [|[]] eqn:Ej; try done; intros [= <-]; try done; lia.
  Qed.
  Lemma lpost_other (w : lworld) i dest id r w' dest' res j :
    lpost w i dest id r = Val (w', dest', res) -> j <> i -> lblocked w' j -> lblocked w j.
  Proof.
    intros H Hj (rel & Hr & Ha & s & Hs & Hq). apply lpost_val in H as [r' H].
    apply post_request_other in H as [H|(_ & rel1 & s1 & ks & Hi & H)]; rewrite H in *; [by exists rel; split_and!; [..|exists s]|].
    cbn in Hr, Ha. exists rel. split_and!; [done..|]. exists s. split; [|done].
    destruct rel1, rel; try done; exfalso; apply Hj; by eapply rsi_from_inj.
  Qed.
  Lemma lnow_back (w : lworld) j : lblocked (l_now w_now w).2 j -> lblocked w j.
  Proof. done. Qed.

  Lemma manager_calm rm w d c rm' w' d' a :
    (forall st, c <> RmUpdate st) ->
    rm_exec (w_post_request pr) w_now w_fresh_id rqt_handling_delay rm (w, d) c =
      Val (rm', (w', d'), a) ->
    (calm node_blocked rm (w_mixnet w) \/ c = RmProcess -> calm node_blocked rm' (w_mixnet w')) /\
    rqm_status rm' = rqm_status rm /\ upheld (w_mixnet w) (w_mixnet w').
  Proof.
    intros Hc He.
    assert (Hret : forall rm st (w : lworld) rm' w',
      rqm_retry lpost (l_now w_now) (l_fresh w_fresh_id) rqt_handling_delay rm st w = Val (rm', w') ->
      (calm lblocked rm w -> calm lblocked rm' w') /\ rqm_status rm' = rqm_status rm /\ lkeeps w w').
    { intros ?????. eapply (retry_calm lpost (l_now w_now) (l_fresh w_fresh_id) rqt_handling_delay lblocked lkeeps);
        eauto using upheld_refl, upheld_trans, upheld_blocked, lpost_keeps, lpost_full, lnow_keeps, lfresh_keeps. }
    destruct c; cbn [rm_exec] in He.
    - by destruct (Hc status).
    - apply out_bind_Val in He as ([rm1 w1] & H & He). injection He as -> -> _.
      unfold rqm_insert in H. apply out_bind_Val in H as (u & _ & H). apply Hret in H as (H1 & H2 & H3).
      split; [|done]. intros [H|H]; [exact (H1 H)|done].
    - destruct (remove_calm node_blocked rm id (w_mixnet w)) as [H1 H2].
      destruct (rqm_remove rm id) as [rm1 r]. injection He as <- <- <- _.
      split; [intros [H|H]; [by apply H1|done]|]. split; [done|apply upheld_refl].
    - apply out_bind_Val in He as ([rm1 w1] & H & He). injection He as -> -> _.
      eapply (process_calm lpost (l_now w_now) rqt_handling_delay lblocked lkeeps) in H as (H1 & H2 & H3);
        eauto using upheld_refl, upheld_trans, upheld_blocked, lpost_keeps, lpost_full, lnow_keeps, lfresh_keeps.
    - apply out_bind_Val in He as ([[rm1 w1] b] & H & He). injection He as -> -> _.
      unfold pop_next_retry in H. destruct (rqm_retry_queue rm) as [|st rest].
      { injection H as <- <- _ _. split; [intros [H|H]; [exact H|done]|]. split; [done|apply upheld_refl]. }
      apply out_bind_Val in H as ([rm2 w2] & H & He). injection He as -> -> _.
      apply Hret in H as (H1 & H2 & H3). split; [|done]. intros [H|H]; [exact (H1 H)|done].
    - injection He as <- <- _ _. split; [intros [H|H]; [exact H|done]|]. split; [done|apply upheld_refl].
  Qed.

  Lemma status_calm rm w d st rm' w' d' a :
    rm_exec (w_post_request pr) w_now w_fresh_id rqt_handling_delay rm (w, d) (RmUpdate st) =
      Val (rm', (w', d'), a) ->
    (calm node_blocked rm (w_mixnet w) \/ rqm_status rm <> st -> calm node_blocked rm' (w_mixnet w')) /\
    rqm_status rm' = st /\ upheld (w_mixnet w) (w_mixnet w').
  Proof.
    cbn [rm_exec]. intros He. apply out_bind_Val in He as ([rm1 w1] & H & He). injection He as -> -> _.
    eapply (update_calm lpost (l_now w_now) (l_fresh w_fresh_id) rqt_handling_delay lblocked lkeeps) in H
      as (H1 & H2 & H3);
      eauto using upheld_refl, upheld_trans, upheld_blocked, lpost_keeps, lpost_full, lnow_keeps, lfresh_keeps.
  Qed.

  (** Every session with a request waiting is busy or is the one before session 0, unless there is
      news of room in a queue. *)
  Definition alert (s : system) : Prop :=
    mx_status (sy_node s) = rqm_status (sy_rm s) /\
    (sy_owed s = true \/ ev_space (mx_events (sy_node s)) = true \/
     calm node_blocked (sy_rm s) (sy_node s)).

  Lemma set_status_events m st :
    ev_space (mx_events m) = true -> ev_space (mx_events (set_session_status m st)) = true.
  Proof.
    unfold set_session_status, shift_sessions. intros H. destruct (decide _); [done|]. cbv zeta.
    destruct (st_current_index (mx_status m) =? _)%N; destruct (negb (need_prev _) || _); cbn; by rewrite H.
  Qed.

  Lemma alert_step s s' : alert s -> sys_step pr s s' -> alert s'.
  Proof.
    intros [Hst Ha] H. destruct H as [m rm o c m' a Hc He|m rm o st w w' d d' rm' a Hw He|rm o w c w' d d' rm' a Hc He];
      unfold alert; cbn [sy_node sy_rm sy_owed] in *.
    - apply exec_upheld in He as (E1 & E2 & E3); [|done]. split; [congruence|].
      destruct Ha as [->|[Ha|Ha]]; [by left|..].
      { apply E2 in Ha as [Ha|Ha]; [by right; left|]. left. rewrite Ha. apply orb_true_r. }
      destruct (ev_space (mx_events m')) eqn:Ee; [by right; left|]. right. right. intros rel.
      destruct (Ha rel) as [|[?|(i & Hi & rel1 & Hr & Hp & Hb)]]; [by left|right; by left|].
      right. right. exists i. split; [done|]. exists rel1. rewrite E1. split_and!; [done..|].
      by destruct (E3 _ Hb).
    - apply status_calm in He as (H1 & H2 & H3 & H4 & H5). rewrite Hw in *.
      assert (Hs : mx_status (set_session_status m st) = st).
      { unfold set_session_status. by destruct (decide _). }
      split; [congruence|]. destruct Ha as [->|[Ha|Ha]]; [by left|..].
      + right. left. apply H4. by apply set_status_events.
      + right. right. apply H1. destruct (decide (rqm_status rm = st)) as [<-|]; [left|by right].
        unfold set_session_status. by rewrite decide_True.
    - apply manager_calm in He as (H1 & H2 & H3 & H4 & H5); [|done]. split; [congruence|].
      assert (c = RmProcess \/ c <> RmProcess) as [->|Hn] by (destruct c; (by left) || by right).
      { right. right. apply H1. by right. }
      destruct Ha as [->|[Ha|Ha]].
      + left. by destruct c.
      + right. left. by apply H4.
      + right. right. apply H1. by left.
  Qed.
End system.

Lemma rsi_from_add rel c i : rsi_add rel c = Val i -> rsi_from_session_index i c = Some rel.
Proof.
  unfold rsi_add, rsi_from_session_index. destruct rel; cbn.
  - intros [= ->]. unfold checked_sub. rewrite N.leb_refl, N.sub_diag. done.
  - unfold checked_sub at 1. destruct (N.leb_spec 1 c) as [Hc|]; cbn; [|done]. intros [= <-].
    unfold checked_sub. destruct (N.leb_spec (c - 1) c) as [_|?]; [|lia].
    by replace (c - (c - 1))%N with 1%N by lia.
Qed.
Lemma calm_waits m (rm : request_manager user_request) rel :
  mx_status m = rqm_status rm -> calm node_blocked rm m -> waits rm rel ->
  (busy m rel /\ phase_allows (st_phase (mx_status m)) rel) \/
  (rel = RPrev /\ st_current_index (mx_status m) = 0%N).
Proof.
  intros Hst Hc Hw.
  assert (Hs : stuck node_blocked rm m rel).
  { destruct Hw as [Hw|[Hw ->]].
    - destruct (Hc (Some rel)) as [Hq|Hs]; [|exact Hs]. exfalso. destruct rel; by apply Hw.
    - destruct (Hc None) as [Hq|Hs]; [|exact Hs]. by destruct Hw. }
  unfold stuck, cur in Hs. rewrite <- Hst in Hs. destruct Hs as [Hs|(i & Hi & rel1 & Hr & Ha & Hb)]; [by right|].
  apply rsi_from_add in Hi. rewrite Hi in Hr. injection Hr as <-. by left.
Qed.
Lemma reach_alert pr cf rcf s : sys_reach pr cf rcf s -> alert s.
Proof.
  intros (s0 & (Hnew & (w & Hrm) & Ho) & Hrtc).
  assert (H0 : alert s0).
  { unfold mx_new in Hnew. apply out_bind_Val in Hnew as (ks & _ & Hnew).
    destruct (w_now w) as [t w1] eqn:En. unfold rqm_new in Hrm. rewrite En in Hrm.
    destruct s0 as [m rm o]. cbn in *. injection Hnew as <-. subst. split; [done|]. right. right.
    intros [[]|]; by left. }
  clear Hnew Hrm Ho. induction Hrtc as [s|s1 s2 s3 H12 _ IH]; [done|].
  apply IH. by eapply alert_step.
Qed.

(** C55: as long as a request waits for a session, that session has packets of its own left to
    dispatch, or the node has made or is about to make known that there is room in a queue, so that
    the manager is to be called. The one other case is that of requests arriving while the session
    they should go to is the one before session 0; they wait for a change of the session status. *)
Theorem C55_wakeup pr cf rcf s rel :
  sys_reach pr cf rcf s -> waits (sy_rm s) rel ->
  let m := sy_node s in
  sy_owed s = true \/ ev_space (mx_events m) = true \/
  (busy m rel /\ phase_allows (st_phase (mx_status m)) rel) \/
  (rel = RPrev /\ st_current_index (mx_status m) = 0%N).
Proof.
  intros Hreach Hw m. destruct (reach_alert _ _ _ _ Hreach) as [Hst [Ha|[Ha|Ha]]]; [by left|by right; left|].
  right. right. by apply (calm_waits m (sy_rm s)).
Qed.

(** Once the manager has been called, there is no need to call it again as long as no packet is taken
    from the queues. *)
Theorem C55_process pr cf rcf s w d rm' w' d' a rel :
  sys_reach pr cf rcf s -> w_mixnet w = sy_node s ->
  rm_exec (w_post_request pr) w_now w_fresh_id rqt_handling_delay (sy_rm s) (w, d) RmProcess =
    Val (rm', (w', d'), a) ->
  waits rm' rel ->
  let m := w_mixnet w' in
  (busy m rel /\ phase_allows (st_phase (mx_status m)) rel) \/
  (rel = RPrev /\ st_current_index (mx_status m) = 0%N).
Proof.
  intros Hreach Hm He Hw m. destruct (reach_alert _ _ _ _ Hreach) as [Hst _].
  apply manager_calm in He as (H1 & H2 & H3 & _ & _); [|done].
  apply (calm_waits m rm'); [unfold m; congruence| |done]. apply H1. by right.
Qed.


(** Conversely, when the manager is called and some request waits for a session that has no packets of
    its own left to dispatch, a request waiting for it is posted or turned out to be impossible to
    post. *)
Theorem C55_served pr cf rcf s w d rm' w' d' a rel i :
  sys_reach pr cf rcf s -> w_mixnet w = sy_node s ->
  rm_exec (w_post_request pr) w_now w_fresh_id rqt_handling_delay (sy_rm s) (w, d) RmProcess =
    Val (rm', (w', d'), a) ->
  waits (sy_rm s) rel -> ~ busy (sy_node s) rel -> index_of (sy_node s) rel i ->
  exists st l,
    (st ∈ match rel with
          | RCurrent => pq_current (rqm_post_queues (sy_rm s))
          | RPrev => pq_prev (rqm_post_queues (sy_rm s))
          end \/
     (st ∈ pq_default (rqm_post_queues (sy_rm s)) /\ rel = request_session (st_phase (mx_status (sy_node s))))) /\
    rqm_log rm' = rqm_log (sy_rm s) ++ l /\
    ((exists dest t rtt, EvPosted (rst_request st) (rst_message_id st) i dest t rtt ∈ l) \/
     (exists e, e <> PeNotEnoughSpaceInQueue /\ EvPostErr (rst_request st) e ∈ l)).
Proof.
  intros Hreach Hm He Hw Hb Hi. destruct (reach_alert _ _ _ _ Hreach) as [Hst _].
  assert (Hadd : rsi_add rel (cur (sy_rm s)) = Val i).
  { unfold cur. rewrite <- Hst. unfold index_of in Hi. destruct rel; cbn; [by subst i|].
    rewrite <- Hi. unfold checked_sub. destruct (N.leb_spec 1 (i + 1)); [|lia]. cbn. f_equal. lia. }
  cbn [rm_exec] in He. apply out_bind_Val in He as ([rm1 w1] & H & He). injection He as -> -> _.
  eapply (process_serves (l_post (w_post_request pr)) (l_now w_now) rqt_handling_delay
            (fun w => node_blocked (w_mixnet w.1)) (fun w w' => upheld (w_mixnet w.1) (w_mixnet w'.1))) in H
    as (q & st & l & Hq & Hrod & Hhd & Hl & Hh);
    eauto using upheld_refl, upheld_trans, upheld_blocked, lpost_keeps, lpost_full, lnow_keeps, lpost_refused,
      lpost_other, lnow_back.
  - exists st, l. split; [|split; [done|exact Hh]]. apply head_Some_elem_of in Hhd.
    destruct Hq as [-> | ->]; [right|left; by destruct rel]. split; [done|]. rewrite Hst. by symmetry.
  - cbn. rewrite Hm. intros (rel1 & Hr & _ & Hb1).
    rewrite Hst in Hr. fold (cur (sy_rm s)) in Hr. apply rsi_from_add in Hadd. rewrite Hadd in Hr.
    by injection Hr as <-.
Qed.
