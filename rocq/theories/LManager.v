(** A call on the request manager does not panic as long as posting does not. In contrast to
    [C47_panics] what is known of posting depends on the world and on the request. *)
From Verif Require Export PRequests.
Local Open Scope N_scope.

Section safe.
  Context {W Req : Type}.
  Context (post : W -> session_index -> option mixnode_index -> bytes -> Req ->
                  outcome (W * option mixnode_index * result request_metrics post_err)).
  Context (now : W -> instant * W).
  Context (fresh_id : W -> bytes * W).
  Context (hd : Req -> bytes -> duration).
  (** Destinations, worlds (with the log of the manager) and requests; [B] is what a panic means. *)
  Context (valid : session_index -> mixnode_index -> Prop) (I : W -> list (rm_event Req) -> Prop) (okr : Req -> Prop) (B : Prop) (rcf : rm_config).
  (** Random numbers are used a limited number of times. *)
  Context (uses : W -> nat) (K : nat).
  Context (Hpost : forall w log i dest id r, I w log -> (uses w < K)%nat -> length id = 16%nat -> okr r ->
    (forall x, dest = Some x -> valid i x) ->
    match post w i dest id r with
    | Panic => B
    | Val (w', dest', Ok mt) =>
        ((forall t rtt, estimate_rtt mt (hd r id) = Val rtt -> I w' (log ++ [EvPosted r id i dest' t rtt])%list) /\ (uses w' <= S (uses w))%nat) /\ (exists d, dest' = Some d /\ (dest = None \/ dest = Some d) /\ valid i d) /\
        (estimate_rtt mt (hd r id) = Panic -> B)
    | Val (w', dest', Err _) => (I w' log /\ (uses w' <= S (uses w))%nat) /\ dest' = dest
    end).
  Context (Hnow : forall w log, I w log -> I (now w).2 log /\ uses (now w).2 = uses w).
  Context (Hlog : forall w log e, I w log -> match e with EvPosted _ _ _ _ _ _ => False | _ => True end -> I w (log ++ [e])%list).
  Context (Hfresh : forall w log, I w log ->
    (I (fresh_id w).2 log /\ (uses (fresh_id w).2 <= S (uses w))%nat) /\ length (fresh_id w).1 = 16%nat).
  Notation manager := (request_manager Req).
  Notation state := (request_state Req).
  Notation lpost := (l_post post).
  Notation lnow := (l_now now).
  Notation lfresh := (l_fresh fresh_id).
  Implicit Types (m : manager) (st : state).

  Definition ok_state st : Prop := okr (rst_request st) /\ length (rst_message_id st) = 16%nat.
  Definition sound m : Prop := good valid m /\ Forall ok_state (managed m) /\ rqm_config m = rcf.
  Definition w_ok m (w : W * list bytes) : Prop := I w.1 (rqm_log m) /\ Forall (fun id => length id = 16%nat) w.2.
  (** How many posts there can be from the post queues *)
  Definition pot m : nat :=
    (queue_posts (pq_current (rqm_post_queues m)) + queue_posts (pq_prev (rqm_post_queues m)) +
     queue_posts (pq_default (rqm_post_queues m)))%nat.
  Definition within (n : nat) m (w : W * list bytes) : Prop := (uses w.1 + pot m <= n)%nat.
  Definition safe (n : nat) (o : outcome (manager * (W * list bytes))) : Prop :=
    match o with Val (m', w') => sound m' /\ w_ok m' w' /\ within n m' w' | Panic => B end.
  Lemma safe_bind n n' o f :
    safe n o -> (forall m' w', sound m' -> w_ok m' w' -> within n m' w' -> safe n' (f (m', w'))) -> safe n' (x ← o; f x).
  Proof. destruct o as [[m' w']|]; [intros (? & ? & ?) Hf; by apply Hf|done]. Qed.
  Lemma pot_get m rel : exists k, pot m = (queue_posts (pq_get (rqm_post_queues m) rel) + k)%nat /\
    forall l, pot (with_queue m rel l) = (queue_posts l + k)%nat.
  Proof.
    unfold pot. destruct rel as [[]|];
      [exists (queue_posts (pq_prev (rqm_post_queues m)) + queue_posts (pq_default (rqm_post_queues m)))%nat
      |exists (queue_posts (pq_current (rqm_post_queues m)) + queue_posts (pq_default (rqm_post_queues m)))%nat
      |exists (queue_posts (pq_current (rqm_post_queues m)) + queue_posts (pq_prev (rqm_post_queues m)))%nat];
      (split; [|intros l]);
      cbn [with_queue rqm_set_queues rqm_post_queues pq_set pq_get pq_current pq_prev pq_default]; lia.
  Qed.
  Lemma queue_posts_app (l l' : list state) : queue_posts (l ++ l') = (queue_posts l + queue_posts l')%nat.
  Proof. apply sum_list_with_app. Qed.
  Lemma pot_push m rel st : pot (push m rel st) = (pot m + S (N.to_nat (rst_posts_remaining st)))%nat.
  Proof.
    destruct (pot_get m rel) as (k & E & Ek). unfold push. fold (with_queue m rel (pq_get (rqm_post_queues m) rel ++ [st])%list).
    rewrite Ek, E, queue_posts_app. cbn. lia.
  Qed.

  Lemma ok_fresh (l : list state) ids past :
    Forall ok_state l -> Forall (fun id => length id = 16%nat) ids ->
    Forall ok_state (zip_with (fun st id => with_fresh st id past) l ids).
  Proof.
    intros Hl. revert ids. induction Hl as [|st l [H _] _ IH]; intros [|id ids] Hi; cbn; try constructor; inversion Hi; subst.
    - by split.
    - by apply IH.
  Qed.
  Lemma reborn_ok m d st o d' r :
    reborn m d st o d' -> ok_state st -> Forall (fun id => length id = 16%nat) d' -> Forall ok_state (managed m) ->
    Forall ok_state (managed (settle m r o)).
  Proof.
    intros Hrb [H1 H2] Hd Hm. destruct Hrb; unfold settle; rewrite ?managed_push, ?managed_emit; try done;
      (constructor; [|done]); split; try done;
      apply Forall_app in Hd as [_ Hd]; by inversion Hd.
  Qed.
  Lemma ok_step m d l m' d' :
    rstep valid (m, d) l (m', d') -> Forall (fun id => length id = 16%nat) d' ->
    (forall r, l = LInsert r -> okr r) -> Forall ok_state (managed m) -> Forall ok_state (managed m').
  Proof.
    intros Hst Hd Hr IH.
    inversion Hst as [? ? rel rod i st rest dest t rtt Ht Hq Hs [Hds Hvd] Hn|? ? rel rod i st rest dest t rtt Ht Hq Hs [Hds Hvd] Hn|
      |? ? rel st rest e Hq|? ? r o ? Hsp Hrb|? ? st rest o ? Hq Hn Hrb|? ? rel l1 st l2 Hq|? ? l1 st l2 b Hq Hb|? ? status ids Hne q n Hl|];
      subst l m' d'; subst.
    - rewrite managed_push, managed_emit, managed_with. rewrite (managed_get m rel), Hq in IH. inversion IH as [|? ? [] ?]; subst.
      by constructor.
    - rewrite managed_insert, managed_emit, managed_with. rewrite (managed_get m rel), Hq in IH. inversion IH as [|? ? [] ?]; subst.
      by constructor.
    - by rewrite managed_emit.
    - rewrite managed_emit, managed_with. rewrite (managed_get m rel), Hq in IH. by inversion IH; subst.
    - eapply reborn_ok; [exact Hrb| |done|done]. split; [by apply Hr|done].
    - rewrite managed_retry_same, Hq in IH. inversion IH; subst. eapply reborn_ok; [exact Hrb|done|done|]. by rewrite managed_retry.
    - rewrite managed_with. rewrite (managed_get m rel), Hq in IH. rewrite !Forall_app in *. destruct_and?. repeat split; try done.
      by eapply Forall_inv_tail.
    - rewrite managed_retry. rewrite managed_retry_same, Hq in IH. rewrite !Forall_app in *. destruct_and?. repeat split; try done.
      by eapply Forall_inv_tail.
    - destruct (managed_update m status ids Hl) as (kept & moved & E1 & E2 & E3). update_shape E3. rewrite E3. rewrite E1 in IH.
      rewrite Forall_app in *. destruct IH as [IH1 IH2]. split; [done|]. apply Forall_app in Hd as [_ Hd]. by apply ok_fresh.
    - done.
  Qed.
  Lemma config_step m d l m' d' : rstep valid (m, d) l (m', d') -> rqm_config m' = rqm_config m.
  Proof.
    intros Hst. inversion Hst; subst; try done; rewrite ?settle_config; done.
  Qed.
  Lemma sound_step m d l m' d' :
    rstep valid (m, d) l (m', d') -> Forall (fun id => length id = 16%nat) d' ->
    (forall r, l = LInsert r -> okr r) -> sound m -> sound m'.
  Proof. intros Hst Hd Hr (H1 & H2 & H3). split; [by eapply good_step|]. split; [by eapply ok_step|]. rewrite <-H3. by eapply config_step. Qed.

  Lemma queue_ready m rel rod i :
    sound m -> target m rel rod i ->
    Forall (fun st => rst_session_index st = expected rel i /\ ok_state st /\
              forall x, rst_destination_index st = Some x -> valid i x) (pq_get (rqm_post_queues m) rel).
  Proof.
    intros ([Hok Hdv] & Hst & _) [Hrod Hi].
    rewrite (managed_get m rel), Forall_app in Hdv, Hst. destruct Hdv as [Hdv _]. destruct Hst as [Hst _].
    destruct Hok as [H1 H2 H3 H4 H5 H6]. apply rsi_add_val in Hi. unfold cur in Hi. subst rod. destruct rel as [[]|]; cbn in *.
    - eapply Forall_impl; [apply Forall_and; exact (conj H2 (proj2 (Forall_and _ _) (conj Hdv Hst)))|].
      intros st [[Hs _] [Hv Hk]]. rewrite Hi in Hs. split; [done|]. split; [done|]. intros x. by apply Hv.
    - eapply Forall_impl; [apply Forall_and; exact (conj H3 (proj2 (Forall_and _ _) (conj Hdv Hst)))|].
      intros st [[(j & Hs & Hj) _] [Hv Hk]].
      assert (j = i) as -> by lia. split; [done|]. split; [done|]. intros x. by apply Hv.
    - eapply Forall_impl; [apply Forall_and; exact (conj H1 Hst)|]. intros st [[-> ->] ?]. by split.
  Qed.

  Lemma post_ok_measure m rel rod i st mt w m' w' :
    post_ok lnow hd m rod i st mt w = Val (m', w') ->
    (queue_posts (pq_get (rqm_post_queues m') rel) <=
       queue_posts (pq_get (rqm_post_queues m) rel) + N.to_nat (rst_posts_remaining st))%nat /\
    (pot m' <= pot m + N.to_nat (rst_posts_remaining st))%nat /\
    w' = ((now w.1).2, w.2) /\
    exists t rtt, estimate_rtt mt (hd (rst_request st) (rst_message_id st)) = Val rtt /\
      rqm_log m' = (rqm_log m ++ [EvPosted (rst_request st) (rst_message_id st) i (rst_destination_index st) t rtt])%list.
  Proof.
    unfold post_ok. destruct (estimate_rtt _ _) as [rtt|] eqn:Ee; [|done]. cbn [out_bind]. unfold l_now.
    unfold checked_sub. destruct (N.leb_spec 1 (rst_posts_remaining st)) as [Hl|Hl]; intros [= <- <-]; (split; [|split; [|split; [done|by do 2 eexists]]]).
    - destruct rod, rel as [[]|]; cbn; unfold queue_posts; rewrite ?sum_list_with_app; cbn; lia.
    - destruct rod; unfold pot;
        cbn [rqm_emit rqm_set_queues rqm_post_queues pq_set pq_get pq_current pq_prev pq_default];
        rewrite !queue_posts_app; cbn; lia.
    - cbn. lia.
    - unfold pot. cbn. lia.
  Qed.

  Lemma loop_safe fuel rel rod i m w :
    target m rel rod i -> sound m -> w_ok m w -> forall n, within n m w -> (n <= K)%nat ->
    (queue_posts (pq_get (rqm_post_queues m) rel) < fuel)%nat ->
    safe (S n) (post_loop lpost lnow hd fuel rel rod (expected rel i) i m w).
  Proof.
    revert m w. induction fuel as [|fuel IH]; intros m w Ht Hs Hw n Hn HnK Hf; [lia|]. cbn.
    pose proof (queue_ready _ _ _ _ Hs Ht) as Hq0.
    destruct (pq_get (rqm_post_queues m) rel) as [|st rest] eqn:Hq; [split_and!; [done|done|unfold within in *; lia]|].
    inversion Hq0 as [|? ? (Hst & [Hr Hid] & Hvd) _]; subst. rewrite (bool_decide_true _ Hst). cbn [assert_or_panic out_bind].
    fold (with_queue m rel rest).
    destruct (pot_get m rel) as (k & Ek & Ekq). rewrite Hq in Ek. unfold within in Hn. unfold queue_posts in Ek at 1. cbn in Ek.
    fold (queue_posts rest) in Ek. specialize (Ekq rest).
    destruct Hw as [Hw1 Hw2]. assert (Hlt : (uses w.1 < K)%nat) by lia. pose proof (Hpost w.1 _ i _ _ _ Hw1 Hlt Hid Hr Hvd) as Hp. unfold PReqMgr.l_post.
    destruct (post w.1 i (rst_destination_index st) (rst_message_id st) (rst_request st)) as [[[w1 dest] res]|] eqn:E; [|done].
    cbn [out_bind]. unfold queue_posts in Hf. cbn in Hf.
    fold (queue_posts rest) in Hf. destruct res as [metrics|e].
    - destruct Hp as ([HI Hu] & (x & -> & Hx & Hvx) & Hrt).
      fold (with_dest st (Some x)).
      destruct (post_ok _ _ _ _ _ _ _ _) as [[m1 w2]|] eqn:Eo; cbn [out_bind].
      2:{ cbn. apply Hrt. unfold post_ok in Eo. cbn in Eo. destruct (estimate_rtt _ _); [|done]. cbn in Eo.
          by destruct (checked_sub _ _). }
      destruct (post_ok_step now hd valid _ _ _ _ _ _ _ _ _ _ _ _ Ht Hq Hst (conj Hx Hvx) Eo) as [Hstep Hw2'].
      destruct (post_ok_measure _ rel _ _ _ _ _ _ _ Eo) as (Hme & Hpo & -> & t & rtt & Eest & Elog). cbn [fst snd] in *.
      cbn [with_dest rst_posts_remaining] in Hpo.
      assert (Est : rqm_status m1 = rqm_status m) by (by rewrite (post_ok_status _ _ _ _ _ _ _ _ _ _ Eo)).
      apply IH.
      + unfold target, cur in *. by rewrite Est.
      + eapply sound_step; [exact Hstep|done|done|done].
      + split; [|done]. cbn [fst]. rewrite Elog. apply Hnow. by apply HI.
      + unfold within. cbn [fst]. rewrite (proj2 (Hnow _ _ (HI t rtt Eest))). lia.
      + done.
      + cbn in Hme. rewrite pq_get_set in Hme. lia.
    - destruct Hp as [[HI Hu] ->]. fold (with_dest st (rst_destination_index st)).
      assert (Hsame : with_dest st (rst_destination_index st) = st) by (by destruct st). rewrite Hsame.
      assert (Hloop : safe (S n) (post_loop lpost lnow hd fuel rel rod (expected rel i) i
        (rqm_emit (with_queue m rel rest) (EvPostErr (rst_request st) e)) (w1, w.2))).
      { apply IH; [exact Ht| |by split; [apply Hlog|]| |done|cbn; rewrite pq_get_set; lia].
        2:{ unfold within. cbn [fst]. change (pot (rqm_emit ?a ?b)) with (pot a). lia. }
        eapply sound_step; [exact (RsPostErr valid m w.2 rel st rest e Hq)|done|done|done]. }
      destruct e; try exact Hloop. cbn -[within].
      replace (rqm_set_queues _ _) with (rqm_emit m (EvNoSpace (rst_request st))).
      { split; [|split; [by split; [apply Hlog|]|unfold within; cbn [fst]; change (pot (rqm_emit ?a ?b)) with (pot a); lia]].
        eapply sound_step; [exact (RsNoSpace valid m w.2 (rst_request st))|done|done|done]. }
      rewrite pq_get_set, pq_set_set, <-Hq. destruct m as [? ? ? [] ? ? ?]; by destruct rel as [[]|].
  Qed.

  Lemma process_safe rel m w : sound m -> w_ok m w -> forall n, within n m w -> (n <= K)%nat -> safe (S n) (process_post_queue lpost lnow hd rel m w).
  Proof.
    intros Hs Hw n Hn HK. unfold process_post_queue. cbv zeta.
    set (rod := default (default_request_session (st_phase (rqm_status m))) rel).
    destruct (bool_decide (rod = RPrev) && (st_current_index (rqm_status m) =? 0)) eqn:Ez.
    - apply andb_true_iff in Ez as [_ Ez]. apply N.eqb_eq in Ez. rewrite bool_decide_true; [split_and!; [done|done|unfold within in *; lia]|].
      destruct (pq_prev (rqm_post_queues m)) as [|st l] eqn:Eq; [done|]. pose proof (qk_prev _ (proj1 (proj1 Hs))) as H3. rewrite Eq in H3.
      inversion H3 as [|? ? [(i & _ & Hi) _] _]; subst. lia.
    - assert (Hi : exists i, rsi_add rod (cur m) = Val i).
      { destruct rod; cbn; [eauto|]. cbn in Ez. apply N.eqb_neq in Ez. unfold checked_sub, cur.
        destruct (1 <=? st_current_index (rqm_status m)) eqn:E1; [cbn; eauto|]. apply N.leb_gt in E1. lia. }
      destruct Hi as [i Hi]. assert (Ht : target m rel rod i) by (by split).
      assert (Hf : (queue_posts (pq_get (rqm_post_queues m) rel) < post_fuel (pq_get (rqm_post_queues m) rel))%nat)
        by (unfold post_fuel, queue_posts; lia).
      pose proof (loop_safe (post_fuel (pq_get (rqm_post_queues m) rel)) rel rod i m w Ht Hs Hw n Hn HK Hf) as E.
      fold (cur m). rewrite Hi. destruct rel as [r|]; cbn in *; [|done]. subst rod. by rewrite Hi.
  Qed.
  Lemma process_all_safe m w : sound m -> w_ok m w -> forall n, within n m w -> (S (S n) <= K)%nat -> safe (S (S (S n))) (process_post_queues lpost lnow hd m w).
  Proof.
    intros Hs Hw n Hn HK. unfold process_post_queues. eapply safe_bind; [apply process_safe; [done|done|exact Hn|lia]|]. intros m1 w1 H1 Hw1 Hn1.
    eapply safe_bind; [apply process_safe; [done|done|exact Hn1|lia]|]. intros m2 w2 H2 Hw2 Hn2. apply process_safe; [done|done|exact Hn2|lia].
  Qed.

  Lemma w_ok_fresh m w : w_ok m w ->
    w_ok m (lfresh w).2 /\ length (lfresh w).1 = 16%nat /\ (uses (lfresh w).2.1 <= S (uses w.1))%nat.
  Proof.
    intros [H1 H2]. destruct (Hfresh _ _ H1) as [[H3 H5] H4]. split; [|by split]. split; [done|]. apply Forall_app. split; [done|by constructor].
  Qed.
  Lemma retry_safe m st w :
    1 <= rmc_num_attempts_per_destination (rqm_config m) -> 1 <= rmc_num_posts_per_attempt (rqm_config m) ->
    rst_posts_remaining st = 0 -> w_ok m w ->
    forall n, within n m w -> (n + N.to_nat (rmc_num_posts_per_attempt (rqm_config m)) + 2 <= K)%nat ->
    (forall o d', reborn m w.2 st o d' -> Forall (fun id => length id = 16%nat) d' -> sound (settle m (rst_request st) o)) ->
    safe (n + N.to_nat (rmc_num_posts_per_attempt (rqm_config m)) + 3) (rqm_retry lpost lnow lfresh hd m st w).
  Proof.
    intros HA HP Hp0 Hw n Hn HK Hq0. set (p := rmc_num_posts_per_attempt (rqm_config m)) in *.
    assert (Hq : forall rel st' d', reborn m w.2 st (Some (rel, st')) d' -> Forall (fun id => length id = 16%nat) d' -> sound (push m rel st'))
      by (intros rel st' d'; exact (Hq0 (Some (rel, st')) d')). unfold rqm_retry. cbv zeta. rewrite Hp0. cbn [N.eqb assert_or_panic out_bind].
    assert (Hend : forall rel st1 w1, w_ok m w1 -> (uses w1.1 <= S (uses w.1))%nat -> rst_posts_remaining st1 = p - 1 ->
      sound (push m rel st1) ->
      safe (n + N.to_nat p + 3) (if session_post_queues_empty m rel then
         '(m, w) ← process_post_queue lpost lnow hd rel (push m rel st1) w1;
         match rel with
         | None => process_post_queue lpost lnow hd
                     (Some (default_request_session (st_phase (rqm_status m)))) m w
         | Some _ => Val (m, w)
         end
       else Val (push m rel st1, w1))).
    { intros rel st1 w1 Hw1 Hu Hpr Hok.
      assert (Hn1 : within (S (n + N.to_nat p)) (push m rel st1) w1).
      { unfold within in *. rewrite pot_push, Hpr. lia. }
      destruct (session_post_queues_empty m rel); [|split_and!; [done|done|unfold within in *; lia]].
      eapply safe_bind; [apply process_safe; [done|done|exact Hn1|lia]|]. intros m1 w2 H1 Hw2 Hn2.
      destruct rel; [split_and!; [done|done|unfold within in *; lia]|].
      replace (n + N.to_nat p + 3)%nat with (S (S (S (n + N.to_nat p)))) by lia.
      apply process_safe; [done|done|exact Hn2|lia]. }
    destruct (w_ok_fresh _ _ Hw) as (Hwf & Hlf & Huf).
    unfold checked_sub, sub_or_panic.
    rewrite (proj2 (N.leb_le 1 (rmc_num_attempts_per_destination (rqm_config m))) HA).
    rewrite (proj2 (N.leb_le 1 (rmc_num_posts_per_attempt (rqm_config m))) HP).
    destruct (1 <=? rst_attempts_remaining st) eqn:Ea.
    - apply N.leb_le in Ea.
      cbn [out_bind rst_session_index rst_request rst_destinations_remaining rst_attempts_remaining rst_posts_remaining
         rst_message_id rst_destination_index rst_retry_deadline].
      destruct (rst_session_index st) as [i|] eqn:Es.
      + destruct (rsi_from_session_index i (st_current_index (rqm_status m))) as [rel|] eqn:Er.
        * destruct (allow_requests_and_replies (st_phase (rqm_status m)) rel) eqn:El; cbn [negb].
          -- eapply Hend; [done|lia|done|]. eapply Hq; [|exact (proj2 Hw)]. rewrite <-Es. eapply RbSame; eauto. lia.
          -- unfold new_destination, PReqMgr.l_fresh.
             cbn [fst snd rst_request rst_destinations_remaining rst_attempts_remaining rst_posts_remaining].
             eapply Hend; [exact Hwf|exact Huf|done|]. eapply Hq; [|exact (proj2 Hwf)].
             eapply RbMoved; [lia|lia|exact Es|]. unfold cur. rewrite Er. by intros ? [= <-].
        * cbn [negb]. unfold new_destination, PReqMgr.l_fresh.
          cbn [fst snd rst_request rst_destinations_remaining rst_attempts_remaining rst_posts_remaining].
          eapply Hend; [exact Hwf|exact Huf|done|]. eapply Hq; [|exact (proj2 Hwf)].
          eapply RbMoved; [lia|lia|exact Es|]. unfold cur. by rewrite Er.
      + eapply Hend; [done|lia|done|]. eapply Hq; [|exact (proj2 Hw)]. rewrite <-Es. eapply RbNone; eauto. lia.
    - apply N.leb_gt in Ea. destruct (1 <=? rst_destinations_remaining st) eqn:Ed.
      2:{ apply N.leb_gt in Ed. split; [|split; [split; [apply Hlog; [apply Hw|done]|apply Hw]|unfold within in *; change (pot (rqm_emit ?a ?b)) with (pot a); lia]]. apply (Hq0 None w.2); [apply RbLimit; lia|apply Hw]. }
      apply N.leb_le in Ed. cbn [out_bind]. unfold new_destination, PReqMgr.l_fresh.
      cbn [out_bind fst snd rst_session_index rst_request rst_destinations_remaining rst_attempts_remaining rst_posts_remaining
         rst_message_id rst_destination_index rst_retry_deadline].
      eapply Hend; [exact Hwf|exact Huf|done|]. eapply Hq; [|exact (proj2 Hwf)]. eapply RbNew; lia.
  Qed.
  Lemma new_destinations_ok m (l : list state) past w : w_ok m w ->
    w_ok m (new_destinations lfresh l past w).2 /\ (uses (new_destinations lfresh l past w).2.1 <= uses w.1 + length l)%nat.
  Proof.
    revert w. induction l as [|st l IH]; intros w Hw; cbn; [split; [done|lia]|]. destruct (w_ok_fresh _ _ Hw) as (Hwf & _ & Hu).
    destruct (IH _ Hwf) as [IH1 IH2].
    unfold PReqMgr.l_fresh in *. cbn in *. destruct (new_destinations _ l past _) as [l' w']. cbn in *. split; [done|lia].
  Qed.
  Lemma queue_posts_fresh (l : list state) ids past :
    length ids = length l -> queue_posts (zip_with (fun st id => with_fresh st id past) l ids) = queue_posts l.
  Proof.
    revert ids. induction l as [|st l IH]; intros [|id ids]; cbn; try done. intros [= H]. 
    change (S (N.to_nat (rst_posts_remaining st) + queue_posts (zip_with (fun st id => with_fresh st id past) l ids)) =
            S (N.to_nat (rst_posts_remaining st) + queue_posts l))%nat. by rewrite IH.
  Qed.
  Lemma queue_posts_length (l : list state) : (length l <= queue_posts l)%nat.
  Proof. induction l as [|st l IH]; cbn; [lia|]. unfold queue_posts in IH. lia. Qed.
  Lemma pot_update m status ids :
    let q := shift_queues (rqm_post_queues m) (rqm_status m) status in
    let n := length (pq_default (rqm_post_queues m)) in
    length ids = length (drop n (pq_default q)) ->
    pot (rqm_set_status (rqm_set_queues m (pq_set q None (take n (pq_default q) ++
           zip_with (fun st id => with_fresh st id (rqm_created_at m)) (drop n (pq_default q)) ids)%list)) status) = pot m /\
    (length (drop n (pq_default q)) <= pot m)%nat.
  Proof.
    intros q n Hl.
    assert (Eq : (queue_posts (pq_current q) + queue_posts (pq_prev q) + queue_posts (pq_default q) = pot m)%nat).
    { unfold q, pot, shift_queues. repeat case_match; cbn -[queue_posts]; rewrite ?queue_posts_app; cbn; lia. }
    pose proof (queue_posts_length (drop n (pq_default q))) as H1.
    assert (H2 : queue_posts (pq_default q) = (queue_posts (take n (pq_default q)) + queue_posts (drop n (pq_default q)))%nat).
    { by rewrite <-queue_posts_app, take_drop. }
    split; [|lia]. unfold pot at 1. cbn [rqm_set_status rqm_set_queues rqm_post_queues pq_set pq_get pq_current pq_prev pq_default].
    rewrite queue_posts_app, queue_posts_fresh by done. lia.
  Qed.

  Lemma exec_safe m w c :
    sound m -> w_ok m w ->
    (uses w.1 + 2 * pot m + N.to_nat (rmc_num_posts_per_attempt rcf) + 3 <= K)%nat ->
    1 <= rmc_num_attempts_per_destination rcf -> 1 <= rmc_num_posts_per_attempt rcf ->
    (forall r, c = RmInsert r -> okr r /\ rqm_has_space m = true) ->
    match rm_exec post now fresh_id hd m w c with
    | Val (m', w', _) => sound m' /\ w_ok m' w'
    | Panic => B
    end.
  Proof.
    intros Hs Hw HK HA HP Hc. pose proof (proj2 (proj2 Hs)) as Hcf. rewrite <-Hcf in HK, HA, HP. clear Hcf.
    assert (Hn : within (uses w.1 + pot m) m w) by (unfold within; lia).
    assert (Hfine : forall n o a, safe n o ->
      match ('(m, w) ← o; Val (m, w, a : rm_resp Req)) with Val (m', w', _) => sound m' /\ w_ok m' w' | Panic => B end).
    { intros n [[m' w']|] a H; [|exact H]. by destruct H as (? & ? & ?). }
    destruct c as [status|r|id| | |]; cbn [rm_exec].
    - eapply (Hfine (S (S (S (uses w.1 + 2 * pot m))))). unfold update_session_status. case_decide as Hst; [split_and!; [done|done|unfold within in *; lia]|]. cbv zeta.
      set (q := shift_queues (rqm_post_queues m) (rqm_status m) status).
      destruct (new_destinations_spec fresh_id (drop (length (pq_default (rqm_post_queues m))) (pq_default q)) (rqm_created_at m) w)
        as (ids & H1 & H2 & H3).
      pose proof (new_destinations_ok m (drop (length (pq_default (rqm_post_queues m))) (pq_default q)) (rqm_created_at m) w Hw) as [Hw' Hu].
      destruct (pot_update m status ids H1) as [Hp1 Hp2].
      destruct (new_destinations _ _ _ _) as [moved w2]. cbn [fst snd] in H2, H3, Hw', Hu. subst moved.
      apply process_all_safe; [|done| |lia].
      2:{ unfold within. fold q in Hp1, Hp2. rewrite Hp1. lia. }
      eapply sound_step; [exact (RsUpdate valid m w.2 status ids Hst H1)| |done|done].
      rewrite <-H3. apply Hw'.
    - eapply Hfine. destruct (Hc r eq_refl) as [Hr Hsp]. unfold rqm_insert. rewrite Hsp. cbn [assert_or_panic out_bind].
      apply (retry_safe m (initial m r) w); [done|done|done|done|exact Hn|lia|].
      intros o d' Hrb Hd. eapply sound_step; [exact (RsInsert valid m w.2 r _ _ Hsp Hrb)|done| |done].
      by intros r' [= <-].
    - destruct (rqm_remove m id) as [m' o] eqn:E. unfold rqm_remove in E.
      assert (Elog : rqm_log m' = rqm_log m) by (repeat case_match; by injection E as <- <-).
      split; [|split; [rewrite Elog; apply Hw|apply Hw]]. clear Elog.
      assert (Hq : forall rel p x, remove_first p (pq_get (rqm_post_queues m) rel) = Some x ->
        sound (with_queue m rel x.2)).
      { intros rel p [[k st] l] Er. pose proof (remove_first_spec p (pq_get (rqm_post_queues m) rel)) as Hrf.
        rewrite Er in Hrf. destruct Hrf as (l1 & l2 & Hl & -> & _). 
        eapply sound_step; [exact (RsRemove valid m w.2 rel l1 st l2 Hl)|by apply Hw|done|done]. }
      destruct (remove_first _ (pq_current _)) as [[[k st] l]|] eqn:E1.
      { injection E as <- <-. exact (Hq (Some RCurrent) _ _ E1). }
      destruct (remove_first _ (pq_prev _)) as [[[k st] l]|] eqn:E2.
      { injection E as <- <-. exact (Hq (Some RPrev) _ _ E2). }
      destruct (remove_first _ (pq_default _)) as [[[k st] l]|] eqn:E3.
      { injection E as <- <-. exact (Hq None _ _ E3). }
      destruct (remove_first _ (rqm_retry_queue _)) as [[[k st] l]|] eqn:E4; [|by injection E as <- <-].
      injection E as <- <-. 
      match type of E4 with remove_first ?p ?q = _ => pose proof (remove_first_spec p q) as Hrf end.
      rewrite E4 in Hrf. destruct Hrf as (l1 & l2 & Hl & -> & -> & _).
      eapply sound_step; [eapply (RsRemoveRetry valid m w.2 l1 st l2 _ Hl); by destruct l1|by apply Hw|done|done].
    - eapply Hfine. apply process_all_safe; [done|done|exact Hn|lia].
    - unfold pop_next_retry. destruct (rqm_retry_queue m) as [|st rest] eqn:Eq; [by split|].
      pose proof (qk_retry _ (proj1 (proj1 Hs))) as H6. rewrite Eq in H6. inversion H6 as [|? ? (Hp0 & _) _]; subst.
      assert (E : exists n, safe n (rqm_retry lpost lnow lfresh hd (rqm_set_retry m rest true) st w)).
      { eexists. apply (retry_safe (rqm_set_retry m rest true)); [done|done|done|done|exact Hn|cbn [rqm_set_retry rqm_config]; lia|].
        intros o d' Hrb Hd. eapply sound_step; [exact (RsPop valid m w.2 st rest _ _ Eq Hp0 Hrb)|done|done|done]. }
      destruct E as [n E]. destruct (rqm_retry _ _ _ _ _ _ _) as [[m' w']|]; [|done]. by destruct E as (? & ? & ?).
    - cbn. split; [|done]. eapply sound_step; [exact (RsChanged valid m w.2)|by apply Hw|done|done].
  Qed.
End safe.
