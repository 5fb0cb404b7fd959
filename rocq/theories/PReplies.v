(** The reply manager: bounded memory, at most one execution, cached replies (C48-C50). *)
From stdpp Require Import sorting.
From Verif Require Import MManagers LBase.
Local Open Scope nat_scope.

(** ** Histories *)
Inductive ym_call :=
| YmInsert (msg : request_message)
| YmAbandon (c : reply_context)
| YmComplete (c : reply_context) (data : bytes).
(** The message ID of the request that a call is about. *)
Definition about (c : ym_call) : bytes :=
  match c with YmInsert msg => rq_id msg | YmAbandon c => rc_message_id c | YmComplete c _ => rc_message_id c end.

(** What a call does to the world: attempts to post a reply (with the SURBs before and after), and
    readings of the clock. *)
Inductive ym_event :=
| YPost (surbs : list bytes) (session : session_index) (id data : bytes) (left : list bytes) (ok : bool)
| YTime (t : instant).
Definition is_post (e : ym_event) : bool := match e with YPost _ _ _ _ _ _ => true | YTime _ => false end.
Definition times (l : list ym_event) : list instant :=
  omap (fun e => match e with YTime t => Some t | YPost _ _ _ _ _ _ => None end) l.
Definition made_posts (l : list ym_event) : list ym_event := List.filter is_post l.

Record ym_item := YmItem {
  yi_call : ym_call;
  yi_resp : option (reply_context * bytes);
  yi_log : list ym_event
}.

Section replies.
  Context {W : Type}.
  Context (post : W -> list bytes -> session_index -> bytes -> bytes ->
                  outcome (W * list bytes * result unit post_err)).
  Context (now : W -> instant * W).
  Context (fresh_id : W -> bytes * W).

  (** The world, with the log of the call being executed. *)
  Notation lworld := (W * list ym_event)%type.
  Definition y_post (w : lworld) (surbs : list bytes) (i : session_index) (id data : bytes)
    : outcome (lworld * list bytes * result unit post_err) :=
    '(w', lft, res) ← post w.1 surbs i id data;
    Val ((w', (w.2 ++ [YPost surbs i id data lft (match res with Ok _ => true | Err _ => false end)])%list), lft, res).
  Definition y_now (w : lworld) : instant * lworld :=
    ((now w.1).1, ((now w.1).2, (w.2 ++ [YTime (now w.1).1])%list)).
  Definition y_fresh (w : lworld) : bytes * lworld := ((fresh_id w.1).1, ((fresh_id w.1).2, w.2)).

  Definition ym_exec (m : reply_manager) (w : lworld) (c : ym_call)
    : outcome (reply_manager * lworld * option (reply_context * bytes)) :=
    match c with
    | YmInsert msg => ym_insert y_post y_now m msg w
    | YmAbandon c => Val (ym_abandon m c, w, None)
    | YmComplete c data => '(m, w) ← ym_complete y_post y_now y_fresh m c data w; Val (m, w, None)
    end.

  (** [ym_run P m h m']: a sequence of calls, none of which panics; [P] holds after each of them, and
      between them the world changes in any way. *)
  Inductive ym_run (P : reply_manager -> Prop) : reply_manager -> list ym_item -> reply_manager -> Prop :=
  | YrNil m : ym_run P m [] m
  | YrCall m w c m1 w1 l a h m2 :
      ym_exec m (w, []) c = Val (m1, (w1, l), a) -> P m1 -> ym_run P m1 h m2 ->
      ym_run P m (YmItem c a l :: h) m2.
  Definition ym_reach (cf : ym_config) (h : list ym_item) (m : reply_manager) : Prop :=
    ym_run (fun _ => True) (ym_new cf) h m.

  Definition keys (m : reply_manager) : list bytes := lhm_keys (ym_states m).
  Definition remembers (id : bytes) (m : reply_manager) : Prop := id ∈ keys m.

  (** ** Cases of a call *)
  Definition trim (cap : N) (s : lhm bytes reply_state) : lhm bytes reply_state :=
    if (cap <? N.of_nat (length s))%N then tail s else s.
  Inductive attempts (i : session_index) (r : reply) : nat -> list bytes -> list ym_event -> Prop :=
  | AtNil surbs : attempts i r 0 surbs []
  | AtErr n surbs left : attempts i r (S n) surbs [YPost surbs i (ry_message_id r) (ry_data r) left false]
  | AtOk n surbs left l : attempts i r n left l ->
      attempts i r (S n) surbs (YPost surbs i (ry_message_id r) (ry_data r) left true :: l).
  Inductive ystep (cf : ym_config) (s : lhm bytes reply_state) :
    ym_call -> option (reply_context * bytes) -> list ym_event -> lhm bytes reply_state -> Prop :=
  | YsPending msg : lhm_get s (rq_id msg) = Some YPending -> ystep cf s (YmInsert msg) None [] s
  | YsCool msg r last t : lhm_get s (rq_id msg) = Some (YComplete r last) -> (t - last < ymc_cooldown cf)%N ->
      ystep cf s (YmInsert msg) None [YTime t] s
  | YsRepeat msg r last t l : lhm_get s (rq_id msg) = Some (YComplete r last) -> (ymc_cooldown cf <= t - last)%N ->
      attempts (rq_session_index msg) r (ymc_max_posts cf) (rq_surbs msg) l ->
      ystep cf s (YmInsert msg) None (YTime t :: l) (lhm_set s (rq_id msg) (YComplete r t))
  | YsNew msg : lhm_get s (rq_id msg) = None ->
      ystep cf s (YmInsert msg) (Some (ReplyContext (rq_session_index msg) (rq_id msg) (rq_surbs msg), rq_data msg)) []
        (trim (ymc_capacity cf) (s ++ [(rq_id msg, YPending)]))
  | YsAbandon c : lhm_get s (rc_message_id c) = Some YPending ->
      ystep cf s (YmAbandon c) None [] (lhm_remove s (rc_message_id c))
  | YsAbandonNone c : lhm_get s (rc_message_id c) <> Some YPending -> ystep cf s (YmAbandon c) None [] s
  | YsTwice c data r last : lhm_get s (rc_message_id c) = Some (YComplete r last) ->
      ystep cf s (YmComplete c data) None [] s
  | YsComplete c data rid t l : lhm_get s (rc_message_id c) = Some YPending ->
      attempts (rc_session_index c) (Reply rid data) (ymc_max_posts cf) (rc_surbs c) l ->
      (exists w, rid = (fresh_id w).1) ->
      ystep cf s (YmComplete c data) None (l ++ [YTime t]) (trim (ymc_capacity cf) (lhm_set s (rc_message_id c) (YComplete (Reply rid data) t)))
  | YsCompleteNew c data rid t l : lhm_get s (rc_message_id c) = None ->
      attempts (rc_session_index c) (Reply rid data) (ymc_max_posts cf) (rc_surbs c) l ->
      (exists w, rid = (fresh_id w).1) ->
      ystep cf s (YmComplete c data) None (l ++ [YTime t]) (trim (ymc_capacity cf) (s ++ [(rc_message_id c, YComplete (Reply rid data) t)])).

  Lemma pop_tail (s : lhm bytes reply_state) : snd (lhm_pop_front s) = tail s.
  Proof. by destruct s. Qed.
  Lemma evict_trim m m' : ym_maybe_evict m = Val m' -> ym_cfg m' = ym_cfg m /\ ym_states m' = trim (ymc_capacity (ym_cfg m)) (ym_states m).
  Proof.
    unfold ym_maybe_evict, trim. destruct (_ <? _)%N; [|by intros [= <-]]. unfold assert_or_panic. destruct (_ =? _)%N; [|done].
    intros [= <-]. cbn. by rewrite pop_tail.
  Qed.
  Lemma post_n_attempts n c r w c' w' :
    post_reply_n y_post n c r w = Val (c', w') ->
    exists l, w'.2 = (w.2 ++ l)%list /\ attempts (rc_session_index c) r n (rc_surbs c) l.
  Proof.
    revert c w. induction n as [|n IH]; intros c w; cbn.
    - intros [= <- <-]. exists []. split; [by rewrite app_nil_r|constructor].
    - unfold y_post at 1. destruct (post w.1 _ _ _ _) as [[[w1 lft] res]|]; [|done]. cbn. destruct res as [u|e].
      + intros (l & H1 & H2)%IH. cbn in H1, H2. eexists. rewrite H1, <-app_assoc. split; [done|]. by constructor.
      + intros [= <- <-]. cbn. eexists. split; [done|]. constructor.
  Qed.
  Lemma set_push (s : lhm bytes reply_state) id v v' : lhm_get s id = None -> lhm_set (lhm_push_back s id v) id v' = (s ++ [(id, v')])%list.
  Proof.
    unfold lhm_push_back. induction s as [|[k x] s IH]; cbn; [by rewrite decide_True|].
    destruct (decide (k = id)); [done|]. intros H. by rewrite IH.
  Qed.
  Lemma exec_step m w c m' w' l a : ym_exec m (w, []) c = Val (m', (w', l), a) ->
    ym_cfg m' = ym_cfg m /\ ystep (ym_cfg m) (ym_states m) c a l (ym_states m').
  Proof.
    destruct c as [msg|c|c data]; cbn [ym_exec].
    - unfold ym_insert. destruct (lhm_get (ym_states m) (rq_id msg)) as [[|r last]|] eqn:E.
      + intros [= <- <- <- <-]. split; [done|]. by constructor.
      + cbn [y_now fst snd app]. unfold saturating_sub. destruct (N.ltb_spec ((now w).1 - last) (ymc_cooldown (ym_cfg m))) as [Hlt|Hge].
        * intros [= <- <- <- <-]. split; [done|]. by econstructor.
        * destruct (post_reply_n _ _ _ _ _) as [[c' w1]|] eqn:Ep; [|done]. cbn. intros [= <- -> <-]. split; [done|].
          apply post_n_attempts in Ep as (l1 & H1 & H2). cbn in *. subst l. by econstructor.
      + destruct (ym_maybe_evict _) as [m1|] eqn:Ev; [|done]. apply evict_trim in Ev as [E1 E2]. cbn. intros [= <- <- <- <-].
        split; [done|]. rewrite E2. by constructor.
    - intros [= <- <- <- <-]. unfold ym_abandon. destruct (lhm_get (ym_states m) (rc_message_id c)) as [[|r last]|] eqn:E.
      + split; [done|]. by constructor.
      + split; [done|]. constructor. by rewrite E.
      + split; [done|]. constructor. by rewrite E.
    - unfold ym_complete. destruct (lhm_get (ym_states m) (rc_message_id c)) as [[|r last]|] eqn:E.
      + cbn. destruct (post_reply_n _ _ _ _ _) as [[c' w1]|] eqn:Ep; [|done]. cbn.
        destruct (ym_maybe_evict _) as [m1|] eqn:Ev; [|done]. apply evict_trim in Ev as [E1 E2]. cbn. intros [= <- <- <- <-].
        apply post_n_attempts in Ep as (l1 & H1 & H2). cbn in *. rewrite H1. split; [done|]. rewrite E2. constructor; eauto.
      + intros [= <- <- <- <-]. split; [done|]. by econstructor.
      + cbn. destruct (post_reply_n _ _ _ _ _) as [[c' w1]|] eqn:Ep; [|done]. cbn.
        destruct (ym_maybe_evict _) as [m1|] eqn:Ev; [|done]. apply evict_trim in Ev as [E1 E2]. cbn. intros [= <- <- <- <-].
        apply post_n_attempts in Ep as (l1 & H1 & H2). cbn in *. rewrite H1. split; [done|]. rewrite E2. cbn.
        rewrite set_push by done. constructor; eauto.
  Qed.

  (** ** C48: bounded memory, oldest first *)
  Definition states_ok (cf : ym_config) (s : lhm bytes reply_state) : Prop :=
    NoDup (lhm_keys s) /\ (N.of_nat (length s) <= ymc_capacity cf)%N.
  Lemma trim_length cap (s : lhm bytes reply_state) : (N.of_nat (length s) <= cap + 1)%N -> (N.of_nat (length (trim cap s)) <= cap)%N.
  Proof. intros H. unfold trim. destruct (N.ltb_spec cap (N.of_nat (length s))); [|done]. destruct s; cbn in *; lia. Qed.
  Lemma trim_same cap (s : lhm bytes reply_state) : (N.of_nat (length s) <= cap)%N -> trim cap s = s.
  Proof. intros H. unfold trim. destruct (N.ltb_spec cap (N.of_nat (length s))); [lia|done]. Qed.
  Lemma trim_NoDup cap (s : lhm bytes reply_state) : NoDup (lhm_keys s) -> NoDup (lhm_keys (trim cap s)).
  Proof. intros H. unfold trim. destruct (_ <? _)%N; [|done]. destruct s; [done|]. cbn in *. by inversion H. Qed.
  Lemma keys_app (s s' : lhm bytes reply_state) : lhm_keys (s ++ s') = (lhm_keys s ++ lhm_keys s')%list.
  Proof. unfold lhm_keys. by rewrite map_app. Qed.
  Lemma push_ok (s : lhm bytes reply_state) id v : lhm_get s id = None -> NoDup (lhm_keys s) -> NoDup (lhm_keys (s ++ [(id, v)])).
  Proof.
    intros H1%lhm_get_None H2. rewrite keys_app. apply NoDup_app. split; [done|]. split; [|apply NoDup_singleton].
    intros x Hx ->%elem_of_list_singleton. done.
  Qed.
  Lemma push_length (s : lhm bytes reply_state) id v : length (s ++ [(id, v)]) = S (length s).
  Proof. rewrite app_length. cbn. lia. Qed.
  Lemma step_ok cf s c a l s' : states_ok cf s -> ystep cf s c a l s' -> states_ok cf s'.
  Proof.
    intros [Hn Hl] Hs. destruct Hs; try (by split).
    - split; [by rewrite lhm_set_keys|]. by rewrite lhm_set_length.
    - split; [by apply trim_NoDup, push_ok|]. apply trim_length. rewrite push_length. lia.
    - split; [by apply lhm_remove_keys_NoDup|]. erewrite (lhm_remove_length s) in Hl; [|done]. lia.
    - rewrite trim_same by (by rewrite lhm_set_length). split; [by rewrite lhm_set_keys|]. by rewrite lhm_set_length.
    - split; [by apply trim_NoDup, push_ok|]. apply trim_length. rewrite push_length. lia.
  Qed.
  Lemma run_ok P m h m' : ym_run P m h m' -> states_ok (ym_cfg m) (ym_states m) -> ym_cfg m' = ym_cfg m /\ states_ok (ym_cfg m) (ym_states m').
  Proof.
    induction 1 as [|m w c m1 w1 l a h m2 E _ _ IH]; intros Hm; [done|]. apply exec_step in E as [E1 E2]. rewrite <-E1 in *.
    apply IH. by eapply step_ok.
  Qed.
  Lemma reach_ok cf h m : ym_reach cf h m -> ym_cfg m = cf /\ states_ok cf (ym_states m).
  Proof. intros H. apply (run_ok _ _ _ _ H). split; [constructor|]. cbn. lia. Qed.

  Theorem C48_bounded cf h m : ym_reach cf h m -> NoDup (keys m) /\ (N.of_nat (length (keys m)) <= ymc_capacity cf)%N.
  Proof. intros [_ [H1 H2]]%reach_ok. split; [done|]. unfold keys, lhm_keys. by rewrite map_length. Qed.

  (** [pushed cap k id k']: the list [k] of remembered requests, oldest first, after [id] was added. *)
  Inductive pushed (cap : N) (k : list bytes) (id : bytes) : list bytes -> Prop :=
  | PuSpace : (N.of_nat (length k) < cap)%N -> pushed cap k id (k ++ [id])
  | PuFull x k0 : (N.of_nat (length k) = cap)%N -> k = x :: k0 -> pushed cap k id (k0 ++ [id])
  | PuZero : cap = 0%N -> k = [] -> pushed cap k id [].
  Lemma trim_pushed cap (s : lhm bytes reply_state) id v : (N.of_nat (length s) <= cap)%N ->
    pushed cap (lhm_keys s) id (lhm_keys (trim cap (s ++ [(id, v)]))).
  Proof.
    intros H. unfold trim. rewrite push_length. destruct (N.ltb_spec cap (N.of_nat (S (length s)))) as [Hc|Hc].
    - destruct s as [|[x y] s]; cbn [app tail].
      + apply PuZero; [cbn in *; lia|done].
      + rewrite keys_app. eapply PuFull; [|done]. unfold lhm_keys. rewrite map_length. cbn [length] in *. lia.
    - rewrite keys_app. apply PuSpace. unfold lhm_keys. rewrite map_length. lia.
  Qed.
  (** A call adds at most the request it is about, at the end, and discards at most the oldest one, only
      to stay within the capacity; only [abandon] removes another one, the one it is given, and only while
      it is being handled. All the other entries are left as they are. *)
  Theorem C48_order cf h m w c m' w' l a :
    ym_reach cf h m -> ym_exec m (w, []) c = Val (m', (w', l), a) ->
    match c with
    | YmAbandon _ => (keys m' = keys m /\ (remembers (about c) m -> lhm_get (ym_states m) (about c) <> Some YPending)) \/
                     (lhm_get (ym_states m) (about c) = Some YPending /\
                      exists k1 k2, keys m = (k1 ++ about c :: k2)%list /\ keys m' = (k1 ++ k2)%list)
    | _ => (remembers (about c) m /\ keys m' = keys m) \/
           (~ remembers (about c) m /\ pushed (ymc_capacity cf) (keys m) (about c) (keys m'))
    end /\
    forall id, id <> about c -> remembers id m' -> lhm_get (ym_states m') id = lhm_get (ym_states m) id.
  Proof.
    intros Hr E. apply reach_ok in Hr as [<- [Hn Hl]]. apply exec_step in E as [_ Hs]. unfold remembers, keys in *.
    assert (Hin : forall id st, lhm_get (ym_states m) id = Some st -> id ∈ lhm_keys (ym_states m)).
    { intros id st H. destruct (decide (id ∈ lhm_keys (ym_states m))) as [|Hd]; [done|]. apply lhm_get_None in Hd. congruence. }
    assert (Htrim : forall id k v, id <> k -> id ∈ lhm_keys (trim (ymc_capacity (ym_cfg m)) (ym_states m ++ [(k, v)])) -> lhm_get (ym_states m) k = None ->
      lhm_get (trim (ymc_capacity (ym_cfg m)) (ym_states m ++ [(k, v)])) id = lhm_get (ym_states m) id).
    { intros id k v Hne Hid Hk. unfold trim in *. destruct (_ <? _)%N.
      - destruct (ym_states m) as [|[x y] s] eqn:Es; [done|]. cbn [app tail] in *. rewrite lhm_get_app. cbn [lhm_get].
        rewrite keys_app in Hid. rewrite (decide_False (P := k = id)) by done. destruct (decide (x = id)) as [->|].
        + inversion Hn as [|? ? Hx _]; subst. apply elem_of_app in Hid as [Hid|Hid%elem_of_list_singleton]; done.
        + by destruct (lhm_get s id).
      - rewrite lhm_get_app. cbn. rewrite (decide_False (P := k = id)) by done. by destruct (lhm_get _ id). }
    generalize dependent (ym_states m'). intros s' Hs.
    inversion Hs as [msg Hg|msg r last t Hg Ht|msg r last t l' Hg Ht Ha|msg Hg|c0 Hg|c0 Hg|c0 data r last Hg|c0 data rid t l' Hg Ha Hrid|c0 data rid t l' Hg Ha Hrid]; subst; cbn [about].
    - split; [|done]. left. eauto.
    - split; [|done]. left. eauto.
    - split; [left; rewrite lhm_set_keys; eauto|]. intros id Hne _. rewrite lhm_get_set, decide_False by done. done.
    - split; [right; split; [by apply lhm_get_None|by apply trim_pushed]|]. intros id Hne Hid. by apply Htrim.
    - split; [|intros id Hne _; rewrite lhm_get_remove, decide_False by done; done]. right. split; [done|].
      destruct (lhm_remove_split _ _ _ Hg) as (s1 & s2 & E1 & E2 & _). rewrite E2, E1, !keys_app. eauto.
    - split; [|done]. left. split; [done|]. auto.
    - split; [|done]. left. eauto.
    - rewrite trim_same by (by rewrite lhm_set_length). split; [left; rewrite lhm_set_keys; eauto|].
      intros id Hne _. rewrite lhm_get_set, decide_False by done. done.
    - split; [right; split; [by apply lhm_get_None|by apply trim_pushed]|]. intros id Hne Hid. by apply Htrim.
  Qed.

  (** No call panics as long as posting the replies given to [complete] does not, in the worlds [I] that
      posting, the clock and the random IDs lead to. *)
  Definition completed_with (c : ym_call) (data : bytes) : Prop := exists ctx, c = YmComplete ctx data.
  Theorem C48_panics cf h m w c (I : W -> Prop) (D : bytes -> bytes -> Prop) :
    ym_reach cf h m ->
    (forall w surbs i id data, I w -> D id data -> exists w' lft res, post w surbs i id data = Val (w', lft, res) /\ I w') ->
    (forall w, I w -> I (now w).2 /\ I (fresh_id w).2) ->
    (forall w data, (exists x, x ∈ h /\ completed_with (yi_call x) data) \/ completed_with c data -> D (fresh_id w).1 data) ->
    I w ->
    exists m' w' l a, ym_exec m (w, []) c = Val (m', (w', l), a) /\ I w'.
  Proof.
    intros Hr Hp Hnow HD Hw.
    assert (Hst : forall id r t, lhm_get (ym_states m) id = Some (YComplete r t) -> D (ry_message_id r) (ry_data r)).
    { assert (Hrun : ym_run (fun _ => True) (ym_new cf) h m) by exact Hr.
      assert (H0 : forall id r t, lhm_get (ym_states (ym_new cf)) id = Some (YComplete r t) -> D (ry_message_id r) (ry_data r)) by done.
      assert (Hok0 : states_ok (ym_cfg (ym_new cf)) (ym_states (ym_new cf))).
      { split; [constructor|]. cbn. lia. }
      assert (HD' : forall x ctx data w, x ∈ h -> yi_call x = YmComplete ctx data -> D (fresh_id w).1 data).
      { intros x ctx data w0 Hx Hc. apply HD. left. exists x. split; [done|]. by exists ctx. }
      clear Hr HD. induction Hrun as [|m w0 c0 m1 w1 l a h m2 E _ Hrun IH]; [done|].
      apply exec_step in E as [E1 E2]. apply IH; [| |intros x ctx data w2 Hx Hc; apply (HD' x ctx data w2); [by right|done]].
      2:{ rewrite E1. by eapply step_ok. }
      intros id r t Hg.
      assert (Htr : forall s, NoDup (lhm_keys s) -> lhm_get (trim (ymc_capacity (ym_cfg m)) s) id = Some (YComplete r t) -> lhm_get s id = Some (YComplete r t)).
      { intros s Hns. unfold trim. destruct (_ <? _)%N; [|done]. destruct s as [|[x y] s]; [done|]. cbn [tail lhm_get]. destruct (decide (x = id)) as [->|]; [|done].
        intros Hs. apply NoDup_cons in Hns as [Hns _]. exfalso. apply Hns. destruct (decide (id ∈ lhm_keys s)) as [|Hn]; [done|]. apply lhm_get_None in Hn. congruence. }
      destruct Hok0 as [Hn Hl].
      assert (Hnew : forall w ctx data, c0 = YmComplete ctx data -> D (fresh_id w).1 data).
      { intros w2 ctx data ->. by apply (HD' (YmItem (YmComplete ctx data) a l) ctx data w2); [left|]. }
      revert Hg. clear IH Hrun E1. generalize dependent (ym_states m1). intros s E2 Hg. destruct E2; try (by eapply H0).
      - rewrite lhm_get_set in Hg. destruct (decide _) as [<-|]; [|by eapply H0]. rewrite H in Hg. injection Hg as <- <-. by eapply H0.
      - apply Htr in Hg; [|by apply push_ok]. rewrite lhm_get_app in Hg. destruct (lhm_get (ym_states m) id) eqn:E; [by eapply H0; rewrite E|].
        cbn in Hg. by destruct (decide _).
      - rewrite lhm_get_remove in Hg by done. destruct (decide _); [done|]. by eapply H0.
      - apply Htr in Hg; [|by rewrite lhm_set_keys]. rewrite lhm_get_set in Hg. destruct (decide _); [|by eapply H0]. subst. rewrite H in Hg.
        injection Hg as <- <-. destruct H2 as [w2 ->]. by eapply Hnew.
      - apply Htr in Hg; [|by apply push_ok]. rewrite lhm_get_app in Hg. destruct (lhm_get (ym_states m) id) eqn:E; [by eapply H0; rewrite E|].
        cbn in Hg. destruct (decide _); [|done]. injection Hg as <- <-. destruct H2 as [w2 ->]. by eapply Hnew. }
    apply reach_ok in Hr as [<- [Hn Hl]].
    assert (Hpost : forall n c r w, D (ry_message_id r) (ry_data r) -> I w.1 -> exists c' w', post_reply_n y_post n c r w = Val (c', w') /\ I w'.1).
    { induction n as [|n IH]; intros c0 r w0 Hd Hi; cbn; [eauto|]. unfold y_post at 1.
      destruct (Hp w0.1 (rc_surbs c0) (rc_session_index c0) (ry_message_id r) (ry_data r) Hi Hd) as (w1 & lft & res & -> & Hw1).
      cbn. destruct res; [by apply IH|]. eexists _, _. done. }
    assert (Hev : forall s, (N.of_nat (length s) <= ymc_capacity (ym_cfg m) + 1)%N -> exists m', ym_maybe_evict (ym_set m s) = Val m').
    { intros s Hs. unfold ym_maybe_evict. cbn. destruct (N.ltb_spec (ymc_capacity (ym_cfg m)) (N.of_nat (length s))) as [H|H]; [|eauto].
      rewrite pop_tail. unfold assert_or_panic. rewrite (proj2 (N.eqb_eq _ _)); [cbn; eauto|]. destruct s; cbn in *; lia. }
    destruct c as [msg|c|c data]; cbn [ym_exec]; [|by eexists _, _, _, _|].
    - unfold ym_insert. destruct (lhm_get (ym_states m) (rq_id msg)) as [[|r last]|] eqn:E; [by eexists _, _, _, _| |].
      + cbn. destruct (Hnow _ Hw) as [Hw1 _]. destruct (_ <? _)%N; [by eexists _, _, _, _|].
        edestruct Hpost as (c' & w' & -> & Hi); [by eapply Hst|cbn; exact Hw1|]. destruct w' as [w' l]. cbn. by eexists _, _, _, _.
      + destruct (Hev (ym_states m ++ [(rq_id msg, YPending)])%list) as [m' E']; [rewrite push_length; lia|].
        unfold lhm_push_back. rewrite E'. cbn. by eexists _, _, _, _.
    - assert (Hd : D (fresh_id w).1 data) by (apply HD; right; by exists c). destruct (Hnow _ Hw) as [_ Hw1].
      unfold ym_complete. destruct (lhm_get (ym_states m) (rc_message_id c)) as [[|r last]|] eqn:E; [|cbn; by eexists _, _, _, _|].
      + cbn [reply_new y_fresh]. edestruct Hpost as (c' & w' & -> & Hi); [|cbn; exact Hw1|]; [exact Hd|]. cbn. destruct (Hnow _ Hi) as [Hi' _].
        destruct (Hev (lhm_set (ym_states m) (rc_message_id c) (YComplete (Reply (fresh_id w).1 data) (now w'.1).1))) as [m' E'];
          [rewrite lhm_set_length; lia|]. rewrite E'. cbn. by eexists _, _, _, _.
      + cbn [reply_new y_fresh]. edestruct Hpost as (c' & w' & -> & Hi); [|cbn; exact Hw1|]; [exact Hd|]. cbn. destruct (Hnow _ Hi) as [Hi' _]. rewrite set_push by done.
        destruct (Hev (ym_states m ++ [(rc_message_id c, YComplete (Reply (fresh_id w).1 data) (now w'.1).1)])%list) as [m' E'];
          [rewrite push_length; lia|]. unfold ym_set in *. cbn in *. rewrite E'. cbn. by eexists _, _, _, _.
  Qed.

  (** ** C49: at most one execution while remembered *)
  Lemma run_app P m h1 h2 m' : ym_run P m (h1 ++ h2) m' <-> exists m1, ym_run P m h1 m1 /\ ym_run P m1 h2 m'.
  Proof.
    split.
    - revert m. induction h1 as [|x h1 IH]; intros m; cbn; [intros H; exists m; split; [constructor|done]|].
      inversion 1 as [|? ? ? m3 ? ? ? ? ? E HP Hrun]; subst. destruct (IH _ Hrun) as (m2 & H6 & H7). exists m2. split; [by econstructor|done].
    - intros (m1 & H1 & H2). induction H1; cbn; [done|]. econstructor; eauto.
  Qed.
  Lemma reach_snoc cf h m P h1 m1 : ym_reach cf h m -> ym_run P m h1 m1 -> ym_reach cf (h ++ h1) m1.
  Proof.
    intros H1 H2. apply run_app. exists m. split; [done|]. clear H1. induction H2; econstructor; eauto.
  Qed.
  (** Between [h]: the request was abandoned, or [capacity] other requests have been inserted or completed. *)
  Definition forgotten (cf : ym_config) (id : bytes) (h : list ym_item) : Prop :=
    (exists z c, z ∈ h /\ yi_call z = YmAbandon c /\ rc_message_id c = id) \/
    (exists others, NoDup others /\ N.of_nat (length others) = ymc_capacity cf /\ id ∉ others /\
       forall k, k ∈ others -> exists z, z ∈ h /\ about (yi_call z) = k /\ forall c, yi_call z <> YmAbandon c).
  Lemma forgotten_mono cf id h h' : (forall z, z ∈ h -> z ∈ h') -> forgotten cf id h -> forgotten cf id h'.
  Proof.
    intros Hs [(z & c & H1 & H2)|(o & H1 & H2 & H3 & H4)]; [left; eauto 6|right].
    exists o. repeat split; try done. intros k Hk. destruct (H4 k Hk) as (z & ? & ?). eauto.
  Qed.
  Definition newer_touched (id : bytes) (h : list ym_item) (k : list bytes) : Prop :=
    exists k1 k2, k = (k1 ++ id :: k2)%list /\
      forall x, x ∈ k2 -> exists z, z ∈ h /\ about (yi_call z) = x /\ forall c, yi_call z <> YmAbandon c.
  Lemma newer_mono id h h' k : (forall z, z ∈ h -> z ∈ h') -> newer_touched id h k -> newer_touched id h' k.
  Proof. intros Hs (k1 & k2 & H1 & H2). exists k1, k2. split; [done|]. intros x Hx. destruct (H2 x Hx) as (z & ? & ?). eauto. Qed.
  Lemma newer_step cf h0 m w c m' w' l a id h :
    ym_reach cf h0 m -> ym_exec m (w, []) c = Val (m', (w', l), a) ->
    newer_touched id h (keys m) ->
    forgotten cf id (h ++ [YmItem c a l]) \/ newer_touched id (h ++ [YmItem c a l]) (keys m').
  Proof.
    intros Hr E (k1 & k2 & Hk & Ht).
    pose proof (C48_bounded _ _ _ Hr) as [Hn _]. destruct (C48_order _ _ _ _ _ _ _ _ _ Hr E) as [Ho _].
    assert (Hin : forall z, z ∈ h -> z ∈ (h ++ [YmItem c a l])%list) by (intros; apply elem_of_app; by left).
    assert (Hsame : keys m' = keys m -> newer_touched id (h ++ [YmItem c a l]) (keys m')).
    { intros ->. apply (newer_mono _ h); [done|]. by exists k1, k2. }
    assert (Hlast : YmItem c a l ∈ (h ++ [YmItem c a l])%list) by (apply elem_of_app; right; by left).
    assert (Hpush : (forall c', c <> YmAbandon c') -> ~ remembers (about c) m -> pushed (ymc_capacity cf) (keys m) (about c) (keys m') ->
      forgotten cf id (h ++ [YmItem c a l]) \/ newer_touched id (h ++ [YmItem c a l]) (keys m')).
    { clear Hsame Ho. generalize (keys m'). intros k' Hna Hnew Hp. destruct Hp as [Hlen|x k0 Hlen Hx|Hc Hm']; [..|rewrite Hk in Hm'; by destruct k1].
      - right. exists k1, (k2 ++ [about c])%list. rewrite Hk, <-app_assoc. split; [done|].
        intros x [Hx|Hx%elem_of_list_singleton]%elem_of_app; [destruct (Ht x Hx) as (z & ? & ?); eauto|]. subst x.
        exists (YmItem c a l). eauto.
      - rewrite Hk in Hx. destruct k1 as [|y k1]; cbn in Hx; injection Hx as <- <-.
        + left. right. exists (k2 ++ [about c])%list. unfold remembers in Hnew. rewrite Hk in Hn, Hlen, Hnew. cbn in Hn, Hlen, Hnew.
          rewrite not_elem_of_cons in Hnew. destruct Hnew as [Hne Hnew]. apply NoDup_cons in Hn as [H1 H2].
          split; [|split; [|split]].
          * apply NoDup_app. split; [done|]. split; [|apply NoDup_singleton]. by intros x Hx ->%elem_of_list_singleton.
          * rewrite app_length. cbn. lia.
          * intros [?|Hx%elem_of_list_singleton]%elem_of_app; [done|]. by subst.
          * intros x [Hx|Hx%elem_of_list_singleton]%elem_of_app; [destruct (Ht x Hx) as (z & ? & ?); eauto|]. subst x.
            exists (YmItem c a l). eauto.
        + right. exists k1, (k2 ++ [about c])%list. rewrite <-app_assoc. split; [done|].
          intros x [Hx|Hx%elem_of_list_singleton]%elem_of_app; [destruct (Ht x Hx) as (z & ? & ?); eauto|]. subst x.
          exists (YmItem c a l). eauto. }
    destruct c as [msg|c|c data]; cbn [about] in *.
    - destruct Ho as [[_ Ho]|[Ho1 Ho2]]; [auto|]. by apply Hpush.
    - destruct Ho as [[Ho _]|[_ (j1 & j2 & E1 & E2)]]; [auto|].
      destruct (decide (rc_message_id c = id)) as [Hid|Hne]; [left; left; eauto 6|]. right.
      rewrite Hk in E1. apply app_eq_inv in E1 as [(k & -> & E1)|(k & -> & E1)].
      + destruct k as [|y k]; cbn in E1; injection E1 as E1 ->; [by subst|]. exists (j1 ++ k)%list, k2.
        rewrite E2, <-app_assoc. split; [done|]. intros x Hx. destruct (Ht x Hx) as (z & ? & ?). eauto.
      + destruct k as [|y k]; cbn in E1; injection E1 as E1 ->; [by subst|]. subst y. exists k1, (k ++ j2)%list.
        rewrite E2, <-app_assoc. split; [done|]. intros x Hx. destruct (Ht x) as (z & ? & ?); [|eauto].
        rewrite elem_of_app in *. rewrite elem_of_cons. naive_solver.
    - destruct Ho as [[_ Ho]|[Ho1 Ho2]]; [auto|]. by apply Hpush.
  Qed.
  Lemma newer_run cf h0 m P h m' id h1 :
    ym_reach cf h0 m -> ym_run P m h m' -> newer_touched id h1 (keys m) \/ forgotten cf id h1 ->
    newer_touched id (h1 ++ h) (keys m') \/ forgotten cf id (h1 ++ h).
  Proof.
    intros Hr Hrun. revert h0 h1 Hr. induction Hrun as [m|m w c m1 w1 l a h m2 E HP Hrun IH]; intros h0 h1 Hr Hn.
    { by rewrite app_nil_r. }
    change (YmItem c a l :: h) with ([YmItem c a l] ++ h)%list. rewrite app_assoc. eapply IH.
    - eapply (reach_snoc cf h0 m (fun _ => True) [YmItem c a l]); [done|]. econstructor; [exact E|done|constructor].
    - destruct Hn as [Hn|Hf].
      + destruct (newer_step _ _ _ _ _ _ _ _ _ _ _ Hr E Hn); auto.
      + right. eapply forgotten_mono; [|exact Hf]. intros z Hz. apply elem_of_app. by left.
  Qed.
  Theorem C49_once cf h0 x h1 y h2 m msg1 msg2 c1 c2 :
    ym_reach cf (h0 ++ x :: h1 ++ y :: h2) m ->
    yi_call x = YmInsert msg1 -> yi_resp x = Some c1 ->
    yi_call y = YmInsert msg2 -> yi_resp y = Some c2 -> rq_id msg1 = rq_id msg2 ->
    forgotten cf (rq_id msg1) h1.
  Proof.
    intros Hr Hx1 Hx2 Hy1 Hy2 Hid. apply run_app in Hr as (m0 & H0 & H1).
    inversion H1 as [|? w c m1 w1 l a ? ? E _ H2]; subst. cbn in Hx1, Hx2. subst c a.
    assert (Hr1 : ym_reach cf (h0 ++ [YmItem (YmInsert msg1) (Some c1) l]) m1).
    { eapply (reach_snoc _ _ _ (fun _ => True)); [exact H0|]. econstructor; [exact E|done|constructor]. }
    apply run_app in H2 as (m3 & H2 & H3).
    destruct (C48_order _ _ _ _ _ _ _ _ _ H0 E) as [Ho _]. cbn [about] in Ho.
    apply exec_step in E as [_ E].
    assert (Hnew : lhm_get (ym_states m0) (rq_id msg1) = None) by (by inversion E).
    assert (Hstart : newer_touched (rq_id msg1) [] (keys m1) \/ forgotten cf (rq_id msg1) []).
    { destruct Ho as [[Ho _]|[_ Ho]]; [by apply lhm_get_None in Hnew|]. revert Ho. generalize (keys m1). intros k [Hlen|? k0 Hlen _|Hc _].
      - left. exists (keys m0), []. split; [done|]. by intros ? ?%elem_of_nil.
      - left. exists k0, []. split; [done|]. by intros ? ?%elem_of_nil.
      - right. right. exists []. split; [constructor|]. split; [by rewrite Hc|]. split; [by intros ?%elem_of_nil|by intros ? ?%elem_of_nil]. }
    destruct (newer_run _ _ _ _ _ _ _ _ Hr1 H2 Hstart) as [(k1 & k2 & Hk & _)|Hf]; [|done]. exfalso.
    inversion H3 as [|? w' c m4 w4 l' a ? ? E' _ _]; subst. cbn in Hy1, Hy2. subst c a. apply exec_step in E' as [_ E'].
    assert (Hno : lhm_get (ym_states m3) (rq_id msg2) = None) by (by inversion E'). apply lhm_get_None in Hno.
    apply Hno. fold (keys m3). rewrite Hk, Hid. apply elem_of_app. right. by left.
  Qed.
  (** While a request is remembered, [insert] gives it to the caller no more. *)
  Theorem C49_remembered m w msg m' w' l a :
    remembers (rq_id msg) m -> ym_exec m (w, []) (YmInsert msg) = Val (m', (w', l), a) -> a = None.
  Proof.
    intros Hr E. apply exec_step in E as [_ E]. inversion E as [| | |? Hg| | | | |]; subst; try done.
    by apply lhm_get_None in Hg.
  Qed.

  (** ** C50: cached replies *)
  Definition carries (r : reply) (e : ym_event) : Prop :=
    match e with YPost _ _ id data _ _ => id = ry_message_id r /\ data = ry_data r | YTime _ => True end.
  Lemma attempts_carry i r n surbs l : attempts i r n surbs l -> Forall (carries r) l.
  Proof. induction 1; by repeat constructor. Qed.
  Lemma attempts_posts i r n surbs l : attempts i r n surbs l -> made_posts l = l /\ times l = [].
  Proof.
    induction 1 as [| |n surbs lft l _ [IH1 IH2]]; [done|done|]. unfold made_posts in *. cbn. rewrite IH1. done.
  Qed.
  Lemma get_trim cap (s : lhm bytes reply_state) id : NoDup (lhm_keys s) -> id ∈ lhm_keys (trim cap s) -> lhm_get (trim cap s) id = lhm_get s id.
  Proof.
    intros Hn Hid. unfold trim in *. destruct (_ <? _)%N; [|done]. destruct s as [|[x y] s]; [done|]. cbn [tail] in *.
    cbn [lhm_get]. destruct (decide (x = id)) as [->|]; [|done]. apply NoDup_cons in Hn as [Hn _]. done.
  Qed.
  Lemma attempts_some i r n surbs l l1 l2 : attempts i r n surbs l -> n <> 0 -> made_posts (l1 ++ l ++ l2) <> [].
  Proof.
    intros Ha Hn. unfold made_posts. rewrite !List.filter_app. destruct (attempts_posts _ _ _ _ _ Ha) as [H _]. unfold made_posts in H.
    rewrite H. intros H0. apply app_eq_nil in H0 as [_ H0]. apply app_eq_nil in H0 as [-> _]. by inversion Ha.
  Qed.
  (** What a call about [id] does, if [id] is remembered after it. *)
  Lemma about_step cf s c a l s' id : states_ok cf s -> ystep cf s c a l s' -> about c = id -> id ∈ lhm_keys s' ->
    (made_posts l = [] /\ (forall r t, lhm_get s id = Some (YComplete r t) -> lhm_get s' id = Some (YComplete r t)) /\
       (forall r t t' msg, c = YmInsert msg -> lhm_get s id = Some (YComplete r t) -> t' ∈ times l -> ymc_max_posts cf <> 0 -> (t' - t < ymc_cooldown cf)%N)) \/
    (exists r t, lhm_get s' id = Some (YComplete r t) /\ Forall (carries r) l /\ (times l = [t] /\ (ymc_max_posts cf <> 0 -> made_posts l <> [])) /\
       forall r0 t0, lhm_get s id = Some (YComplete r0 t0) -> r0 = r /\ (ymc_cooldown cf <= t - t0)%N).
  Proof.
    intros [Hn Hl] Hs <- Hid. inversion Hs as [msg Hg|msg r last t Hg Ht|msg r last t l' Hg Ht Ha|msg Hg|c0 Hg|c0 Hg|c0 data r last Hg|c0 data rid t l' Hg Ha Hrid|c0 data rid t l' Hg Ha Hrid]; subst; cbn [about] in *.
    - left. split; [done|]. split; [done|]. intros. congruence.
    - left. split; [done|]. split; [done|]. intros r' t' t2 ? _ H1 H2 _. rewrite H1 in Hg. injection Hg as -> ->.
      by apply elem_of_list_singleton in H2 as ->.
    - right. exists r, t. split; [by rewrite lhm_get_set, decide_True, Hg|]. split; [constructor; [done|by eapply attempts_carry]|].
      destruct (attempts_posts _ _ _ _ _ Ha) as [_ H]. split; [split; [unfold times in *; cbn; by rewrite H|rewrite <-(app_nil_r l'); exact (attempts_some _ _ _ _ _ [YTime t] [] Ha)]|]. intros r0 t0 H0.
      rewrite H0 in Hg. by injection Hg as -> ->.
    - left. split; [done|]. split; intros; congruence.
    - exfalso. apply (lhm_remove_keys_NoDup _ (rc_message_id c0)) in Hn as Hn'.
      destruct (lhm_get (lhm_remove s (rc_message_id c0)) (rc_message_id c0)) eqn:E; [|by apply lhm_get_None in E].
      rewrite lhm_get_remove, decide_True in E by done. done.
    - left. split; [done|]. split; [done|]. intros. discriminate.
    - left. split; [done|]. split; [done|]. intros. discriminate.
    - right. eexists _, t. rewrite get_trim by (by rewrite ?lhm_set_keys). split; [by rewrite lhm_get_set, decide_True, Hg|].
      split; [apply Forall_app; split; [by eapply attempts_carry|by repeat constructor]|].
      destruct (attempts_posts _ _ _ _ _ Ha) as [_ H]. split; [split; [unfold times in *; rewrite omap_app; cbn; by rewrite H|exact (attempts_some _ _ _ _ _ [] _ Ha)]|]. intros. congruence.
    - right. eexists _, t. rewrite get_trim by (by try apply push_ok). split; [rewrite lhm_get_app, Hg; cbn; by rewrite decide_True|].
      split; [apply Forall_app; split; [by eapply attempts_carry|by repeat constructor]|].
      destruct (attempts_posts _ _ _ _ _ Ha) as [_ H]. split; [split; [unfold times in *; rewrite omap_app; cbn; by rewrite H|exact (attempts_some _ _ _ _ _ [] _ Ha)]|]. intros. congruence.
  Qed.
  (** A call about another request. *)
  Lemma other_step cf h0 m w c m' w' l a id : ym_reach cf h0 m -> ym_exec m (w, []) c = Val (m', (w', l), a) ->
    about c <> id -> remembers id m' -> lhm_get (ym_states m') id = lhm_get (ym_states m) id.
  Proof. intros Hr E Hne Hm. destruct (C48_order _ _ _ _ _ _ _ _ _ Hr E) as [_ H]. by apply H. Qed.


  Lemma made_carry r l : Forall (carries r) (made_posts l) <-> Forall (carries r) l.
  Proof.
    unfold made_posts. induction l as [|e l IH]; cbn; [done|]. destruct e; cbn; rewrite !Forall_cons, IH; naive_solver.
  Qed.
  Lemma reach_one cf h m w c m1 w1 l a : ym_reach cf h m -> ym_exec m (w, []) c = Val (m1, (w1, l), a) ->
    ym_reach cf (h ++ [YmItem c a l]) m1.
  Proof. intros Hr E. eapply (reach_snoc _ _ _ (fun _ => True)); [exact Hr|]. econstructor; [exact E|done|constructor]. Qed.
  (** Once a request is completed, every reply posted while it is remembered is the cached one. *)
  Lemma complete_run cf h0 m id h m' r t :
    ym_reach cf h0 m -> ym_run (remembers id) m h m' -> lhm_get (ym_states m) id = Some (YComplete r t) ->
    forall x, x ∈ h -> about (yi_call x) = id -> Forall (carries r) (yi_log x).
  Proof.
    intros Hr Hrun. revert h0 Hr t. induction Hrun as [m|m w c m1 w1 l a h m2 E HP Hrun IH]; intros h0 Hr t Hg x Hx Hab.
    { by apply elem_of_nil in Hx. }
    pose proof (reach_one _ _ _ _ _ _ _ _ _ Hr E) as Hr1. pose proof (reach_ok _ _ _ Hr) as [Ecf Hok].
    destruct (decide (about c = id)) as [Hc|Hc].
    - destruct (exec_step _ _ _ _ _ _ _ E) as [_ Hs]. rewrite Ecf in Hs.
      destruct (about_step _ _ _ _ _ _ _ Hok Hs Hc HP) as [(H1 & H2 & _)|(r1 & t1 & H1 & H2 & _ & H3)].
      + apply elem_of_cons in Hx as [->|Hx]; [|eapply IH; eauto]. cbn. apply made_carry. rewrite H1. constructor.
      + destruct (H3 _ _ Hg) as [<- _]. apply elem_of_cons in Hx as [->|Hx]; [done|]. eapply IH; eauto.
    - apply elem_of_cons in Hx as [->|Hx]; [done|]. refine (IH _ Hr1 t _ _ Hx Hab). rewrite (other_step _ _ _ _ _ _ _ _ _ _ Hr E Hc HP). exact Hg.
  Qed.
  Lemma some_reply cf h0 m id h m' :
    ym_reach cf h0 m -> ym_run (remembers id) m h m' ->
    exists r, forall x, x ∈ h -> about (yi_call x) = id -> Forall (carries r) (yi_log x).
  Proof.
    intros Hr Hrun. revert h0 Hr. induction Hrun as [m|m w c m1 w1 l a h m2 E HP Hrun IH]; intros h0 Hr.
    { exists (Reply [] []). by intros ? ?%elem_of_nil. }
    pose proof (reach_one _ _ _ _ _ _ _ _ _ Hr E) as Hr1. pose proof (reach_ok _ _ _ Hr) as [Ecf Hok].
    destruct (decide (about c = id)) as [Hc|Hc].
    - destruct (exec_step _ _ _ _ _ _ _ E) as [_ Hs]. rewrite Ecf in Hs.
      destruct (about_step _ _ _ _ _ _ _ Hok Hs Hc HP) as [(H1 & H2 & _)|(r1 & t1 & H1 & H2 & _ & H3)].
      + destruct (IH _ Hr1) as [r Hrr]. exists r. intros x Hx Hab. apply elem_of_cons in Hx as [->|Hx]; [|by apply Hrr].
        cbn. apply made_carry. rewrite H1. constructor.
      + exists r1. intros x Hx Hab. apply elem_of_cons in Hx as [->|Hx]; [done|]. by eapply complete_run.
    - destruct (IH _ Hr1) as [r Hrr]. exists r. intros x Hx Hab. apply elem_of_cons in Hx as [->|Hx]; [done|]. by apply Hrr.
  Qed.
  (** All the replies posted for a request, as long as it is remembered, are the same message. *)
  Theorem C50_same_reply cf h0 m id h m' x y :
    ym_reach cf h0 m -> ym_run (remembers id) m h m' ->
    x ∈ h -> y ∈ h -> about (yi_call x) = id -> about (yi_call y) = id ->
    forall s1 i1 id1 data1 l1 ok1 s2 i2 id2 data2 l2 ok2,
      YPost s1 i1 id1 data1 l1 ok1 ∈ yi_log x -> YPost s2 i2 id2 data2 l2 ok2 ∈ yi_log y -> id1 = id2 /\ data1 = data2.
  Proof.
    intros Hr Hrun Hx Hy Ax Ay s1 i1 id1 data1 l1 ok1 s2 i2 id2 data2 l2 ok2 H1 H2.
    destruct (some_reply _ _ _ _ _ _ Hr Hrun) as [r Hrr].
    pose proof (Hrr x Hx Ax) as Hcx. pose proof (Hrr y Hy Ay) as Hcy. rewrite Forall_forall in Hcx, Hcy.
    destruct (Hcx _ H1) as [-> ->]. destruct (Hcy _ H2) as [-> ->]. done.
  Qed.
  (** The reply posted is the one given to [complete]. *)
  Theorem C50_reply_data m w c data m' w' l a s i rid rdata lft ok :
    ym_exec m (w, []) (YmComplete c data) = Val (m', (w', l), a) -> YPost s i rid rdata lft ok ∈ l ->
    rdata = data /\ i = rc_session_index c.
  Proof.
    intros E Hin. apply exec_step in E as [_ E].
    assert (Hat : forall r n surbs l, attempts (rc_session_index c) r n surbs l -> YPost s i rid rdata lft ok ∈ (l ++ [YTime 0%N])%list -> rdata = ry_data r /\ i = rc_session_index c).
    { clear. intros r n surbs l H. induction H; cbn; intros Hin; rewrite ?elem_of_cons, ?elem_of_nil in Hin.
      - by destruct Hin.
      - destruct Hin as [[=]|[?|?]]; by subst.
      - destruct Hin as [[=]|?]; [by subst|auto]. }
    inversion E as [| | | | | |? ? r last Hg|? ? rid0 t l' Hg Ha Hrid|? ? rid0 t l' Hg Ha Hrid]; subst; [by apply elem_of_nil in Hin| |];
      apply (Hat _ _ _ _ Ha); apply elem_of_app in Hin as [Hin|Hin%elem_of_list_singleton]; [apply elem_of_app; by left|done|apply elem_of_app; by left|done].
  Qed.

  Definition all_times (h : list ym_item) : list instant := times (concat (map yi_log h)).
  Lemma times_app l l' : times (l ++ l') = (times l ++ times l')%list.
  Proof. apply omap_app. Qed.
  Lemma sorted_drop a (l l' : list N) : StronglySorted N.le (a :: l ++ l') -> StronglySorted N.le (a :: l').
  Proof.
    induction l as [|x l IH]; cbn; [done|]. intros H. apply IH. inversion H as [|? ? H1 H2]; subst. inversion H1; subst.
    inversion H2; subst. by constructor.
  Qed.
  (** The time kept in a completed entry. *)
  Lemma last_post_run cf h0 m id h m' r t ts :
    ym_reach cf h0 m -> ym_run (remembers id) m h m' -> lhm_get (ym_states m) id = Some (YComplete r t) ->
    StronglySorted N.le (t :: all_times h ++ ts) ->
    exists t', lhm_get (ym_states m') id = Some (YComplete r t') /\ (t <= t')%N /\ (t' = t \/ t' ∈ all_times h) /\ StronglySorted N.le (t' :: ts).
  Proof.
    intros Hr Hrun. revert h0 Hr t. induction Hrun as [m|m w c m1 w1 l a h m2 E HP Hrun IH]; intros h0 Hr t Hg Hs.
    { exists t. split; [done|]. split; [lia|]. split; [auto|done]. }
    pose proof (reach_one _ _ _ _ _ _ _ _ _ Hr E) as Hr1. pose proof (reach_ok _ _ _ Hr) as [Ecf Hok].
    unfold all_times in *. cbn [map concat yi_log] in *. rewrite times_app, <-app_assoc in Hs.
    assert (Hsame : lhm_get (ym_states m1) id = Some (YComplete r t) -> exists t', lhm_get (ym_states m2) id = Some (YComplete r t') /\ (t <= t')%N /\
      (t' = t \/ t' ∈ times (l ++ concat (map yi_log h))%list) /\ StronglySorted N.le (t' :: ts)).
    { intros Hg1. apply sorted_drop in Hs. destruct (IH _ Hr1 _ Hg1 Hs) as (t' & H1 & H2 & H3 & H4). exists t'. split; [done|]. split; [done|].
      split; [|done]. destruct H3 as [->|H3]; [by left|right]. rewrite times_app. apply elem_of_app. by right. }
    destruct (decide (about c = id)) as [Hc|Hc].
    - destruct (exec_step _ _ _ _ _ _ _ E) as [_ Hst]. rewrite Ecf in Hst.
      destruct (about_step _ _ _ _ _ _ _ Hok Hst Hc HP) as [(H1 & H2 & _)|(r1 & t1 & H1 & _ & [H2 _] & H3)]; [by apply Hsame, H2|].
      destruct (H3 _ _ Hg) as [<- _]. rewrite H2 in Hs. cbn [app] in Hs. inversion Hs as [|? ? Hs1 Hs2]; subst. inversion Hs2; subst.
      destruct (IH _ Hr1 _ H1 Hs1) as (t' & G1 & G2 & G3 & G4). exists t'. split; [done|]. split; [lia|]. split; [|done].
      right. rewrite times_app, H2. cbn. destruct G3 as [->|G3]; [by left|by right].
    - apply Hsame. rewrite (other_step _ _ _ _ _ _ _ _ _ _ Hr E Hc HP). exact Hg.
  Qed.
  Lemma posting_step cf h0 m w c m1 w1 l a id : ym_reach cf h0 m -> ym_exec m (w, []) c = Val (m1, (w1, l), a) ->
    about c = id -> remembers id m1 -> made_posts l <> [] ->
    exists r t, lhm_get (ym_states m1) id = Some (YComplete r t) /\ times l = [t] /\
      forall r0 t0, lhm_get (ym_states m) id = Some (YComplete r0 t0) -> (ymc_cooldown cf <= t - t0)%N.
  Proof.
    intros Hr E Hc HP Hm. pose proof (reach_ok _ _ _ Hr) as [Ecf Hok]. destruct (exec_step _ _ _ _ _ _ _ E) as [_ Hst]. rewrite Ecf in Hst.
    destruct (about_step _ _ _ _ _ _ _ Hok Hst Hc HP) as [(H1 & H2 & _)|(r1 & t1 & H1 & _ & [H2 _] & H3)]; [done|].
    exists r1, t1. split; [done|]. split; [done|]. intros r0 t0 H0. by destruct (H3 _ _ H0).
  Qed.

  Lemma run_cons P m x h m' : ym_run P m (x :: h) m' ->
    exists w m1 w1, ym_exec m (w, []) (yi_call x) = Val (m1, (w1, yi_log x), yi_resp x) /\ P m1 /\ ym_run P m1 h m'.
  Proof. inversion 1; subst. by eexists _, _, _. Qed.
  (** Two calls that post a reply to the same request, remembered all along, read the clock at times
      at least the cooldown apart. *)
  Theorem C50_cooldown cf h0 m id x h y m' :
    ym_reach cf h0 m -> ym_run (remembers id) m (x :: h ++ [y]) m' ->
    about (yi_call x) = id -> about (yi_call y) = id ->
    made_posts (yi_log x) <> [] -> made_posts (yi_log y) <> [] ->
    StronglySorted N.le (all_times (x :: h ++ [y])) ->
    exists tx ty, times (yi_log x) = [tx] /\ times (yi_log y) = [ty] /\ (tx + ymc_cooldown cf <= ty)%N.
  Proof.
    intros Hr Hrun Ax Ay Px Py Hs. apply run_cons in Hrun as (w & m1 & w1 & E & HP & H2).
    destruct (posting_step _ _ _ _ _ _ _ _ _ _ Hr E Ax HP Px) as (r & tx & G1 & G2 & _). exists tx.
    apply run_app in H2 as (m2 & H2 & (w2 & m3 & w3 & E' & HP' & H4)%run_cons).
    pose proof (reach_one _ _ _ _ _ _ _ _ _ Hr E) as Hr1.
    assert (Hr2 : ym_reach cf ((h0 ++ [YmItem (yi_call x) (yi_resp x) (yi_log x)]) ++ h) m2) by (eapply reach_snoc; [exact Hr1|exact H2]).
    destruct (posting_step _ _ _ _ _ _ _ _ _ _ Hr2 E' Ay HP' Py) as (r' & ty & G1' & G2' & G3'). exists ty. split; [done|]. split; [done|].
    unfold all_times in Hs. cbn [map concat yi_log] in Hs. rewrite map_app, concat_app, !times_app in Hs. cbn [map concat] in Hs.
    rewrite app_nil_r, G2, G2' in Hs. cbn [app] in Hs.
    destruct (last_post_run _ _ _ _ _ _ _ _ _ Hr1 H2 G1 Hs) as (t' & K1 & K2 & _ & K4).
    specialize (G3' _ _ K1). inversion K4 as [|? ? _ K5]; subst. inversion K5; subst. lia.
  Qed.
  Lemma last_kept cf h0 m id h m' r t :
    ym_reach cf h0 m -> ym_run (remembers id) m h m' -> lhm_get (ym_states m) id = Some (YComplete r t) -> ymc_max_posts cf <> 0 ->
    exists t', lhm_get (ym_states m') id = Some (YComplete r t') /\
      (t' = t \/ exists z, z ∈ h /\ about (yi_call z) = id /\ made_posts (yi_log z) <> [] /\ times (yi_log z) = [t']).
  Proof.
    intros Hr Hrun Hg Hmax. revert h0 Hr t Hg. induction Hrun as [m|m w c m1 w1 l a h m2 E HP Hrun IH]; intros h0 Hr t Hg.
    { exists t. auto. }
    pose proof (reach_one _ _ _ _ _ _ _ _ _ Hr E) as Hr1. pose proof (reach_ok _ _ _ Hr) as [Ecf Hok].
    assert (Hsame : forall t1, lhm_get (ym_states m1) id = Some (YComplete r t1) ->
      (t1 = t \/ (about c = id /\ made_posts l <> [] /\ times l = [t1])) ->
      exists t', lhm_get (ym_states m2) id = Some (YComplete r t') /\
        (t' = t \/ exists z, z ∈ YmItem c a l :: h /\ about (yi_call z) = id /\ made_posts (yi_log z) <> [] /\ times (yi_log z) = [t'])).
    { intros t1 Hg1 Ht1. destruct (IH _ Hr1 _ Hg1) as (t' & H1 & H2). exists t'. split; [done|]. destruct H2 as [->|(z & Hz & H2)].
      - destruct Ht1 as [?|Ht1]; [by left|right]. exists (YmItem c a l). split; [left|done].
      - right. exists z. split; [by right|done]. }
    destruct (decide (about c = id)) as [Hc|Hc].
    - destruct (exec_step _ _ _ _ _ _ _ E) as [_ Hst]. rewrite Ecf in Hst.
      destruct (about_step _ _ _ _ _ _ _ Hok Hst Hc HP) as [(H1 & H2 & _)|(r1 & t1 & H1 & _ & [H2 H4] & H3)]; [apply (Hsame t); auto|].
      destruct (H3 _ _ Hg) as [<- _]. apply (Hsame t1); auto.
    - apply (Hsame t); [|by left]. rewrite (other_step _ _ _ _ _ _ _ _ _ _ Hr E Hc HP). exact Hg.
  Qed.
  (** A repeat of a request reads the clock once, and is answered if this reading is at least the
      cooldown after the readings of the earlier calls that posted a reply to the request. *)
  Theorem C50_answered cf h0 m id x h y m' msg :
    ym_reach cf h0 m -> ym_run (remembers id) m (x :: h ++ [y]) m' ->
    about (yi_call x) = id -> made_posts (yi_log x) <> [] ->
    yi_call y = YmInsert msg -> rq_id msg = id -> ymc_max_posts cf <> 0 ->
    exists ty, times (yi_log y) = [ty] /\
      ((forall z t, z ∈ x :: h -> about (yi_call z) = id -> made_posts (yi_log z) <> [] -> t ∈ times (yi_log z) -> t + ymc_cooldown cf <= ty)%N ->
       made_posts (yi_log y) <> []).
  Proof.
    intros Hr Hrun Ax Px Cy Iy Hmax. apply run_cons in Hrun as (w & m1 & w1 & E & HP & H2).
    destruct (posting_step _ _ _ _ _ _ _ _ _ _ Hr E Ax HP Px) as (r & tx & G1 & G2 & _).
    apply run_app in H2 as (m2 & H2 & (w2 & m3 & w3 & E' & HP' & H4)%run_cons).
    pose proof (reach_one _ _ _ _ _ _ _ _ _ Hr E) as Hr1.
    assert (Hr2 : ym_reach cf ((h0 ++ [YmItem (yi_call x) (yi_resp x) (yi_log x)]) ++ h) m2) by (eapply reach_snoc; [exact Hr1|exact H2]).
    destruct (last_kept _ _ _ _ _ _ _ _ Hr1 H2 G1 Hmax) as (t' & K1 & K3).
    rewrite Cy in E'. pose proof (reach_ok _ _ _ Hr2) as [Ecf Hok]. destruct (exec_step _ _ _ _ _ _ _ E') as [_ Hst]. rewrite Ecf in Hst.
    rewrite <-Iy in K1.
    inversion Hst as [? Hg|? r2 last t Hg Hlt|? r2 last t l2 Hg Hge Ha|? Hg| | | | |]; try congruence; exists t.
    - split; [done|]. intros Hlate. exfalso. rewrite K1 in Hg. injection Hg as <- <-.
      assert (t' + ymc_cooldown cf <= t)%N; [|lia]. destruct K3 as [->|(z & Z1 & Z2 & Z3 & Z4)].
      + apply (Hlate x); [left|done|done|]. rewrite G2. left.
      + apply (Hlate z); [by right|done|done|]. rewrite Z4. left.
    - destruct (attempts_posts _ _ _ _ _ Ha) as [A1 A2]. split; [unfold times in *; cbn; by rewrite A2|]. intros _.
      change (made_posts (YTime t :: l2)) with (made_posts l2). rewrite A1. inversion Ha; congruence.
  Qed.

  (** A request is handed over to the caller exactly when it is not remembered, with its own session, ID, SURBs and data. *)
  Theorem C49_handed m w msg m' w' l a :
    ym_exec m (w, []) (YmInsert msg) = Val (m', (w', l), a) ->
    (remembers (rq_id msg) m /\ a = None) \/
    (~ remembers (rq_id msg) m /\ l = [] /\
     a = Some (ReplyContext (rq_session_index msg) (rq_id msg) (rq_surbs msg), rq_data msg)).
  Proof.
    intros E. apply exec_step in E as [_ E]. unfold remembers, keys. pose proof (lhm_get_None (ym_states m) (rq_id msg)) as Hn.
    inversion E as [? Hg|? ? ? ? Hg|? ? ? ? ? Hg|? Hg| | | | |]; subst; [left|left|left|right].
    1-3: split; [|done]; destruct (decide (rq_id msg ∈ lhm_keys (ym_states m))) as [|Hno]; [done|]; apply Hn in Hno; congruence.
    split; [by apply Hn|done].
  Qed.

  (** ** Copies and SURBs *)
  (** [uses i surbs l]: the successive attempts [l] to post, in session [i], start from [surbs], each going
      on with the SURBs left by the previous one, until one fails. *)
  Fixpoint uses (i : session_index) (surbs : list bytes) (l : list ym_event) : Prop :=
    match l with
    | [] => True
    | YPost s j _ _ lft ok :: l => j = i /\ s = surbs /\ (ok = false -> l = []) /\ uses i lft l
    | YTime _ :: l => uses i surbs l
    end.
  Definition call_surbs (c : ym_call) : list bytes :=
    match c with YmInsert msg => rq_surbs msg | YmAbandon c => rc_surbs c | YmComplete c _ => rc_surbs c end.
  Definition call_session (c : ym_call) : session_index :=
    match c with YmInsert msg => rq_session_index msg | YmAbandon c => rc_session_index c | YmComplete c _ => rc_session_index c end.
  Lemma attempts_uses i r n surbs l : attempts i r n surbs l -> uses i surbs l /\ length l <= n.
  Proof. induction 1 as [| |n surbs lft l _ [IH1 IH2]]; cbn; repeat split; try done; lia. Qed.
  (** A call makes at most [max_posts] attempts, in the session and using the SURBs of the message it is about. *)
  Theorem C50_copies m w c m' w' l a :
    ym_exec m (w, []) c = Val (m', (w', l), a) ->
    length (made_posts l) <= ymc_max_posts (ym_cfg m) /\ uses (call_session c) (call_surbs c) (made_posts l).
  Proof.
    intros E. apply exec_step in E as [_ E].
    assert (Hend : forall l t, made_posts l = l -> made_posts (l ++ [YTime t]) = l).
    { intros l0 t H. unfold made_posts in *. rewrite List.filter_app, H. cbn. by rewrite app_nil_r. }
    inversion E as [msg Hg|msg r last t Hg Ht|msg r last t l' Hg Ht Ha|msg Hg|c0 Hg|c0 Hg|c0 data r last Hg|c0 data rid t l' Hg Ha Hrid|c0 data rid t l' Hg Ha Hrid]; subst;
      try (cbn; split; [lia|done]).
    - destruct (attempts_posts _ _ _ _ _ Ha) as [H1 _]. destruct (attempts_uses _ _ _ _ _ Ha). change (made_posts (YTime t :: l')) with (made_posts l').
      rewrite H1. done.
    - destruct (attempts_posts _ _ _ _ _ Ha) as [H1 _]. destruct (attempts_uses _ _ _ _ _ Ha). by rewrite Hend.
    - destruct (attempts_posts _ _ _ _ _ Ha) as [H1 _]. destruct (attempts_uses _ _ _ _ _ Ha). by rewrite Hend.
  Qed.

  (** If posting only takes SURBs off the end of the list, the attempts of a call use disjoint parts of the
      SURBs of the message. *)
  Definition consumed (e : ym_event) : list bytes :=
    match e with YPost s _ _ _ lft _ => drop (length lft) s | YTime _ => [] end.
  Definition takes_from_end : Prop := forall w surbs i id data w' lft res,
    post w surbs i id data = Val (w', lft, res) -> lft `prefix_of` surbs.
  Lemma attempts_prefix c r n w c' w' : takes_from_end -> post_reply_n y_post n c r w = Val (c', w') ->
    exists l, w'.2 = (w.2 ++ l)%list /\ rc_surbs c = (rc_surbs c' ++ concat (reverse (map consumed l)))%list.
  Proof.
    intros Hlaw. revert c w. induction n as [|n IH]; intros c w; cbn.
    - intros [= <- <-]. exists []. cbn. by rewrite !app_nil_r.
    - unfold y_post at 1. destruct (post w.1 _ _ _ _) as [[[w1 lft] res]|] eqn:Ep; [|done]. cbn. apply Hlaw in Ep as [k Hk]. destruct res as [u|e].
      + intros (l & H1 & H2)%IH. cbn in H1, H2. eexists. rewrite H1, <-app_assoc. split; [done|]. cbn [map app].
        rewrite reverse_cons, concat_app, app_assoc, <-H2. cbn. rewrite Hk, drop_app, app_nil_r. done.
      + intros [= <- <-]. cbn. eexists. split; [done|]. cbn. rewrite Hk, drop_app, app_nil_r. done.
  Qed.
  Theorem C50_surbs m w c m' w' l a : takes_from_end ->
    ym_exec m (w, []) c = Val (m', (w', l), a) ->
    exists rest, call_surbs c = (rest ++ concat (reverse (map consumed l)))%list.
  Proof.
    intros Hlaw. destruct c as [msg|c|c data]; cbn [ym_exec call_surbs].
    - unfold ym_insert. destruct (lhm_get (ym_states m) (rq_id msg)) as [[|r last]|] eqn:E.
      + intros [= <- <- <- <-]. eexists. cbn. by rewrite app_nil_r.
      + cbn [y_now fst snd app]. destruct (_ <? _)%N.
        * intros [= <- <- <- <-]. eexists. cbn. by rewrite app_nil_r.
        * destruct (post_reply_n _ _ _ _ _) as [[c' w1]|] eqn:Ep; [|done]. cbn. intros [= <- -> <-].
          apply attempts_prefix in Ep as (l1 & H1 & H2); [|done]. cbn in H1, H2. subst l. exists (rc_surbs c'). cbn [map]. rewrite H2.
          rewrite reverse_cons, concat_app. cbn. by rewrite app_nil_r.
      + destruct (ym_maybe_evict _) as [m1|] eqn:Ev; [|done]. cbn. intros [= <- <- <- <-]. eexists. cbn. by rewrite app_nil_r.
    - intros [= <- <- <- <-]. eexists. cbn. by rewrite app_nil_r.
    - unfold ym_complete.
      assert (Hc : forall m0 m1, ('(_, w0) ← post_reply_n y_post (ymc_max_posts (ym_cfg m0)) c (reply_new y_fresh data (w, [])).1 (reply_new y_fresh data (w, [])).2;
         let '(t, w0) := y_now w0 in
         m2 ← ym_maybe_evict (ym_set m1 (lhm_set (ym_states m1) (rc_message_id c) (YComplete (reply_new y_fresh data (w, [])).1 t)));
         Val (m2, w0)) = Val (m', (w', l)) -> exists rest, rc_surbs c = (rest ++ concat (reverse (map consumed l)))%list).
      { intros m0 m1. destruct (post_reply_n _ _ _ _ _) as [[c' w1]|] eqn:Ep; [|done]. cbn.
        destruct (ym_maybe_evict _) as [m2|] eqn:Ev; [|done]. cbn. intros [= <- <- <-].
        apply attempts_prefix in Ep as (l1 & H1 & H2); [|done]. cbn in H1. rewrite H1. exists (rc_surbs c'). rewrite H2.
        rewrite map_app, reverse_app, concat_app. cbn. done. }
      destruct (lhm_get (ym_states m) (rc_message_id c)) as [[|r last]|] eqn:E.
      + intros H. apply (Hc m m). revert H. cbn. destruct (post_reply_n _ _ _ _ _) as [[c' w1]|]; [|done]. cbn. destruct (ym_maybe_evict _); [|done]. cbn. by intros [= -> -> -> _].
      + intros [= <- <- <- <-]. eexists. cbn. by rewrite app_nil_r.
      + intros H. apply (Hc m (ym_set m (lhm_push_back (ym_states m) (rc_message_id c) YPending))). revert H. cbn. destruct (post_reply_n _ _ _ _ _) as [[c' w1]|]; [|done]. cbn. destruct (ym_maybe_evict _); [|done]. cbn. by intros [= -> -> -> _].
  Qed.
End replies.
