(** C80: a request manager is done with all of its requests after a number of turns known in advance. *)
From stdpp Require Import relations.
From Verif Require Export PWake.
From Verif Require Import PRequests PRequestsEx.

(** ** Specification *)

(** No session the phase allows messages in has packets left to dispatch, and there is a session new requests
    go to: at session index 0 before requests to that session are allowed there is none. *)
Definition idle (m : mixnet) : Prop :=
  (forall rel, phase_allows (st_phase (mx_status m)) rel -> ~ busy m rel) /\
  (st_current_index (mx_status m) <> 0%N \/ st_phase (mx_status m) <> PCoverToCurrent).

Section spec.
  Context (pr : prims).
  Notation rm_call_of rm w d c := (rm_exec (w_post_request pr) w_now w_fresh_id rqt_handling_delay rm (w, d) c).

  (** Any calls on the node and the manager other than inserting requests, in which the requests [R] are removed. *)
  Inductive meanwhile : system -> list user_request -> system -> Prop :=
  | MwEnd s : meanwhile s [] s
  | MwNode m rm o c m' a R s :
      (forall st, c <> CallSetStatus st) -> exec pr m c = Val (m', a) ->
      meanwhile (System m' rm (o || told a)) R s -> meanwhile (System m rm o) R s
  | MwStatus m rm o st w w' d d' rm' a R s :
      w_mixnet w = set_session_status m st -> rm_call_of rm w d (RmUpdate st) = Val (rm', (w', d'), a) ->
      meanwhile (System (w_mixnet w') rm' o) R s -> meanwhile (System m rm o) R s
  | MwManager rm o w c w' d d' rm' a R s :
      (forall st, c <> RmUpdate st) -> (forall r, c <> RmInsert r) -> rm_call_of rm w d c = Val (rm', (w', d'), a) ->
      meanwhile (System (w_mixnet w') rm' (match c with RmProcess => false | _ => o end)) R s ->
      meanwhile (System (w_mixnet w) rm o) (removed [(c, a)] ++ R) s.

  (** [n] turns: in each the manager is called when the node is idle, and later asked for the next retry. *)
  Inductive turns : nat -> system -> list user_request -> system -> Prop :=
  | TuEnd s R s' : meanwhile s R s' -> turns 0 s R s'
  | TuTurn n s R1 w rm o d w1 d1 rm1 a1 R2 w2 rm2 o2 d2 w3 d3 rm3 a3 R3 s' :
      meanwhile s R1 (System (w_mixnet w) rm o) -> idle (w_mixnet w) ->
      rm_call_of rm w d RmProcess = Val (rm1, (w1, d1), a1) ->
      meanwhile (System (w_mixnet w1) rm1 false) R2 (System (w_mixnet w2) rm2 o2) ->
      rm_call_of rm2 w2 d2 RmPop = Val (rm3, (w3, d3), a3) ->
      turns n (System (w_mixnet w3) rm3 o2) R3 s' -> turns (S n) s (R1 ++ R2 ++ R3) s'.
End spec.

(** ** What the requests have left *)
Section left.
  Context {Req : Type} (valid : session_index -> mixnode_index -> Prop) (cf : rm_config).
  Notation manager := (request_manager Req).
  Notation state := (request_state Req).
  Notation rstep := (rstep (Req := Req) valid).
  Notation rsteps := (rsteps (Req := Req) valid).
  Implicit Types (m : manager) (st : state).
  Local Open Scope N_scope.
  Definition any (_ : Req) : bool := true.
  Definition vw st : N := left_post cf any st + attempts_left cf st + 1.
  Definition vr st : N := left_retry cf any st + attempts_left cf st + 1.
  Definition mu m : N := wsum vw (waiting m) + wsum vr (rqm_retry_queue m).
  Definition K : N := rmc_num_destinations cf * rmc_num_attempts_per_destination cf * (rmc_num_posts_per_attempt cf + 1).
  Definition nospace (e : rm_event Req) : Prop := match e with EvNoSpace _ => True | _ => False end.

  Lemma reborn_value m d st o d' : rqm_config m = cf -> reborn m d st o d' ->
    match o with
    | Some (_, st') => vw st' + 1 = vr st
    | None => vr st = 1
    end.
  Proof.
    intros Hc Hr. pose proof (reborn_left cf any _ _ _ _ _ Hc Hr) as H. unfold vw, vr. destruct o as [[rel st']|]; lia.
  Qed.
  Lemma vw_again st (n : N) i dest t : 0 < rst_posts_remaining st -> vw (with_post st (rst_posts_remaining st - 1) i dest t) + 1 = vw st.
  Proof. intros. unfold vw, left_post, attempts_left, any. cbn. lia. Qed.
  Lemma vr_post st i dest t : rst_posts_remaining st = 0 -> vr (with_post st 0 i dest t) + 1 = vw st.
  Proof. intros E. unfold vw, vr, left_post, left_retry, attempts_left, any. cbn. rewrite E. lia. Qed.

  Lemma vw_pos st : 0 < vw st.
  Proof. unfold vw. lia. Qed.
  Lemma vr_pos st : 0 < vr st.
  Proof. unfold vr. lia. Qed.

  Definition progress m m' (l : label) : Prop :=
    mu m' <= mu m /\
    exists evs, rqm_log m' = (rqm_log m ++ evs)%list /\
      (l = LPop \/ Exists (fun e => ~ nospace e) evs -> mu m' < mu m) /\
      (waiting m = [] -> mu m' < mu m \/ waiting m' = []) /\
      map rst_request (managed m) ≡ₚ (map rst_request (managed m') ++ lab_rem [l] ++ post_errs evs ++ limits evs)%list.
  Lemma mu_step m d l m' d' :
    rstep (m, d) l (m', d') -> (forall r, l <> LInsert r) -> rqm_config m = cf -> rqm_config m' = cf /\ progress m m' l.
  Proof.
    intros Hst Hni Hcf.
    inversion Hst as [? ? rel rod i st rest dest t rtt Ht Hq Hs [Hd Hvd] Hn|? ? rel rod i st rest dest t rtt Ht Hq Hs [Hd Hvd] Hn|
      |? ? rel st rest e Hq|? ? r o ? Hsp Hrb|? ? st rest o ? Hq Hn Hrb|? ? rel l1 st l2 Hq|? ? l1 st l2 b Hq Hb|? ? status ids Hne q n Hl|];
      subst l m' d'; subst; (split; [by rewrite ?settle_config|]); unfold progress, mu.
    - rewrite (wsum_perm _ _ _ (waiting_push _ _ _)), wsum_cons, waiting_emit, retry_push, retry_emit, retry_with,
        (wsum_perm _ _ _ (waiting_with m rel rest)), wsum_app.
      rewrite (wsum_perm _ _ _ (waiting_get m rel)), Hq, wsum_app, wsum_cons. pose proof (vw_again st 0 i dest (N.max (rst_retry_deadline st) (t + rtt)) Hn).
      split; [lia|]. eexists. split; [by rewrite log_push|]. split; [lia|]. split; [lia|].
      rewrite managed_push, managed_emit, managed_with, (managed_get m rel), Hq. cbn. perm.
    - rewrite (wsum_perm _ _ _ (retry_insert_queue _ _)), wsum_cons, waiting_rinsert, waiting_emit,
        retry_emit, retry_with, (wsum_perm _ _ _ (waiting_with m rel rest)), wsum_app.
      rewrite (wsum_perm _ _ _ (waiting_get m rel)), Hq, wsum_app, wsum_cons. pose proof (vr_post st i dest (N.max (rst_retry_deadline st) (t + rtt)) Hn).
      split; [lia|]. eexists. split; [by rewrite log_rinsert|]. split; [lia|]. split; [lia|].
      rewrite managed_insert, managed_emit, managed_with, (managed_get m rel), Hq. cbn. perm.
    - rewrite waiting_emit, retry_emit. split; [lia|]. eexists. split; [done|]. split.
      { intros [?|H]; [done|]. inversion H as [? ? Hx|? ? Hx]; subst; [by destruct Hx|inversion Hx]. }
      split; [by right|]. rewrite managed_emit. cbn. perm.
    - rewrite waiting_emit, retry_emit, retry_with, (wsum_perm _ _ _ (waiting_with m rel rest)), wsum_app.
      rewrite (wsum_perm _ _ _ (waiting_get m rel)), Hq, wsum_app, wsum_cons. pose proof (vw_pos st).
      split; [lia|]. eexists. split; [done|]. split; [lia|]. split; [lia|].
      rewrite managed_emit, managed_with, (managed_get m rel), Hq. cbn. perm.
    - by destruct (Hni r).
    - pose proof (reborn_value (rqm_set_retry m rest true) _ _ _ _ Hcf Hrb) as Hl. rewrite Hq, wsum_cons. destruct o as [[rel st']|]; unfold settle.
      + rewrite (wsum_perm _ _ _ (waiting_push _ _ _)), wsum_cons, retry_push, retry_set, waiting_set_retry. cbn [rqm_set_retry rqm_config] in Hl.
        split; [lia|]. exists []. split; [by rewrite log_push, log_set_retry, app_nil_r|]. split; [lia|]. split; [lia|].
        rewrite managed_push, managed_retry, managed_retry_same, Hq. cbn. rewrite (reborn_request _ _ _ _ _ _ Hrb). perm.
      + rewrite waiting_emit, retry_emit, retry_set, waiting_set_retry. split; [lia|]. eexists. split; [done|]. split; [lia|]. split; [lia|].
        rewrite managed_emit, managed_retry, managed_retry_same, Hq. cbn. perm.
    - rewrite retry_with, (wsum_perm _ _ _ (waiting_with m rel (l1 ++ l2))), !wsum_app.
      rewrite (wsum_perm _ _ _ (waiting_get m rel)), Hq, !wsum_app, wsum_cons. pose proof (vw_pos st).
      split; [lia|]. exists []. split; [by rewrite log_with, app_nil_r|]. split; [lia|]. split; [lia|].
      rewrite managed_with, (managed_get m rel), Hq. cbn. perm.
    - rewrite retry_set, waiting_set_retry, Hq, !wsum_app, wsum_cons. pose proof (vr_pos st).
      split; [lia|]. exists []. split; [by rewrite log_set_retry, app_nil_r|]. split; [lia|]. split; [lia|].
      rewrite managed_retry, managed_retry_same, Hq. cbn. perm.
    - destruct (waiting_update m status ids Hl) as (kept & moved & E1 & E2 & E3).
      destruct (managed_update m status ids Hl) as (kept' & moved' & F1 & F2 & F3).
      cbv zeta in E3, F3. fold q n in E3, F3.
      set (m' := rqm_set_status _ _) in *.
      assert (Ew : wsum vw (waiting m') = wsum vw (waiting m)).
      { rewrite (wsum_perm _ _ _ E3), (wsum_perm _ _ _ E1), !wsum_app. f_equal. by apply wsum_fresh. }
      rewrite Ew. cbn [rqm_retry_queue m' rqm_set_status rqm_set_queues].
      split; [lia|]. exists []. split; [by rewrite app_nil_r|]. split; [by intros [?|Hx]; [|inversion Hx]|]. split.
      { intros E. right. rewrite E in E1. apply Permutation_nil, app_eq_nil in E1 as [-> ->].
        cbn [app zip_with] in E3. symmetry in E3. by apply Permutation_nil in E3. }
      rewrite F3, F1, !map_app. cbn. rewrite fresh_requests by done. perm.
    - rewrite waiting_set_retry, retry_set. split; [lia|]. exists []. split; [cbn; by rewrite app_nil_r|]. split; [by intros [?|Hx]; [|inversion Hx]|]. split; [by right|].
      cbn. unfold managed. cbn. perm.
  Qed.

  (** Over any number of steps without insertions. *)
  Lemma mu_steps (x : manager * list bytes) ls y :
    rsteps x ls y -> lab_ins ls = [] -> rqm_config x.1 = cf ->
    rqm_config y.1 = cf /\ mu y.1 <= mu x.1 /\
    exists evs, rqm_log y.1 = (rqm_log x.1 ++ evs)%list /\
      ((0 < lab_pops ls)%nat \/ Exists (fun e => ~ nospace e) evs -> mu y.1 < mu x.1) /\
      (waiting x.1 = [] -> mu y.1 < mu x.1 \/ waiting y.1 = []) /\
      map rst_request (managed x.1) ≡ₚ (map rst_request (managed y.1) ++ lab_rem ls ++ post_errs evs ++ limits evs)%list.
  Proof.
    induction 1 as [x|x y z l ls Hs _ IH]; intros Hi Hc.
    { split; [done|]. split; [done|]. exists []. split; [by rewrite app_nil_r|]. split; [intros [?|Hx]; [cbn in *; lia|inversion Hx]|].
      split; [by right|]. cbn. by rewrite app_nil_r. }
    destruct x as [m1 d1], y as [m2 d2]. cbn [fst] in *.
    assert (Hl : forall r, l <> LInsert r) by (intros r ->; done).
    assert (Hi' : lab_ins ls = []).
    { unfold lab_ins in *. destruct l; cbn in Hi; try done. }
    destruct (mu_step _ _ _ _ _ Hs Hl Hc) as [Hc' (Hm & evs & E1 & P1 & W1 & C1)].
    destruct (IH Hi' Hc') as (Hc2 & Hm2 & evs2 & E2 & P2 & W2 & C2).
    split; [done|]. split; [lia|]. exists (evs ++ evs2)%list. split; [by rewrite E2, E1, app_assoc|]. split; [|split].
    - intros [Hp|Hx].
      + assert (Hp' : l = LPop \/ (0 < lab_pops ls)%nat). { unfold lab_pops in *. destruct l; cbn in Hp; auto. }
        destruct Hp' as [->|Hp']; [specialize (P1 (or_introl eq_refl)); lia|].
        specialize (P2 (or_introl Hp')). lia.
      + apply Exists_app in Hx as [Hx|Hx]; [specialize (P1 (or_intror Hx))|specialize (P2 (or_intror Hx))]; lia.
    - intros Hw. destruct (W1 Hw) as [?|Hw1]; [left; lia|]. destruct (W2 Hw1) as [?|Hw2]; [left; lia|by right].
    - rewrite C1, C2. change (lab_rem (l :: ls)) with (lab_rem ([l] ++ ls)). unfold lab_rem, post_errs, limits. rewrite !omap_app. perm.
  Qed.

  (** No request has more left than a new one. *)
  Definition within m : Prop := Forall (fun st => vw st <= K) (waiting m) /\ Forall (fun st => vr st <= K) (rqm_retry_queue m).
  Lemma within_step m d l m' d' : rstep (m, d) l (m', d') -> rqm_config m = cf -> within m -> rqm_config m' = cf /\ within m'.
  Proof.
    intros Hst Hcf [Hw Hr].
    inversion Hst as [? ? rel rod i st rest dest t rtt Ht Hq Hs [Hd Hvd] Hn|? ? rel rod i st rest dest t rtt Ht Hq Hs [Hd Hvd] Hn|
      |? ? rel st rest e Hq|? ? r o ? Hsp Hrb|? ? st rest o ? Hq Hn Hrb|? ? rel l1 st l2 Hq|? ? l1 st l2 b Hq Hb|? ? status ids Hne q n Hl|];
      subst l m' d'; subst; (split; [by rewrite ?settle_config|]); unfold within.
    - rewrite waiting_push, waiting_emit, retry_push, retry_emit, retry_with, waiting_with. split; [|done].
      rewrite (waiting_get m rel), Hq in Hw. inversion Hw as [|? ? H1 H2]; subst. constructor; [|done].
      pose proof (vw_again st 0 i dest (N.max (rst_retry_deadline st) (t + rtt)) Hn). lia.
    - rewrite retry_insert_queue, waiting_rinsert, waiting_emit, retry_emit, retry_with, waiting_with.
      rewrite (waiting_get m rel), Hq in Hw. inversion Hw as [|? ? H1 H2]; subst. split; [done|]. constructor; [|done].
      pose proof (vr_post st i dest (N.max (rst_retry_deadline st) (t + rtt)) Hn). lia.
    - done.
    - rewrite waiting_emit, retry_emit, retry_with, waiting_with. rewrite (waiting_get m rel), Hq in Hw. by inversion Hw.
    - pose proof (reborn_value m _ _ _ _ Hcf Hrb) as Hl. destruct o as [[rel st']|]; unfold settle; [|done].
      rewrite waiting_push, retry_push. split; [|done]. constructor; [|done].
      assert (E : vr (initial m r) = K + 1).
      { unfold vr, left_retry, attempts_left, any, K. cbn. rewrite Hcf. lia. }
      lia.
    - pose proof (reborn_value (rqm_set_retry m rest true) _ _ _ _ Hcf Hrb) as Hl. rewrite Hq in Hr. inversion Hr as [|? ? H1 H2]; subst.
      destruct o as [[rel st']|]; unfold settle; [|by rewrite waiting_emit, retry_emit].
      rewrite waiting_push, retry_push. split; [|done]. constructor; [lia|done].
    - rewrite waiting_with, retry_with. split; [|done]. rewrite (waiting_get m rel), Hq in Hw. rewrite !Forall_app in *. destruct_and?.
      repeat split; try done. by eapply Forall_inv_tail.
    - rewrite waiting_set_retry, retry_set. split; [done|]. rewrite Hq in Hr. rewrite !Forall_app in *. destruct_and?.
      split; [done|]. by eapply Forall_inv_tail.
    - destruct (waiting_update m status ids Hl) as (kept & moved & E1 & E2 & E3). cbv zeta in E3. fold q n in E3. split; [|done].
      rewrite E3. rewrite E1 in Hw. apply Forall_app in Hw as [H1 H2]. apply Forall_app. split; [done|]. clear -H2 E2.
      revert ids E2. induction moved as [|st l IH]; intros [|id ids] [=]; [constructor|].
      apply Forall_cons in H2 as [H2 H3]. constructor; [exact H2|]. by apply IH.
    - done.
  Qed.
  Lemma within_steps (x : manager * list bytes) ls y :
    rsteps x ls y -> rqm_config x.1 = cf -> within x.1 -> rqm_config y.1 = cf /\ within y.1.
  Proof.
    induction 1 as [x|x y z l ls Hs _ IH]; intros Hc Hw; [done|]. destruct x as [m1 d1], y as [m2 d2].
    destruct (within_step _ _ _ _ _ Hs Hc Hw). by apply IH.
  Qed.
  Lemma within_mu m : within m -> mu m <= K * N.of_nat (length (managed m)).
  Proof.
    intros [Hw Hr]. unfold mu, managed.
    assert (Hg : forall (g : state -> N) l, Forall (fun st => g st <= K) l -> wsum g l <= K * N.of_nat (length l)).
    { intros g l. induction 1 as [|st l H _ IH]; [cbn; lia|]. rewrite wsum_cons. cbn [length]. lia. }
    apply Hg in Hw, Hr. unfold waiting in *. rewrite !app_length in *. lia.
  Qed.
  Lemma mu_pos m : managed m <> [] -> 0 < mu m.
  Proof.
    intros H. unfold mu. destruct (rqm_retry_queue m) as [|st l] eqn:E.
    - destruct (waiting m) as [|st l] eqn:Ew; [|rewrite wsum_cons; pose proof (vw_pos st); lia].
      destruct H. unfold managed, waiting in *. rewrite E. apply app_eq_nil in Ew as [-> Ew]. by apply app_eq_nil in Ew as [-> ->].
    - rewrite wsum_cons. pose proof (vr_pos st). lia.
  Qed.
End left.

(** ** The system *)
Section system.
  Context (pr : prims).
  Notation rm_call_of rm w d c := (rm_exec (w_post_request pr) w_now w_fresh_id rqt_handling_delay rm (w, d) c).
  Notation valid := (fun _ _ => True : Prop).

  Lemma call_steps rm w d c rm' w' d' a : rm_call_of rm w d c = Val (rm', (w', d'), a) ->
    exists ls, rsteps valid (rm, d) ls (rm', d') /\ lab_ins ls = inserted [(c, a)] /\ lab_rem ls = removed [(c, a)] /\ lab_pops ls = pops [(c, a)].
  Proof.
    intros E. destruct (exec_steps _ _ _ _ _ (world_post_law pr) _ _ _ _ _ _ _ E) as (ls & H1 & H2 & H3 & H4 & _). by exists ls.
  Qed.

  Lemma meanwhile_rtc s R s' : meanwhile pr s R s' -> rtc (sys_step pr) s s'.
  Proof.
    induction 1; [constructor| | |]; (eapply rtc_l; [|eassumption]).
    - by eapply SyNode.
    - by eapply SyStatus.
    - by eapply SyManager.
  Qed.
  Lemma sys_reach_rtc cf rcf s s' : sys_reach pr cf rcf s -> rtc (sys_step pr) s s' -> sys_reach pr cf rcf s'.
  Proof. intros (s0 & H0 & H1) H. exists s0. split; [done|]. by etrans. Qed.

  Definition sound (rcf : rm_config) (s : system) : Prop :=
    rqm_config (sy_rm s) = rcf /\ within rcf (sy_rm s) /\ queues_ok (sy_rm s).
  Lemma sound_step rcf s s' : sys_step pr s s' -> sound rcf s -> sound rcf s'.
  Proof.
    assert (H : forall rm w d c rm' w' d' a, rm_call_of rm w d c = Val (rm', (w', d'), a) ->
      rqm_config rm = rcf /\ within rcf rm /\ queues_ok rm -> rqm_config rm' = rcf /\ within rcf rm' /\ queues_ok rm').
    { intros rm w d c rm' w' d' a E (H1 & H2 & H3). apply call_steps in E as (ls & E & _).
      destruct (within_steps _ rcf _ _ _ E H1 H2) as [G1 G2]. split; [exact G1|]. split; [exact G2|].
      exact (queues_steps _ _ _ _ E H3). }
    unfold sound. destruct 1; cbn [sy_rm]; [done|by eapply H..].
  Qed.
  Lemma sound_reach cf rcf s : sys_reach pr cf rcf s -> sound rcf s.
  Proof.
    intros (s0 & (_ & (w & Hw) & _) & Hr).
    assert (H0 : sound rcf s0).
    { destruct s0 as [m rm o]. cbn in Hw. subst rm. split; [done|]. split; [by split; constructor|].
      constructor; cbn; try done; by constructor. }
    clear w Hw. induction Hr as [s|s s1 s2 H _ IH]; [done|]. apply IH. by eapply sound_step.
  Qed.

  (** What happens to the requests of the manager. *)
  Definition went (rcf : rm_config) (rm : request_manager user_request) (R : list user_request) (rm' : request_manager user_request) : Prop :=
    (mu rcf rm' <= mu rcf rm)%N /\
    exists evs, rqm_log rm' = rqm_log rm ++ evs /\
      (waiting rm = [] -> (mu rcf rm' < mu rcf rm)%N \/ waiting rm' = []) /\
      map rst_request (managed rm) ≡ₚ map rst_request (managed rm') ++ R ++ post_errs evs ++ limits evs.
  Lemma went_refl rcf rm : went rcf rm [] rm.
  Proof. split; [done|]. exists []. split; [by rewrite app_nil_r|]. split; [by right|]. cbn. by rewrite app_nil_r. Qed.
  Lemma went_trans rcf rm1 R1 rm2 R2 rm3 : went rcf rm1 R1 rm2 -> went rcf rm2 R2 rm3 -> went rcf rm1 (R1 ++ R2) rm3.
  Proof.
    intros (H1 & e1 & H2 & H3 & H4) (G1 & e2 & G2 & G3 & G4). split; [lia|]. exists (e1 ++ e2). split; [by rewrite G2, H2, app_assoc|]. split.
    - intros Hw. destruct (H3 Hw) as [?|Hw1]; [left; lia|]. destruct (G3 Hw1) as [?|Hw2]; [left; lia|by right].
    - rewrite H4, G4. unfold post_errs, limits. rewrite !omap_app. perm.
  Qed.
  Lemma call_went rcf rm w d c rm' w' d' a : (forall r, c <> RmInsert r) -> rqm_config rm = rcf ->
    rm_call_of rm w d c = Val (rm', (w', d'), a) ->
    went rcf rm (removed [(c, a)]) rm' /\
    (a = RmPopped true \/ (exists evs, rqm_log rm' = rqm_log rm ++ evs /\ Exists (fun e => ~ nospace e) evs) -> (mu rcf rm' < mu rcf rm)%N).
  Proof.
    intros Hc Hcf E. apply call_steps in E as (ls & E & E1 & E2 & E3).
    assert (Hi : lab_ins ls = []). { rewrite E1. destruct c; try done. by destruct (Hc r). }
    destruct (mu_steps _ rcf _ _ _ E Hi Hcf) as (_ & Hm & evs & L & P & W & C). cbn [fst] in *. rewrite E2 in C. split.
    - split; [done|]. by exists evs.
    - intros [->|(evs' & L' & Hx)]; apply P; [left; rewrite E3; cbn; lia|right]. rewrite L in L'. by apply app_inv_head in L' as ->.
  Qed.
  Lemma meanwhile_went rcf s R s' : meanwhile pr s R s' -> sound rcf s -> sound rcf s' /\ went rcf (sy_rm s) R (sy_rm s').
  Proof.
    induction 1 as [s|m rm o c m' a R s Hc He _ IH|m rm o st w w' d d' rm' a R s Hw He _ IH|rm o w c w' d d' rm' a R s Hc Hi He _ IH]; intros Hs.
    - split; [done|apply went_refl].
    - apply IH. exact Hs.
    - pose proof Hs as (Hcf & _). destruct IH as [H1 H2].
      { eapply sound_step; [|exact Hs]. by eapply SyStatus. }
      split; [done|]. assert (Ha : removed [(RmUpdate st, a)] = []).
      { cbn [rm_exec] in He. apply out_bind_Val in He as ([? ?] & _ & He). by injection He as _ _ <-. }
      apply (call_went rcf) in He as [He _]; [|done|done]. rewrite Ha in He. by apply (went_trans _ _ _ _ _ _ He H2).
    - pose proof Hs as (Hcf & _). destruct IH as [H1 H2].
      { eapply sound_step; [|exact Hs]. by eapply SyManager. }
      split; [done|]. apply (call_went rcf) in He as [He _]; [|done|done]. cbn [sy_rm] in *. by eapply went_trans.
  Qed.

  (** One turn. *)
  Lemma turn_progress cf rcf w rm o d w1 d1 rm1 a1 R2 w2 rm2 o2 d2 w3 d3 rm3 a3 :
    sys_reach pr cf rcf (System (w_mixnet w) rm o) -> idle (w_mixnet w) ->
    rm_call_of rm w d RmProcess = Val (rm1, (w1, d1), a1) ->
    meanwhile pr (System (w_mixnet w1) rm1 false) R2 (System (w_mixnet w2) rm2 o2) ->
    rm_call_of rm2 w2 d2 RmPop = Val (rm3, (w3, d3), a3) ->
    went rcf rm R2 rm3 /\ (managed rm <> [] -> (mu rcf rm3 < mu rcf rm)%N).
  Proof.
    intros Hr [Hidle Hses] E1 Hmw E3. pose proof (sound_reach _ _ _ Hr) as Hs.
    assert (Hs1 : sound rcf (System (w_mixnet w1) rm1 false)).
    { eapply sound_step; [|exact Hs]. by eapply (SyManager _ _ _ _ RmProcess). }
    destruct (meanwhile_went rcf _ _ _ Hmw Hs1) as [Hs2 W2]. cbn [sy_rm] in *.
    pose proof (proj1 Hs) as Hcf. cbn [sy_rm] in Hcf. pose proof (proj1 Hs2) as Hcf2. cbn [sy_rm] in Hcf2.
    destruct (call_went rcf rm w d RmProcess rm1 w1 d1 a1) as [W1 P1]; [done..|].
    destruct (call_went rcf rm2 w2 d2 RmPop rm3 w3 d3 a3) as [W3 P3]; [done..|].
    assert (Ha1 : removed [(RmProcess, a1)] = []).
    { cbn [rm_exec] in E1. apply out_bind_Val in E1 as ([? ?] & _ & E1). by injection E1 as _ _ <-. }
    assert (Ha3 : removed [(RmPop, a3)] = [] /\ (rqm_retry_queue rm2 <> [] -> a3 = RmPopped true)).
    { cbn [rm_exec] in E3. apply out_bind_Val in E3 as ([[? ?] b] & E & E3). injection E3 as _ _ <-. split; [done|].
      unfold pop_next_retry in E. destruct (rqm_retry_queue rm2); [done|]. apply out_bind_Val in E as ([? ?] & _ & E).
      by injection E as _ _ <-. }
    destruct Ha3 as [Ha3 Hpop]. rewrite Ha1 in W1. rewrite Ha3 in W3.
    assert (W : went rcf rm (([] ++ R2) ++ []) rm3) by (eapply went_trans; [eapply went_trans|]; done).
    cbn [app] in W. rewrite app_nil_r in W. split; [exact W|]. intros Hne.
    destruct W1 as (M1 & e1 & _ & W1 & _). destruct W2 as (M2 & e2 & _ & W2 & _). destruct W3 as (M3 & _).
    (* if a request waits for a session, one is posted *)
    destruct (decide (waiting rm = [])) as [Hw|Hw].
    - destruct (W1 Hw) as [?|Hw1]; [lia|]. destruct (W2 Hw1) as [?|Hw2]; [lia|].
      destruct (decide (rqm_retry_queue rm2 = [])) as [Hq|Hq]; [|specialize (P3 (or_introl (Hpop Hq))); lia].
      assert (mu rcf rm2 = 0%N) by (unfold mu; by rewrite Hw2, Hq). pose proof (mu_pos rcf rm Hne). lia.
    - assert (Hwait : exists rel i, waits rm rel /\ phase_allows (st_phase (mx_status (w_mixnet w))) rel /\ index_of (w_mixnet w) rel i).
      { destruct (reach_alert _ _ _ _ Hr) as [Hst _]. cbn [sy_node sy_rm] in Hst. destruct Hs as (_ & _ & [Q1 Q2 Q3 Q4 Q5 Q6]).
        cbn [sy_rm] in *. unfold waits, index_of. rewrite Hst in *.
        destruct (decide (pq_current (rqm_post_queues rm) = [])) as [Hc|Hc].
        2:{ exists RCurrent, (st_current_index (rqm_status rm)). split; [by left|]. split; [|done].
            destruct (st_phase (rqm_status rm)); try done. by destruct Hc; apply Q4. }
        destruct (pq_prev (rqm_post_queues rm)) as [|st l] eqn:Ep.
        2:{ inversion Q3 as [|? ? [(i & _ & Hi) _] _]; subst. exists RPrev, i. split; [by left|]. split; [|done].
            destruct (st_phase (rqm_status rm)) eqn:Eph; try done; (discriminate Q5; by auto). }
        assert (Hd : pq_default (rqm_post_queues rm) <> []).
        { intros Hd. apply Hw. unfold waiting. by rewrite Hc, Ep, Hd. }
        destruct (st_phase (rqm_status rm)) eqn:Eph.
        1:{ destruct Hses as [Hx|Hx]; [|by destruct Hx]. exists RPrev, (st_current_index (rqm_status rm) - 1)%N.
            split; [by right|]. split; [done|]. lia. }
        all: exists RCurrent, (st_current_index (rqm_status rm)); split; [by right|done]. }
      destruct Hwait as (rel & i & Hwt & Hall & Hix).
      destruct (C55_served pr cf rcf (System (w_mixnet w) rm o) w d rm1 w1 d1 a1 rel i Hr eq_refl E1 Hwt (Hidle _ Hall) Hix)
        as (st & l & _ & Hlog & Hev).
      assert (mu rcf rm1 < mu rcf rm)%N; [|lia]. apply P1. right. exists l. split; [exact Hlog|]. apply Exists_exists.
      destruct Hev as [(dest & t & rtt & H)|(e & _ & H)]; eexists; (split; [exact H|by intros []]).
  Qed.

  (** After as many turns as posts and attempts are left for its requests the manager is done with them: each
      was removed, or found impossible to post, or has reached its retry limit. *)
  Theorem C80_concluded cf rcf s n R s' :
    sys_reach pr cf rcf s -> turns pr n s R s' ->
    (rmc_num_destinations rcf * rmc_num_attempts_per_destination rcf * (rmc_num_posts_per_attempt rcf + 1) *
       N.of_nat (length (managed (sy_rm s))) <= N.of_nat n)%N ->
    managed (sy_rm s') = [] /\
    exists l, rqm_log (sy_rm s') = rqm_log (sy_rm s) ++ l /\
      map rst_request (managed (sy_rm s)) ≡ₚ R ++ post_errs l ++ limits l.
  Proof.
    intros Hr Ht Hn.
    assert (Hgen : went rcf (sy_rm s) R (sy_rm s') /\ (managed (sy_rm s') = [] \/ (mu rcf (sy_rm s') + N.of_nat n <= mu rcf (sy_rm s))%N)).
    { clear Hn. induction Ht as [s R s' Hm|n s R1 w rm o d w1 d1 rm1 a1 R2 w2 rm2 o2 d2 w3 d3 rm3 a3 R3 s' Hm Hi E1 Hm2 E3 _ IH].
      - destruct (meanwhile_went rcf _ _ _ Hm (sound_reach _ _ _ Hr)) as [_ Hw]. split; [done|]. right. destruct Hw as [Hw _]. lia.
      - destruct (meanwhile_went rcf _ _ _ Hm (sound_reach _ _ _ Hr)) as [_ Hw1].
        assert (Hr1 : sys_reach pr cf rcf (System (w_mixnet w) rm o)) by (eapply sys_reach_rtc; [done|by eapply meanwhile_rtc]).
        destruct (turn_progress _ _ _ _ _ _ _ _ _ _ _ _ _ _ _ _ _ _ _ Hr1 Hi E1 Hm2 E3) as [Hw2 Hp].
        destruct IH as [Hw3 IH].
        { eapply sys_reach_rtc; [exact Hr1|]. eapply rtc_l; [by eapply (SyManager _ _ _ _ RmProcess)|].
          etrans; [by eapply meanwhile_rtc|]. eapply rtc_once. by eapply (SyManager _ _ _ _ RmPop). }
        cbn [sy_rm] in *. split; [by eapply went_trans; [|eapply went_trans]|].
        destruct IH as [IH|IH]; [by left|]. destruct (decide (managed rm = [])) as [E|E].
        + left. destruct (went_trans _ _ _ _ _ _ Hw2 Hw3) as (_ & evs & _ & _ & C). rewrite E in C. cbn in C.
          apply Permutation_nil, app_eq_nil in C as [C _]. by apply map_eq_nil in C.
        + right. specialize (Hp E). destruct Hw1 as [Hw1 _]. lia. }
    destruct Hgen as [(Hm & evs & L & _ & C) Hd].
    assert (Hz : managed (sy_rm s') = []).
    { destruct Hd as [Hd|Hd]; [done|]. destruct (sound_reach _ _ _ Hr) as (_ & Hw & _). apply within_mu in Hw. unfold K in Hw.
      destruct (managed (sy_rm s')) eqn:E; [done|]. assert (managed (sy_rm s') <> []) as Hx by (by rewrite E). apply (mu_pos rcf) in Hx. lia. }
    split; [done|]. exists evs. split; [done|]. rewrite C, Hz. done.
  Qed.
End system.
