(** A node with a request manager: C58. *)
From stdpp Require Import relations.
From Verif Require Export PMetrics LManager PWake.
Local Open Scope N_scope.

(** ** Specification *)

(** Requests whose parts have the sizes that their types impose, with handling delays of at most
    2^50 seconds. *)
Definition request_ok (r : user_request) : Prop :=
  sc_wf (rqt_data r) /\ data_len (rqt_data r) <= USIZE_MAX /\ rqt_num_surbs r <= USIZE_MAX /\
  forall id, rqt_handling_delay r id <= 2 ^ 50 * NANOS_PER_SEC.
Notation call_manager pr := (rm_exec (w_post_request pr) w_now w_fresh_id rqt_handling_delay).
(** [insert] must only be called while [has_space] (request_manager/mod.rs:183-184). *)
Definition acceptable (rm : request_manager user_request) (c : rm_call user_request) : Prop :=
  forall r, c = RmInsert r -> request_ok r /\ rqm_has_space rm = true.

(** A node and a request manager that posts to it, called in any order. The session index never
    decreases. What the clock, the random numbers and the network status are in each call is
    arbitrary, and so is what the manager is told of the session status. *)
Notation host := (mixnet * request_manager user_request)%type.
Inductive host_step (pr : prims) : host -> host -> Prop :=
| HostNode m rm c m' a :
    call_ok c -> (forall st, c = CallSetStatus st -> st_current_index (mx_status m) <= st_current_index st) ->
    exec pr m c = Val (m', a) -> host_step pr (m, rm) (m', rm)
| HostManager w rm c rm' w' d' a :
    length (ns_local_peer_id (w_ns w)) = 32%nat -> acceptable rm c ->
    call_manager pr rm (w, []) c = Val (rm', (w', d'), a) ->
    host_step pr (w_mixnet w, rm) (w_mixnet w', rm').
Definition host_reach (pr : prims) (cf : config) (rcf : rm_config) (s : host) : Prop :=
  exists m0 w, mx_new pr cf = Val m0 /\ rtc (host_step pr) (m0, (rqm_new w_now rcf w).1) s.

(** The requests that a manager call may post, and such a post. *)
Definition at_hand (rm : request_manager user_request) (c : rm_call user_request) (r : user_request) : Prop :=
  r ∈ map rst_request (managed rm) \/ c = RmInsert r.
(** ... before the random tape number [k] is used. *)
Definition own_post (rm : request_manager user_request) (c : rm_call user_request) (w : world) (k : nat)
    (x : call * resp) : Prop :=
  exists i dest id r j, at_hand rm c r /\ (w_rng_uses w <= j < k)%nat /\
    x.1 = CallPostRequest i dest id (rqt_data r) (rqt_num_surbs r) (w_ns w) (w_rng w j).
(** At most so many random tapes are used in a call: the requests in the post queues are posted as many
    times as they have posts left (1 + [rst_posts_remaining]), one request may be added to them, each
    may get a new id, and posting stops three times at most. *)
Definition tapes (rm : request_manager user_request) : nat :=
  (3 + N.to_nat (rmc_num_posts_per_attempt (rqm_config rm)) +
   sum_list (map (fun st => 2 * (1 + N.to_nat (rst_posts_remaining st)))
     (pq_current (rqm_post_queues rm) ++ pq_prev (rqm_post_queues rm) ++ pq_default (rqm_post_queues rm))))%nat.
(** After some posts of the call, one of the SURB ids drawn for another one is already in use. *)
Definition id_clash (pr : prims) (w : world) (rm : request_manager user_request) (c : rm_call user_request) : Prop :=
  exists hist m1 k r n,
    run pr (w_mixnet w) hist m1 /\ Forall (own_post rm c w k) hist /\ (w_rng_uses w <= k < w_rng_uses w + tapes rm)%nat /\
    at_hand rm c r /\ 0 < rqt_num_surbs r /\ needs (data_len (rqt_data r)) (rqt_num_surbs r) n /\
    clash (1 + 196 * n + 244 * N.to_nat (rqt_num_surbs r)) (mx_keystore m1) (w_rng w k).

(** The requests accepted in a history of the node: id, session, destination, data and number of SURBs;
    the same for the posts that a manager reports. *)
Definition accepted (hist : list (call * resp)) : list (bytes * session_index * option mixnode_index * scattered N * N) :=
  omap (fun x => match x with
                 | (CallPostRequest i _ id data k _ _, RespPost d (Ok _)) => Some (id, i, d, data, k)
                 | _ => None
                 end) hist.
Definition reported (log : list (rm_event user_request)) : list (bytes * session_index * option mixnode_index * scattered N * N) :=
  omap (fun e => match e with
                 | EvPosted r id i d _ _ => Some (id, i, d, rqt_data r, rqt_num_surbs r)
                 | _ => None
                 end) log.

(** ** Destinations *)

(** [d] was a destination in session [i], and if that session is still known it is one now. *)
Definition bound (m : mixnet) (i : session_index) (d : mixnode_index) : Prop :=
  i <= st_current_index (mx_status m) /\ d <= 65279 /\
  forall rel, rsi_from_session_index i (st_current_index (mx_status m)) = Some rel ->
    match ss_get (mx_sessions m) rel with
    | SlFull s => valid_index (se_topology s) d
    | SlDisabled => True
    | _ => False
    end.
Lemma rsi_from_spec i c rel :
  rsi_from_session_index i c = Some rel <-> match rel with RCurrent => i = c | RPrev => i + 1 = c end.
Proof.
  unfold rsi_from_session_index, checked_sub. destruct (N.leb_spec i c) as [H|H].
  - destruct (c - i) as [|[| |]] eqn:E; destruct rel; split; intros H1; try done; lia.
  - destruct rel; split; intros H1; try done; lia.
Qed.

Lemma status_bound m st i d :
  st_current_index (mx_status m) <= st_current_index st -> bound m i d -> bound (set_session_status m st) i d.
Proof.
  intros Hle (H1 & H2 & H3). unfold set_session_status. destruct (decide (mx_status m = st)) as [Heq|Hne]; [done|]. cbv zeta.
  set (m1 := shift_sessions m (st_current_index st)).
  assert (Hm1 : forall rel, rsi_from_session_index i (st_current_index st) = Some rel ->
    match ss_get (mx_sessions m1) rel with
    | SlFull s => valid_index (se_topology s) d
    | SlDisabled => True
    | _ => False
    end).
  { intros rel Hrel. apply rsi_from_spec in Hrel. subst m1. unfold shift_sessions.
    destruct (N.eqb_spec (st_current_index (mx_status m)) (st_current_index st)) as [E|E].
    - apply H3. apply rsi_from_spec. by rewrite E.
    - destruct rel; [lia|]. cbv zeta. unfold saturating_sub.
      replace (st_current_index st - st_current_index (mx_status m)) with 1 by lia. cbn.
      apply (H3 RCurrent). apply rsi_from_spec. lia. }
  clearbody m1.
  destruct (negb (need_prev (st_phase st)) || (st_current_index st =? 0)); split_and!; cbn; try lia; try done.
  intros [] Hrel; [|done]. exact (Hm1 RCurrent Hrel).
Qed.

(** The same sessions with the same mixnodes *)
Definition alike (m m' : mixnet) : Prop :=
  mx_status m' = mx_status m /\
  forall rel, match ss_get (mx_sessions m) rel, ss_get (mx_sessions m') rel with
              | SlFull s, SlFull s' => se_topology s' = se_topology s
              | SlFull _, _ | _, SlFull _ => False
              | a, b => a = b
              end.
Lemma alike_refl m : alike m m.
Proof. split; [done|]. intros rel. by destruct (ss_get _ _). Qed.
Lemma alike_trans m1 m2 m3 : alike m1 m2 -> alike m2 m3 -> alike m1 m3.
Proof.
  intros [H1 H2] [G1 G2]. split; [congruence|]. intros rel. specialize (H2 rel). specialize (G2 rel).
  destruct (ss_get (mx_sessions m1) rel), (ss_get (mx_sessions m2) rel), (ss_get (mx_sessions m3) rel); cbv zeta in *; try done; congruence.
Qed.
Lemma alike_bound m m' i d : alike m m' -> bound m i d <-> bound m' i d.
Proof.
  intros [H1 H2]. unfold bound. rewrite H1.
  split; intros (G1 & G2 & G3); (split_and!; [done..|]); intros rel Hrel; specialize (G3 rel Hrel); specialize (H2 rel);
    destruct (ss_get (mx_sessions m) rel), (ss_get (mx_sessions m') rel); unfold valid_index in *; try done; congruence.
Qed.

Section managed.
  Context (pr : prims) (Hok : prims_ok pr) (Hexp : exp1_ok (pr_exp1 pr)).
  Context (cf : config) (Hcf : config_ok cf) (Hsane : sane cf).
  Context (Hnet : cf_per_hop_net_delay cf <= 2 ^ 50 * NANOS_PER_SEC).

  Lemma disabled_step m c a m' rel :
    step pr m c m' a -> (forall st, c <> CallSetStatus st) -> ss_get (mx_sessions m) rel = SlDisabled ->
    ss_get (mx_sessions m') rel = SlDisabled.
  Proof.
    intros Hst Hc Hs.
    assert (Hput : forall rel0 sl, ss_get (mx_sessions m) rel0 <> SlDisabled ->
      ss_get (ss_set (mx_sessions m) rel0 sl) rel = SlDisabled).
    { intros rel0 sl Hne. rewrite ss_get_set. destruct (decide (rel0 = rel)) as [->|_]; done. }
    assert (Hopen : forall rel0, open_slot (ss_get (mx_sessions m) rel0) -> ss_get (mx_sessions m) rel0 <> SlDisabled).
    { intros rel0 H E. rewrite E in H. destruct H as [H|[? H]]; done. }
    destruct Hst; try done.
    - by destruct (Hc st).
    - apply Hput. by apply Hopen.
    - apply Hput. by apply Hopen.
    - assert (E : mx_sessions (enqueue (noted pr m rel0 s p) (ForwardPacket (now + dur) (AddressedPacket peer next))) =
        mx_sessions (noted pr m rel0 s p)) by (unfold enqueue; by destruct (decide _)).
      rewrite E. apply Hput. by erewrite reads_get by done.
    - apply Hput. by erewrite reads_get by done.
    - apply Hput. by erewrite reads_get by done.
    - assert (E : ss_get (mx_sessions (if (aq_pop (se_authored s)).2 then mx_or_events m1 SPACE_IN_AUTHORED_PACKET_QUEUE else m1)) rel =
        ss_get (mx_sessions m1) rel) by (by destruct (aq_pop (se_authored s)).2).
      rewrite E. apply Hput. by rewrite H.
    - destruct H as [Hu _ _ _ _ _ _ _ _ -> _ _ _ _ _]. apply usable_get in Hu. apply Hput. by rewrite Hu.
    - apply usable_get in H. apply Hput. by rewrite H.
  Qed.
  Lemma exec_bound m c a m' i d :
    mx_ok pr cf m -> call_ok c -> exec pr m c = Val (m', a) ->
    (forall st, c = CallSetStatus st -> st_current_index (mx_status m) <= st_current_index st) ->
    bound m i d -> bound m' i d.
  Proof.
    intros Hm Hc He Hst Hb.
    assert (Hd : (exists st, c = CallSetStatus st) \/ forall st, c <> CallSetStatus st) by (destruct c; eauto).
    destruct Hd as [[st ->]|Hn].
    { cbn in He. injection He as <- _. apply status_bound; [by apply Hst|done]. }
    pose proof (exec_step pr Hok cf _ _ _ _ Hcf Hm Hc He) as Hs.
    destruct (exec_upheld pr _ _ _ _ Hn He) as (E & _ & _). destruct Hb as (H1 & H2 & H3).
    unfold bound. rewrite E. split_and!; [done..|]. intros rel Hrel. specialize (H3 rel Hrel).
    destruct (ss_get (mx_sessions m) rel) as [| | |s] eqn:Es; try done.
    - by rewrite (disabled_step _ _ _ _ _ Hs Hn Es).
    - assert (Hcar : carried m c rel rel) by (destruct c; cbn; try done; by destruct (Hn st)).
      destruct (session_step pr cf _ _ _ _ _ _ _ Hm Hs Hcar Es) as (s' & -> & Hsm & _).
      by rewrite (sm_topology _ _ Hsm).
  Qed.

  Lemma rtt_fits (mt : request_metrics) (h : duration) :
    rqm_per_hop_net_delay mt <= 2 ^ 50 * NANOS_PER_SEC -> (rqm_num_hops mt <= 12)%nat ->
    rqm_forwarding_delay mt <= 100 * 2 ^ 50 * NANOS_PER_SEC ->
    rqm_authored_packet_queue_delay mt <= 2 ^ 62 * NANOS_PER_SEC -> h <= 2 ^ 50 * NANOS_PER_SEC ->
    estimate_rtt mt h <> Panic.
  Proof.
    intros H1 H2 H3 H4 H5. unfold estimate_rtt, dur_mul, dur_add.
    rewrite N.mod_small by (change (2 ^ 32) with 4294967296; lia).
    assert (H6 : rqm_per_hop_net_delay mt * N.of_nat (rqm_num_hops mt) <= 2 ^ 50 * NANOS_PER_SEC * 12)
      by (apply N.mul_le_mono; lia).
    unfold DURATION_LIMIT, NANOS_PER_SEC in *.
    repeat match goal with |- context [?a <? ?b] => rewrite (proj2 (N.ltb_lt a b)) by lia; cbn [out_bind] end.
    done.
  Qed.

  Lemma posted_rtt m index dest id data num_surbs ns r m' d metrics rel s g bs ps h :
    mx_ok pr cf m -> posted pr m index dest id data num_surbs ns r m' d metrics rel s g bs ps ->
    h <= 2 ^ 50 * NANOS_PER_SEC -> estimate_rtt metrics h <> Panic.
  Proof.
    intros Hm Hp Hh. pose proof (mo_config _ _ _ Hm) as Ec.
    destruct Hp as [Hu _ _ _ _ [Hfits _] Hpk _ _ _ _ Hhops (dq & dl & _ & Hdq & _ & Hdl & Hfd) Hnt Hqd].
    apply rtt_fits; [by rewrite Hnt, Ec| | | |done].
    - rewrite Hhops.
      assert (Hle : forall l, Forall (fun x => (x <= 6)%nat) l -> (max_nat 0 l <= 6)%nat).
      { intros l Hl. destruct (max_nat_spec l 0) as (_ & _ & [->|Hin]); [lia|]. rewrite Forall_forall in Hl. by apply Hl. }
      assert (Hro : forall g k n rt, route_ok g k n rt -> (route_len rt <= 6)%nat).
      { intros g' k n rt [Hl Hk _ _ _]. unfold route_len. apply Forall2_length in Hk. lia. }
      assert (max_nat 0 (map (fun p => route_len (mp_route p)) ps) <= 6)%nat.
      { apply Hle, Forall_map. clear -Hpk Hro. induction Hpk as [|b p bs ps Hp _ IH]; constructor; [|done].
        destruct Hp as (_ & _ & _ & Hp & _). by eapply Hro. }
      assert (max_nat 0 (map (fun u => route_len (ms_route u)) (all_surbs ps)) <= 6)%nat; [|lia].
      apply Hle, Forall_map. unfold all_surbs. apply Forall_concat, Forall_map. clear -Hpk Hro.
      induction Hpk as [|b p bs ps Hp _ IH]; constructor; [|done]. destruct Hp as (Hs & _).
      eapply Forall_impl; [exact Hs|]. intros u (Hu & _). by eapply Hro.
    - apply (sum_within _ _ Hexp) in Hdq, Hdl. rewrite Ec in Hfd.
      eapply to_duration_le; [apply Hsane| |exact Hfd]. by apply (within_add 50 50).
    - assert (Hs : sess_ok pr cf s) by (eapply mx_ok_full; [done|by eapply usable_get]).
      destruct (sess_sane _ _ _ Hsane Hs) as [Hpd Hcap]. destruct (sa_mixnode _ Hsane) as [Hpd' Hcap'].
      unfold estimate_authored_packet_queue_delay in Hqd. rewrite Ec in Hqd.
      destruct (period_ok cf _ Hsane Hpd) as (p1 & E1 & Hp1). destruct (period_ok cf _ Hsane Hpd') as (p2 & E2 & Hp2).
      cbn [se_mean_period se_set_authored se_authored] in Hqd.
      cbv zeta in Hqd. rewrite E1, E2 in Hqd. cbn [out_bind] in Hqd.
      match type of Hqd with gamma_estimate _ ?n _ ?k = _ => destruct (gamma_ok p1 p2 n k) as (t & Et & Ht) end;
        [done|done| |done|].
      + unfold aq_len. cbn. destruct Hfits as [Hfits _]. rewrite app_length, map_length. lia.
      + rewrite Et in Hqd. by injection Hqd as <-.
  Qed.

  (** ** A call on the manager *)
  Section call.
    Context (w0 : world) (rm0 : request_manager user_request) (c0 : rm_call user_request).
    Notation m0 := (w_mixnet w0).
    Record kin (w : world) (log : list (rm_event user_request)) : Prop := {
      ki_ok : mx_ok pr cf (w_mixnet w);
      ki_alike : alike m0 (w_mixnet w);
      ki_run : exists hist, run pr m0 hist (w_mixnet w) /\ Forall (own_post rm0 c0 w0 (w_rng_uses w)) hist /\
        (reported (rqm_log rm0) ++ accepted hist)%list = reported log;
      ki_ns : w_ns w = w_ns w0 /\ length (ns_local_peer_id (w_ns w)) = 32%nat;
      ki_rng : w_rng w = w_rng w0 /\ (w_rng_uses w0 <= w_rng_uses w)%nat
    }.
    Lemma own_post_mono k k' x : (k <= k')%nat -> own_post rm0 c0 w0 k x -> own_post rm0 c0 w0 k' x.
    Proof. intros Hk (i & dest & id & r & j & H1 & H2 & H3). exists i, dest, id, r, j. split_and!; try done; lia. Qed.
    Definition wanted (r : user_request) : Prop := request_ok r /\ at_hand rm0 c0 r.

    Lemma run_snoc m hist m1 c a m2 :
      run pr m hist m1 -> call_ok c -> exec pr m1 c = Val (m2, a) -> run pr m (hist ++ [(c, a)]) m2.
    Proof.
      intros Hr Hc He. induction Hr as [|m c1 a1 m2' hist m3 Hc1 He1 _ IH]; cbn.
      - eapply RunCons; [exact Hc|exact He|constructor].
      - eapply RunCons; [exact Hc1|exact He1|]. by apply IH.
    Qed.

    Lemma posted_alike m index dest id data num_surbs ns r m' d metrics rel s g bs ps :
      posted pr m index dest id data num_surbs ns r m' d metrics rel s g bs ps -> alike m m'.
    Proof.
      intros [Hu _ _ _ _ _ _ _ _ -> _ _ _ _ _]. apply usable_get in Hu. split; [done|]. intros rel'. rewrite get_put.
      destruct (decide (rel = rel')) as [<-|_]; [by rewrite Hu|].
      change (mx_sessions (mx_set_keystore m ?k)) with (mx_sessions m). by destruct (ss_get (mx_sessions m) rel').
    Qed.
    Lemma usable_bound m i rel s d :
      mx_ok pr cf m -> usable m i rel s -> valid_index (se_topology s) d -> bound m i d.
    Proof.
      intros Hm Hu Hv. pose proof (usable_get _ _ _ _ Hu) as Hs. destruct Hu as [Ht _].
      pose proof (so_topology _ _ _ (mx_ok_full _ _ _ _ _ Hm Hs)) as [Hl _]. unfold valid_index in Hv.
      assert (Hi : match rel with RCurrent => i = st_current_index (mx_status m) | RPrev => i + 1 = st_current_index (mx_status m) end)
        by (by inversion Ht).
      split_and!; [destruct rel; lia|lia|]. intros rel' Hrel. apply rsi_from_spec in Hrel.
      assert (rel' = rel) as -> by (destruct rel, rel'; (done || lia)). by rewrite Hs.
    Qed.

    Lemma accepted_app h1 h2 : accepted (h1 ++ h2) = (accepted h1 ++ accepted h2)%list.
    Proof. apply omap_app. Qed.
    Lemma reported_app h1 h2 : reported (h1 ++ h2) = (reported h1 ++ reported h2)%list.
    Proof. apply omap_app. Qed.
    Lemma post_safe w log i dest id r :
      kin w log -> (w_rng_uses w < w_rng_uses w0 + tapes rm0)%nat -> length id = 16%nat -> wanted r -> (forall x, dest = Some x -> bound m0 i x) ->
      match w_post_request pr w i dest id r with
      | Panic => id_clash pr w0 rm0 c0
      | Val (w', dest', Ok mt) =>
          ((forall t rtt, estimate_rtt mt (rqt_handling_delay r id) = Val rtt -> kin w' (log ++ [EvPosted r id i dest' t rtt])%list) /\ (w_rng_uses w' <= S (w_rng_uses w))%nat) /\ (exists d, dest' = Some d /\ (dest = None \/ dest = Some d) /\ bound m0 i d) /\
          (estimate_rtt mt (rqt_handling_delay r id) = Panic -> id_clash pr w0 rm0 c0)
      | Val (w', dest', Err _) => (kin w' log /\ (w_rng_uses w' <= S (w_rng_uses w))%nat) /\ dest' = dest
      end.
    Proof.
      intros [Hm Ha (hist & Hr & Hh & Hlog) [Ens Hns] [Hrng Huse]] Hlt Hid [(Hwf & Hd & Hs & Hhd) Hat] Hdest. unfold w_post_request.
      assert (Hargs : args_ok id (rqt_data r) (rqt_num_surbs r)) by done.
      assert (Hb : forall x, dest = Some x -> bound (w_mixnet w) i x).
      { intros x Hx. apply (alike_bound m0); [done|by apply Hdest]. }
      set (c := CallPostRequest i dest id (rqt_data r) (rqt_num_surbs r) (w_ns w) (w_rng w (w_rng_uses w))).
      assert (Hc : call_ok c).
      { split_and!; [done..|]. intros d Hx. by destruct (Hb d Hx) as (_ & ? & _). }
      assert (Hrun : forall m' a, exec pr (w_mixnet w) c = Val (m', a) ->
        exists hist, run pr m0 hist m' /\ Forall (own_post rm0 c0 w0 (S (w_rng_uses w))) hist /\
          (reported (rqm_log rm0) ++ accepted hist)%list = (reported log ++ accepted [(c, a)])%list).
      { intros m' a He. exists (hist ++ [(c, a)])%list. split; [by eapply run_snoc|].
        split; [|rewrite accepted_app, <- Hlog; by rewrite <- app_assoc].
        apply Forall_app. split; [eapply Forall_impl; [exact Hh|]; intros x; apply own_post_mono; lia|].
        constructor; [|done]. exists i, dest, id, r, (w_rng_uses w). split_and!; try done; [lia|]. unfold c. by rewrite Ens, Hrng. }
      pose proof (post_request_spec pr Hok (w_mixnet w) i dest id (rqt_data r) (rqt_num_surbs r) (w_ns w)
                    (w_rng w (w_rng_uses w)) (mx_posting pr cf _ Hcf Hm) Hargs Hns) as Hp.
      destruct Hp as [(e & E & _)|[[E (rel & s & n & Hu & Hn & Hcl)]|
                      (m' & d & mt & rel & s & g & bs & ps & E & Hp)]].
      - intros d rel s Hx Hu. destruct (Hb d Hx) as (_ & _ & Hv). pose proof (usable_get _ _ _ _ Hu) as Es.
        specialize (Hv rel). rewrite Es in Hv. apply Hv, rsi_from_spec. destruct Hu as [Ht _]. by inversion Ht.
      - specialize (Hrun (w_mixnet w) (RespPost dest (Err e))). cbn in Hrun. rewrite E in Hrun |- *. cbn. split; [|done]. split; [|done].
        split; cbn; try done; [|split; [done|lia]]. destruct (Hrun eq_refl) as (hist' & ? & ? & Hl').
        exists hist'. cbn in Hl'. rewrite app_nil_r in Hl'. done.
      - rewrite E. cbn. rewrite Hrng in Hcl. exists hist, (w_mixnet w), (w_rng_uses w), r, n. destruct Hcl as [[H0 Hcl]|Hf]; [by split_and!|]. rewrite (mo_config _ _ _ Hm) in Hf.
        exfalso. eapply no_float_trouble; [done|done| |exact Hf]. eapply mx_ok_full; [done|]. by eapply usable_get.
      - assert (He : exec pr (w_mixnet w) c = Val (m', RespPost (Some d) (Ok mt))) by (cbn; by rewrite E).
        assert (Ha' : alike m0 m') by (eapply alike_trans; [done|by eapply posted_alike]).
        rewrite E. cbn. split; [split; [|done]|split].
        + intros t rtt _. split; cbn; try done; [| |split; [done|lia]].
          2:{ destruct (Hrun _ _ He) as (hist' & ? & ? & Hl'). exists hist'. by rewrite reported_app. }
          eapply (step_inv pr Hok cf); [done|done|exact Hc|]. by apply (exec_step pr Hok cf).
        + exists d. split; [done|]. destruct (po_dest _ _ _ _ _ _ _ _ _ _ _ _ _ _ _ _ _ Hp) as [Hv Hx]. split; [done|].
          apply (alike_bound m0 (w_mixnet w)); [done|]. eapply usable_bound; [done|by eapply po_usable|done].
        + intros Hpanic. exfalso. eapply posted_rtt; [exact Hm|exact Hp|apply Hhd|exact Hpanic].
    Qed.
    Lemma log_kin w log e : kin w log -> match e with EvPosted _ _ _ _ _ _ => False | _ => True end -> kin w (log ++ [e])%list.
    Proof.
      intros [? ? (hist & Hr & Hh & Hl) ? ?] He. split; try done. exists hist. rewrite reported_app, Hl.
      destruct e; [done|..]; cbn; by rewrite app_nil_r.
    Qed.
    Lemma now_kin w log : kin w log -> kin (w_now w).2 log /\ w_rng_uses (w_now w).2 = w_rng_uses w.
    Proof. intros H. split; [|done]. revert H. by intros [? ? ? [] []]. Qed.
    Lemma fresh_kin w log : kin w log ->
      (kin (w_fresh_id w).2 log /\ (w_rng_uses (w_fresh_id w).2 <= S (w_rng_uses w))%nat) /\ length (w_fresh_id w).1 = 16%nat.
    Proof.
      intros [? ? (hist & Hr & Hh & Hl) ? []]. split; [|apply rng_fill_length]. split; [|done]. split; try done; cbn; [|split; [done|lia]].
      exists hist. split; [done|]. split; [|done]. eapply Forall_impl; [exact Hh|]. intros x. apply own_post_mono. lia.
    Qed.
    Lemma tapes_pot rm :
      tapes rm = (3 + N.to_nat (rmc_num_posts_per_attempt (rqm_config rm)) + 2 * pot rm)%nat.
    Proof.
      unfold tapes, pot. rewrite !map_app.
      assert (H : forall l : list (request_state user_request),
        sum_list (map (fun st => 2 * (1 + N.to_nat (rst_posts_remaining st)))%nat l) = (2 * queue_posts l)%nat).
      { induction l as [|st l IH]; [done|]. cbn [map sum_list_with]. rewrite IH. unfold queue_posts. cbn [sum_list_with]. unfold id. lia. }
      rewrite !sum_list_with_app, !H. lia.
    Qed.
    Lemma manager_safe rcf :
      kin w0 (rqm_log rm0) -> 1 <= rmc_num_attempts_per_destination rcf -> 1 <= rmc_num_posts_per_attempt rcf ->
      sound (bound m0) request_ok rcf rm0 -> acceptable rm0 c0 ->
      match call_manager pr rm0 (w0, []) c0 with
      | Val (rm', w', _) => sound (bound m0) request_ok rcf rm' /\ kin w'.1 (rqm_log rm')
      | Panic => id_clash pr w0 rm0 c0
      end.
    Proof.
      intros Hk HA HP (Hg & Hst & Hcfg) Hc.
      assert (Hs : sound (bound m0) wanted rcf rm0).
      { split_and!; try done. apply Forall_forall. intros st Hin. rewrite Forall_forall in Hst.
        destruct (Hst st Hin). split; [|done]. split; [done|]. left. apply elem_of_list_In, in_map, elem_of_list_In. done. }
      assert (Hcc : forall r, c0 = RmInsert r -> wanted r /\ rqm_has_space rm0 = true).
      { intros r Hr. destruct (Hc r Hr). split; [|done]. split; [done|]. by right. }
      assert (Ht : (w_rng_uses (w0, [] : list bytes).1 + 2 * pot rm0 + N.to_nat (rmc_num_posts_per_attempt rcf) + 3 <=
                    w_rng_uses w0 + tapes rm0)%nat).
      { rewrite tapes_pot, Hcfg. cbn [fst]. lia. }
      pose proof (exec_safe (w_post_request pr) w_now w_fresh_id rqt_handling_delay (bound m0) kin wanted
        (id_clash pr w0 rm0 c0) rcf w_rng_uses (w_rng_uses w0 + tapes rm0) post_safe now_kin log_kin fresh_kin rm0 (w0, []) c0
        Hs (conj Hk (List.Forall_nil _)) Ht HA HP Hcc) as H.
      destruct (call_manager pr rm0 (w0, []) c0) as [[[rm' w'] a]|]; [|done].
      destruct H as [(H1 & H2 & H3) [H4 _]]. split; [|done]. split_and!; try done.
      eapply Forall_impl; [exact H2|]. intros st [[? _] ?]. by split.
    Qed.
  End call.

  (** ** Histories *)
  Definition host_ok (rcf : rm_config) (s : host) : Prop :=
    mx_ok pr cf s.1 /\ sound (bound s.1) request_ok rcf s.2.
  Lemma sound_mono (v v' : session_index -> mixnode_index -> Prop) rcf (rm : request_manager user_request) :
    (forall i d, v i d -> v' i d) -> sound v request_ok rcf rm -> sound v' request_ok rcf rm.
  Proof.
    intros Hv ([H1 H2] & H3). split; [|done]. split; [done|]. eapply Forall_impl; [exact H2|]. intros st H i x Hi Hx.
    apply Hv. by apply H.
  Qed.
  Lemma kin_start w rm c : mx_ok pr cf (w_mixnet w) -> length (ns_local_peer_id (w_ns w)) = 32%nat -> kin w rm c w (rqm_log rm).
  Proof.
    intros Hm Hns. split; try done; [apply alike_refl|]. exists []. split; [constructor|]. split; [done|]. apply app_nil_r.
  Qed.
  Lemma host_ok_step rcf s s' :
    1 <= rmc_num_attempts_per_destination rcf -> 1 <= rmc_num_posts_per_attempt rcf ->
    host_step pr s s' -> host_ok rcf s -> host_ok rcf s'.
  Proof.
    intros HA HP Hst [Hm Hs]. destruct Hst as [m rm c m' a Hc Hmono He|w rm c rm' w' d' a Hns Hc He]; cbn in *.
    - split; cbn.
      + eapply (step_inv pr Hok cf); [done|done|exact Hc|]. by apply (exec_step pr Hok cf).
      + eapply sound_mono; [|exact Hs]. intros i d. by eapply exec_bound.
    - pose proof (manager_safe w rm c rcf (kin_start w rm c Hm Hns) HA HP Hs Hc) as H. rewrite He in H.
      destruct H as [H1 [H2 H3 _ _ _]]. split; [done|]. eapply sound_mono; [|exact H1]. intros i d Hb. by apply (alike_bound (w_mixnet w)).
  Qed.
  Lemma host_reach_ok rcf s :
    1 <= rmc_num_attempts_per_destination rcf -> 1 <= rmc_num_posts_per_attempt rcf ->
    host_reach pr cf rcf s -> host_ok rcf s.
  Proof.
    intros HA HP (m0 & w & Hn & Hr).
    assert (H0 : host_ok rcf (m0, (rqm_new w_now rcf w).1)).
    { split; [by apply mx_new_ok|]. split_and!; [|by constructor|done].
      split; [constructor; cbn; try done; by constructor|by constructor]. }
    remember (m0, (rqm_new w_now rcf w).1) as s0 eqn:E0. clear E0 Hn.
    induction Hr as [|s1 s2 s3 Hst _ IH]; [done|]. apply IH. by eapply host_ok_step.
  Qed.
End managed.

Lemma run_join pr m h1 m1 h2 m2 : run pr m h1 m1 -> run pr m1 h2 m2 -> run pr m (h1 ++ h2) m2.
Proof. intros H1 H2. induction H1 as [|m c a m1 hist m3 Hc He _ IH]; [done|]. eapply RunCons; [exact Hc|exact He|by apply IH]. Qed.
(** The node of a node with a manager is in a state that it could reach on its own. *)
Theorem C58_node (pr : prims) (Hok : prims_ok pr) cf rcf m rm :
  exp1_ok (pr_exp1 pr) -> config_ok cf -> sane cf -> cf_per_hop_net_delay cf <= 2 ^ 50 * NANOS_PER_SEC ->
  1 <= rmc_num_attempts_per_destination rcf -> 1 <= rmc_num_posts_per_attempt rcf ->
  host_reach pr cf rcf (m, rm) -> exists hist, reachable pr cf hist m.
Proof.
  intros Hexp Hcf Hsane Hnet HA HP (m0 & w & Hn & Hr).
  assert (H : forall s, host_reach pr cf rcf s -> forall s', rtc (host_step pr) s s' -> exists hist, run pr s.1 hist s'.1).
  { intros s Hs s' H. induction H as [|s1 s2 s3 Hst _ IH]; [exists []; constructor|].
    assert (Hs2 : host_reach pr cf rcf s2).
    { destruct Hs as (m1 & w1 & H1 & H2). exists m1, w1. split; [done|]. by eapply rtc_r. }
    destruct (IH Hs2) as [h2 H2].
    assert (exists h1, run pr s1.1 h1 s2.1) as [h1 H1]; [|exists (h1 ++ h2)%list; by eapply run_join].
    pose proof (host_reach_ok pr Hok Hexp cf Hcf Hsane Hnet rcf _ HA HP Hs) as [Hm1 Hs1].
    destruct Hst as [m1 rm1 c m2 a Hc Hmono He|w1 rm1 c rm2 w2 d2 a Hns Hc He]; cbn in *.
    - exists [(c, a)]. eapply RunCons; [done|done|constructor].
    - pose proof (manager_safe pr Hok Hexp cf Hcf Hsane Hnet w1 rm1 c rcf (kin_start pr cf w1 rm1 c Hm1 Hns) HA HP Hs1 Hc) as H.
      rewrite He in H. destruct H as [_ [_ _ (h & Hh & _) _ _]]. by exists h. }
  assert (H0 : host_reach pr cf rcf (m0, (rqm_new w_now rcf w).1)) by (exists m0, w; split; [done|constructor]).
  destruct (H _ H0 _ Hr) as [hist Hrun]. exists hist. split; [done|]. by exists m0.
Qed.

(** C58: a call on the manager panics only if two SURB ids collide. *)
Theorem C58_no_panic (pr : prims) (Hok : prims_ok pr) cf rcf w rm c :
  exp1_ok (pr_exp1 pr) -> config_ok cf -> sane cf -> cf_per_hop_net_delay cf <= 2 ^ 50 * NANOS_PER_SEC ->
  1 <= rmc_num_attempts_per_destination rcf -> 1 <= rmc_num_posts_per_attempt rcf ->
  host_reach pr cf rcf (w_mixnet w, rm) ->
  length (ns_local_peer_id (w_ns w)) = 32%nat -> acceptable rm c ->
  call_manager pr rm (w, []) c = Panic -> id_clash pr w rm c.
Proof.
  intros Hexp Hcf Hsane Hnet HA HP Hr Hns Hc Hp.
  destruct (host_reach_ok pr Hok Hexp cf Hcf Hsane Hnet rcf _ HA HP Hr) as [Hm Hs].
  pose proof (manager_safe pr Hok Hexp cf Hcf Hsane Hnet w rm c rcf (kin_start pr cf w rm c Hm Hns) HA HP Hs Hc) as H.
  by rewrite Hp in H.
Qed.
