(** Round trip estimates, dispatch rate and session choice: C51 and C52. *)
From Coq Require Import Reals Lra Psatz.
From Flocq Require Import Core.Core IEEE754.BinarySingleNaN.
From Verif Require Export LDuration PNode.
From Verif Require Import LBase.
Local Open Scope R_scope.

(** ** Specification *)

(** A configuration with ordinary numbers: positive periods of at most 12 days, a mean forwarding
    delay of at most 2^50 seconds, queues for at most 2^32 packets, and at most 99% loop cover. *)
Definition period_sane (d : duration) : Prop := (0 < d <= 2 ^ 20 * NANOS_PER_SEC)%N.
Record sane (cf : config) : Prop := {
  sa_forwarding : (cf_mean_forwarding_delay cf <= 2 ^ 50 * NANOS_PER_SEC)%N;
  sa_loop : f_in 0 (99 / 100) (cf_loop_cover_proportion cf);
  sa_mixnode : period_sane (sc_mean_period (cf_mixnode_session cf)) /\
               (apc_capacity (sc_authored (cf_mixnode_session cf)) <= 2 ^ 32)%N;
  sa_non_mixnode : forall c, cf_non_mixnode_session cf = Some c ->
               period_sane (sc_mean_period c) /\ (apc_capacity (sc_authored c) <= 2 ^ 32)%N
}.

(** [n] hops are at least as many as configured, and at most six. *)
Definition hops_ok (cf : config) (n : nat) : Prop := (cf_num_hops cf <= n <= 6)%nat.
(** [p] was built for a path of [n] hops, with total delay [d] (which is the sum of the delays that
    the hops apply: C11_request). *)
Definition request_leg (pr : prims) (p : addressed_packet) (n : nat) (d : delay) : Prop :=
  exists packet targets keys r r',
    length keys = n /\ complete_request_packet pr packet targets keys r = Val (ap_packet p, d, r').
(** The SURB with the ID and keys of keystore entry [e] was built for a path of [n] hops, with total
    delay [d] (C11_surb). *)
Definition reply_leg (pr : prims) (e : bytes * surb_value) (n : nat) (d : delay) : Prop :=
  exists surb0 surb first targets keys r r',
    length keys = n /\
    build_surb pr surb0 [] first targets keys e.1 r = Val (surb, sv_keys e.2, d, r').
(** What one packet, and what a packet and a reply take at most. *)
Definition covers (cf : config) (mt : request_metrics) (n : nat) (d : delay) : Prop :=
  (n <= rqm_num_hops mt)%nat /\
  exists t, delay_to_duration d (cf_mean_forwarding_delay cf) = Val t /\ (t <= rqm_forwarding_delay mt)%N.

(** ** Delays *)
Lemma fold_within pr (Hexp : exp1_ok (pr_exp1 pr)) ss : forall j d,
  (0 <= j)%Z -> (j + 10 * Z.of_nat (length ss) <= 2 ^ 53)%Z -> f_within j d ->
  f_within (j + 10 * Z.of_nat (length ss)) (foldl delay_add d (map (hop_delay pr) ss)).
Proof.
  induction ss as [|s ss IH]; intros j d Hj Hb Hd; cbn [map foldl length].
  - by rewrite Z.add_0_r.
  - cbn [length] in Hb. replace (j + 10 * Z.of_nat (S (length ss)))%Z with (j + 10 + 10 * Z.of_nat (length ss))%Z by lia.
    apply IH; [lia|lia|]. apply within_add; [lia|done|]. by apply delay_exp_within.
Qed.
Lemma sum_within pr d : exp1_ok (pr_exp1 pr) -> delay_sum pr 5 d -> f_within 50 d.
Proof.
  intros Hexp (ss & Hl & ->).
  eapply within_mono; [|apply (fold_within pr Hexp ss 0 delay_zero); [lia| |apply within_zero]]; lia.
Qed.
Lemma within_in k x : f_within k x <-> f_in 0 (IZR k) x.
Proof. done. Qed.
Lemma no_nan pr : exp1_ok (pr_exp1 pr) -> ~ nan_delay pr.
Proof. intros Hexp (d & Hd & Hn). apply (sum_within _ _ Hexp) in Hd as [[_ Hf] _]. by destruct d. Qed.

Lemma max_delays_spec ds : forall d m,
  f_within 50 d -> Forall (f_within 50) ds -> max_delays d ds = Val m ->
  f_within 50 m /\ (m = d \/ m ∈ ds) /\ f_real d <= f_real m /\ Forall (fun x => f_real x <= f_real m) ds.
Proof.
  induction ds as [|x ds IH]; intros d m Hd Hds H; cbn [max_delays] in H.
  - injection H as <-. split_and!; [done|by left|lra|constructor].
  - apply Forall_cons in Hds as [Hx Hds].
    destruct (delay_max_within 50 50 d x Hd Hx) as (y & Ey & Hy & H1 & H2). rewrite Ey in H. cbn [out_bind] in H.
    assert (Hyw : f_within 50 y) by (by destruct Hy as [->| ->]).
    destruct (IH y m Hyw Hds H) as (Hm & Hin & H3 & H4). split_and!; [done| |lra|].
    + destruct Hin as [->|Hin]; [|right; by right]. destruct Hy as [->| ->]; [by left|right; by left].
    + constructor; [lra|done].
Qed.
Lemma max_delays_attained ds m :
  ds <> [] -> Forall (f_within 50) ds -> max_delays delay_zero ds = Val m -> m ∈ ds.
Proof.
  destruct ds as [|x ds]; [done|]. intros _ [Hx Hds]%Forall_cons H. cbn [max_delays] in H.
  assert (E : delay_max delay_zero x = Val x).
  { unfold delay_max, delay_cmp. change delay_zero with f_zero. destruct Hx as [Hf Hr]. destruct within_zero as [Hzf Hz].
    rewrite (cmp_real _ _ Hzf Hf). destruct (Rcompare_spec (f_real f_zero) (f_real x)) as [|E|E]; [done|done|].
    exfalso. lra. }
  rewrite E in H. cbn [out_bind] in H.
  destruct (max_delays_spec ds x m Hx Hds H) as (_ & [->|Hin] & _); [by left|by right].
Qed.
Lemma max_nat_spec l : forall n, (n <= max_nat n l)%nat /\ Forall (fun x => (x <= max_nat n l)%nat) l /\
  (max_nat n l = n \/ max_nat n l ∈ l).
Proof.
  induction l as [|x l IH]; intros n; cbn [max_nat foldl].
  - split_and!; [lia|constructor|by left].
  - destruct (IH (Nat.max n x)) as (H1 & H2 & H3). unfold max_nat in *. split_and!.
    + lia.
    + constructor; [lia|done].
    + destruct H3 as [H3|H3]; [|right; by right]. rewrite H3.
      destruct (Nat.max_spec n x) as [[_ ->]|[_ ->]]; [right; by left|by left].
Qed.
Lemma max_nat_attained l : l <> [] -> max_nat 0 l ∈ l.
Proof.
  destruct l as [|x l]; [done|]. intros _. cbn [max_nat foldl]. change (Nat.max 0 x) with x.
  destruct (max_nat_spec l x) as (_ & _ & [H|H]); unfold max_nat in H; [rewrite H; by left|by right].
Qed.

(** ** Durations of delays *)
Lemma to_duration_in (u : duration) d :
  (u <= 2 ^ 50 * NANOS_PER_SEC)%N -> f_within 100 d ->
  f_in 0 (IZR (100 * 2 ^ 50)) (f_mul d (as_secs_f64 u)) /\
  f_real (f_mul d (as_secs_f64 u)) = rnd (f_real d * f_real (as_secs_f64 u)) /\ 0 <= f_real (as_secs_f64 u).
Proof.
  intros Hu Hd. pose proof (secs_le u (2 ^ 50) ltac:(done) Hu) as Hs.
  change (Z.of_N (2 ^ 50)) with (2 ^ 50)%Z in Hs.
  assert (Hb : IZR 100 * IZR (2 ^ 50) <= bpow radix2 57).
  { rewrite <- mult_IZR. change (bpow radix2 57) with (IZR (2 ^ 57)). by apply IZR_le. }
  assert (Hprod : 0 <= f_real d * f_real (as_secs_f64 u) <= IZR 100 * IZR (2 ^ 50)).
  { destruct Hd as [_ Hd], Hs as [_ Hs]. split; [apply Rmult_le_pos; lra|apply Rmult_le_compat; lra]. }
  destruct (mul_real d (as_secs_f64 u)) as [Hf E]; [apply Hd|apply Hs| |].
  { rewrite Rabs_pos_eq by lra. eapply Rle_trans; [apply Hprod|]. eapply Rle_trans; [exact Hb|]. by apply bpow_le. }
  split_and!; [|done|apply Hs].
  split; [done|]. rewrite E.
  assert (Hlim : rnd (IZR (100 * 2 ^ 50)) = IZR (100 * 2 ^ 50)).
  { apply round_generic; [apply valid_rnd_round_mode|].
    apply generic_format_FLT. apply (FLT_spec _ _ _ _ (Float radix2 100 50)); [|done|done].
    unfold F2R. cbn [Fnum Fexp]. rewrite mult_IZR. done. }
  split; [rewrite <- rnd_0; apply rnd_mono; lra|]. rewrite <- Hlim. apply rnd_mono. rewrite mult_IZR. lra.
Qed.
Lemma nearest_le x (k : N) (t : duration) :
  Z.of_N t = ZnearestE (f_real x * GIGA) -> f_real x <= IZR (Z.of_N k) -> (t <= k * NANOS_PER_SEC)%N.
Proof.
  intros E H.
  assert (H2 : (ZnearestE (f_real x * GIGA) <= Z.of_N k * 1000000000)%Z).
  { rewrite <- (Zrnd_IZR ZnearestE (Z.of_N k * 1000000000)). apply nearest_mono. rewrite mult_IZR.
    change (IZR 1000000000) with GIGA. apply Rmult_le_compat_r; [unfold GIGA; lra|]. exact H. }
  rewrite <- E in H2. unfold NANOS_PER_SEC. lia.
Qed.
Lemma to_duration_le (u : duration) d t :
  (u <= 2 ^ 50 * NANOS_PER_SEC)%N -> f_within 100 d -> delay_to_duration d u = Val t -> (t <= 100 * 2 ^ 50 * NANOS_PER_SEC)%N.
Proof.
  intros Hu Hd Ht. destruct (to_duration_in u d Hu Hd) as ([Hf Hb] & _ & _).
  destruct (from_secs_ok (f_mul d (as_secs_f64 u)) Hf) as (t' & E & En).
  { split; [lra|]. eapply Rle_trans; [apply Hb|]. unfold LIMIT_SECS. rewrite <- minus_IZR. by apply IZR_le. }
  assert (Et : Val t' = Val t) by (rewrite <- E; exact Ht). injection Et as ->. apply (nearest_le _ (100 * 2 ^ 50) _ En). apply Hb.
Qed.
Lemma to_duration_ok (u : duration) d :
  (u <= 2 ^ 50 * NANOS_PER_SEC)%N -> f_within 100 d -> exists t, delay_to_duration d u = Val t.
Proof.
  intros Hu Hd. destruct (to_duration_in u d Hu Hd) as ([Hf Hb] & _ & _).
  destruct (from_secs_ok (f_mul d (as_secs_f64 u)) Hf) as (t & E & _).
  { split; [lra|]. eapply Rle_trans; [apply Hb|]. unfold LIMIT_SECS. rewrite <- minus_IZR. by apply IZR_le. }
  by exists t.
Qed.
Lemma to_duration_mono (u : duration) d d' t :
  (u <= 2 ^ 50 * NANOS_PER_SEC)%N -> f_within 100 d -> f_within 100 d' -> f_real d <= f_real d' ->
  delay_to_duration d' u = Val t -> exists t', delay_to_duration d u = Val t' /\ (t' <= t)%N.
Proof.
  intros Hu Hd Hd' Hle H. destruct (to_duration_in u d Hu Hd) as ([Hf Hb] & E & Hs).
  destruct (to_duration_in u d' Hu Hd') as ([Hf' Hb'] & E' & _).
  apply (from_secs_mono _ (f_mul d' (as_secs_f64 u))); [done|apply Hf'| |done].
  split; [lra|]. rewrite E, E'. apply rnd_mono. by apply Rmult_le_compat_r.
Qed.
Lemma add_mono a b c d :
  f_within 50 a -> f_within 50 b -> f_within 50 c -> f_within 50 d ->
  f_real a <= f_real c -> f_real b <= f_real d ->
  f_within 100 (delay_add a b) /\ f_within 100 (delay_add c d) /\ f_real (delay_add a b) <= f_real (delay_add c d).
Proof.
  intros Ha Hb Hc Hd H1 H2.
  assert (Hk : (0 <= 50 + 50 <= 2 ^ 53)%Z) by done.
  split; [by apply (within_add 50 50)|]. split; [by apply (within_add 50 50)|].
  assert (Hbig : forall x y, f_within 50 x -> f_within 50 y -> Rabs (f_real x + f_real y) <= BIG).
  { intros x y [_ Hx] [_ Hy]. rewrite Rabs_pos_eq by lra. apply Rle_trans with (IZR 100); [lra|]. by apply IZR_BIG. }
  unfold delay_add. destruct (add_real a b) as [_ ->]; [apply Ha|apply Hb|by apply Hbig|].
  destruct (add_real c d) as [_ ->]; [apply Hc|apply Hd|by apply Hbig|].
  apply rnd_mono. lra.
Qed.

Lemma route_hops cf g k rt : route_ok g k (cf_num_hops cf) rt -> hops_ok cf (route_len rt).
Proof. intros H. unfold hops_ok, route_len. rewrite <- (Forall2_length _ _ _ (ro_keys _ _ _ _ H)). apply H. Qed.

(** ** C51 *)
Section C51.
  Context (pr : prims) (Hok : prims_ok pr) (Hexp : exp1_ok (pr_exp1 pr)).
  Context (cf : config) (Hcf : config_ok cf) (Hsane : sane cf).

  Theorem C51_metrics m index dest id data num_surbs ns r m' dest' mt :
    mx_ok pr cf m -> call_ok (CallPostRequest index dest id data num_surbs ns r) ->
    exec pr m (CallPostRequest index dest id data num_surbs ns r) = Val (m', RespPost dest' (Ok mt)) ->
    exists rel s (packets : list (addressed_packet * nat * delay))
        (replies : list ((bytes * surb_value) * nat * delay)),
      usable m index rel s /\ queued m rel s (map (fun x => x.1.1) packets) (map (fun x => x.1.1) replies) m' /\
      N.of_nat (length replies) = num_surbs /\
      Forall (fun '(p, n, d) => hops_ok cf n /\ request_leg pr p n d) packets /\
      Forall (fun '(e, n, d) => hops_ok cf n /\ reply_leg pr e n d) replies /\
      (* the metrics cover every packet on its own and together with every reply *)
      Forall (fun '(_, n, d) => covers cf mt n d /\
        Forall (fun '(_, n', d') => covers cf mt (n + n')%nat (delay_add d d')) replies) packets /\
      (* and are no larger than that requires *)
      (exists n n', n ∈ map (fun x => x.1.2) packets /\
         (n' ∈ map (fun x => x.1.2) replies \/ replies = [] /\ n' = 0%nat) /\ rqm_num_hops mt = (n + n')%nat) /\
      (exists d d', d ∈ map (fun x => x.2) packets /\
         (d' ∈ map (fun x => x.2) replies \/ replies = [] /\ d' = f_zero) /\
         delay_to_duration (delay_add d d') (cf_mean_forwarding_delay cf) = Val (rqm_forwarding_delay mt)) /\
      rqm_per_hop_net_delay mt = cf_per_hop_net_delay cf.
  Proof.
    intros Hm (Hargs & Hns & _) H. cbn [exec] in H. pose proof (mx_posting pr cf m Hcf Hm) as Hpost.
    apply out_bind_Val in H as ([[m1 d1] res] & H & E). injection E as -> -> ->.
    destruct (post_request_any pr m index dest id data num_surbs ns r Hok Hpost Hargs Hns)
      as [E|[(e & E)|(m2 & d2 & mt2 & rel & s & g & bs & ps & E & Hp)]]; rewrite E in H; [done|done|].
    injection H as -> <- ->.
    pose proof (posted_queued pr m _ _ _ _ _ _ _ _ _ _ _ _ _ _ _ Hpost Hp) as Hq.
    destruct Hp as [Hu _ _ _ Hneed _ Hpk Hnum _ _ _ Hhops (dq & dl & Hdq & _ & Hdl & _ & Hfd) Hnet _].
    rewrite (mo_config _ _ _ Hm) in *.
    assert (Hpw : Forall (f_within 50) (map mp_delay ps)).
    { apply Forall_map. clear -Hpk Hexp. induction Hpk as [|b p bs ps Hp _ IH]; constructor; [|done].
      destruct Hp as (_ & _ & _ & _ & _ & _ & Hd & _). by apply (sum_within pr). }
    assert (Hsm : Forall (surb_made pr g d2 (cf_num_hops cf)) (all_surbs ps)).
    { unfold all_surbs. apply Forall_concat, Forall_map. clear -Hpk.
      induction Hpk as [|b p bs ps Hp _ IH]; constructor; [|done]. by destruct Hp as (Hs & _). }
    assert (Hsw : Forall (f_within 50) (map ms_delay (all_surbs ps))).
    { apply Forall_map. eapply Forall_impl; [exact Hsm|]. intros u (_ & _ & _ & Hd & _). by apply (sum_within pr). }
    assert (Hz : f_within 50 delay_zero) by (eapply within_mono; [|exact within_zero]; done).
    destruct (max_delays_spec _ _ _ Hz Hpw Hdq) as (Wdq & _ & _ & Mdq).
    destruct (max_delays_spec _ _ _ Hz Hsw Hdl) as (Wdl & _ & Zdl & Mdl).
    pose proof (max_nat_spec (map (fun p => route_len (mp_route p)) ps) 0) as (_ & Nq & _).
    pose proof (max_nat_spec (map (fun u => route_len (ms_route u)) (all_surbs ps)) 0) as (_ & Nl & _).
    exists rel, s, (map (fun p => (mp_packet p, route_len (mp_route p), mp_delay p)) ps),
      (map (fun u => (surb_entry id u, route_len (ms_route u), ms_delay u)) (all_surbs ps)).
    rewrite !map_map. cbn [fst snd].
    assert (Hadd : forall d d' t, f_within 50 d -> f_within 50 d' -> f_real d <= f_real dq -> f_real d' <= f_real dl ->
      t = rqm_forwarding_delay mt ->
      exists t', delay_to_duration (delay_add d d') (cf_mean_forwarding_delay cf) = Val t' /\ (t' <= t)%N).
    { intros d d' t H1 H2 H3 H4 ->. destruct (add_mono d d' dq dl H1 H2 Wdq Wdl H3 H4) as (Ha & Hb & Hc).
      by apply (to_duration_mono _ _ (delay_add dq dl)); [apply Hsane|..]. }
    split; [done|]. split; [done|]. split; [by rewrite map_length|].
    split.
    { apply Forall_map. clear -Hpk. induction Hpk as [|b p bs ps Hp _ IH]; constructor; [|done].
      destruct Hp as (_ & _ & _ & Hr & _ & _ & _ & r & r' & E). cbn. split; [by eapply route_hops|]. by eexists _, _, _, r, r'. }
    split.
    { apply Forall_map. eapply Forall_impl; [exact Hsm|]. intros u (Hr & _ & _ & _ & surb0 & r0 & r' & _ & E2).
      split; [by eapply route_hops|]. by eexists surb0, _, _, _, _, r0, r'. }
    rewrite Forall_map in Mdq, Nq, Hpw, Mdl, Nl, Hsw.
    split.
    { apply Forall_map, Forall_forall. intros p Hp. cbn.
      rewrite Forall_forall in Mdq, Nq, Hpw. specialize (Mdq p Hp). specialize (Nq p Hp). specialize (Hpw p Hp).
      cbn in Mdq, Nq, Hpw. split.
      - split; [lia|].
        assert (Hle : f_real (mp_delay p) <= f_real (delay_add dq dl)).
        { destruct (add_mono (mp_delay p) delay_zero dq dl) as (_ & _ & Hc); [done..|].
          eapply Rle_trans; [|exact Hc]. destruct Hpw as [Hf Hb].
          destruct (add_real (mp_delay p) delay_zero) as [_ E3]; [done|apply within_zero| |].
          - change (f_real delay_zero) with 0. rewrite Rplus_0_r, Rabs_pos_eq by lra.
            eapply Rle_trans; [apply Hb|]. by apply IZR_BIG.
          - unfold delay_add. rewrite E3. change (f_real delay_zero) with 0. rewrite Rplus_0_r, rnd_real; [lra|apply Hf]. }
        apply (to_duration_mono _ _ (delay_add dq dl)); [apply Hsane|by eapply within_mono; [|exact Hpw]| |done|done].
        by apply (within_add 50 50).
      - apply Forall_map, Forall_forall. intros u Hu'. cbn.
        rewrite Forall_forall in Mdl, Nl, Hsw. specialize (Mdl u Hu'). specialize (Nl u Hu'). specialize (Hsw u Hu').
        cbn in Mdl, Nl, Hsw. split; [lia|]. by apply Hadd. }
    assert (Hne : ps <> []) by (destruct Hneed as [Hn _]; by destruct ps; cbn in Hn; [lia|]).
    split.
    { exists (max_nat 0 (map (fun p => route_len (mp_route p)) ps)),
        (max_nat 0 (map (fun u => route_len (ms_route u)) (all_surbs ps))).
      split; [apply max_nat_attained; by destruct ps|]. split; [|done].
      destruct (all_surbs ps) as [|u us]; [by right|left]. by apply max_nat_attained. }
    split; [|done].
    exists dq, dl. split; [|split; [|done]].
    - apply max_delays_attained; [by destruct ps|by apply Forall_map|done].
    - destruct (all_surbs ps) as [|u us]; [right; by injection Hdl as <-|left].
      apply max_delays_attained; [done|by apply Forall_map|done].
  Qed.

  (** The estimate is the sum of its parts: network, mixing, queues, handling. *)
  Theorem C51_rtt (mt : request_metrics) (handling t : duration) :
    (N.of_nat (rqm_num_hops mt) < 2 ^ 32)%N -> estimate_rtt mt handling = Val t ->
    t = (rqm_per_hop_net_delay mt * N.of_nat (rqm_num_hops mt) + rqm_forwarding_delay mt +
         rqm_authored_packet_queue_delay mt + handling)%N.
  Proof.
    intros Hh. unfold estimate_rtt, dur_mul, dur_add. rewrite N.mod_small by done.
    repeat (match goal with |- context [if ?b then _ else _] => destruct b end; cbn [out_bind]; [|done]).
    intros [= <-]. lia.
  Qed.
End C51.

(** ** The queue delay estimate never overflows *)
Lemma lit_in (a b : N) : (a <= 2 ^ 53)%N -> (0 < b <= 2 ^ 53)%N -> IZR (Z.of_N a) <= 8 * IZR (Z.of_N b) ->
  f_in 0 8 (f_lit a b).
Proof.
  intros Ha Hb H. unfold f_lit.
  assert (0 < IZR (Z.of_N b)) by (apply (IZR_lt 0); lia).
  assert (0 <= IZR (Z.of_N a)) by (apply (IZR_le 0); lia).
  apply (in_div 0 8 (IZR (Z.of_N a)) (IZR (Z.of_N a)) (IZR (Z.of_N b)) (IZR (Z.of_N b))); try lra;
    try (by apply (fixed_IZR 0)); try (by apply (fixed_IZR 8)); (apply in_of_N; lia).
Qed.
Lemma in_unit lo hi a b x : f_in a b x -> lo <= a -> b <= hi -> f_in lo hi x.
Proof. intros. by eapply in_weaken. Qed.

Definition S28 : R := IZR (2 ^ 28).
Lemma secs_range (d : duration) :
  (0 < d <= 2 ^ 28 * NANOS_PER_SEC)%N -> f_in (9 / 10 / GIGA) S28 (as_secs_f64 d).
Proof.
  intros [H1 H2]. pose proof (secs_le d (2 ^ 28) ltac:(done) H2) as [Hf Hb].
  split; [done|]. split; [apply secs_pos; [done|]|exact (proj2 Hb)].
  eapply N.le_lt_trans; [exact H2|]. done.
Qed.
Lemma gamma_ok (p q : duration) (n k : N) :
  (0 < p <= 2 ^ 28 * NANOS_PER_SEC)%N -> (0 < q <= 2 ^ 28 * NANOS_PER_SEC)%N ->
  (n <= 2 ^ 32)%N -> (k <= 2 ^ 32)%N -> exists t, gamma_estimate p n q k = Val t /\ (t <= 2 ^ 62 * NANOS_PER_SEC)%N.
Proof.
  assert (Hmain : forall (s rs : duration) (n m : N), (0 < rs <= s)%N -> (s <= 2 ^ 28 * NANOS_PER_SEC)%N ->
    (n <= 2 ^ 32)%N -> (m <= 2 ^ 32)%N ->
    let n := f_of_N n in let m := f_of_N m in let r := f_div (as_secs_f64 rs) (as_secs_f64 s) in
    exists t, mul_f64 s
      (f_add (f_add (f_add (f_lit 492582 100000)
                     (f_mul (f_lit 387809 100000) (f_sqrt (f_add n (f_mul (f_mul (f_mul r r) r) m))))) n)
       (f_mul r m)) = Val t /\ (t <= 2 ^ 62 * NANOS_PER_SEC)%N).
  { clear. intros s rs n m Hrs Hs Hn Hm. cbv zeta.
    pose proof (secs_range s ltac:(lia)) as Fs. pose proof (secs_range rs ltac:(lia)) as Frs.
    assert (Hle : f_real (as_secs_f64 rs) <= f_real (as_secs_f64 s)).
    { apply secs_mono; [lia|]. eapply N.le_lt_trans; [exact Hs|]. done. }
    assert (Fr : f_in 0 1 (f_div (as_secs_f64 rs) (as_secs_f64 s))).
    { apply (in_div 0 1 0 (f_real (as_secs_f64 s)) (f_real (as_secs_f64 s)) (f_real (as_secs_f64 s))); try lra.
      - by apply (fixed_IZR 0).
      - by apply (fixed_IZR 1).
      - destruct Fs as [_ Fs]. unfold GIGA in Fs. lra.
      - split; [apply Frs|]. destruct Frs as [_ Frs]. unfold GIGA in Frs. lra.
      - split; [apply Fs|lra]. }
    set (r := f_div _ _) in *. clearbody r.
    assert (Fn : f_in 0 (bpow radix2 32) (f_of_N n)) by (apply (in_of_N 0 (2 ^ 32)); [done|lia]).
    assert (Fm : f_in 0 (bpow radix2 32) (f_of_N m)) by (apply (in_of_N 0 (2 ^ 32)); [done|lia]).
    set (fn := f_of_N n) in *. set (fm := f_of_N m) in *. clearbody fn fm.
    assert (F0 : fixed 0) by (by apply (fixed_IZR 0)). assert (F1 : fixed 1) by (by apply (fixed_IZR 1)).
    assert (P : forall k, 0 < bpow radix2 k) by (intros; apply bpow_gt_0).
    assert (Hp32 : bpow radix2 32 = 4294967296) by done. assert (Hp33 : bpow radix2 33 = 8589934592) by done.
    assert (Hp34 : bpow radix2 34 = 17179869184) by done. assert (Hp17 : bpow radix2 17 = 131072) by done.
    assert (Hp20 : bpow radix2 20 = 1048576) by done. assert (Hp35 : bpow radix2 35 = 34359738368) by done.
    assert (X32 : fixed (bpow radix2 32)) by (by apply fixed_bpow). assert (X33 : fixed (bpow radix2 33)) by (by apply fixed_bpow).
    assert (X34 : fixed (bpow radix2 34)) by (by apply fixed_bpow). assert (X35 : fixed (bpow radix2 35)) by (by apply fixed_bpow).
    assert (X17 : fixed (bpow radix2 17)) by (by apply fixed_bpow). assert (X20 : fixed (bpow radix2 20)) by (by apply fixed_bpow).
    rewrite ?Hp32, ?Hp33, ?Hp34, ?Hp35, ?Hp17, ?Hp20 in *.
    assert (Fr2 : f_in 0 1 (f_mul r r)) by (apply (in_mul 0 1 0 1 0 1); done || lra).
    assert (Fr3 : f_in 0 1 (f_mul (f_mul r r) r)) by (apply (in_mul 0 1 0 1 0 1); done || lra).
    assert (Fr3m : f_in 0 4294967296 (f_mul (f_mul (f_mul r r) r) fm)) by (apply (in_mul 0 _ 0 1 0 4294967296); done || lra).
    assert (Frm : f_in 0 4294967296 (f_mul r fm)) by (apply (in_mul 0 _ 0 1 0 4294967296); done || lra).
    assert (Fa : f_in 0 8589934592 (f_add fn (f_mul (f_mul (f_mul r r) r) fm)))
      by (apply (in_add 0 _ 0 4294967296 0 4294967296); done || lra).
    assert (Fq : f_in 0 131072 (f_sqrt (f_add fn (f_mul (f_mul (f_mul r r) r) fm))))
      by (apply (in_sqrt _ 8589934592); done || lra).
    assert (L1 : f_in 0 8 (f_lit 492582 100000)) by (apply lit_in; [done|done|cbn; lra]).
    assert (L2 : f_in 0 8 (f_lit 387809 100000)) by (apply lit_in; [done|done|cbn; lra]).
    assert (Fb : f_in 0 1048576 (f_mul (f_lit 387809 100000) (f_sqrt (f_add fn (f_mul (f_mul (f_mul r r) r) fm)))))
      by (apply (in_mul 0 _ 0 8 0 131072); done || lra).
    match goal with |- context [f_add (f_add (f_add ?a ?b) ?c) ?d] =>
      assert (G1 : f_in 0 4294967296 (f_add a b)) by (apply (in_add 0 _ 0 8 0 1048576); done || lra);
      assert (G2 : f_in 0 8589934592 (f_add (f_add a b) c)) by (apply (in_add 0 _ 0 4294967296 0 4294967296); done || lra);
      assert (G3 : f_in 0 17179869184 (f_add (f_add (f_add a b) c) d))
        by (apply (in_add 0 _ 0 8589934592 0 4294967296); done || lra);
      set (tot := f_add (f_add (f_add a b) c) d) in *
    end.
    clearbody tot.
    assert (Fs0 : f_in 0 S28 (as_secs_f64 s)) by (eapply in_weaken; [| |exact Fs]; unfold GIGA; lra).
    assert (Hfin : f_in 0 (bpow radix2 62) (f_mul tot (as_secs_f64 s))).
    { apply (in_mul 0 _ 0 17179869184 0 S28); try done; try lra.
      - by apply fixed_bpow.
      - unfold S28. rewrite <- mult_IZR. change (bpow radix2 62) with (IZR (2 ^ 62)). by apply IZR_le. }
    destruct Hfin as [Hf Hb]. unfold mul_f64.
    destruct (from_secs_ok (f_mul tot (as_secs_f64 s)) Hf) as (t & E & En).
    { split; [lra|]. eapply Rle_trans; [apply Hb|]. unfold LIMIT_SECS. rewrite <- minus_IZR.
      change (bpow radix2 62) with (IZR (2 ^ 62)). by apply IZR_le. }
    exists t. split; [done|]. apply (nearest_le _ (2 ^ 62) _ En). exact (proj2 Hb). }
  intros Hp Hq Hn Hk. unfold gamma_estimate.
  destruct (N.ltb_spec q p); apply Hmain; lia.
Qed.
Lemma period_ok cf (d : duration) :
  sane cf -> period_sane d ->
  exists p, div_f64 d (f_mul (f_lit 1 2) (f_sub f_one (cf_loop_cover_proportion cf))) = Val p /\
    (0 < p <= 2 ^ 28 * NANOS_PER_SEC)%N.
Proof.
  intros Hs [Hd1 Hd2]. pose proof (sa_loop _ Hs) as Hl.
  assert (F0 : fixed 0) by (by apply (fixed_IZR 0)). assert (F1 : fixed 1) by (by apply (fixed_IZR 1)).
  assert (One : f_in 1 1 f_one) by (apply (in_of_N 1 1 1); done).
  assert (E7 : bpow radix2 (-7) = / 128) by done. assert (E8 : bpow radix2 (-8) = / 256) by done.
  assert (E1 : bpow radix2 (-1) = / 2) by done.
  assert (X7 : fixed (/ 128)) by (rewrite <- E7; by apply fixed_bpow).
  assert (X8 : fixed (/ 256)) by (rewrite <- E8; by apply fixed_bpow).
  assert (X1 : fixed (/ 2)) by (rewrite <- E1; by apply fixed_bpow).
  assert (Fs : f_in (/ 128) 1 (f_sub f_one (cf_loop_cover_proportion cf))) by (apply (in_sub _ _ 1 1 0 (99 / 100)); done || lra).
  assert (Fh : f_in (/ 2) (/ 2) (f_lit 1 2)).
  { apply (in_div _ _ 1 1 2 2); try done; try lra. by apply (in_of_N 2 2 2). }
  assert (Fm : f_in (/ 256) (/ 2) (f_mul (f_lit 1 2) (f_sub f_one (cf_loop_cover_proportion cf))))
    by (apply (in_mul _ _ (/ 2) (/ 2) (/ 128) 1); done || lra).
  set (rate := f_mul _ _) in *. clearbody rate.
  pose proof (secs_range d ltac:(lia)) as Fd.
  pose proof (secs_le d (2 ^ 20) ltac:(done) Hd2) as [_ Fd'].
  change (Z.of_N (2 ^ 20)) with 1048576%Z in Fd'.
  assert (E30 : bpow radix2 (-30) = / 1073741824) by done.
  assert (X30 : fixed (/ 1073741824)) by (rewrite <- E30; by apply fixed_bpow).
  assert (Fq : f_in (/ 1073741824) S28 (f_div (as_secs_f64 d) rate)).
  { apply (in_div _ _ (9 / 10 / GIGA) 1048576 (/ 256) (/ 2)); try done; try (unfold GIGA; lra).
    - by apply (fixed_IZR (2 ^ 28)).
    - unfold S28. change (2 ^ 28)%Z with 268435456%Z. lra.
    - unfold S28. change (2 ^ 28)%Z with 268435456%Z. lra.
    - split; [apply Fd|]. destruct Fd as [_ Fd]. lra. }
  destruct Fq as [Hf Hb]. unfold div_f64.
  destruct (from_secs_ok (f_div (as_secs_f64 d) rate) Hf) as (p & E & Ep).
  { split; [lra|]. eapply Rle_trans; [apply Hb|]. unfold LIMIT_SECS, S28. rewrite <- minus_IZR. by apply IZR_le. }
  exists p. split; [done|].
  assert (H1 : (1 <= ZnearestE (f_real (f_div (as_secs_f64 d) rate) * GIGA))%Z).
  { apply Z.le_trans with (ZnearestE (9 / 10)).
    - rewrite (Znearest_imp _ _ 1); [done|]. apply Rabs_lt. lra.
    - apply nearest_mono. unfold GIGA. lra. }
  assert (H2 : (ZnearestE (f_real (f_div (as_secs_f64 d) rate) * GIGA) <= 2 ^ 28 * 1000000000)%Z).
  { rewrite <- (Zrnd_IZR ZnearestE (2 ^ 28 * 1000000000)). apply nearest_mono. rewrite mult_IZR.
    change (IZR 1000000000) with GIGA. apply Rmult_le_compat_r; [unfold GIGA; lra|]. apply Hb. }
  rewrite <- Ep in H1, H2. unfold NANOS_PER_SEC. lia.
Qed.

Lemma sess_sane pr cf s :
  sane cf -> sess_ok pr cf s -> period_sane (se_mean_period s) /\ (apc_capacity (aq_config (se_authored s)) <= 2 ^ 32)%N.
Proof.
  intros Hs Hok. pose proof (so_config _ _ _ Hok) as Hc.
  destruct (tp_is_mixnode (se_topology s)).
  - destruct Hc as [-> ->]. by apply sa_mixnode.
  - destruct Hc as (c & Hc & -> & ->). by apply (sa_non_mixnode cf).
Qed.
Lemma no_float_trouble pr cf s :
  exp1_ok (pr_exp1 pr) -> sane cf -> sess_ok pr cf s -> ~ float_trouble pr cf s.
Proof.
  intros Hexp Hs Hok [Hn|[(a & b & Ha & Hb & E)|(q & Hq & E)]].
  - by apply (no_nan pr).
  - apply (sum_within _ _ Hexp) in Ha, Hb.
    destruct (to_duration_ok (cf_mean_forwarding_delay cf) (delay_add a b)) as [t Et];
      [apply Hs|by apply (within_add 50 50)|]. by rewrite Et in E.
  - destruct (sess_sane _ _ _ Hs Hok) as [Hp Hcap]. destruct (sa_mixnode _ Hs) as [Hp' Hcap'].
    unfold estimate_authored_packet_queue_delay in E.
    change (se_mean_period (se_set_authored s q)) with (se_mean_period s) in E.
    change (se_authored (se_set_authored s q)) with q in E.
    destruct (period_ok cf _ Hs Hp) as (p1 & E1 & Hp1). destruct (period_ok cf _ Hs Hp') as (p2 & E2 & Hp2).
    cbv zeta in E. rewrite E1, E2 in E. cbn [out_bind] in E.
    destruct (gamma_ok p1 p2 (aq_len q) (apc_capacity (sc_authored (cf_mixnode_session cf)))) as (t & Et & _); [done|done|lia|done|].
    by rewrite Et in E.
Qed.

(** With a sane configuration a request to an existing mixnode panics only if two SURB ids that it
    draws at random are equal, or one of them is already in use. *)
Theorem C51_no_panic (pr : prims) (Hok : prims_ok pr) cf hist m index dest id data num_surbs ns r :
  exp1_ok (pr_exp1 pr) -> sane cf -> reachable pr cf hist m ->
  args_ok id data num_surbs -> length (ns_local_peer_id ns) = 32%nat ->
  (forall d rel s, dest = Some d -> usable m index rel s -> valid_index (se_topology s) d) ->
  post_request pr m index dest id data num_surbs ns r = Panic ->
  (0 < num_surbs)%N /\ exists n, needs (data_len data) num_surbs n /\
    clash (1 + 196 * n + 244 * N.to_nat num_surbs) (mx_keystore m) r.
Proof.
  intros Hexp Hsane Hreach Hargs Hns Hv H. pose proof (reachable_ok pr Hok cf _ _ Hreach) as Hm.
  destruct Hreach as [Hcf _].
  pose proof (C35_post_request pr Hok m index dest id data num_surbs ns r (mx_posting pr cf m Hcf Hm) Hargs Hns Hv) as Hp.
  rewrite H in Hp. destruct Hp as (rel & s & n & Hu & Hn & Hc).
  destruct Hc as [[H0 Hc]|Hf]; [by split; [|exists n]|]. rewrite (mo_config _ _ _ Hm) in Hf.
  exfalso. eapply no_float_trouble; [done|done| |exact Hf]. eapply mx_ok_full; [done|]. by eapply usable_get.
Qed.
