(** C74, continued: gateways, time estimates and cover of a node with the default configuration. *)
From Coq Require Import Reals Lra.
From Flocq Require Import Core.Core IEEE754.BinarySingleNaN.
From Verif Require Export PDefault PShare.
Local Open Scope nat_scope.

(** ** Specification *)

(** Packets that a node sends per second, in a session which is the only one, and how many of them are loop cover. *)
Definition stock_rate (t : topology) : R := if tp_is_mixnode t then 10%R else 1%R.
Definition stock_part (loop : bool) : R := if loop then (1 / 4)%R else (3 / 4)%R.
(** One second for each unit of delay. *)
Definition seconds_of (d : delay) (t : duration) : Prop := delay_to_duration d 1000000000%N = Val t.

(** ** Proof *)
Lemma quarter secret : f_real (cf_loop_cover_proportion (stock secret)) = (1 / 4)%R.
Proof.
  change (cf_loop_cover_proportion (stock secret)) with (f_lit 1 4).
  assert (H : f_in (/ 4)%R (/ 4)%R (f_lit 1 4)).
  { assert (E : bpow radix2 (-2) = (/ 4)%R) by done. assert (fixed (/ 4)%R) by (rewrite <- E; by apply fixed_bpow).
    apply (in_div _ _ 1 1 4 4)%R; try done; try lra; [by apply (in_of_N 1 1 1)|by apply (in_of_N 4 4 4)]. }
  destruct H as [_ H]. lra.
Qed.

Section stock.
  Context (pr : prims) (Hok : prims_ok pr) (secret : option bytes).

  (** A node that is no mixnode connects to three different mixnodes, or to all of fewer. *)
  Theorem C74_gateways hist m rel s gs :
    reachable pr (stock secret) hist m -> ss_get (mx_sessions m) rel = SlFull s ->
    tp_local_node (se_topology s) = LNonMixnode gs ->
    NoDup gs /\ Forall (valid_index (se_topology s)) gs /\ length gs = min 3 (length (tp_mixnodes (se_topology s))).
  Proof.
    intros Hr Hs Hg. pose proof (reachable_ok pr Hok _ _ _ Hr) as Hm. pose proof (mx_ok_full _ _ _ _ _ Hm Hs) as Hss.
    destruct (so_topology _ _ _ Hss) as [_ Ht]. rewrite Hg in Ht. destruct Ht as [Hnd Hv].
    split; [done|]. split; [done|]. pose proof (so_gateways _ _ _ Hss gs Hg) as Hn.
    change (cf_num_gateway_mixnodes (stock secret)) with 3%N in Hn. lia.
  Qed.

  (** The estimate for a request: six hops of 300 ms each way, the delays with a mean of a second per hop, and the
      time in the queue of packets and in handling the request. *)
  Theorem C74_estimate hist m index dest id data k ns r m' dest' mt :
    let c := CallPostRequest index dest id data k ns r in
    exp1_ok (pr_exp1 pr) -> reachable pr (stock secret) hist m -> call_ok c ->
    exec pr m c = Val (m', RespPost dest' (Ok mt)) ->
    exists rel s (packets : list (addressed_packet * delay)) (replies : list ((bytes * surb_value) * delay)) d d',
      PPost.queued m rel s (map fst packets) (map fst replies) m' /\ N.of_nat (length replies) = k /\
      Forall (fun x => request_leg pr x.1 6 x.2) packets /\ Forall (fun x => reply_leg pr x.1 6 x.2) replies /\
      d ∈ map snd packets /\ (d' ∈ map snd replies \/ k = 0%N /\ d' = f_zero) /\
      seconds_of (delay_add d d') (rqm_forwarding_delay mt) /\
      Forall (fun x => exists t, seconds_of x.2 t /\ (t <= rqm_forwarding_delay mt)%N) packets /\
      Forall (fun x => Forall (fun y => exists t, seconds_of (delay_add x.2 y.2) t /\ (t <= rqm_forwarding_delay mt)%N) replies)
        packets /\
      forall handling t, estimate_rtt mt handling = Val t ->
        t = ((if decide (k = 0) then 1800000000 else 3600000000) + rqm_forwarding_delay mt +
             rqm_authored_packet_queue_delay mt + handling)%N.
  Proof.
    intros c He Hr Hc E. pose proof (reachable_ok pr Hok _ _ _ Hr) as Hm.
    destruct (C51_metrics pr Hok He (stock secret) (proj1 Hr) (stock_sane secret) m index dest id data k ns r m' dest' mt Hm Hc E)
      as (rel & s & packets & replies & _ & Hq & Hk & Hp & Hl & Hcov & (n & n' & Hn & Hn' & Hnh) & (d & d' & Hd & Hd' & Ed) & Enet).
    change (cf_per_hop_net_delay (stock secret)) with 300000000%N in Enet.
    change (cf_mean_forwarding_delay (stock secret)) with 1000000000%N in Ed.
    assert (Hsix : forall n, hops_ok (stock secret) n -> n = 6).
    { intros j [H1 H2]. change (cf_num_hops (stock secret)) with 6 in H1. lia. }
    exists rel, s, (map (fun x => (x.1.1, x.2)) packets), (map (fun x => (x.1.1, x.2)) replies), d, d'.
    rewrite !map_map, map_length. cbn [fst snd]. split; [exact Hq|]. split; [exact Hk|]. rewrite !Forall_map.
    split; [|split; [|split; [done|split; [|split; [exact Ed|split; [|split]]]]]].
    - eapply Forall_impl; [exact Hp|]. intros [[p j] dl] [Hj Hleg]. apply Hsix in Hj as ->. exact Hleg.
    - eapply Forall_impl; [exact Hl|]. intros [[p j] dl] [Hj Hleg]. apply Hsix in Hj as ->. exact Hleg.
    - destruct Hd' as [Hd'|[-> ->]]; [by left|right]. by rewrite <- Hk.
    - eapply Forall_impl; [exact Hcov|]. intros [[p j] dl] [[_ (t & Et & Ht)] _]. exists t. by split.
    - eapply Forall_impl; [exact Hcov|]. intros [[p j] dl] [_ Hall]. apply Forall_map. cbn.
      eapply Forall_impl; [exact Hall|]. intros [[p' j'] dl'] [_ (t & Et & Ht)]. exists t. by split.
    - intros handling t Et.
      assert (Hn6 : n = 6).
      { apply elem_of_list_fmap in Hn as ([[p j] dl] & -> & Hin). rewrite Forall_forall in Hp.
        destruct (Hp _ Hin) as [Hj _]. by apply Hsix. }
      assert (Hn6' : n' = if decide (k = 0%N) then 0 else 6).
      { destruct Hn' as [Hn'|[-> ->]]; [|by rewrite <- Hk].
        apply elem_of_list_fmap in Hn' as ([[p j] dl] & -> & Hin). rewrite Forall_forall in Hl.
        destruct (Hl _ Hin) as [Hj _]. rewrite decide_False; [by apply Hsix|].
        intros E0. rewrite E0 in Hk. destruct replies; [by apply elem_of_nil in Hin|]. cbn in Hk. lia. }
      rewrite Hn6, Hn6' in Hnh.
      rewrite (C51_rtt mt handling t); [|rewrite Hnh; by destruct (decide _)|exact Et].
      rewrite Enet, Hnh. destruct (decide _); lia.
  Qed.

  (** A node with a session sends a packet each time it is asked for one, unless there is no route. *)
  Theorem C74_cover hist m ns r m' :
    reachable pr (stock secret) hist m -> call_ok (CallPopAuthored ns r) ->
    (exists rel s, ss_get (mx_sessions m) rel = SlFull s) ->
    exec pr m (CallPopAuthored ns r) = Val (m', RespPacket None) ->
    exists rel s loop, ss_get (mx_sessions m) rel = SlFull s /\ cover_impossible (stock secret) s ns loop.
  Proof.
    intros Hr Hc (rel0 & s0 & Hs0) E. pose proof (reachable_ok pr Hok _ _ _ Hr) as Hm.
    destruct (C39_pop pr Hok (stock secret) (proj1 Hr) m ns r m' None Hm Hc E)
      as [(Hno & _)|(rel & s & r1 & loop & r2 & _ & Hs & _ & H)]; [by destruct (Hno rel0 s0)|].
    assert (Hcov : forall loop, sends_cover pr (stock secret) s ns loop None -> cover_impossible (stock secret) s ns loop).
    { intros l [Hx|Hx]; [done|exact Hx]. }
    exists rel, s.
    destruct loop, (aq_queue (se_authored s)) as [|q rest].
    - exists true. split; [done|]. apply Hcov, H.
    - exists true. split; [done|]. apply Hcov, H.
    - exists false. split; [done|]. apply Hcov, H.
    - exists false. split; [done|]. destruct (decide _); [by destruct H|]. apply Hcov, H.
  Qed.

  (** Ten packets a second from a mixnode and one from another node, or half as many while there are two sessions; a
      quarter of them is loop cover. *)
  Theorem C74_sent hist m :
    reachable pr (stock secret) hist m -> (exists rel s, ss_get (mx_sessions m) rel = SlFull s) ->
    exists T P, (T <= 2 ^ 64)%N /\ (P <= 2 ^ 64)%N /\
      (forall ns r, length (ns_local_peer_id ns) = 32 ->
        exists rel s r' m' p,
          ss_get (mx_sessions m) rel = SlFull s /\
          is_current rel = first_of T ((rng_draw r).1 mod 2 ^ 64) /\
          (r' = (rng_draw r).2 \/ r' = r /\ (T = 0%N \/ T = (2 ^ 64)%N)) /\
          exec pr m (CallPopAuthored ns r) = Val (m', RespPacket p) /\
          dispatched pr (stock secret) m ns rel s (first_of P ((rng_draw r').1 mod 2 ^ 64)) p) /\
      forall rel s mean loop, ss_get (mx_sessions m) rel = SlFull s -> mean_spec m mean ->
        (0 < mean /\
         Rabs (share T (is_current rel) * share P loop / mean - pace m * stock_rate (se_topology s) * stock_part loop) <=
           / mean * / IZR (2 ^ 47))%R.
  Proof.
    intros Hr Hex. destruct (C82_rates pr Hok (stock secret) hist m (stock_sane secret) Hr Hex) as (T & P & HT & HP & H1 & H2).
    exists T, P. split; [done|]. split; [done|]. split; [exact H1|].
    intros rel s mean loop Hs Hmean. destruct (H2 rel s mean loop Hs Hmean) as [Hpos H]. split; [done|].
    rewrite quarter in H.
    assert (E1 : (/ secs (se_mean_period s))%R = stock_rate (se_topology s)).
    { pose proof (C74_rates pr Hok secret hist m rel s Hr Hs) as Hrates. unfold stock_rate.
      destruct (tp_is_mixnode _); destruct Hrates as [-> _]; unfold secs, GIGA; cbn; lra. }
    assert (E2 : (if loop then (1 / 4)%R else (1 - 1 / 4)%R) = stock_part loop).
    { unfold stock_part. destruct loop; lra. }
    rewrite E1, E2 in H. exact H.
  Qed.
End stock.

Print Assumptions C74_gateways.
Print Assumptions C74_estimate.
Print Assumptions C74_cover.
Print Assumptions C74_sent.
