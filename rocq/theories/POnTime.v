(** C69: if everything takes at most as long as assumed, a reply comes within the estimated time. *)
From Coq Require Import Reals.
From Verif Require Export PTiming.
From Verif Require Import LBase.
Local Open Scope N_scope.

(** ** Specification *)

(** A history with the time at which each thing happened. *)
Record timed := Timed { tm_at : instant; tm_moment : moment }.
Definition moments (tr : list timed) : list moment := map tm_moment tr.
(** The clock starts at [T] and does not go back, and the nodes read it when they handle packets. *)
Record clocked (T : instant) (tr : list timed) : Prop := {
  ck_start : forall a, a ∈ tr -> T <= tm_at a;
  ck_order : forall i j a b, tr !! i = Some a -> tr !! j = Some b -> (i <= j)%nat -> tm_at a <= tm_at b;
  ck_read : forall a b p now msg, a ∈ tr -> mt_event (tm_moment a) = EvHandle b p now msg -> now = tm_at a
}.
(** The packets of the trips wait in the authored packet queue of node [x] for at most [q] from [T] on, and
    are handled by the nodes they are sent to at most [n] after they have been dispatched by [x] or become
    due for being forwarded. *)
Record punctual (T : instant) (n q : duration) (x : bytes) (trips : list (list stage)) (tr : list timed) : Prop := {
  pu_queue : forall trip g, trip ∈ trips -> head trip = Some g ->
    exists a c, a ∈ tr /\ mt_event (tm_moment a) = EvCall x c (RespPacket (Some (sg_to g))) /\ tm_at a <= T + q;
  pu_first : forall trip g a c, trip ∈ trips -> head trip = Some g ->
    a ∈ tr -> mt_event (tm_moment a) = EvCall x c (RespPacket (Some (sg_to g))) ->
    exists b, b ∈ tr /\ handles (tm_moment b) (sg_to g) /\ tm_at b <= tm_at a + n;
  pu_next : forall trip g a z deadline, trip ∈ trips -> g ∈ trip -> a ∈ tr ->
    ForwardPacket deadline (sg_to g) ∈ fq_queue (mx_forward (w_node (mt_after (tm_moment a)) z)) ->
    exists b, b ∈ tr /\ handles (tm_moment b) (sg_to g) /\ tm_at b <= deadline + n
}.
(** The node keeps what it has of message [id] as asked for in [yields]. *)
Definition receives (trips : list (list stage)) (y id : bytes) (w : world) (tr : list timed) : Prop :=
  N.of_nat (length trips) <= cf_max_fragments_per_message (mx_config (w_node w y)) /\
  held_for id (w_node w y) = None /\ undisturbed id y (omap last_packet trips) (moments tr).
(** The message is returned to the application of node [y]. *)
Definition returned (y : bytes) (msg : message) (a : timed) : Prop :=
  exists b p now, mt_event (tm_moment a) = EvHandle b p now (Some msg) /\ ap_peer_id p = y.

(** The packets of request [id] (see C40 and C41) have been put into the queue of node [x] in world [w1], at
    time [T]. If they are conveyed with at most [n] per hop, then the recipient gets the request; and if then
    somebody posts a reply with some of its SURBs within time [h], the packets of which are conveyed likewise,
    and the packets of both do not wait in the queues for longer than [q] together, then node [x] returns
    the reply to the application, at a time that satisfies [P]. *)
Definition answered_by (pr : prims) index id (data : bytes) nodes key me x surbs entries y trips w1
    (T h n q : duration) (P : instant -> Prop) : Prop :=
  forall tr w2 q1,
    conveyed pr nodes index (ready_request pr nodes index) trips x w1 (moments tr) w2 ->
    receives trips y id w1 tr -> clocked T tr -> punctual T n q1 x trips tr ->
    exists a, a ∈ tr /\ returned y (MRequest (RequestMessage index id data surbs)) a /\
    forall y2 rsurbs left rid rdata rel2 s2 w3 T2,
      happens pr w2 (EvCall y2 (CallPostReply rsurbs index rid rdata) (RespReply left (Ok tt))) w3 ->
      usable (w_node w2 y2) index rel2 s2 -> tp_mixnodes (se_topology s2) = nodes ->
      Forall (fun u => u ∈ surbs) rsurbs -> T2 <= tm_at a + h ->
      exists rtrips used,
        reply_queued pr index id nodes key me x surbs entries w2 y2 rsurbs left rid rdata rel2 w3 rtrips used /\
        forall tr' w4 q2,
          conveyed pr nodes index (ready_reply pr nodes index (map snd used)) rtrips y2 w3 (moments tr') w4 ->
          receives rtrips x rid w3 tr' -> clocked T2 tr' -> punctual T2 n q2 y2 rtrips tr' -> q1 + q2 <= q ->
          exists b, b ∈ tr' /\ returned x (MReply (ReplyMessage id (sc_contents rdata))) b /\ P (tm_at b).

(** ** Proof *)
Definition first_time (tr : list timed) (a : timed) (p : addressed_packet) : Prop :=
  exists tr1 tr2, tr = tr1 ++ a :: tr2 /\ handles (tm_moment a) p /\ forall b, b ∈ tr1 -> ~ handles (tm_moment b) p.
Lemma first_time_at tr a p : first_time tr a p -> first_at (moments tr) (tm_moment a) p.
Proof.
  intros (t1 & t2 & -> & H1 & H2). exists (moments t1), (moments t2). unfold moments. rewrite map_app. cbn [map].
  split_and!; try done. intros mt Hin. apply elem_of_list_fmap_2 in Hin as (b & -> & Hb). by apply H2.
Qed.
Lemma first_time_unique tr p a b : first_time tr a p -> first_time tr b p -> a = b.
Proof.
  intros (t1 & t2 & -> & H1 & H2) (t3 & t4 & E & H3 & H4).
  destruct (Nat.lt_trichotomy (length t1) (length t3)) as [Hlt|[Heq|Hlt]].
  - exfalso. apply (H4 a); [|done]. apply elem_of_list_lookup. exists (length t1).
    assert (Hx : (t1 ++ a :: t2) !! length t1 = Some a) by (by apply list_lookup_middle).
    rewrite E in Hx. by rewrite lookup_app_l in Hx.
  - apply app_inj_1 in E as [_ [= -> _]]; done.
  - exfalso. apply (H2 b); [|done]. apply elem_of_list_lookup. exists (length t3).
    assert (Hx : (t3 ++ b :: t4) !! length t3 = Some b) by (by apply list_lookup_middle).
    rewrite <- E in Hx. by rewrite lookup_app_l in Hx.
Qed.
Lemma first_before T tr b p :
  clocked T tr -> b ∈ tr -> handles (tm_moment b) p -> exists a, a ∈ tr /\ first_time tr a p /\ tm_at a <= tm_at b.
Proof.
  intros Hc [j Hj]%elem_of_list_lookup Hb.
  destruct (list_find (fun a => handles (tm_moment a) p) tr) as [[i a]|] eqn:E.
  - apply list_find_Some in E as (Hi & Ha & Hf). exists a. split; [by eapply elem_of_list_lookup_2|]. split.
    + exists (take i tr), (drop (S i) tr). split_and!; [symmetry; by apply take_drop_middle|done|].
      intros c [k Hk]%elem_of_list_lookup. apply lookup_take_Some in Hk as [Hk Hlt]. by eapply Hf.
    + destruct (decide (i <= j)%nat) as [Hle|Hgt]; [by eapply (ck_order _ _ Hc)|]. exfalso. eapply Hf; [exact Hj|lia|done].
  - apply list_find_None in E. rewrite Forall_lookup in E. by destruct (E j b Hj).
Qed.
Lemma arrivals_first tr : forall ps p msg,
  (p, msg) ∈ arrivals ps (moments tr) ->
  p ∈ ps /\ exists a b now, a ∈ tr /\ first_time tr a p /\ mt_event (tm_moment a) = EvHandle b p now msg.
Proof.
  induction tr as [|a tr IH]; intros ps p msg Hin; cbn [moments map arrivals] in Hin; [by apply elem_of_nil in Hin|].
  assert (Hlater : forall ps', (forall q, q ∈ ps' -> q ∈ ps /\ ~ handles (tm_moment a) q) ->
    (p, msg) ∈ arrivals ps' (moments tr) ->
    p ∈ ps /\ exists a0 b now, a0 ∈ a :: tr /\ first_time (a :: tr) a0 p /\ mt_event (tm_moment a0) = EvHandle b p now msg).
  { intros ps' Hps Hp. destruct (IH ps' p msg Hp) as (H1 & a0 & b & now & H2 & (t1 & t2 & -> & H3 & H4) & H5).
    destruct (Hps _ H1) as [H6 H7]. split; [done|]. exists a0, b, now. split; [by right|]. split; [|done].
    exists (a :: t1), t2. split_and!; try done. intros b0 [->|Hb]%elem_of_cons; [done|by apply H4]. }
  destruct (handled_of ps (tm_moment a)) as [[p0 msg0]|] eqn:E.
  - pose proof E as (Hp0 & b & now & Ee)%handled_of_Some. apply elem_of_cons in Hin as [[= -> ->]|Hin].
    + split; [done|]. exists a, b, now. split; [by left|]. split; [|done]. exists [], tr.
      split_and!; [done|by exists b, now, msg0|]. by intros ? ?%elem_of_nil.
    + apply (Hlater (without p0 ps)); [|exact Hin]. intros q [Hne Hq]%elem_of_without. split; [done|].
      intros (? & ? & ? & E'). congruence.
  - apply (Hlater ps); [|exact Hin]. intros q Hq. split; [done|]. by eapply handled_of_None.
Qed.
Lemma last_in_omap (trips : list (list stage)) p : p ∈ omap last_packet trips -> exists trip g, trip ∈ trips /\ list.last trip = Some g /\ sg_to g = p.
Proof.
  intros (trip & Hin & Hp)%elem_of_list_omap. exists trip. unfold last_packet in Hp.
  destruct (list.last trip) as [g|]; [|done]. injection Hp as <-. by exists g.
Qed.

Section ontime.
  Context (pr : prims) (Hok : prims_ok pr).

  Lemma history_config w tr w' x :
    world_ok pr w -> history pr w tr w' -> mx_config (w_node w' x) = mx_config (w_node w x).
  Proof.
    intros Hw Hh. destruct (Hw x) as (cf & hist & Hr).
    destruct (history_reachable pr w tr w' cf hist x Hh Hr) as (hist' & Hr').
    destruct (reachable_mx_ok pr Hok _ _ _ Hr) as [_ Hm]. destruct (reachable_mx_ok pr Hok _ _ _ Hr') as [_ Hm'].
    by rewrite (mo_config _ _ _ Hm), (mo_config _ _ _ Hm').
  Qed.

  Lemma happens_config w e w' z : world_ok pr w -> happens pr w e w' -> mx_config (w_node w' z) = mx_config (w_node w z).
  Proof. intros Hw H. apply (history_config w [Moment w e w'] w' z Hw). econstructor; [exact H|constructor]. Qed.

  (** When the packets of a trip arrive. *)
  Lemma on_time nodes index ready trips x w tr w' key t (u n q T : N) trip hs :
    world_ok pr w -> conveyed pr nodes index ready trips x w (moments tr) w' ->
    clocked T tr -> punctual T n q x trips tr ->
    (forall mn, mn ∈ nodes -> cf_mean_forwarding_delay (mx_config (w_node w (mn_peer_id mn))) = u) ->
    trip ∈ trips -> trip_to pr nodes index key t trip ->
    length trip = S (length hs) ->
    (forall j h g g', hs !! j = Some h -> trip !! j = Some g -> trip !! S j = Some g' -> waits pr nodes index u h g g') ->
    forall j g, trip !! j = Some g ->
      exists a, a ∈ tr /\ first_time tr a (sg_to g) /\ tm_at a <= T + q + N.of_nat (S j) * n + sum (take j hs).
  Proof.
    intros Hw Hcv Hck Hpu Hu Hin (Hlink & Hlen & is & Hstops) Hhs Hwaits j. induction j as [|j IH]; intros g Hj.
    - assert (Hhd : head trip = Some g) by (destruct trip; done).
      destruct (pu_queue _ _ _ _ _ _ Hpu trip g Hin Hhd) as (a & c & Ha & Ea & Ta).
      destruct (pu_first _ _ _ _ _ _ Hpu trip g a c Hin Hhd Ha Ea) as (b & Hb & Hhb & Tb).
      destruct (first_before _ _ _ _ Hck Hb Hhb) as (a0 & H1 & H2 & H3). exists a0. split; [done|]. split; [done|].
      cbn [take sum foldr]. unfold sum. cbn [foldr]. lia.
    - assert (Hlt : (S j < length trip)%nat) by (by eapply lookup_lt_Some).
      destruct (lookup_lt_is_Some_2 trip j) as [g1 Hg1]; [lia|].
      destruct (lookup_lt_is_Some_2 hs j) as [h Hh]; [lia|].
      destruct (IH g1 Hg1) as (a & Ha & Hfa & Ta). pose proof (first_time_at _ _ _ Hfa) as Hfirst.
      pose proof (ca_forward _ _ _ _ _ _ _ _ _ Hcv _ _ _ _ Hin Hg1 Hlt Hfirst) as Hcan.
      pose proof (ca_history _ _ _ _ _ _ _ _ _ Hcv) as Hhist.
      destruct Hfirst as (tr1 & tr2 & Etr & (b & now & msg & Ee) & _). rewrite Etr in Hhist.
      destruct (history_split pr _ _ _ _ _ Hhist) as (Hh1 & Hhap & _). rewrite Ee in Hhap.
      pose proof (ck_read _ _ Hck _ _ _ _ _ Ha Ee) as ->.
      destruct (happens_call _ _ _ _ Hhap) as (z & c & r & m & _ & Hex & En & -> & -> & -> & _).
      cbn [exec] in Hex. apply out_bind_Val in Hex as ([m1 msg1] & Hh2 & [= -> ->]).
      assert (Hcf : cf_mean_forwarding_delay (mx_config (w_node (mt_before (tm_moment a)) (ap_peer_id (sg_to g1)))) = u).
      { rewrite (history_config _ _ _ _ Hw Hh1). destruct (Forall2_lookup_r _ _ _ _ _ Hstops Hg1) as (t1 & Ht1 & Ha1 & _).
        assert (Hl : length trip = S (length is)) by (rewrite <- (Forall2_length _ _ _ Hstops), app_length, map_length; cbn; lia).
        rewrite lookup_app_l in Ht1 by (rewrite map_length; lia). rewrite list_lookup_fmap in Ht1.
        destruct (is !! j) as [i|]; [|done]. injection Ht1 as <-. cbn in Ha1.
        destruct (nodes !! N.to_nat i) as [mn|] eqn:Emn; [|done]. injection Ha1 as <-. apply Hu. by eapply elem_of_list_lookup_2. }
      pose proof (Hwaits j h g1 g Hh Hg1 Hj _ _ _ _ Hcan Hcf Hh2) as Eq.
      destruct (pu_next _ _ _ _ _ _ Hpu trip g a (ap_peer_id (sg_to g1)) (tm_at a + h) Hin) as (b1 & Hb1 & Hhb1 & Tb1).
      + by eapply elem_of_list_lookup_2.
      + done.
      + rewrite En, with_node_same, Eq. apply elem_of_app. right. by left.
      + destruct (first_before _ _ _ _ Hck Hb1 Hhb1) as (a0 & H1 & H2 & H3). exists a0. split; [done|]. split; [done|].
        rewrite (take_S_r _ _ _ Hh), sum_app. unfold sum at 2. cbn [foldr]. lia.
  Qed.

  (** When the message is returned. *)
  Lemma message_on_time nodes index ready trips x y id msg w tr w' key t (u n q T : N) dss :
    world_ok pr w -> yields pr nodes index ready trips x y id msg w ->
    conveyed pr nodes index ready trips x w (moments tr) w' -> receives trips y id w tr ->
    clocked T tr -> punctual T n q x trips tr ->
    (forall mn, mn ∈ nodes -> cf_mean_forwarding_delay (mx_config (w_node w (mn_peer_id mn))) = u) ->
    Forall (trip_to pr nodes index key t) trips -> addr_of nodes t = Some y ->
    Forall2 (fun ds trip => (exists hs, Forall2 (fun d h => delay_to_duration d u = Val h) ds hs) /\
               delayed pr nodes index ds trip) dss trips ->
    exists a, a ∈ tr /\ returned y msg a /\
      exists ds hs, ds ∈ dss /\ Forall2 (fun d h => delay_to_duration d u = Val h) ds hs /\
        tm_at a <= T + q + N.of_nat (S (length ds)) * n + sum hs.
  Proof.
    intros Hw Hy Hcv (Hr1 & Hr2 & Hr3) Hck Hpu Hu Htrips Haddr Hdss.
    destruct (Hy _ _ Hcv Hr1 Hr2 Hr3) as [_ Hmsgs].
    assert (Hlast : Some msg ∈ map snd (arrivals (omap last_packet trips) (moments tr))).
    { rewrite Hmsgs. apply elem_of_app. right. by left. }
    apply elem_of_list_fmap_2 in Hlast as ([p m] & Em & Hp). cbn in Em. subst m.
    apply arrivals_first in Hp as (Hp & a & b & now & Ha & Hfa & Ee).
    destruct (last_in_omap _ _ Hp) as (trip & g & Hin & Hg & <-). exists a. split; [done|].
    assert (Htrip : trip_to pr nodes index key t trip) by (rewrite Forall_forall in Htrips; by apply Htrips).
    split.
    { exists b, (sg_to g), now. split; [done|]. destruct Htrip as (_ & _ & is & Hst). rewrite last_lookup in Hg.
      destruct (Forall2_lookup_r _ _ _ _ _ Hst Hg) as (t' & Ht' & Hat & _).
      rewrite <- (Forall2_length _ _ _ Hst), <- last_lookup, last_snoc in Ht'. injection Ht' as <-. congruence. }
    apply elem_of_list_lookup in Hin as [i Hi]. destruct (Forall2_lookup_r _ _ _ _ _ Hdss Hi) as (ds & Hds & (hs & Hhs) & Hdel).
    exists ds, hs. split; [by eapply elem_of_list_lookup_2|]. split; [done|].
    assert (Hlen : length trip = S (length hs)) by (rewrite <- (Forall2_length _ _ _ Hhs); apply Hdel).
    assert (Hwt : forall j h g g', hs !! j = Some h -> trip !! j = Some g -> trip !! S j = Some g' -> waits pr nodes index u h g g').
    { intros j h g0 g1 Hh Hg0 Hg1 m now0 m' msg0 Hm Hu0 H. destruct Hdel as [_ Hd].
      destruct (Forall2_lookup_r _ _ _ _ _ Hhs Hh) as (d & Hdj & Ed).
      destruct (Hd j d g0 g1 Hdj Hg0 Hg1 m now0 m' msg0 Hm H) as (h' & Eh & Eq). rewrite Hu0, Ed in Eh. by injection Eh as <-. }
    rewrite last_lookup, Hlen in Hg. cbn [pred] in Hg.
    destruct (on_time nodes index ready trips x w tr w' key t u n q T trip hs Hw Hcv Hck Hpu Hu
                ltac:(by eapply elem_of_list_lookup_2) Htrip Hlen Hwt (length hs) g Hg) as (a0 & _ & Hf0 & Ta).
    rewrite (first_time_unique _ _ _ _ Hfa Hf0). rewrite firstn_all in Ta.
    by rewrite <- (Forall2_length _ _ _ Hhs) in Ta at 1.
  Qed.

  Context (Hexp : exp1_ok (pr_exp1 pr)).

  (** C69: the round trip takes at most the estimated time, up to rounding, if each packet of the request and
      of the reply takes at most [rqm_per_hop_net_delay] per hop, those of the request wait at most [q1] and
      those of the reply at most [q2] for being dispatched, together no longer than assumed, the recipient
      takes at most [h] to reply, and all mixnodes use the same mean forwarding delay. *)
  Theorem C69_on_time w x index dest id data k ns r d mt w1 rel s key h rtt T :
    world_ok pr w ->
    happens pr w (EvCall x (CallPostRequest index dest id data k ns r) (RespPost (Some d) (Ok mt))) w1 ->
    usable (w_node w x) index rel s -> honest pr (se_topology s) key ->
    let nodes := tp_mixnodes (se_topology s) in
    let me := self (se_topology s) ns in
    let u := cf_mean_forwarding_delay (mx_config (w_node w x)) in
    let n := rqm_per_hop_net_delay mt in
    u <= 2 ^ 50 * NANOS_PER_SEC ->
    (forall mn, mn ∈ nodes -> cf_mean_forwarding_delay (mx_config (w_node w (mn_peer_id mn))) = u) ->
    addr_of nodes me = Some x ->
    estimate_rtt mt h = Val rtt ->
    exists y trips surbs entries,
      request_sent pr w x index id data k rel nodes key d w1 y trips surbs /\
      mx_keystore (w_node w1 x) = ks_pushes (mx_keystore (w_node w x)) entries /\
      length entries = length surbs /\
      answered_by pr index id (sc_contents data) nodes key me x surbs entries y trips w1
        T h n (rqm_authored_packet_queue_delay mt) (fun b => within_reach (b - T) rtt).
  Proof.
    intros Hw Hhap Hus Hhon nodes me u n Hu Hall Hself Hrtt.
    destruct (round_trip pr Hok _ _ _ _ _ _ _ _ _ _ _ _ _ _ _ Hw Hhap Hus Hhon)
      as (_ & y & trips & surbs & entries & dqs & dls & [H1 _] & H2 & Hle & Htl & Hreply). fold nodes me in H1, Htl, Hreply. fold u in Htl.
    destruct Htl as (Hq & Hl & Hhops & dq & dl & Mq & Ml & HT).
    exists y, trips, surbs, entries. split; [done|]. split; [done|]. split; [done|]. intros tr w2 q1 Hcv Hrc Hck Hpu.
    assert (Wq : Forall (hop_delays pr) dqs) by (clear -Hq; induction Hq as [|?? ?? [? _] _ IH]; by constructor).
    assert (Wl : Forall (hop_delays pr) dls) by (clear -Hl; induction Hl as [|????? ? [? _] _ IH]; by constructor).
    assert (Hdur : forall ds, hop_delays pr ds -> exists hs, Forall2 (fun d h => delay_to_duration d u = Val h) ds hs).
    { intros ds Hds. apply (durations u ds Hu). by apply (hop_within pr Hexp). }
    assert (Hw1 : world_ok pr w1) by (by eapply happens_ok).
    assert (Hconf : forall z, mx_config (w_node w1 z) = mx_config (w_node w z)).
    { intros z. by eapply happens_config. }
    pose proof H1 as (Hy & _ & _ & _ & _ & Htrips & Hyields).
    destruct (message_on_time _ _ _ _ _ _ _ _ _ _ _ key (TMixnodeIndex d) u n q1 T dqs Hw1 Hyields Hcv Hrc Hck Hpu)
      as (a & Ha & Hret & ds & hs & Hds & Hhs & Ta).
    { intros mn Hmn. rewrite Hconf. by apply Hall. }
    { done. } { done. }
    { clear -Hq Hdur. induction Hq as [|?? ?? [? ?] _ IH]; constructor; [|done]. split; [by apply Hdur|done]. }
    exists a. split; [done|]. split; [done|]. intros y2 rsurbs left rid rdata rel2 s2 w3 T2 Hhap2 Hus2 Hn2 Hin HT2.
    pose proof (ca_history _ _ _ _ _ _ _ _ _ Hcv) as Hh12.
    assert (Hw2 : world_ok pr w2) by (by eapply history_ok). assert (Hw3 : world_ok pr w3) by (by eapply happens_ok).
    destruct (Hreply w2 y2 rsurbs left rid rdata rel2 s2 w3 Hw2 Hhap2 Hus2 Hn2 Hin Hself) as (rtrips & used & [Hrq _] & Hused).
    exists rtrips, used. split; [done|]. intros tr' w4 q2 Hcv' Hrc' Hck' Hpu' Hqq.
    assert (Hconf3 : forall z, mx_config (w_node w3 z) = mx_config (w_node w z)).
    { intros z. rewrite (happens_config _ _ _ z Hw2 Hhap2), (history_config w1 _ w2 z Hw1 Hh12). done. }
    pose proof Hrq as (_ & _ & _ & _ & _ & _ & Hrt & Hry).
    assert (Hlegs : exists rds, Forall (fun ds => ds ∈ dls) rds /\ Forall2 (delayed pr nodes index) rds rtrips).
    { clear -Hused. induction Hused as [|ue trip used rtrips (j & ds & _ & Hds & Hdel) _ (rds & I1 & I2)]; [by exists []|].
      exists (ds :: rds). split; constructor; try done. by eapply elem_of_list_lookup_2. }
    destruct Hlegs as (rds & Hrds & Hrdel).
    destruct (message_on_time _ _ _ _ _ _ _ _ _ _ _ key me u n q2 T2 rds Hw3 Hry Hcv' Hrc' Hck' Hpu')
      as (b & Hb & Hret' & ds' & hs' & Hds' & Hhs' & Tb).
    { intros mn Hmn. rewrite Hconf3. by apply Hall. }
    { done. } { done. }
    { rewrite Forall_forall in Wl. clear -Hrds Hrdel Hdur Wl. induction Hrdel as [|ds trip rds rtrips Hd _ IH]; constructor.
      - apply Forall_cons in Hrds as [Hin _]. split; [|done]. by apply Hdur, Wl.
      - apply IH. by apply Forall_cons in Hrds as [_ ?]. }
    exists b. split; [done|]. split; [done|].
    rewrite Forall_forall in Hrds. apply Hrds in Hds'.
    pose proof (legs_bound pr Hexp dqs dls dq dl u _ Hu Wq Wl Mq Ml HT ds hs ds' hs' Hds Hds' Hhs Hhs') as Hreach.
    destruct (max_nat_spec (map (S ∘ length) dqs) 0) as (_ & Nq & Aq).
    destruct (max_nat_spec (map (S ∘ length) dls) 0) as (_ & Nl & Al).
    set (hq := max_nat 0 (map (S ∘ length) dqs)) in *. set (hl := max_nat 0 (map (S ∘ length) dls)) in *.
    rewrite Forall_map, Forall_forall in Nq, Nl. specialize (Nq _ Hds). specialize (Nl _ Hds'). cbn in Nq, Nl.
    assert (Hbound : forall dss m, Forall (hop_delays pr) dss -> m = 0%nat \/ m ∈ map (S ∘ length) dss -> (m <= 6)%nat).
    { intros dss m Hdss [->|Hm]; [lia|]. apply elem_of_list_fmap in Hm as (l & -> & Hm).
      rewrite Forall_forall in Hdss. destruct (Hdss _ Hm) as [? _]. cbn. lia. }
    pose proof (Hbound _ _ Wq Aq) as Bq. pose proof (Hbound _ _ Wl Al) as Bl.
    unfold estimate_rtt, dur_mul, dur_add in Hrtt. rewrite N.mod_small in Hrtt by (rewrite Hhops; lia). fold n in Hrtt.
    apply out_bind_Val in Hrtt as (net & Enet & Hrtt). apply out_bind_Val in Hrtt as (f1 & Ef1 & Hrtt).
    apply out_bind_Val in Hrtt as (f2 & Ef2 & Ef3).
    destruct (_ <? _) in Enet; [|done]. injection Enet as <-. destruct (_ <? _) in Ef1; [|done]. injection Ef1 as <-.
    destruct (_ <? _) in Ef2; [|done]. injection Ef2 as <-. destruct (_ <? _) in Ef3; [|done]. injection Ef3 as <-.
    rewrite Hhops.
    assert (Hnet : N.of_nat (S (length ds)) * n + N.of_nat (S (length ds')) * n <= n * N.of_nat (hq + hl)).
    { rewrite <- N.mul_add_distr_r, N.mul_comm. apply N.mul_le_mono_l. lia. }
    unfold within_reach in *. lia.
  Qed.
End ontime.
