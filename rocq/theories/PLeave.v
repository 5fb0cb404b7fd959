(** C75: a queued packet leaves in its turn. *)
From Verif Require Export PEnd.

(** ** Specification *)

(** The session in slot [rel] has a turn: a packet is to be sent, this session is chosen for it, the
    packet is not to be a loop cover packet, and the phase allows requests and replies in the session. *)
Definition turn (m : mixnet) (rel : rel_session_index) (c : call) : Prop :=
  match c with
  | CallPopAuthored _ r =>
      (exists s r1 r2, pick_session m r = Val (Some (rel, s), r1) /\
         gen_bool (cf_loop_cover_proportion (mx_config m)) r1 = Val (false, r2)) /\
      phase_allows (st_phase (mx_status m)) rel
  | _ => False
  end.
(** The session in slot [rel] of [m] is kept during [hist], ends up in slot [rel'] of [m'], and has [n]
    turns. *)
Inductive takes_turns (pr : prims) :
    mixnet -> rel_session_index -> list (call * resp) -> mixnet -> rel_session_index -> nat -> Prop :=
| TtNil m rel : takes_turns pr m rel [] m rel 0
| TtTurn m rel c a m1 hist m2 rel2 n :
    call_ok c -> exec pr m c = Val (m1, a) -> turn m rel c ->
    takes_turns pr m1 rel hist m2 rel2 n -> takes_turns pr m rel ((c, a) :: hist) m2 rel2 (S n)
| TtOther m rel c a m1 rel1 hist m2 rel2 n :
    call_ok c -> exec pr m c = Val (m1, a) -> ~ turn m rel c -> carried m c rel rel1 ->
    takes_turns pr m1 rel1 hist m2 rel2 n -> takes_turns pr m rel ((c, a) :: hist) m2 rel2 n.

(** The calls of node [x] in a history of a network. *)
Definition call_at (x : bytes) (e : event) : option (call * resp) :=
  match e with
  | EvCall y c a => if decide (y = x) then Some (c, a) else None
  | EvHandle _ p now msg =>
      if decide (ap_peer_id p = x) then Some (CallHandle (ap_packet p) now, RespMessage msg) else None
  end.
Definition calls_at (x : bytes) (tr : list moment) : list (call * resp) := omap (fun mt => call_at x (mt_event mt)) tr.
(** Node [x] sends packet [p]. *)
Definition sends (x : bytes) (tr : list moment) (p : addressed_packet) : Prop :=
  exists mt c, mt ∈ tr /\ mt_event mt = EvCall x c (RespPacket (Some p)).

(** ** Proof *)
Section turn.
  Context (pr : prims) (Hok : prims_ok pr) (cf : config) (Hcf : config_ok cf).

  Lemma turns_follow m rel hist m' rel' n : takes_turns pr m rel hist m' rel' n -> follows pr m rel hist m' rel'.
  Proof.
    induction 1 as [|m rel c a m1 hist m2 rel2 n Hc He Ht _ IH|]; [constructor| |by econstructor].
    econstructor; [done|exact He| |exact IH]. by destruct c.
  Qed.
  Lemma turn_dec m rel c : turn m rel c \/ ~ turn m rel c.
  Proof.
    destruct c as [| | | | |ns r| | |]; try (by right; intros []). cbn [turn].
    destruct (pick_session m r) as [[[[rel1 s]|] r1]|] eqn:E; [|right; intros [(? & ? & ? & ? & _) _]; congruence..].
    destruct (decide (rel1 = rel)) as [->|Hne]; [|right; intros [(? & ? & ? & [= ->] & _) _]; done].
    destruct (gen_bool (cf_loop_cover_proportion (mx_config m)) r1) as [[[] r2]|] eqn:Eg.
    - right. intros [(s' & r1' & r2' & H1 & H2) _]. injection H1 as <- <-. congruence.
    - destruct (decide (phase_allows (st_phase (mx_status m)) rel)); [left|right; by intros [_ ?]].
      split; [|done]. by exists s, r1, r2.
    - right. intros [(s' & r1' & r2' & H1 & H2) _]. injection H1 as <- <-. congruence.
  Qed.

  (** A turn sends the oldest packet; nothing else removes one. *)
  Lemma turn_step m rel c a m1 s :
    mx_ok pr cf m -> call_ok c -> exec pr m c = Val (m1, a) -> turn m rel c -> ss_get (mx_sessions m) rel = SlFull s ->
    exists s1, ss_get (mx_sessions m1) rel = SlFull s1 /\ same_session s s1 /\
      match aq_queue (se_authored s) with
      | [] => aq_queue (se_authored s1) = []
      | p :: rest => a = RespPacket (Some p) /\ aq_queue (se_authored s1) = rest
      end.
  Proof.
    intros Hm Hc He Ht Hs. destruct c as [| | | | |ns r| | |]; try done.
    pose proof (PInv.exec_step pr Hok cf _ _ _ _ Hcf Hm Hc He) as Hst.
    destruct (session_step pr cf m _ a m1 rel rel s Hm Hst eq_refl Hs) as (s1 & Hs1 & Hsm & Hq).
    exists s1. split; [done|]. split; [done|]. cbn [queue_step] in Hq.
    assert (Hp : exists p, a = RespPacket p).
    { cbn [exec] in He. destruct (pop_next_authored_packet _ _ _ _) as [[? p]|]; [|done]. cbn in He. injection He as _ <-. by exists p. }
    destruct Hp as [p ->].
    destruct (C39_pop pr Hok cf Hcf m ns r m1 p Hm Hc He) as [(Hno & _)|(rel0 & s0 & r1 & loop & r2 & Hpick & Hget & Hgen & H)].
    { by apply Hno in Hs. }
    destruct Ht as [(s' & r1' & r2' & Hpick' & Hgen') Hph]. rewrite Hpick in Hpick'. injection Hpick' as -> <- <-.
    rewrite (mo_config _ _ _ Hm), Hgen in Hgen'. injection Hgen' as -> <-. rewrite Hs in Hget. injection Hget as <-.
    destruct (aq_queue (se_authored s)) as [|q rest] eqn:Eq.
    - destruct Hq as [Hq|(q & _ & Hq)]; [done|done].
    - rewrite decide_True in H by done. destruct H as (-> & m2 & Em & H). split; [done|].
      assert (E : ss_get (mx_sessions m1) rel = ss_get (mx_sessions m2) rel) by (by destruct H as [->| ->]).
      rewrite Hs1, Em, get_set_slot, decide_True in E by done. by injection E as ->.
  Qed.
  Lemma other_step m rel c a m1 rel1 s :
    mx_ok pr cf m -> call_ok c -> exec pr m c = Val (m1, a) -> ~ turn m rel c -> carried m c rel rel1 ->
    ss_get (mx_sessions m) rel = SlFull s ->
    exists s1 ps, ss_get (mx_sessions m1) rel1 = SlFull s1 /\ same_session s s1 /\
      aq_queue (se_authored s1) = aq_queue (se_authored s) ++ ps /\ (~ is_post c -> ps = []).
  Proof.
    intros Hm Hc He Ht Hcar Hs.
    pose proof (PInv.exec_step pr Hok cf _ _ _ _ Hcf Hm Hc He) as Hst.
    destruct (session_step pr cf m _ a m1 rel rel1 s Hm Hst Hcar Hs) as (s1 & Hs1 & Hsm & Hq).
    assert (Hsame : aq_queue (se_authored s1) = aq_queue (se_authored s) ->
      exists s1 ps, ss_get (mx_sessions m1) rel1 = SlFull s1 /\ same_session s s1 /\
        aq_queue (se_authored s1) = aq_queue (se_authored s) ++ ps /\ (~ is_post c -> ps = [])).
    { intros E. exists s1, []. by rewrite app_nil_r. }
    destruct c as [| | | | |ns r| | |]; cbn [queue_step] in Hq; try (by apply Hsame).
    - cbn in Hcar. subst rel1. apply Hsame.
      assert (Hp : exists p, a = RespPacket p).
      { cbn [exec] in He. destruct (pop_next_authored_packet _ _ _ _) as [[? p]|]; [|done]. cbn in He. injection He as _ <-. by exists p. }
      destruct Hp as [p ->].
      destruct (C39_pop pr Hok cf Hcf m ns r m1 p Hm Hc He) as [(Hno & _)|(rel0 & s0 & r1 & loop & r2 & Hpick & Hget & Hgen & H)].
      { by apply Hno in Hs. }
      assert (Hev : m1 = mx_or_events m NEXT_AUTHORED_PACKET_DEADLINE_CHANGED -> aq_queue (se_authored s1) = aq_queue (se_authored s)).
      { intros ->. cbn in Hs1. rewrite Hs in Hs1. by injection Hs1 as <-. }
      destruct loop; [by destruct (aq_queue (se_authored s0)); destruct H as [H _]; apply Hev|].
      destruct (aq_queue (se_authored s0)) as [|q rest] eqn:Eq; [by destruct H as [H _]; apply Hev|].
      destruct (decide (phase_allows _ _)) as [Hph|_]; [|by destruct H as [H _]; apply Hev].
      destruct H as (_ & m2 & Em & H).
      assert (E : ss_get (mx_sessions m1) rel = ss_get (mx_sessions m2) rel) by (by destruct H as [->| ->]).
      rewrite Hs1, Em, get_set_slot in E. destruct (decide (rel0 = rel)) as [->|Hne].
      + destruct Ht. split; [|done]. rewrite (mo_config _ _ _ Hm). by exists s0, r1, r2.
      + rewrite Hs in E. by injection E as ->.
    - destruct Hq as (ps & Hq & _). exists s1, ps. split_and!; [done..|]. by intros [].
    - destruct Hq as (ps & Hq & _). exists s1, ps. split_and!; [done..|]. by intros [].
  Qed.

  Lemma authored_later c a hist outs : outs `sublist_of` authored hist -> outs `sublist_of` authored ((c, a) :: hist).
  Proof.
    intros H. unfold authored. cbn [omap list_omap].
    destruct (match c with CallPopAuthored _ _ => _ | _ => _ end); [by apply sublist_cons|done].
  Qed.

  (** ** Theorems *)

  (** What leaves the queue leaves from its front, one packet a turn. *)
  Theorem C75_turns m rel hist m' rel' n s :
    mx_ok pr cf m -> takes_turns pr m rel hist m' rel' n -> ss_get (mx_sessions m) rel = SlFull s ->
    exists s' ins outs, ss_get (mx_sessions m') rel' = SlFull s' /\ same_session s s' /\
      aq_queue (se_authored s) ++ ins = outs ++ aq_queue (se_authored s') /\
      outs `sublist_of` authored hist /\
      Nat.min n (length (aq_queue (se_authored s))) ≤ length outs ≤ n /\
      (Forall (fun ca => ~ is_post ca.1) hist -> ins = []).
  Proof.
    intros Hm H. revert s.
    induction H as [m rel|m rel c a m1 hist m2 rel2 n Hc He Ht _ IH|m rel c a m1 rel1 hist m2 rel2 n Hc He Ht Hcar _ IH]; intros s Hs.
    - exists s, [], []. rewrite app_nil_r. split_and!; [done|apply same_session_refl|done|done|cbn; lia..|done].
    - pose proof (PInv.exec_step pr Hok cf _ _ _ _ Hcf Hm Hc He) as Hst. pose proof (step_inv pr Hok cf _ _ _ _ Hcf Hm Hc Hst) as Hm1.
      destruct (turn_step m rel c a m1 s Hm Hc He Ht Hs) as (s1 & Hs1 & Hsm & Hq).
      destruct (IH Hm1 s1 Hs1) as (s2 & ins & outs & Hs2 & Hsm2 & Eq & Hsub & Hlen & Hnp).
      destruct c as [| | | | |ns r| | |]; try done.
      destruct (aq_queue (se_authored s)) as [|p rest] eqn:Ep.
      + exists s2, ins, outs. rewrite Hq in Eq, Hlen. cbn [length] in Hlen. rewrite Nat.min_0_r in *.
        split_and!; [done|by eapply same_session_trans|done| |lia..|].
        * by apply authored_later.
        * intros [_ Hn]%Forall_cons. by apply Hnp.
      + destruct Hq as [-> Hq]. exists s2, ins, (p :: outs). rewrite Hq in Eq, Hlen.
        split_and!; [done|by eapply same_session_trans|cbn; by rewrite Eq| |cbn [length]; lia..|].
        * unfold authored. cbn [omap list_omap]. by apply sublist_skip.
        * intros [_ Hn]%Forall_cons. by apply Hnp.
    - pose proof (PInv.exec_step pr Hok cf _ _ _ _ Hcf Hm Hc He) as Hst. pose proof (step_inv pr Hok cf _ _ _ _ Hcf Hm Hc Hst) as Hm1.
      destruct (other_step m rel c a m1 rel1 s Hm Hc He Ht Hcar Hs) as (s1 & ps & Hs1 & Hsm & Hq & Hps).
      destruct (IH Hm1 s1 Hs1) as (s2 & ins & outs & Hs2 & Hsm2 & Eq & Hsub & Hlen & Hnp).
      exists s2, (ps ++ ins), outs. rewrite Hq, app_length in Hlen.
      split_and!; [done|by eapply same_session_trans|by rewrite app_assoc, <- Hq| |lia..|].
      + by apply authored_later.
      + intros [Hn1 Hn2]%Forall_cons. by rewrite (Hps Hn1), (Hnp Hn2).
  Qed.
  (** A packet with [i] packets before it is sent by the turn after [i] turns. *)
  Theorem C75_leaves hist0 m rel hist m' rel' n s i p :
    reachable pr cf hist0 m -> takes_turns pr m rel hist m' rel' n -> ss_get (mx_sessions m) rel = SlFull s ->
    aq_queue (se_authored s) !! i = Some p -> i < n -> p ∈ authored hist.
  Proof.
    intros Hr Ht Hs Hp Hi. destruct (C75_turns m rel hist m' rel' n s (reachable_ok pr Hok cf _ _ Hr) Ht Hs)
      as (s' & ins & outs & _ & _ & Eq & Hsub & Hlen & _).
    pose proof (lookup_lt_Some _ _ _ Hp) as Hlt.
    assert (H : (outs ++ aq_queue (se_authored s')) !! i = Some p) by (rewrite <- Eq; by apply lookup_app_l_Some).
    rewrite lookup_app_l in H by lia. eapply elem_of_list_lookup_2 in H. by eapply elem_of_submseteq, sublist_submseteq.
  Qed.
  (** Every run in which the session is kept has some number of turns. *)
  Theorem C75_counted m rel hist m' rel' : follows pr m rel hist m' rel' -> exists n, takes_turns pr m rel hist m' rel' n.
  Proof.
    induction 1 as [m rel|m rel c a m1 rel1 hist m2 rel2 Hc He Hcar _ [n IH]]; [exists 0; constructor|].
    destruct (turn_dec m rel c) as [Ht|Ht]; [|exists n; by econstructor].
    exists (S n). eapply TtTurn; [done|exact He|done|]. by destruct c; try done; cbn in Hcar; subst rel1.
  Qed.
End turn.

Section net.
  Context (pr : prims) (Hok : prims_ok pr).

  Lemma authored_sent tr p x : p ∈ authored (calls_at x tr) -> sends x tr p.
  Proof.
    intros Hp. apply elem_of_list_omap in Hp as ([c a] & Hin & E). apply elem_of_list_omap in Hin as (mt & Hmt & Ec).
    destruct c as [| | | | |ns r| | |]; try done. destruct a as [| | | |q| | |]; try done. subst q.
    exists mt, (CallPopAuthored ns r). split; [done|]. unfold call_at in Ec.
    destruct (mt_event mt) as [y c a|b q now msg]; destruct (decide _) as [<-|]; try done. by injection Ec as -> ->.
  Qed.
  (** In a network: once the first packets of some trips are queued, as C40 and C41 say of the requests and
      replies posted, as many turns as there are packets in the queue send all of them. *)
  Theorem C75_sent w x w1 rel s trips tr w2 rel' n :
    world_ok pr w1 -> ss_get (mx_sessions (w_node w x)) rel = SlFull s -> queued (w_node w x) (w_node w1 x) rel trips ->
    history pr w1 tr w2 -> takes_turns pr (w_node w1 x) rel (calls_at x tr) (w_node w2 x) rel' n ->
    length (aq_queue (se_authored s)) + length trips ≤ n ->
    forall trip g, trip ∈ trips -> head trip = Some g -> sends x tr (sg_to g).
  Proof.
    intros Hw Hs (s0 & s1 & Hs0 & Hs1 & Hq) Hh Ht Hn trip g Hin Hg. rewrite Hs in Hs0. injection Hs0 as <-.
    assert (Hp : sg_to g ∈ aq_queue (se_authored s1)).
    { assert (H : Some (sg_to g) ∈ map Some (aq_queue (se_authored s1))).
      { rewrite Hq. apply elem_of_app. right. apply elem_of_list_fmap. exists trip. split; [|done]. unfold first_packet. by rewrite Hg. }
      apply elem_of_list_fmap in H as (q & [= ->] & H). done. }
    assert (Hlen : length (aq_queue (se_authored s1)) = length (aq_queue (se_authored s)) + length trips).
    { apply (f_equal length) in Hq. by rewrite app_length, !map_length in Hq. }
    apply elem_of_list_lookup in Hp as [i Hi]. pose proof (lookup_lt_Some _ _ _ Hi).
    destruct (Hw x) as (cf & hist & Hr). apply authored_sent.
    eapply (C75_leaves pr Hok cf (proj1 Hr)); [exact Hr|exact Ht|exact Hs1|exact Hi|lia].
  Qed.
  Theorem C75_request w x index dest id data k ns r d mt w1 rel s key :
    world_ok pr w ->
    happens pr w (EvCall x (CallPostRequest index dest id data k ns r) (RespPost (Some d) (Ok mt))) w1 ->
    usable (w_node w x) index rel s -> honest pr (se_topology s) key ->
    exists y trips surbs,
      request_sent pr w x index id data k rel (tp_mixnodes (se_topology s)) key d w1 y trips surbs /\
      forall tr w2 rel' n, history pr w1 tr w2 ->
        takes_turns pr (w_node w1 x) rel (calls_at x tr) (w_node w2 x) rel' n ->
        length (aq_queue (se_authored s)) + length trips ≤ n ->
        forall trip g, trip ∈ trips -> head trip = Some g -> sends x tr (sg_to g).
  Proof.
    intros Hw Hhap Hus Hhon.
    destruct (C40_request pr Hok w x index dest id data k ns r d mt w1 rel s key Hw Hhap Hus Hhon) as (_ & y & trips & surbs & Hsent).
    exists y, trips, surbs. split; [done|]. intros tr w2 rel' n Hh Ht Hn.
    eapply (C75_sent w x w1 rel s trips); [by eapply happens_ok|by eapply usable_get|by destruct Hsent as (_ & _ & _ & Hq & _)|done..].
  Qed.
End net.
