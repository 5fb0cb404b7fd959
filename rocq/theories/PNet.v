(** Networks of nodes: worlds, histories, and what becomes of a packet on its way (for C40, C41). *)
From Verif Require Export PCalls.

(** ** Specification *)

(** All nodes, by peer id, and the packets on the wire. *)
Record world := World { w_node : bytes -> mixnet; w_wire : list addressed_packet }.
Definition with_node (w : world) (x : bytes) (m : mixnet) : bytes -> mixnet :=
  fun y => if decide (y = x) then m else w_node w y.

(** What can happen: a node makes an API call, other than handling a packet; a packet on the wire
    ([from_wire]) or made up by somebody is handled by the node it is addressed to. *)
Inductive event :=
| EvCall (x : bytes) (c : call) (a : resp)
| EvHandle (from_wire : bool) (p : addressed_packet) (now : instant) (msg : option message).
(** Packets a call hands to the network. *)
Definition sent (a : resp) : list addressed_packet :=
  match a with RespPacket (Some p) => [p] | _ => [] end.
Definition not_handle (c : call) : Prop := match c with CallHandle _ _ => False | _ => True end.

(** The wire loses nothing, but delivers in any order. No call panics. *)
Inductive happens (pr : prims) : world -> event -> world -> Prop :=
| HpCall w x c a m :
    not_handle c -> call_ok c -> exec pr (w_node w x) c = Val (m, a) ->
    happens pr w (EvCall x c a) (World (with_node w x m) (w_wire w ++ sent a))
| HpDeliver w p now msg m w1 w2 :
    w_wire w = w1 ++ p :: w2 -> length (ap_packet p) = N.to_nat 2252 ->
    handle_packet pr (w_node w (ap_peer_id p)) (ap_packet p) now = Val (m, msg) ->
    happens pr w (EvHandle true p now msg) (World (with_node w (ap_peer_id p) m) (w1 ++ w2))
| HpInject w p now msg m :
    length (ap_packet p) = N.to_nat 2252 ->
    handle_packet pr (w_node w (ap_peer_id p)) (ap_packet p) now = Val (m, msg) ->
    happens pr w (EvHandle false p now msg) (World (with_node w (ap_peer_id p) m) (w_wire w)).

(** A history lists what happened, with the worlds before and after. *)
Record moment := Moment { mt_before : world; mt_event : event; mt_after : world }.
Inductive history (pr : prims) : world -> list moment -> world -> Prop :=
| HiNil w : history pr w [] w
| HiCons w e w1 tr w2 :
    happens pr w e w1 -> history pr w1 tr w2 -> history pr w (Moment w e w1 :: tr) w2.

(** Every node runs the code, from its start. *)
Definition world_ok (pr : prims) (w : world) : Prop :=
  forall x, exists cf hist, reachable pr cf hist (w_node w x).

(** A packet on its way, and the key that reads it there. *)
Record stage := Stage { sg_to : addressed_packet; sg_key : bytes }.

(** The node has, for session number [index], the key [key] and the mixnodes [nodes]. *)
Definition has_session (nodes : list mixnode) (index : session_index) (key : bytes) (m : mixnet)
    (rel : rel_session_index) (s : session) : Prop :=
  ss_get (mx_sessions m) rel = SlFull s /\ index_of m rel index /\
  kp_secret (se_kx_pair s) = key /\ tp_mixnodes (se_topology s) = nodes.
(** Nothing stops session [s] from reading the packet: it is new to it and, if the session is the
    previous one, means nothing to the current one. *)
Definition unseen (pr : prims) (m : mixnet) (rel : rel_session_index) (s : session) (p : bytes) : Prop :=
  ~ PHandle.seen pr s p /\
  (rel = RPrev -> forall c, ss_current (mx_sessions m) = SlFull c -> ~ PHandle.seen pr c p /\ ~ opens pr c p).
(** The node can read the packet; can take requests; can forward. *)
Definition can_read (pr : prims) nodes index (g : stage) (m : mixnet) : Prop :=
  exists rel s, has_session nodes index (sg_key g) m rel s /\ unseen pr m rel s (ap_packet (sg_to g)).
Definition can_take (pr : prims) nodes index (g : stage) (m : mixnet) : Prop :=
  exists rel s, has_session nodes index (sg_key g) m rel s /\ unseen pr m rel s (ap_packet (sg_to g)) /\
    is_mixnode s.
Definition can_forward (pr : prims) nodes index (g : stage) (m : mixnet) : Prop :=
  can_take pr nodes index g m /\ has_room m.

(** Every node able to forward the packet queues exactly the next one. *)
Definition passes_on (pr : prims) nodes index (g g' : stage) : Prop :=
  forall m now m' msg,
    can_forward pr nodes index g m -> handle_packet pr m (ap_packet (sg_to g)) now = Val (m', msg) ->
    msg = None /\
    exists deadline, fq_queue (mx_forward m') = fq_queue (mx_forward m) ++ [ForwardPacket deadline (sg_to g')].
Definition linked (pr : prims) nodes index (trip : list stage) : Prop :=
  forall j g g', trip !! j = Some g -> trip !! S j = Some g' -> passes_on pr nodes index g g'.

(** The packet is on the wire, or waits in some node for being forwarded. *)
Definition under_way (w : world) (p : addressed_packet) : Prop :=
  p ∈ w_wire w \/ exists x deadline, ForwardPacket deadline p ∈ fq_queue (mx_forward (w_node w x)).
(** Moments at which the packet is handled. *)
Definition handles (mt : moment) (p : addressed_packet) : Prop :=
  exists b now msg, mt_event mt = EvHandle b p now msg.
(** ... and the first of them. *)
Definition first_at (tr : list moment) (mt : moment) (p : addressed_packet) : Prop :=
  exists tr1 tr2, tr = tr1 ++ mt :: tr2 /\ handles mt p /\ forall mt', mt' ∈ tr1 -> ~ handles mt' p.
Global Instance addressed_packet_eq_dec : EqDecision addressed_packet.
Proof. solve_decision. Defined.
Global Instance handles_dec mt p : Decision (handles mt p).
Proof.
  destruct mt as [w [x c a|b q now msg] w'].
  - right. by intros (? & ? & ? & ?).
  - destruct (decide (q = p)) as [->|Hn]; [left; by exists b, now, msg|].
    right. intros (? & ? & ? & [=]). done.
Defined.
(** The packets among [ps] that are handled, in the order of their first handlings, and what is
    returned then. *)
Definition handled_of (ps : list addressed_packet) (mt : moment) : option (addressed_packet * option message) :=
  match mt_event mt with
  | EvHandle _ p _ msg => if decide (p ∈ ps) then Some (p, msg) else None
  | _ => None
  end.
Definition without (p : addressed_packet) (ps : list addressed_packet) : list addressed_packet :=
  filter (fun q => q <> p) ps.
Fixpoint arrivals (ps : list addressed_packet) (tr : list moment) : list (addressed_packet * option message) :=
  match tr with
  | [] => []
  | mt :: tr => match handled_of ps mt with
                | Some (p, msg) => (p, msg) :: arrivals (without p ps) tr
                | None => arrivals ps tr
                end
  end.

(** ** Proof *)
Section net.
  Context (pr : prims) (Hok : prims_ok pr).

  Lemma reachable_mx_ok cf hist m : reachable pr cf hist m -> config_ok cf /\ mx_ok pr cf m.
  Proof. intros H. split; [apply H|by eapply reachable_ok]. Qed.
  Lemma reachable_snoc cf hist m c a m' :
    reachable pr cf hist m -> call_ok c -> exec pr m c = Val (m', a) -> reachable pr cf (hist ++ [(c, a)]) m'.
  Proof.
    intros (Hc & m0 & E & Hr) Hcall Hex. split; [done|]. exists m0. split; [done|]. clear E.
    induction Hr as [m|m c1 a1 m1 hist m2 H1 H2 Hr IH]; cbn.
    - econstructor; [done|done|constructor].
    - econstructor; [done|done|by apply IH].
  Qed.
  Lemma with_node_same w x m : with_node w x m x = m.
  Proof. unfold with_node. by rewrite decide_True. Qed.
  Lemma with_node_other w x y m : y <> x -> with_node w x m y = w_node w y.
  Proof. intros H. unfold with_node. by rewrite decide_False. Qed.

  (** What happens is a call of some node. *)
  Lemma happens_call w e w' :
    happens pr w e w' ->
    exists x c a m, call_ok c /\ exec pr (w_node w x) c = Val (m, a) /\ w_node w' = with_node w x m /\
      match e with
      | EvCall y c' a' => y = x /\ c' = c /\ a' = a /\ not_handle c /\ w_wire w' = w_wire w ++ sent a
      | EvHandle b p now msg => x = ap_peer_id p /\ c = CallHandle (ap_packet p) now /\ a = RespMessage msg /\
          if b then exists w1 w2, w_wire w = w1 ++ p :: w2 /\ w_wire w' = w1 ++ w2 else w_wire w' = w_wire w
      end.
  Proof.
    intros [w0 x c a m H1 H2 H3|w0 p now msg m w1 w2 H1 H2 H3|w0 p now msg m H2 H3].
    - exists x, c, a, m. split_and!; done.
    - exists (ap_peer_id p), (CallHandle (ap_packet p) now), (RespMessage msg), m. split_and!; try done.
      + cbn. by rewrite H3.
      + by exists w1, w2.
    - exists (ap_peer_id p), (CallHandle (ap_packet p) now), (RespMessage msg), m. split_and!; try done.
      cbn. by rewrite H3.
  Qed.
  Lemma happens_ok w e w' : happens pr w e w' -> world_ok pr w -> world_ok pr w'.
  Proof.
    intros H Hw y. destruct (happens_call _ _ _ H) as (x & c & a & m & Hc & He & En & _). rewrite En.
    destruct (decide (y = x)) as [->|Hne].
    - rewrite with_node_same. destruct (Hw x) as (cf & hist & Hr). exists cf, (hist ++ [(c, a)]).
      by eapply reachable_snoc.
    - rewrite with_node_other by done. apply Hw.
  Qed.

  (** A packet under way stays so until it is handled. *)
  Lemma under_way_step w e w' p :
    world_ok pr w -> happens pr w e w' -> under_way w p ->
    (exists b now msg, e = EvHandle b p now msg) \/ under_way w' p.
  Proof.
    intros Hw H Hu. destruct (happens_call _ _ _ H) as (x & c & a & m & Hc & He & En & Hev).
    destruct Hu as [Hin|(y & dl & Hin)].
    - destruct e as [y c' a'|b q now msg].
      + right. left. destruct Hev as (_ & _ & _ & _ & ->). apply elem_of_app. by left.
      + destruct (decide (q = p)) as [->|Hne]; [left; eauto|]. right. left.
        destruct Hev as (_ & _ & _ & Hwire). destruct b; [|by rewrite Hwire].
        destruct Hwire as (w1 & w2 & E1 & ->). rewrite E1 in Hin. rewrite elem_of_app, elem_of_cons in Hin.
        rewrite elem_of_app. naive_solver.
    - right. destruct (decide (y = x)) as [->|Hne].
      2:{ right. exists y, dl. rewrite En. by rewrite with_node_other. }
      destruct (Hw x) as (cf & hist & Hr). destruct (reachable_mx_ok _ _ _ Hr) as [Hcf Hm].
      pose proof (exec_step pr Hok cf _ _ _ _ Hcf Hm Hc He) as Hst. apply C21_step in Hst.
      assert (Hkeep : fq_queue (mx_forward m) = fq_queue (mx_forward (w_node w x)) -> under_way w' p).
      { intros E. right. exists x, dl. rewrite En, with_node_same, E. done. }
      destruct c; cbn [forward_step] in Hst; try (by apply Hkeep).
      + destruct Hst as [Hst|(rel & s & t & d & next & peer & dur & _ & _ & _ & _ & Hst)]; [by apply Hkeep|].
        right. exists x, dl. rewrite En, with_node_same, Hst. apply elem_of_app. by left.
      + assert (Hm' : (fq_queue (mx_forward (w_node w x)) = [] /\ fq_queue (mx_forward m) = []) \/
          exists q fp, a = RespPacket (Some q) /\ fp_packet fp = q /\ fq_queue (mx_forward (w_node w x)) ≡ₚ fp :: fq_queue (mx_forward m)).
        { destruct a as [| | | |[q|]| | |]; try (by left). destruct Hst as (fp & ? & _ & ?). right. by exists q, fp. }
        destruct Hm' as [[E _]|(q & fp & -> & Eq & Hp)]; [rewrite E in Hin; by apply elem_of_nil in Hin|].
        rewrite Hp in Hin. apply elem_of_cons in Hin as [Heq|Hin].
        * left. destruct e as [y' c' a'|b p' now msg].
          -- destruct Hev as (_ & _ & _ & _ & ->). apply elem_of_app. right. cbn. rewrite <- Eq, <- Heq. by left.
          -- destruct Hev as (_ & ? & _). done.
        * right. exists x, dl. by rewrite En, with_node_same.
  Qed.

  Lemma history_split w tr1 mt tr2 w' :
    history pr w (tr1 ++ mt :: tr2) w' ->
    history pr w tr1 (mt_before mt) /\ happens pr (mt_before mt) (mt_event mt) (mt_after mt) /\
    history pr (mt_after mt) tr2 w'.
  Proof.
    revert w. induction tr1 as [|mt1 tr1 IH]; cbn; intros w H; inversion H; subst; cbn.
    - split_and!; [constructor|done|done].
    - match goal with Hx : history pr _ (tr1 ++ _) _ |- _ => destruct (IH _ Hx) as (? & ? & ?) end.
      split_and!; try done. by econstructor.
  Qed.
  Lemma history_ok w tr w' : history pr w tr w' -> world_ok pr w -> world_ok pr w'.
  Proof. induction 1 as [|w e w1 tr w2 He Hh IH]; [done|]. intros Hw. apply IH. by eapply happens_ok. Qed.
  Lemma history_reachable w tr w' cf hist x :
    history pr w tr w' -> reachable pr cf hist (w_node w x) -> exists hist', reachable pr cf hist' (w_node w' x).
  Proof.
    intros Hh. revert hist. induction Hh as [w|w e w1 tr w2 He Hh IH]; intros hist Hr; [by exists hist|].
    destruct (happens_call _ _ _ He) as (y & c & a & m & Hc & Hex & En & _).
    destruct (decide (x = y)) as [->|Hne].
    - apply (IH (hist ++ [(c, a)])). rewrite En, with_node_same. by eapply reachable_snoc.
    - apply (IH hist). by rewrite En, with_node_other.
  Qed.
  Lemma under_way_handled w tr w' p :
    history pr w tr w' -> world_ok pr w -> under_way w p -> ~ under_way w' p ->
    exists mt, mt ∈ tr /\ handles mt p.
  Proof.
    induction 1 as [w|w e w1 tr w2 He Hh IH]; intros Hw Hu Hn; [done|].
    destruct (under_way_step w e w1 p Hw He Hu) as [(b & now & msg & ->)|Hu1].
    - eexists. split; [left|]. by exists b, now, msg.
    - destruct IH as (mt & ? & ?); [by eapply happens_ok|done|done|]. exists mt. split; [by right|done].
  Qed.
  Lemma first_exists tr p : (exists mt, mt ∈ tr /\ handles mt p) -> exists mt, first_at tr mt p.
  Proof.
    induction tr as [|mt tr IH]; intros (mt0 & Hin & H0); [by apply elem_of_nil in Hin|].
    destruct (decide (handles mt p)) as [Hh|Hn].
    - exists mt, [], tr. split_and!; [done|done|]. by intros ? ?%elem_of_nil.
    - apply elem_of_cons in Hin as [->|Hin]; [done|].
      destruct IH as (mt1 & tr1 & tr2 & -> & H1 & H2); [eauto|].
      exists mt1, (mt :: tr1), tr2. split_and!; [done|done|].
      intros mt' [->|Hin']%elem_of_cons; [done|by apply H2].
  Qed.

  (** A trip under way is carried to its end. *)
  Lemma carried_on nodes index trip w tr w' :
    linked pr nodes index trip -> history pr w tr w' -> world_ok pr w ->
    (* when one of its packets, but the last, is handled first, the node can forward it *)
    (forall mt j g, trip !! j = Some g -> S j < length trip -> first_at tr mt (sg_to g) ->
       can_forward pr nodes index g (w_node (mt_before mt) (ap_peer_id (sg_to g)))) ->
    (exists g mt, head trip = Some g /\ mt ∈ tr /\ handles mt (sg_to g)) ->
    (forall g, g ∈ trip -> ~ under_way w' (sg_to g)) ->
    forall g, g ∈ trip -> exists mt, mt ∈ tr /\ handles mt (sg_to g).
  Proof.
    intros Hl Hh Hw Hf (g0 & mt0 & H0 & Hin0 & Hh0) Hend g [j Hj]%elem_of_list_lookup. revert g Hj.
    induction j as [|j IH]; intros g Hj.
    { destruct trip as [|g1 trip]; [done|]. cbn in H0, Hj. exists mt0. split; [done|]. congruence. }
    assert (Hlt : S j < length trip) by (by eapply lookup_lt_Some).
    destruct (lookup_lt_is_Some_2 trip j) as [g1 Hg1]; [lia|].
    destruct (first_exists tr (sg_to g1)) as (mt & Hfst); [by apply IH|].
    pose proof (Hf mt j g1 Hg1 Hlt Hfst) as Hcf.
    destruct Hfst as (tr1 & tr2 & -> & (b & now & msg & Ee) & _).
    apply history_split in Hh as (H1 & H2 & H3). rewrite Ee in H2.
    destruct (happens_call _ _ _ H2) as (x & c & a & m & _ & Hex & En & -> & -> & -> & _).
    cbn [exec] in Hex. apply out_bind_Val in Hex as ([m1 msg1] & Hh1 & [= -> ->]).
    destruct (Hl j g1 g Hg1 Hj _ _ _ _ Hcf Hh1) as (_ & dl & Hq).
    assert (Hw1 : world_ok pr (mt_after mt)).
    { eapply happens_ok; [exact H2|]. by eapply history_ok. }
    destruct (under_way_handled _ _ _ (sg_to g) H3 Hw1) as (mt' & ? & ?).
    - right. exists (ap_peer_id (sg_to g1)), dl. rewrite En, with_node_same, Hq. apply elem_of_app. right. by left.
    - apply Hend. by eapply elem_of_list_lookup_2.
    - exists mt'. split; [|done]. apply elem_of_app. right. by right.
  Qed.
End net.
