(** C73: a SURB is good until it is used, or as many SURBs as the keystore holds were made after it. *)
From Verif Require Export PEnd.

(** ** Specification *)

(** How many SURBs a node has made, by the answers of its calls. *)
Definition surbs_of (c : call) (a : resp) : nat :=
  match c, a with
  | CallPostRequest _ _ _ _ num_surbs _ _, RespPost _ (Ok _) => N.to_nat num_surbs
  | _, _ => 0
  end.
Definition surbs_made (h : list (call * resp)) : nat := sum_list (map (fun x => surbs_of x.1 x.2) h).
(** The same for node [x] in a network. *)
Definition made_at (x : bytes) (tr : list moment) : nat :=
  sum_list (map (fun mt => match mt_event mt with EvCall y c a => if decide (y = x) then surbs_of c a else 0 | _ => 0 end) tr).
(** The call is not the arrival of a reply made with SURB [id]. *)
Definition no_reply (pr : prims) (id : bytes) (m : mixnet) (c : call) : Prop :=
  match c with CallHandle p _ => ~ replies pr m p id | _ => True end.
Inductive unanswered (pr : prims) (id : bytes) : mixnet -> list (call * resp) -> mixnet -> Prop :=
| UnNil m : unanswered pr id m [] m
| UnCons m c a m1 h m2 :
    call_ok c -> no_reply pr id m c -> exec pr m c = Val (m1, a) ->
    unanswered pr id m1 h m2 -> unanswered pr id m ((c, a) :: h) m2.
(** No reply made with SURB [id] is handled by node [x]. *)
Definition no_answer (pr : prims) (x id : bytes) (tr : list moment) : Prop :=
  forall mt b p now msg, mt ∈ tr -> mt_event mt = EvHandle b p now msg -> ap_peer_id p = x ->
    ~ replies pr (w_node (mt_before mt) x) (ap_packet p) id.

(** ** Proof *)

(** The entry is kept, with at most [j] newer ones. *)
Definition held (ks : surb_keystore) (e : bytes * surb_value) (j : nat) : Prop :=
  exists l1 l2, sk_surbs ks = l1 ++ e :: l2 /\ length l2 ≤ j.

Lemma lhm_remove_app {V} (l l' : lhm bytes V) id :
  lhm_remove (l ++ l') id = (if decide (id ∈ lhm_keys l) then lhm_remove l id ++ l' else l ++ lhm_remove l' id).
Proof.
  induction l as [|[k v] l IH]; cbn.
  { by rewrite decide_False by apply not_elem_of_nil. }
  destruct (decide (k = id)) as [->|Hne].
  - rewrite decide_True by left. done.
  - rewrite IH. destruct (decide (id ∈ lhm_keys l)) as [Hi|Hi].
    + rewrite decide_True by (by right). done.
    + rewrite decide_False; [done|]. by intros [->|?]%elem_of_cons.
Qed.
Lemma lhm_remove_length {V} (l : lhm bytes V) id : length (lhm_remove l id) ≤ length l.
Proof. induction l as [|[k v] l IH]; [done|]. cbn. destruct (decide _); cbn; lia. Qed.
Lemma held_remove ks e j id : held ks e j -> id <> e.1 -> held (sk_remove ks id) e j.
Proof.
  intros (l1 & l2 & E & Hl) Hne. unfold held, sk_remove. cbn [sk_surbs]. rewrite E, lhm_remove_app. destruct e as [i v].
  destruct (decide _).
  - by exists (lhm_remove l1 id), l2.
  - exists l1, (lhm_remove l2 id). cbn. rewrite decide_False by (cbn in Hne; congruence). split; [done|].
    pose proof (lhm_remove_length l2 id). lia.
Qed.
Lemma held_pushes ks e j es :
  ks_ok ks -> held ks e j -> j + length es < N.to_nat (sk_capacity ks) -> held (ks_pushes ks es) e (j + length es).
Proof.
  intros Hks (l1 & l2 & E & Hl) Hc. unfold held. rewrite (proj1 (ks_pushes_surbs ks es Hks)), E.
  exists (drop (length ((l1 ++ e :: l2) ++ es) - N.to_nat (sk_capacity ks)) l1), (l2 ++ es). split.
  - rewrite <- app_assoc. cbn [app]. rewrite drop_app_le; [done|]. rewrite !app_length. cbn. rewrite app_length. lia.
  - rewrite app_length. lia.
Qed.
Lemma pushes_held ks es i e :
  ks_ok ks -> es !! i = Some e -> length es - 1 - i < N.to_nat (sk_capacity ks) -> held (ks_pushes ks es) e (length es - 1 - i).
Proof.
  intros Hks Hi Hc. unfold held. rewrite (proj1 (ks_pushes_surbs ks es Hks)).
  pose proof (lookup_lt_Some _ _ _ Hi) as Hlt.
  set (n := length (sk_surbs ks ++ es) - N.to_nat (sk_capacity ks)).
  exists (drop n (sk_surbs ks ++ take i es)), (drop (S i) es). split.
  - rewrite <- (take_drop_middle _ _ _ Hi) at 1. rewrite app_assoc, drop_app_le; [done|].
    unfold n. rewrite !app_length, take_length. lia.
  - rewrite drop_length. lia.
Qed.
Lemma held_entry ks e j : ks_ok ks -> held ks e j -> sk_entry ks e.1 = Some e.2.
Proof.
  intros (_ & _ & Hn) (l1 & l2 & E & _). unfold sk_entry. rewrite ks_view_fst, E in Hn. rewrite E. clear E. destruct e as [i v].
  induction l1 as [|[k w] l1 IH]; cbn.
  - by rewrite decide_True.
  - cbn in Hn. apply NoDup_cons in Hn as [Hk Hn]. rewrite decide_False.
    + by apply IH.
    + intros ->. apply Hk. unfold lhm_keys. rewrite map_app. apply elem_of_app. right. left.
Qed.

(** Right after a request: which of its SURBs have keys. *)
Lemma queued_kept m rel s packets entries m1 i e :
  PPost.queued m rel s packets entries m1 -> ks_ok (mx_keystore m1) -> entries !! i = Some e ->
  length entries - 1 - i < N.to_nat (sk_capacity (mx_keystore m)) -> sk_entry (mx_keystore m1) e.1 = Some e.2.
Proof.
  intros (_ & _ & Es & _) Hks Hi Hc. apply (held_entry _ e (length entries - 1 - i)); [done|]. unfold held. rewrite Es.
  pose proof (lookup_lt_Some _ _ _ Hi) as Hlt. set (n := length (sk_surbs (mx_keystore m) ++ entries) - _).
  exists (drop n (sk_surbs (mx_keystore m) ++ take i entries)), (drop (S i) entries). split.
  - rewrite <- (take_drop_middle _ _ _ Hi) at 1. rewrite app_assoc, drop_app_le; [done|].
    unfold n. rewrite !app_length, take_length. lia.
  - rewrite drop_length. lia.
Qed.
Lemma queued_lost m rel s packets entries m1 i e :
  PPost.queued m rel s packets entries m1 -> entries !! i = Some e -> NoDup (entries.*1) ->
  i + N.to_nat (sk_capacity (mx_keystore m)) < length entries -> sk_entry (mx_keystore m1) e.1 = None.
Proof.
  intros (_ & _ & Es & _) Hi Hn Hlt.
  destruct (sk_entry (mx_keystore m1) e.1) as [v|] eqn:Ee; [|done]. exfalso. apply entry_elem in Ee. rewrite Es in Ee.
  apply elem_of_list_lookup in Ee as [j Hj]. rewrite app_length, lookup_drop in Hj.
  rewrite lookup_app_r in Hj by lia.
  assert (H1 : entries.*1 !! i = Some e.1) by (by rewrite list_lookup_fmap, Hi).
  set (j' := _ - _) in Hj. assert (H2 : entries.*1 !! j' = Some e.1) by (by rewrite list_lookup_fmap, Hj).
  pose proof (NoDup_lookup _ _ _ _ Hn H1 H2). unfold j' in *. lia.
Qed.

Section kept.
  Context (pr : prims) (Hok : prims_ok pr) (cf : config) (Hcf : config_ok cf).

  Lemma held_step m c m' a e j :
    mx_ok pr cf m -> step pr m c m' a -> call_ok c -> no_reply pr e.1 m c -> held (mx_keystore m) e j ->
    j + surbs_of c a < N.to_nat (cf_surb_keystore_capacity cf) -> held (mx_keystore m') e (j + surbs_of c a).
  Proof.
    intros Hm Hst Hc Hno Hh Hlt.
    assert (Hsame : mx_keystore m' = mx_keystore m -> held (mx_keystore m') e (j + surbs_of c a)).
    { intros ->. destruct Hh as (l1 & l2 & ? & ?). exists l1, l2. split; [done|lia]. }
    destruct Hst; try (by apply Hsame).
    - apply Hsame. unfold set_session_status. destruct (decide _); [done|]. cbv zeta.
      assert (E : mx_keystore (shift_sessions m (st_current_index st)) = mx_keystore m)
        by (unfold shift_sessions; by destruct (_ =? _)%N).
      destruct (_ || _); exact E.
    - apply Hsame. unfold enqueue. by destruct (decide _).
    - cbn [surbs_of]. rewrite Nat.add_0_r. apply held_remove; [done|]. intros ->. apply Hno. by eexists _, _, _.
    - cbn [surbs_of mx_set_assembler mx_set_keystore mx_keystore]. rewrite Nat.add_0_r. apply held_remove; [done|].
      intros ->. apply Hno. by eexists _, _, _.
    - apply Hsame. unfold m1. by destruct (aq_pop _).2.
    - pose proof (mo_keystore _ _ _ Hm) as [Hks Hcap]. pose proof (po_surbs _ _ _ _ _ _ _ _ _ _ _ _ _ _ _ _ _ H) as Hn.
      rewrite (po_state _ _ _ _ _ _ _ _ _ _ _ _ _ _ _ _ _ H).
      cbn [mx_put_session mx_set_sessions mx_set_keystore mx_keystore surbs_of] in *.
      assert (El : N.to_nat num_surbs = length (map (surb_entry id) (all_surbs ps))) by (rewrite map_length; lia).
      rewrite El in *. apply held_pushes; [done|done|]. by rewrite Hcap.
  Qed.
  Lemma held_run m h m' e j :
    mx_ok pr cf m -> unanswered pr e.1 m h m' -> held (mx_keystore m) e j ->
    j + surbs_made h < N.to_nat (cf_surb_keystore_capacity cf) -> sk_entry (mx_keystore m') e.1 = Some e.2.
  Proof.
    intros Hm H. revert j. induction H as [m|m c a m1 h m2 Hc Hno He _ IH]; intros j Hh Hlt.
    { eapply held_entry; [apply Hm|done]. }
    unfold surbs_made in Hlt. cbn [map sum_list sum_list_with] in Hlt.
    pose proof (exec_step pr Hok cf _ _ _ _ Hcf Hm Hc He) as Hst.
    assert (Hs : surbs_made ((c, a) :: h) = surbs_of c a + surbs_made h) by done.
    eapply (IH (step_inv pr Hok cf _ _ _ _ Hcf Hm Hc Hst) (j + surbs_of c a)).
    - eapply held_step; try done. cbn in Hlt. lia.
    - unfold surbs_made. cbn in Hlt. lia.
  Qed.

  (** ** Theorems *)

  (** The SURBs of an accepted request: the keys of the [i]th are at hand as long as no reply made with
      it has come and fewer SURBs than the capacity of the keystore were made after it, in this request
      and later. *)
  Theorem C73_kept hist m index dest id data k ns r m1 dest' mt :
    let c := CallPostRequest index dest id data k ns r in
    reachable pr cf hist m -> call_ok c -> exec pr m c = Val (m1, RespPost dest' (Ok mt)) ->
    exists rel s packets entries,
      PPost.queued m rel s packets entries m1 /\ N.of_nat (length entries) = k /\
      Forall (fun e => sv_message_id e.2 = id) entries /\
      forall i e h m2, entries !! i = Some e -> unanswered pr e.1 m1 h m2 ->
        length entries - 1 - i + surbs_made h < N.to_nat (cf_surb_keystore_capacity cf) ->
        sk_entry (mx_keystore m2) e.1 = Some e.2.
  Proof.
    intros c Hr Hc He. pose proof (reachable_ok pr Hok cf _ _ Hr) as Hm.
    pose proof (exec_step pr Hok cf _ _ _ _ Hcf Hm Hc He) as Hst. pose proof (step_inv pr Hok cf _ _ _ _ Hcf Hm Hc Hst) as Hm1.
    pose proof (mo_keystore _ _ _ Hm) as [Hks Hcap]. inversion Hst; subst.
    match goal with H : posted _ _ _ _ _ _ _ _ _ _ _ _ _ _ _ _ _ |- _ => rename H into Hp end.
    exists rel, s, (map mp_packet ps), (map (surb_entry id) (all_surbs ps)).
    split; [eapply posted_queued; [by apply (mx_posting pr cf)|exact Hp]|].
    split; [rewrite map_length; by apply (po_surbs _ _ _ _ _ _ _ _ _ _ _ _ _ _ _ _ _ Hp)|].
    split; [by apply Forall_map, Forall_true|].
    intros i e h m2 Hi Hu Hlt. eapply (held_run m1 h m2 e); [done|done| |exact Hlt].
    rewrite (po_state _ _ _ _ _ _ _ _ _ _ _ _ _ _ _ _ _ Hp).
    cbn [mx_put_session mx_set_sessions mx_set_keystore mx_keystore]. apply pushes_held; [done|done|]. rewrite Hcap. lia.
  Qed.
  (** A request can take more SURBs than the keystore holds; then the first of them are no good from the
      start, unless equal ids were drawn. *)
  Theorem C73_too_many hist m index dest id data k ns r m1 dest' mt :
    let c := CallPostRequest index dest id data k ns r in
    reachable pr cf hist m -> call_ok c -> exec pr m c = Val (m1, RespPost dest' (Ok mt)) ->
    exists rel s packets entries,
      PPost.queued m rel s packets entries m1 /\ N.of_nat (length entries) = k /\
      forall i e, entries !! i = Some e -> NoDup (entries.*1) ->
        (i + N.to_nat (cf_surb_keystore_capacity cf) < length entries <-> sk_entry (mx_keystore m1) e.1 = None).
  Proof.
    intros c Hr Hc He. destruct (C73_kept hist m index dest id data k ns r m1 dest' mt Hr Hc He)
      as (rel & s & packets & entries & Hq & Hk & _ & Hkept).
    exists rel, s, packets, entries. split; [done|]. split; [done|]. intros i e Hi Hn.
    pose proof (reachable_ok pr Hok cf _ _ Hr) as Hm. pose proof (mo_keystore _ _ _ Hm) as [Hks Hcap]. split.
    - intros Hlt. eapply queued_lost; try done. by rewrite Hcap.
    - intros Ee. destruct (decide (i + N.to_nat (cf_surb_keystore_capacity cf) < length entries)) as [|Hge]; [done|].
      pose proof (lookup_lt_Some _ _ _ Hi). assert (Hc0 : (0 < cf_surb_keystore_capacity cf)%N) by (destruct Hks; lia).
      rewrite (Hkept i e [] m1) in Ee; [done|done|constructor|]. cbn. lia.
  Qed.
End kept.

Section net.
  Context (pr : prims) (Hok : prims_ok pr).

  Lemma project x id w tr w2 :
    history pr w tr w2 -> no_answer pr x id tr ->
    exists h, unanswered pr id (w_node w x) h (w_node w2 x) /\ surbs_made h = made_at x tr.
  Proof.
    induction 1 as [w|w e w1 tr w2 He _ IH]; intros Hn; [exists []; by split; [constructor|]|].
    destruct IH as (h & Hu & Hs). { intros mt b p now msg Hmt. apply Hn. by right. }
    destruct (happens_call pr _ _ _ He) as (y & c & a & m & Hc & Hex & En & Hev).
    destruct (decide (y = x)) as [->|Hne].
    - exists ((c, a) :: h). rewrite En, with_node_same in Hu. split.
      + econstructor; [done| |exact Hex|exact Hu]. destruct c as [| | |p now| | | | |]; try done. cbn [no_reply].
        destruct e as [x' c' a'|b p' now' msg].
        * destruct Hev as (_ & -> & _ & [] & _).
        * destruct Hev as (Ex & Ec & _). injection Ec as Ep En'. subst.
          eapply (Hn (Moment w (EvHandle b p' now' msg) w1)); [left|done|done].
      + unfold surbs_made, made_at in *. cbn [map fst snd mt_event]. cbn. rewrite Hs. destruct e as [x' c' a'|b p' now' msg].
        * destruct Hev as (-> & -> & -> & _). by rewrite decide_True.
        * destruct Hev as (_ & -> & -> & _). done.
    - exists h. rewrite En, with_node_other in Hu by done. split; [done|]. rewrite Hs. unfold made_at. cbn.
      destruct e as [x' c' a'|b p' now' msg]; [|done]. destruct Hev as (-> & _). by rewrite decide_False.
  Qed.

  (** In a network, as C41 asks of the sender of a request for a reply: it still has the keys. *)
  Theorem C73_network w x index dest id data k ns r d mt w1 rel s key :
    world_ok pr w ->
    happens pr w (EvCall x (CallPostRequest index dest id data k ns r) (RespPost (Some d) (Ok mt))) w1 ->
    usable (w_node w x) index rel s -> honest pr (se_topology s) key ->
    let nodes := tp_mixnodes (se_topology s) in
    addr_of nodes (self (se_topology s) ns) = Some x ->
    exists y trips surbs entries,
      request_sent pr w x index id data k rel nodes key d w1 y trips surbs /\ length entries = length surbs /\
      (forall w2 y2 rsurbs left rid rdata rel2 s2 w3,
        world_ok pr w2 ->
        happens pr w2 (EvCall y2 (CallPostReply rsurbs index rid rdata) (RespReply left (Ok tt))) w3 ->
        usable (w_node w2 y2) index rel2 s2 -> tp_mixnodes (se_topology s2) = nodes ->
        Forall (fun u => u ∈ surbs) rsurbs ->
        reply_sent pr index id nodes key (self (se_topology s) ns) x surbs entries w2 y2 rsurbs left rid rdata rel2 w3) /\
      forall i e tr w2, entries !! i = Some e -> history pr w1 tr w2 -> no_answer pr x e.1 tr ->
        length entries - 1 - i + made_at x tr < N.to_nat (cf_surb_keystore_capacity (mx_config (w_node w x))) ->
        sk_entry (mx_keystore (w_node w2 x)) e.1 = Some e.2.
  Proof.
    intros Hw Hhap Hus Hhon nodes Hself.
    destruct (C41_reply pr Hok w x index dest id data k ns r d mt w1 rel s key Hw Hhap Hus Hhon Hself)
      as (y & trips & surbs & entries & H1 & H2 & H3 & H4).
    exists y, trips, surbs, entries. split; [done|]. split; [done|]. split; [done|]. intros i e tr w2 Hi Hh Hn Hlt.
    destruct (project x e.1 w1 tr w2 Hh Hn) as (h & Hu & Hs). rewrite <- Hs in Hlt.
    destruct (Hw x) as (cf & hist & Hr). destruct (reachable_mx_ok pr Hok _ _ _ Hr) as [Hcf Hm].
    pose proof (mo_keystore _ _ _ Hm) as [Hks Hcap]. rewrite (mo_config _ _ _ Hm) in Hlt.
    assert (Hm1 : mx_ok pr cf (w_node w1 x)).
    { destruct (happens_call pr _ _ _ Hhap) as (x' & c & a & m & Hc & Hex & En & <- & <- & <- & _).
      rewrite En, with_node_same. eapply (step_inv pr Hok); [done|exact Hm|exact Hc|]. by eapply exec_step. }
    eapply (held_run pr Hok cf Hcf _ h _ e); [exact Hm1|exact Hu| |exact Hlt].
    rewrite H2. apply pushes_held; [done|done|]. rewrite Hcap. lia.
  Qed.
End net.
