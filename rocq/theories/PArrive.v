(** C76: whatever is accepted can be delivered. *)
From Verif Require Export PLeave PRate.
From Verif Require Import LBase.
Local Open Scope nat_scope.

(** ** Specification *)

(** The session once the packets of the stages are noted in its filter. *)
Definition noting (pr : prims) (s : session) (gs : list stage) : session :=
  foldl (fun s g => se_set_filter s (rf_insert (se_filter s) (tag_of pr s (ap_packet (sg_to g))))) s gs.
Definition at_peer (z : bytes) (gs : list stage) : list stage := filter (fun g => ap_peer_id (sg_to g) = z) gs.
(** The stages whose packets are noted on the way: all for requests, all but the last ones for replies. *)
Definition noted_part (request : bool) (trip : list stage) : list stage :=
  if request then trip else removelast trip.
Definition noted_before (request : bool) (trips : list (list stage)) (i : nat) (trip : list stage) (j : nat) : list stage :=
  concat (map (noted_part request) (take i trips)) ++ take j trip.

(** Nothing is in the way of the packets of the trips: every node on the way has the session, has not
    noted the packet in it, even after noting the packets that come before, and is a mixnode with a
    forward queue; the last one is a mixnode if it has to take a request. *)
Definition way_clear (pr : prims) (nodes : list mixnode) (index : session_index) (request : bool)
    (trips : list (list stage)) (w : world) : Prop :=
  forall i trip j g, trips !! i = Some trip -> trip !! j = Some g ->
    let z := ap_peer_id (sg_to g) in let p := ap_packet (sg_to g) in let m := w_node w z in
    exists rel s, has_session nodes index (sg_key g) m rel s /\
      ~ PHandle.seen pr (noting pr s (at_peer z (noted_before request trips i trip j))) p /\
      (rel = RPrev -> forall c, ss_current (mx_sessions m) = SlFull c -> ~ PHandle.seen pr c p /\ ~ opens pr c p) /\
      (S j < length trip -> is_mixnode s /\ (0 < fq_capacity (mx_forward m))%N) /\
      (request = true -> is_mixnode s).

(** Nodes only send packets and handle packets they get from the wire. *)
Definition plain (mt : moment) : Prop :=
  match mt_event mt with
  | EvCall _ (CallPopAuthored _ _) _ | EvCall _ (CallPopForward _) _ => True
  | EvCall _ _ _ => False
  | EvHandle from_wire _ _ _ => from_wire = true
  end.
(** The messages handed to the users of the nodes. *)
Definition returned (tr : list moment) : list (bytes * message) :=
  omap (fun mt => match mt_event mt with
                  | EvHandle _ p _ msg => pair (ap_peer_id p) <$> msg
                  | _ => None
                  end) tr.
(** It is possible that, in what follows, [y] returns [msg] and nothing else is returned anywhere. *)
Definition can_arrive (pr : prims) (w : world) (y : bytes) (msg : message) : Prop :=
  exists tr w', history pr w tr w' /\ Forall plain tr /\ returned tr = [(y, msg)].
(** Node [y] has room for one message of [n] fragments, and holds none with this id. *)
Definition room_for (m : mixnet) (id : bytes) (n : nat) : Prop :=
  held_for id m = None /\
  (N.of_nat n <= cf_max_fragments_per_message (mx_config m))%N /\
  (1 <= cf_max_incomplete_messages (mx_config m))%N /\
  (N.of_nat (n - 1) <= cf_max_incomplete_fragments (mx_config m))%N.

(** ** Proof *)

(** *** Reassembly with nothing else arriving *)
Lemma alone_kept P fa k n stream :
  fa_inv P fa -> Forall frag_sized stream -> (forall f, f ∈ stream -> P f) ->
  Forall (fun f => sp_id f = k /\ sp_count f = N.of_nat n) stream -> 2 ≤ n ->
  (1 <= fa_max_messages fa)%N -> (N.of_nat (n - 1) <= fa_max_fragments fa)%N ->
  kept k fa stream.
Proof.
  intros Hi Hs HP Hk Hn. revert fa Hi. induction Hs as [|f stream Hf Hs IH]; intros fa Hi Hm Hfr; [done|].
  apply Forall_cons in Hk as [[Hk1 Hc1] Hk]. cbn [kept]. split.
  - intros [Ho Hh]. destruct (lhm_remove (fa_incomplete fa) k) as [|e l] eqn:E.
    + destruct (same_id_no_overflow P fa k n f) as [Hno _]; try done.
      * apply HP. left.
      * rewrite E. cbn. lia.
      * rewrite E. cbn. lia.
    + unfold touched in Hh. change (map fst) with (@lhm_keys bytes incomplete_message) in Hh.
      rewrite <- keys_remove_filter in Hh by apply Hi. rewrite Hk1, E in Hh. cbn in Hh. injection Hh as Hh.
      assert (Hin : e.1 ∈ lhm_keys (lhm_remove (fa_incomplete fa) k)) by (rewrite E; left).
      rewrite keys_remove_filter in Hin by apply Hi. by apply elem_of_list_filter in Hin as [? _].
  - intros fa' out E. destruct (insert_views_full P fa f Hi Hf (HP f ltac:(left))) as (fa1 & o1 & E1 & Hi1 & _).
    rewrite E in E1. injection E1 as <- <-.
    destruct (fa_insert_case P fa f Hi Hf (HP f ltac:(left))) as (fa2 & o2 & E2 & Hc).
    rewrite E in E2. injection E2 as <- <-. destruct (insert_case_limits _ _ _ _ _ Hc) as (L1 & L2 & _).
    apply IH; try done; [|by rewrite L1|by rewrite L2]. intros g Hg. apply HP. by right.
Qed.
Lemma alone_run fa id fs :
  fa_inv (fun _ => True) fa -> indexed fs -> fs <> [] -> Forall frag_sized fs -> Forall (fun f => sp_id f = id) fs ->
  lhm_get (fa_incomplete fa) id = None -> (N.of_nat (length fs) <= fa_max_per_message fa)%N ->
  (1 <= fa_max_messages fa)%N -> (N.of_nat (length fs - 1) <= fa_max_fragments fa)%N ->
  exists fa', fa_inserts fa fs = Val (fa', replicate (length fs - 1) None ++ [Some (msg_of fs)]).
Proof.
  intros Hi Hix Hne Hsz Hid Hnone Hmax H1 H2.
  assert (Hk : kept id fa fs).
  { destruct (decide (length fs = 1)) as [Hl|Hl].
    - destruct fs as [|f [|]]; try done. cbn [kept]. split; [|done]. intros [(Hnb & Ho & _) _].
      destruct (Hix 0 f eq_refl) as (Hv & Hc & _). cbn in Hc. unfold one_step in Ho. rewrite decide_False in Ho.
      + by rewrite decide_True in Ho.
      + cbn in Hmax. intros [?|?]; [done|]. lia.
    - apply (alone_kept (fun _ => True) _ _ (length fs)); try done.
      + apply Forall_lookup. intros i g Hg. destruct (Hix i g Hg) as (_ & Hc & _). split; [|done].
        by eapply (Forall_lookup_1 (fun f => sp_id f = id)).
      + destruct fs as [|? [|]]; cbn in *; lia || done. }
  destruct (PFragment.interleave _ id fa fs Hi Hsz ltac:(done) Hk) as (fa' & outs & E' & Hrun).
  assert (Hfil : filter (fun f => sp_id f = id) fs = fs).
  { clear -Hid. induction Hid as [|f l H H2 IH]; [done|]. rewrite filter_cons_True by done. by rewrite IH. }
  assert (Hv : view fa id = None) by (unfold view; by rewrite Hnone).
  rewrite Hfil, Hv, (one_run_complete _ fs) in Hrun; [|done|done|lia|done].
  destruct (fa_inserts_inv _ fa fs Hi Hsz ltac:(done)) as (fa2 & outs2 & E2 & Hi2 & Hlo & _).
  rewrite E' in E2. injection E2 as <- <-. injection Hrun as Hv' Ho. rewrite outputs_for_all in Ho; [|done|done].
  exists fa'. by rewrite E', Ho.
Qed.

(** *** What changes at a node while packets pass *)
Definition aged_slot (pr : prims) (now_noted : Prop) (gs : list stage) (sl sl' : session_slot) : Prop :=
  match sl with
  | SlFull s => exists s', sl' = SlFull s' /\ se_kx_pair s' = se_kx_pair s /\ se_topology s' = se_topology s /\
      se_mean_period s' = se_mean_period s /\
      (now_noted -> se_filter s' = se_filter (noting pr s gs)) /\ (~ now_noted -> se_filter s' = se_filter s)
  | _ => sl' = sl
  end.
Record aged (pr : prims) (index : session_index) (gs : list stage) (m m' : mixnet) : Prop := {
  ag_status : mx_status m' = mx_status m;
  ag_config : mx_config m' = mx_config m;
  ag_capacity : fq_capacity (mx_forward m') = fq_capacity (mx_forward m);
  ag_slot : forall rel, aged_slot pr (index_of m rel index) gs (ss_get (mx_sessions m) rel) (ss_get (mx_sessions m') rel)
}.

Section arrive.
  Context (pr : prims) (Hok : prims_ok pr) (nodes : list mixnode) (index : session_index).

  Lemma noting_eq gs : forall s s', se_kx_pair s' = se_kx_pair s -> se_filter s' = se_filter s ->
    se_filter (noting pr s' gs) = se_filter (noting pr s gs).
  Proof.
    induction gs as [|g gs IH]; intros s s' Hk Hf; [done|]. unfold noting. cbn [foldl]. apply IH; [done|].
    cbn. unfold tag_of, shared. by rewrite Hk, Hf.
  Qed.
  Lemma noting_key gs : forall s, se_kx_pair (noting pr s gs) = se_kx_pair s.
  Proof. induction gs as [|g gs IH]; intros s; [done|]. etransitivity; [apply (IH (se_set_filter _ _))|done]. Qed.
  Lemma noting_app s gs gs' : noting pr s (gs ++ gs') = noting pr (noting pr s gs) gs'.
  Proof. apply foldl_app. Qed.
  Lemma seen_eq s s' p : se_kx_pair s' = se_kx_pair s -> se_filter s' = se_filter s ->
    PHandle.seen pr s' p <-> PHandle.seen pr s p.
  Proof. intros Hk Hf. unfold PHandle.seen, tag_of, shared. by rewrite Hk, Hf. Qed.
  Lemma opens_eq s s' p : se_kx_pair s' = se_kx_pair s -> opens pr s' p <-> opens pr s p.
  Proof. intros Hk. unfold opens, shared. by rewrite Hk. Qed.

  Lemma index_of_dec m rel : Decision (index_of m rel index).
  Proof. destruct rel; cbn; apply _. Defined.
  Lemma index_status m m' rel : mx_status m' = mx_status m -> index_of m' rel index <-> index_of m rel index.
  Proof. intros E. unfold index_of. by rewrite E. Qed.

  Lemma aged_same m m' :
    mx_status m' = mx_status m -> mx_config m' = mx_config m -> fq_capacity (mx_forward m') = fq_capacity (mx_forward m) ->
    mx_sessions m' = mx_sessions m -> aged pr index [] m m'.
  Proof.
    intros H1 H2 H3 H4. split; [done..|]. intros rel. rewrite H4. unfold aged_slot.
    destruct (ss_get _ rel) as [| | |s]; [done..|]. by exists s.
  Qed.
  Lemma aged_refl m : aged pr index [] m m.
  Proof. by apply aged_same. Qed.
  Lemma aged_trans gs gs' m m' m'' : aged pr index gs m m' -> aged pr index gs' m' m'' -> aged pr index (gs ++ gs') m m''.
  Proof.
    intros [A1 A2 A3 A4] [B1 B2 B3 B4]. split; [congruence..|]. intros rel. specialize (A4 rel). specialize (B4 rel).
    unfold aged_slot in *. destruct (ss_get (mx_sessions m) rel) as [| | |s]; [rewrite A4 in B4; done..|].
    destruct A4 as (s' & E' & K' & T' & P' & F1 & F2). rewrite E' in B4.
    destruct B4 as (s'' & E'' & K'' & T'' & P'' & G1 & G2). exists s''. split_and!; [done|congruence..| |].
    - intros Hi. rewrite G1 by (by apply (index_status m)). rewrite noting_app. apply noting_eq; [by rewrite noting_key|by apply F1].
    - intros Hn. rewrite G2 by (rewrite (index_status m m'); done). by apply F2.
  Qed.
  Lemma aged_session gs m m' rel s key :
    aged pr index gs m m' -> has_session nodes index key m rel s ->
    exists s', has_session nodes index key m' rel s' /\ se_kx_pair s' = se_kx_pair s /\ se_topology s' = se_topology s /\
      se_filter s' = se_filter (noting pr s gs).
  Proof.
    intros [A1 _ _ A4] (Hg & Hi & Hk & Hn). specialize (A4 rel). rewrite Hg in A4.
    destruct A4 as (s' & E & K & T & _ & F & _). exists s'. split; [|split_and!; [done..|by apply F]].
    split_and!; [done|by apply (index_status m)|by rewrite K|by rewrite T].
  Qed.
  (** What was to be unseen after noting the packets is unseen. *)
  Lemma aged_unseen gs m m' rel s s' p key :
    aged pr index gs m m' -> has_session nodes index key m rel s -> has_session nodes index key m' rel s' ->
    ~ PHandle.seen pr (noting pr s gs) p ->
    (rel = RPrev -> forall c, ss_current (mx_sessions m) = SlFull c -> ~ PHandle.seen pr c p /\ ~ opens pr c p) ->
    unseen pr m' rel s' p.
  Proof.
    intros Ha Hs Hs' Hun Hcur. destruct (aged_session _ _ _ _ _ _ Ha Hs) as (s1 & (G & _) & K & _ & F).
    assert (s1 = s') as -> by (destruct Hs' as (G' & _); congruence). split.
    - rewrite (seen_eq (noting pr s gs) s'); [done|by rewrite noting_key|done].
    - intros -> c' Hc'. destruct Ha as [_ _ _ A4]. specialize (A4 RCurrent). cbn [ss_get] in A4. rewrite Hc' in A4.
      destruct (ss_current (mx_sessions m)) as [| | |c] eqn:Ec; try done.
      destruct A4 as (c1 & [= <-] & K1 & _ & _ & _ & F2). destruct (Hcur eq_refl c eq_refl) as [H1 H2].
      assert (Hn : ~ index_of m RCurrent index).
      { destruct Hs as (_ & Hi & _). cbn in Hi |- *. lia. }
      split; [rewrite (seen_eq c c')|rewrite (opens_eq c c')]; try done. by apply F2.
  Qed.

  (** *** Worlds *)
  Definition moved (gs : list stage) (w w' : world) : Prop :=
    forall z, aged pr index (at_peer z gs) (w_node w z) (w_node w' z).
  Definition still (w w' : world) : Prop :=
    forall z, mx_assembler (w_node w' z) = mx_assembler (w_node w z) /\ mx_keystore (w_node w' z) = mx_keystore (w_node w z).
  Definition quiet (tr : list moment) : Prop := Forall plain tr /\ returned tr = [].

  Lemma at_peer_app z gs gs' : at_peer z (gs ++ gs') = at_peer z gs ++ at_peer z gs'.
  Proof. apply filter_app. Qed.
  Lemma moved_refl w : moved [] w w.
  Proof. intros z. apply aged_refl. Qed.
  Lemma moved_trans gs gs' w w' w'' : moved gs w w' -> moved gs' w' w'' -> moved (gs ++ gs') w w''.
  Proof. intros H1 H2 z. rewrite at_peer_app. by eapply aged_trans. Qed.
  Lemma still_refl w : still w w.
  Proof. by intros z. Qed.
  Lemma still_trans w w' w'' : still w w' -> still w' w'' -> still w w''.
  Proof. intros H1 H2 z. destruct (H1 z), (H2 z). split; congruence. Qed.
  Lemma history_app w tr w' tr' w'' : history pr w tr w' -> history pr w' tr' w'' -> history pr w (tr ++ tr') w''.
  Proof. induction 1; intros H'; [done|]. cbn. econstructor; [done|]. auto. Qed.
  Lemma returned_app tr tr' : returned (tr ++ tr') = returned tr ++ returned tr'.
  Proof. apply omap_app. Qed.
  Lemma quiet_nil : quiet [].
  Proof. by split. Qed.
  Lemma quiet_app tr tr' : quiet tr -> quiet tr' -> quiet (tr ++ tr').
  Proof. intros [A1 A2] [B1 B2]. split; [by apply Forall_app|]. by rewrite returned_app, A2, B2. Qed.
  (** One node changes. *)
  Lemma moved_one gs w x m wire :
    aged pr index (at_peer x gs) (w_node w x) m -> (forall z, z <> x -> at_peer z gs = []) ->
    moved gs w (World (with_node w x m) wire).
  Proof.
    intros Ha Hn z. cbn [w_node]. unfold with_node. destruct (decide (z = x)) as [->|Hne]; [done|].
    rewrite Hn by done. apply aged_refl.
  Qed.
  Lemma still_one w x m wire :
    mx_assembler m = mx_assembler (w_node w x) -> mx_keystore m = mx_keystore (w_node w x) ->
    still w (World (with_node w x m) wire).
  Proof. intros H1 H2 z. cbn [w_node]. unfold with_node. by destruct (decide (z = x)) as [->|Hne]. Qed.

  (** *** Sending *)
  Lemma pop_forward w z :
    world_ok pr w -> exists a w', happens pr w (EvCall z (CallPopForward 0) (RespPacket a)) w' /\
      moved [] w w' /\ still w w' /\ w_wire w' = w_wire w ++ sent (RespPacket a) /\
      match a with
      | Some p => exists fp, fp_packet fp = p /\
          fq_queue (mx_forward (w_node w z)) ≡ₚ fp :: fq_queue (mx_forward (w_node w' z))
      | None => fq_queue (mx_forward (w_node w z)) = []
      end.
  Proof.
    intros Hw. destruct (fq_pop (mx_forward (w_node w z)) 0) as [q a] eqn:Eq.
    set (m1 := mx_set_forward (mx_or_events (w_node w z) NEXT_FORWARD_PACKET_DEADLINE_CHANGED) q).
    assert (He : exec pr (w_node w z) (CallPopForward 0) = Val (m1, RespPacket a)).
    { cbn [exec]. unfold pop_next_forward_packet.
      change (mx_forward (mx_or_events (w_node w z) _)) with (mx_forward (w_node w z)). by rewrite Eq. }
    exists a, (World (with_node w z m1) (w_wire w ++ sent (RespPacket a))).
    assert (Hcap : fq_capacity q = fq_capacity (mx_forward (w_node w z))).
    { unfold fq_pop in Eq. destruct (min_deadline _); [|by injection Eq as <- _]. cbv zeta in Eq.
      destruct (_ !! _); by injection Eq as <- _. }
    split_and!; [by constructor| | |done|].
    - apply moved_one; [|done]. by apply aged_same.
    - by apply still_one.
    - destruct (Hw z) as (cf & hist & Hr). destruct (reachable_mx_ok pr Hok _ _ _ Hr) as [Hcf Hm].
      pose proof (PInv.exec_step pr Hok cf _ _ _ _ Hcf Hm (I : call_ok (CallPopForward 0)) He) as Hst. apply C21_step in Hst. cbn [forward_step] in Hst.
      cbn [w_node]. rewrite with_node_same. destruct a as [p|]; [|by destruct Hst].
      destruct Hst as (fp & E & _ & Hp). by exists fp.
  Qed.
  Lemma drain n : forall w z, world_ok pr w -> length (fq_queue (mx_forward (w_node w z))) = n ->
    exists tr w', history pr w tr w' /\ quiet tr /\ moved [] w w' /\ still w w' /\ w_wire w ⊆+ w_wire w' /\
      (forall fp, fp ∈ fq_queue (mx_forward (w_node w z)) -> fp_packet fp :: w_wire w ⊆+ w_wire w') /\
      fq_queue (mx_forward (w_node w' z)) = [].
  Proof.
    induction n as [|n IH]; intros w z Hw Hn.
    - apply nil_length_inv in Hn. exists [], w. split_and!; [constructor|apply quiet_nil|apply moved_refl|apply still_refl|done| |done].
      rewrite Hn. by intros fp ?%elem_of_nil.
    - destruct (pop_forward w z Hw) as (a & w1 & Hh & Hm & Hs & Hwire & Hq).
      destruct a as [p|]; [|by rewrite Hq in Hn]. destruct Hq as (fp & Hfp & Hq).
      assert (Hw1 : world_ok pr w1) by (by eapply happens_ok).
      destruct (IH w1 z Hw1) as (tr & w2 & Hh2 & Hq2 & Hm2 & Hs2 & Hsub & Hall & Hemp).
      { rewrite Hq in Hn. cbn in Hn. lia. }
      assert (Hsub1 : fp_packet fp :: w_wire w ⊆+ w_wire w2).
      { etrans; [|exact Hsub]. rewrite Hwire. cbn [sent]. rewrite Hfp. by rewrite (Permutation_app_comm (w_wire w)). }
      exists (Moment w (EvCall z (CallPopForward 0) (RespPacket (Some p))) w1 :: tr), w2. split_and!.
      + by econstructor.
      + apply (quiet_app [_]); [|done]. split; [by repeat constructor|done].
      + exact (moved_trans [] [] _ _ _ Hm Hm2).
      + by eapply still_trans.
      + etrans; [|exact Hsub1]. by apply submseteq_cons.
      + intros fp' Hin. rewrite Hq in Hin. apply elem_of_cons in Hin as [->|Hin]; [done|].
        specialize (Hall fp' Hin). etrans; [|exact Hall]. apply submseteq_skip. rewrite Hwire. by apply submseteq_inserts_r.
      + done.
  Qed.

  (** *** Handling *)
  Context (Hexp : exp1_ok (pr_exp1 pr)).
  Definition all_sane (w : world) : Prop := forall z, sane (mx_config (w_node w z)).
  Lemma moved_sane gs w w' : moved gs w w' -> all_sane w -> all_sane w'.
  Proof. intros Hm Hs z. rewrite (ag_config _ _ _ _ _ (Hm z)). apply Hs. Qed.

  Lemma submseteq_uncons {A} (x : A) l k : x :: l ⊆+ x :: k -> l ⊆+ k.
  Proof.
    intros H. apply submseteq_Permutation in H as (k' & H). cbn in H. apply Permutation_cons_inv in H. rewrite H.
    by apply submseteq_inserts_r.
  Qed.
  Lemma deliver w p pend :
    world_ok pr w -> all_sane w -> p :: pend ⊆+ w_wire w -> wire_ok p ->
    exists m' msg w', handle_packet pr (w_node w (ap_peer_id p)) (ap_packet p) 0 = Val (m', msg) /\
      happens pr w (EvHandle true p 0 msg) w' /\ w_node w' = with_node w (ap_peer_id p) m' /\ pend ⊆+ w_wire w'.
  Proof.
    intros Hw Hs Hsub Hp. set (m := w_node w (ap_peer_id p)).
    destruct (Hw (ap_peer_id p)) as (cf & hist & Hr). fold m in Hr. destruct (reachable_mx_ok pr Hok _ _ _ Hr) as [Hcf Hm].
    destruct (handle_packet pr m (ap_packet p) 0) as [[m' msg]|] eqn:E.
    2:{ exfalso. destruct (C53_no_panic pr Hok cf hist m (CallHandle (ap_packet p) 0)) as (? & ? & ? & ? & ? & ? & ? & ? & _); try done.
        - rewrite <- (mo_config _ _ _ Hm). apply Hs.
        - cbn [exec]. by rewrite E. }
    assert (Hin : p ∈ w_wire w) by (eapply elem_of_submseteq; [|exact Hsub]; left).
    apply elem_of_list_split in Hin as (l1 & l2 & El).
    exists m', msg, (World (with_node w (ap_peer_id p) m') (l1 ++ l2)). split_and!; [done|by econstructor|done|].
    cbn [w_wire]. rewrite El in Hsub. rewrite <- Permutation_middle in Hsub. by apply submseteq_uncons in Hsub.
  Qed.

  Lemma noted_aged m rel s p key g :
    has_session nodes index key m rel s -> ap_packet (sg_to g) = p -> aged pr index [g] m (noted pr m rel s p).
  Proof.
    intros (Hg & Hi & _) <-. split; [done..|]. intros rel'. unfold noted, mx_put_session. cbn [mx_sessions mx_set_sessions].
    rewrite ss_get_set. destruct (decide (rel = rel')) as [<-|Hne].
    - rewrite Hg. cbn [aged_slot]. eexists. split; [done|]. split_and!; try done.
    - unfold aged_slot. destruct (ss_get (mx_sessions m) rel') as [| | |s'] eqn:E; [done..|]. exists s'. split_and!; try done.
      intros Hi'. exfalso. destruct rel, rel'; cbn in *; try done; lia.
  Qed.
  Lemma aged_events gs m m' m'' :
    aged pr index gs m m' -> mx_status m'' = mx_status m' -> mx_config m'' = mx_config m' ->
    fq_capacity (mx_forward m'') = fq_capacity (mx_forward m') -> mx_sessions m'' = mx_sessions m' -> aged pr index gs m m''.
  Proof. intros H1 H2 H3 H4 H5. rewrite <- (app_nil_r gs). eapply aged_trans; [done|]. by apply aged_same. Qed.

  Lemma at_peer_one g z : z <> ap_peer_id (sg_to g) -> at_peer z [g] = [].
  Proof. intros H. unfold at_peer. by rewrite filter_cons_False, filter_nil. Qed.
  Lemma at_peer_own g : at_peer (ap_peer_id (sg_to g)) [g] = [g].
  Proof. unfold at_peer. by rewrite filter_cons_True, filter_nil. Qed.

  (** A packet that every able node passes on is for the key of the session. *)
  Lemma passes_opens g g' m rel s :
    passes_on pr nodes index g g' -> has_session nodes index (sg_key g) m rel s ->
    unseen pr m rel s (ap_packet (sg_to g)) -> is_mixnode s -> has_room m -> wire_ok (sg_to g) ->
    opens pr s (ap_packet (sg_to g)).
  Proof.
    intros Hpass (Hg & Hi & Hk & Hn) [Hun Hcur] Hmix Hroom Hp.
    set (other := match rel with RCurrent => RPrev | RPrev => RCurrent end).
    set (m2 := set_slot m other SlEmpty).
    assert (Hg2 : forall rel', ss_get (mx_sessions m2) rel' = if decide (other = rel') then SlEmpty else ss_get (mx_sessions m) rel').
    { intros rel'. apply ss_get_set. }
    assert (Hs2 : has_session nodes index (sg_key g) m2 rel s).
    { split_and!; try done. rewrite Hg2, decide_False by (unfold other; by destruct rel). done. }
    destruct (handle_packet_spec pr Hok m2 (ap_packet (sg_to g)) 0 Hp) as [[Hno E]|(rel' & s' & Hr & _)].
    - exfalso. destruct (Hpass m2 0%N m2 None) as (_ & dl & Eq).
      + split; [|exact Hroom]. exists rel, s. split; [done|]. split; [|done]. split; [done|].
        intros -> c Hc. change (ss_get (mx_sessions m2) RCurrent = SlFull c) in Hc. rewrite Hg2 in Hc. unfold other in Hc.
        by rewrite decide_True in Hc.
      + exact E.
      + apply (f_equal length) in Eq. rewrite app_length in Eq. cbn in Eq. lia.
    - pose proof (reads_get _ _ _ _ _ Hr) as Hg'. rewrite Hg2 in Hg'. destruct (decide (other = rel')) as [|Hne]; [done|].
      assert (rel' = rel) as -> by (unfold other in Hne; by destruct rel, rel').
      rewrite Hg in Hg'. injection Hg' as <-. by apply reads_opens in Hr as [_ ?].
  Qed.

  (** One stage of a trip. *)
  Lemma hop w g g' pend :
    world_ok pr w -> all_sane w -> sg_to g :: pend ⊆+ w_wire w -> wire_ok (sg_to g) ->
    can_take pr nodes index g (w_node w (ap_peer_id (sg_to g))) ->
    (0 < fq_capacity (mx_forward (w_node w (ap_peer_id (sg_to g)))))%N -> passes_on pr nodes index g g' ->
    exists tr w', history pr w tr w' /\ quiet tr /\ moved [g] w w' /\ still w w' /\
      sg_to g' :: pend ⊆+ w_wire w' /\ wire_ok (sg_to g').
  Proof.
    intros Hw Hsane Hsub Hp Htake Hcap Hpass. set (z := ap_peer_id (sg_to g)) in *.
    destruct (drain _ w z Hw eq_refl) as (tr1 & w1 & Hh1 & Hq1 & Hm1 & Hs1 & Hsub1 & _ & Hemp).
    assert (Hw1 : world_ok pr w1) by (by eapply history_ok).
    assert (Hz : aged pr index [] (w_node w z) (w_node w1 z)) by apply (Hm1 z).
    destruct Htake as (rel & s & Hs & [Hun Hcur] & Hmix).
    destruct (aged_session _ _ _ _ _ _ Hz Hs) as (s' & Hs' & K & T & F).
    assert (Hun' : unseen pr (w_node w1 z) rel s' (ap_packet (sg_to g))) by (by eapply aged_unseen).
    assert (Hmix' : is_mixnode s') by (unfold is_mixnode; by rewrite T).
    assert (Hfw : can_forward pr nodes index g (w_node w1 z)).
    { split; [by exists rel, s'|]. unfold has_room. rewrite Hemp. rewrite (ag_capacity _ _ _ _ _ Hz). done. }
    destruct (deliver w1 (sg_to g) pend Hw1) as (m' & msg & w2 & Hh & Hhap & Hn2 & Hsub2); [by eapply moved_sane|by etrans|done|].
    fold z in Hh, Hn2. destruct (Hpass _ _ _ _ Hfw Hh) as (-> & dl & Hq).
    assert (Hw2 : world_ok pr w2) by (by eapply happens_ok).
    destruct (Hw1 z) as (cf & hist & Hr). destruct (reachable_mx_ok pr Hok _ _ _ Hr) as [Hcf Hm].
    assert (Hex : exec pr (w_node w1 z) (CallHandle (ap_packet (sg_to g)) 0) = Val (m', RespMessage None)).
    { cbn [exec]. by rewrite Hh. }
    pose proof (PInv.exec_step pr Hok cf _ _ _ _ Hcf Hm (Hp : call_ok (CallHandle _ _)) Hex) as Hst.
    assert (Hop : opens pr s' (ap_packet (sg_to g))).
    { eapply passes_opens; try done. apply Hfw. }
    pose proof (can_reads pr _ _ _ _ _ _ _ Hs' Hun' Hop) as Hrd.
    apply C21_step in Hst. cbn [forward_step] in Hst. rewrite Hemp in Hst, Hq. cbn [app] in Hst, Hq.
    destruct Hst as [Hst|(rel0 & s0 & t & d & next & peer & dur & (Hrd0 & _) & Hc & Hpeer & Hdur & Hst)]; [by rewrite Hst in Hq|].
    destruct (reads_unique _ _ _ _ _ _ _ Hrd0 Hrd) as [-> ->].
    rewrite Hst in Hq. injection Hq as _ Hg'.
    assert (Em : m' = enqueue (noted pr (w_node w1 z) rel s' (ap_packet (sg_to g))) (ForwardPacket (0 + dur)%N (AddressedPacket peer next))).
    { rewrite (handle_reads pr Hok _ _ _ _ _ Hp Hrd) in Hh. unfold effect in Hh. rewrite Hc, decide_True, Hpeer, Hdur in Hh.
      - by injection Hh as <-.
      - split; [done|]. apply Hfw. }
    assert (Ha : aged pr index [g] (w_node w1 z) m').
    { eapply aged_events; [by eapply noted_aged|..]; rewrite Em; unfold enqueue; by destruct (decide _). }
    assert (Hasm : mx_assembler m' = mx_assembler (w_node w1 z) /\ mx_keystore m' = mx_keystore (w_node w1 z)).
    { rewrite Em. unfold enqueue. by destruct (decide _). }
    assert (Hp' : wire_ok (sg_to g')).
    { rewrite <- Hg'. unfold wire_ok. cbn [ap_packet]. pose proof (content_lengths pr Hok s' _ Hp Hop) as Hl. by rewrite Hc in Hl. }
    destruct (drain _ w2 z Hw2 eq_refl) as (tr3 & w3 & Hh3 & Hq3 & Hm3 & Hs3 & Hsub3 & Hall3 & _).
    assert (Hm2 : moved [g] w1 w2).
    { intros z'. rewrite Hn2. unfold with_node. destruct (decide (z' = z)) as [->|Hne].
      - unfold z. by rewrite at_peer_own.
      - rewrite at_peer_one by done. apply aged_refl. }
    assert (Hs2 : still w1 w2).
    { intros z'. rewrite Hn2. unfold with_node. by destruct (decide (z' = z)) as [->|Hne]. }
    exists (tr1 ++ [Moment w1 (EvHandle true (sg_to g) 0 None) w2] ++ tr3), w3. split_and!.
    - eapply history_app; [exact Hh1|]. exact (HiCons _ _ _ _ _ _ Hhap Hh3).
    - apply quiet_app; [done|]. apply quiet_app; [|done]. split; [by repeat constructor|done].
    - change [g] with ([] ++ [g] ++ []). eapply moved_trans; [done|]. by eapply moved_trans.
    - eapply still_trans; [done|]. by eapply still_trans.
    - etrans; [apply submseteq_skip, Hsub2|].
      assert (E : sg_to g' = fp_packet (ForwardPacket (0 + dur)%N (sg_to g'))) by done. rewrite E. apply Hall3.
      rewrite Hn2, with_node_same, Hst, Hg'. left.
    - done.
  Qed.

  (** Along a trip, up to its stage [j]. *)
  Lemma travel request trips w0 w i trip g0 pend :
    way_clear pr nodes index request trips w0 -> trips !! i = Some trip -> linked pr nodes index trip ->
    moved (concat (map (noted_part request) (take i trips))) w0 w -> world_ok pr w -> all_sane w ->
    trip !! 0 = Some g0 -> sg_to g0 :: pend ⊆+ w_wire w -> wire_ok (sg_to g0) ->
    forall j g, trip !! j = Some g ->
    exists tr w', history pr w tr w' /\ quiet tr /\ moved (take j trip) w w' /\ still w w' /\
      sg_to g :: pend ⊆+ w_wire w' /\ wire_ok (sg_to g).
  Proof.
    intros Hclear Hi Hl Hmoved Hw Hsane H0 Hsub Hp j. induction j as [|j IH]; intros g Hj.
    { rewrite H0 in Hj. injection Hj as <-. exists [], w. rewrite take_0.
      split_and!; [constructor|apply quiet_nil|apply moved_refl|apply still_refl|done|done]. }
    destruct (lookup_lt_is_Some_2 trip j) as [g1 Hj1]; [apply lookup_lt_Some in Hj; lia|].
    destruct (IH g1 Hj1) as (tr & w1 & Hh & Hq & Hm & Hs & Hsub1 & Hp1).
    destruct (Hclear i trip j g1 Hi Hj1) as (rel & s & Hses & Hun & Hcur & Hfwd & _). cbv zeta in *.
    destruct Hfwd as [Hmix Hcap]; [by eapply lookup_lt_Some|].
    pose proof (moved_trans _ _ _ _ _ Hmoved Hm) as Hm1. pose proof (Hm1 (ap_peer_id (sg_to g1))) as Ha.
    destruct (aged_session _ _ _ _ _ _ Ha Hses) as (s' & Hs' & K & T & F).
    assert (Hw1 : world_ok pr w1) by (by eapply history_ok).
    destruct (hop w1 g1 g pend Hw1) as (tr2 & w2 & Hh2 & Hq2 & Hm2 & Hs2 & Hsub2 & Hp2).
    - eapply moved_sane; [exact Hm|done].
    - done.
    - done.
    - exists rel, s'. split; [done|]. split; [by eapply aged_unseen|]. unfold is_mixnode. by rewrite T.
    - by rewrite (ag_capacity _ _ _ _ _ Ha).
    - by eapply Hl.
    - exists (tr ++ tr2), w2. split_and!; try done.
      + by eapply history_app.
      + by apply quiet_app.
      + rewrite (take_S_r _ _ _ Hj1). by eapply moved_trans.
      + by eapply still_trans.
  Qed.

  (** At the end of a trip. *)
  Definition ready_of (request : bool) (entries : list (bytes * surb_value)) : nat -> stage -> mixnet -> Prop :=
    if request then ready_request pr nodes index else ready_reply pr nodes index entries.
  Definition kind_of (request : bool) (entries : list (bytes * surb_value)) : nat -> content -> Prop :=
    if request then request_kind else reply_kind entries.

  Lemma finish request entries w i g f (mk : generic_message -> message) pend :
    world_ok pr w -> all_sane w -> sg_to g :: pend ⊆+ w_wire w -> wire_ok (sg_to g) ->
    let y := ap_peer_id (sg_to g) in
    ready_of request entries i g (w_node w y) ->
    (forall m now m' msg, (exists cf, mx_ok pr cf m) -> ready_of request entries i g m ->
       handle_packet pr m (ap_packet (sg_to g)) now = Val (m', msg) ->
      (brings pr m (ap_packet (sg_to g)) f /\
       exists rel s, has_session nodes index (sg_key g) m rel s /\
         reads pr (mx_sessions m) (ap_packet (sg_to g)) rel s /\
         kind_of request entries i (content_of pr s (ap_packet (sg_to g)))) /\
      exists out, fa_insert (mx_assembler m) f = Val (mx_assembler m', out) /\ msg = mk <$> out) ->
    exists mt w' out, history pr w [mt] w' /\ plain mt /\ returned [mt] = omap (fmap (pair y ∘ mk)) [out] /\
      moved (noted_part request [g]) w w' /\ pend ⊆+ w_wire w' /\
      fa_insert (mx_assembler (w_node w y)) f = Val (mx_assembler (w_node w' y), out) /\
      mx_keystore (w_node w' y) = (if request then mx_keystore (w_node w y)
        else match entries !! i with Some e => sk_remove (mx_keystore (w_node w y)) e.1 | None => mx_keystore (w_node w y) end).
  Proof.
    intros Hw Hsane Hsub Hp y Hready Hread.
    destruct (deliver w (sg_to g) pend Hw Hsane Hsub Hp) as (m' & msg & w2 & Hh & Hhap & Hn2 & Hsub2). fold y in Hh, Hn2.
    destruct (Hw y) as (cf & hist & Hr). destruct (reachable_mx_ok pr Hok _ _ _ Hr) as [Hcf Hm].
    destruct (Hread _ _ _ _ (ex_intro _ cf Hm) Hready Hh) as [(Hb & rel & s & Hses & Hrd & Hk) (out & Hi & ->)].
    exists (Moment w (EvHandle true (sg_to g) 0 (mk <$> out)) w2), w2, out.
    rewrite (handle_reads pr Hok _ _ _ _ _ Hp Hrd) in Hh. unfold effect in Hh.
    assert (Hfacts : aged pr index (noted_part request [g]) (w_node w y) m' /\
      mx_keystore m' = (if request then mx_keystore (w_node w y)
        else match entries !! i with Some e => sk_remove (mx_keystore (w_node w y)) e.1 | None => mx_keystore (w_node w y) end)).
    { destruct request; cbn [ready_of kind_of noted_part removelast] in *.
      - destruct Hk as (data & Hc). rewrite Hc in Hh. destruct Hready as (rel' & s' & Hs' & Hun & Hmix).
        assert (rel' = rel /\ s' = s) as [-> ->].
        { destruct Hses as (G1 & I1 & _), Hs' as (G2 & I2 & _).
          assert (rel' = rel) as -> by (destruct rel, rel'; cbn in I1, I2; try done; lia). split; [done|]. congruence. }
        rewrite decide_True in Hh by done. apply out_bind_Val in Hh as ([fa o] & _ & Hh).
        assert (Em : m' = mx_set_assembler (noted pr (w_node w y) rel s (ap_packet (sg_to g))) fa).
        { destruct o; [apply out_bind_Val in Hh as (ix & _ & Hh)|]; by injection Hh as <-. }
        rewrite Em. split; [|done]. eapply aged_events; [by eapply noted_aged|done..].
      - destruct Hk as (id & v & pl & He & Hc). rewrite Hc in Hh. rewrite He. cbn [fst].
        destruct Hready as (_ & id' & v' & He' & Hv). rewrite He in He'. injection He' as <- <-. rewrite Hv in Hh.
        destruct (decrypt_reply_payload pr pl (sv_keys v)) as [plain0 [[]|e]] eqn:Ed.
        + apply out_bind_Val in Hh as ([fa o] & _ & [= <- _]). split; [|done]. by apply aged_same.
        + injection Hh as <- _. split; [|done]. by apply aged_same. }
    destruct Hfacts as [Ha Hks]. split_and!.
    - econstructor; [exact Hhap|constructor].
    - done.
    - cbn. by destruct out.
    - intros z. rewrite Hn2. unfold with_node. destruct (decide (z = y)) as [->|Hne].
      + destruct request; cbn [noted_part removelast] in *; [|done]. unfold y in *. by rewrite at_peer_own.
      + assert (at_peer z (noted_part request [g]) = []) as ->; [|apply aged_refl].
        destruct request; [by apply at_peer_one|done].
    - done.
    - by rewrite Hn2, with_node_same.
    - by rewrite Hn2, with_node_same.
  Qed.

  Lemma entry_remove ks id id' : id' <> id -> sk_entry (sk_remove ks id) id' = sk_entry ks id'.
  Proof.
    intros Hne. unfold sk_entry, sk_remove. cbn [sk_surbs]. induction (sk_surbs ks) as [|[k v] l IH]; [done|]. cbn.
    destruct (decide (k = id)) as [->|Hk]; [by rewrite decide_False|]. cbn. by rewrite IH.
  Qed.

  (** One trip after the other. *)
  Lemma journeys request entries trips w0 w1 y fs (mk : generic_message -> message) :
    way_clear pr nodes index request trips w0 -> world_ok pr w1 -> all_sane w0 ->
    moved [] w0 w1 -> still w0 w1 ->
    Forall (fun trip => linked pr nodes index trip /\ exists g, list.last trip = Some g /\ ap_peer_id (sg_to g) = y) trips ->
    omap first_packet trips ⊆+ w_wire w1 -> Forall wire_ok (omap first_packet trips) ->
    length trips = length fs ->
    (forall i trip g f m now m' msg, trips !! i = Some trip -> list.last trip = Some g -> fs !! i = Some f ->
      (exists cf, mx_ok pr cf m) -> ready_of request entries i g m ->
       handle_packet pr m (ap_packet (sg_to g)) now = Val (m', msg) ->
      (brings pr m (ap_packet (sg_to g)) f /\
       exists rel s, has_session nodes index (sg_key g) m rel s /\
         reads pr (mx_sessions m) (ap_packet (sg_to g)) rel s /\
         kind_of request entries i (content_of pr s (ap_packet (sg_to g)))) /\
      exists out, fa_insert (mx_assembler m) f = Val (mx_assembler m', out) /\ msg = mk <$> out) ->
    (request = false -> length entries = length trips /\ NoDup (map fst entries) /\
       Forall (fun e => sk_entry (mx_keystore (w_node w0 y)) e.1 = Some e.2) entries) ->
    forall n, n ≤ length trips ->
    exists tr w outs, history pr w1 tr w /\ Forall plain tr /\
      moved (concat (map (noted_part request) (take n trips))) w0 w /\
      omap first_packet (drop n trips) ⊆+ w_wire w /\
      fa_inserts (mx_assembler (w_node w0 y)) (take n fs) = Val (mx_assembler (w_node w y), outs) /\
      returned tr = omap (fmap (pair y ∘ mk)) outs /\
      (request = false -> Forall (fun e => sk_entry (mx_keystore (w_node w y)) e.1 = Some e.2) (drop n entries)).
  Proof.
    intros Hclear Hw1 Hsane0 Hmv Hst Htrips Hwire Hwok Hlen Hread Hks n.
    induction n as [|n IH]; intros Hn.
    { exists [], w1, []. rewrite !take_0, !drop_0. cbn [map concat fa_inserts]. destruct (Hst y) as [Ea Ek].
      split_and!; try done; [constructor|by rewrite Ea|]. intros E. rewrite Ek. by apply Hks. }
    destruct IH as (tr & w & outs & Hh & Hpl & Hm & Hsub & Hasm & Hret & Hkeys); [lia|].
    destruct (lookup_lt_is_Some_2 trips n) as [trip Hi]; [lia|].
    destruct (lookup_lt_is_Some_2 fs n) as [f Hf]; [lia|].
    destruct (Forall_lookup_1 _ _ _ _ Htrips Hi) as (Hl & g & Hg & Hy).
    assert (Hw : world_ok pr w) by (by eapply history_ok).
    assert (Hsane : all_sane w) by (eapply moved_sane; [exact Hm|done]).
    destruct trip as [|g0 trip0] eqn:Et; [done|]. rewrite <- Et in *.
    assert (H0 : trip !! 0 = Some g0) by (by rewrite Et).
    rewrite (drop_S _ _ _ Hi) in Hsub. rewrite Et in Hsub. cbn [omap list_omap first_packet head fmap option_fmap option_map] in Hsub.
    assert (Hp0 : wire_ok (sg_to g0)).
    { rewrite Forall_forall in Hwok. apply Hwok. apply elem_of_list_omap. exists trip. split; [by eapply elem_of_list_lookup_2|].
      by rewrite Et. }
    assert (Hlast : trip !! (length trip - 1) = Some g).
    { rewrite last_lookup in Hg. by replace (length trip - 1) with (Nat.pred (length trip)) by lia. }
    destruct (travel request trips w0 w n trip g0 (omap first_packet (drop (S n) trips)) Hclear Hi Hl Hm Hw Hsane H0 Hsub Hp0 _ _ Hlast)
      as (tr2 & w2 & Hh2 & Hq2 & Hm2 & Hs2 & Hsub2 & Hp2).
    assert (Hw2 : world_ok pr w2) by (by eapply history_ok).
    pose proof (moved_trans _ _ _ _ _ Hm Hm2) as Hm02.
    assert (Hready : ready_of request entries n g (w_node w2 (ap_peer_id (sg_to g)))).
    { destruct (Hclear n trip _ g Hi Hlast) as (rel & s & Hses & Hun & Hcur & _ & Hmix). cbv zeta in *.
      pose proof (Hm02 (ap_peer_id (sg_to g))) as Ha.
      destruct (aged_session _ _ _ _ _ _ Ha Hses) as (s' & Hs' & K & T & F).
      assert (Hun' : unseen pr (w_node w2 (ap_peer_id (sg_to g))) rel s' (ap_packet (sg_to g))) by (by eapply aged_unseen).
      destruct request; cbn [ready_of].
      - exists rel, s'. split_and!; [done|done|]. unfold is_mixnode. rewrite T. by apply Hmix.
      - split; [by exists rel, s'|]. destruct (Hks eq_refl) as (Hle & Hnd & _).
        destruct (lookup_lt_is_Some_2 entries n) as [[id v] He]; [lia|]. exists id, v. split; [done|].
        rewrite (proj2 (Hs2 _)), Hy. specialize (Hkeys eq_refl). rewrite (drop_S _ _ _ He) in Hkeys.
        by apply Forall_cons in Hkeys as [? _]. }
    destruct (finish request entries w2 n g f mk _ Hw2 (moved_sane _ _ _ Hm02 Hsane0) Hsub2 Hp2 Hready)
      as (mt & w3 & out & Hh3 & Hp3 & Hret3 & Hm3 & Hsub3 & Hi3 & Hk3).
    { intros m now m' msg. by apply Hread with (trip := trip). }
    rewrite Hy in Hret3, Hi3, Hk3. exists (tr ++ tr2 ++ [mt]), w3, (outs ++ [out]).
    destruct (Hs2 y) as [Ea Ek]. rewrite Ea in Hi3. rewrite Ek in Hk3. split_and!.
    - eapply history_app; [done|]. by eapply history_app.
    - apply Forall_app. split; [done|]. apply Forall_app. split; [apply Hq2|]. by constructor.
    - rewrite (take_S_r _ _ _ Hi), map_app, concat_app. cbn [map concat]. rewrite app_nil_r.
      assert (E : noted_part request trip = take (length trip - 1) trip ++ noted_part request [g]).
      { assert (E : trip = take (length trip - 1) trip ++ [g]).
        { rewrite <- (take_S_r _ _ _ Hlast). rewrite take_ge; [done|]. rewrite Et. cbn. lia. }
        destruct request; cbn [noted_part removelast]; [done|]. rewrite app_nil_r. rewrite E at 1.
        by rewrite removelast_last. }
      rewrite E. eapply moved_trans; [done|]. by eapply moved_trans.
    - done.
    - rewrite (take_S_r _ _ _ Hf), fa_inserts_app, Hasm. cbn [out_bind fa_inserts]. by rewrite Hi3.
    - rewrite !returned_app, Hret, (proj2 Hq2), Hret3. by rewrite omap_app.
    - intros ->. specialize (Hkeys eq_refl). destruct (Hks eq_refl) as (Hle & Hnd & _).
      destruct (lookup_lt_is_Some_2 entries n) as [e He]; [lia|]. rewrite He in Hk3. rewrite (drop_S _ _ _ He) in Hkeys.
      apply Forall_cons in Hkeys as [_ Hkeys]. apply Forall_lookup. intros j e' Hj. rewrite Hk3, entry_remove.
      + by apply (Forall_lookup_1 _ _ _ _ Hkeys Hj).
      + intros Heq. rewrite lookup_drop in Hj. assert (S n + j = n); [|lia].
        apply (NoDup_lookup _ _ _ e.1 Hnd); rewrite list_lookup_fmap; [by rewrite Hj; cbn; rewrite Heq|by rewrite He].
  Qed.

  (** *** The packets leave *)
  Lemma pick_aged m m' r rel s r1 :
    aged pr index [] m m' -> pick_session m r = Val (Some (rel, s), r1) ->
    exists s', pick_session m' r = Val (Some (rel, s'), r1).
  Proof.
    intros [_ _ _ A]. unfold pick_session, ss_enumerate. pose proof (A RCurrent) as A0. pose proof (A RPrev) as A1.
    cbn [ss_get] in A0, A1. unfold aged_slot in A0, A1.
    destruct (ss_current (mx_sessions m)) as [| | |c]; [rewrite A0..|];
      [| | |destruct A0 as (c' & -> & _ & _ & Pc & _)];
      (destruct (ss_prev (mx_sessions m)) as [| | |q]; [rewrite A1..|];
       [| | |destruct A1 as (q' & -> & _ & _ & Pq & _)]); cbn; try done;
      try (intros [= <- <- <-]; by eexists).
    rewrite Pc, Pq. destruct (gen_bool _ r) as [[[] r2]|]; cbn; [intros [= <- <- <-]; by eexists..|done].
  Qed.
  Lemma turn_aged m m' rel ns r :
    aged pr index [] m m' -> turn m rel (CallPopAuthored ns r) -> turn m' rel (CallPopAuthored ns r).
  Proof.
    intros Ha [(s & r1 & r2 & Hp & Hg) Hph]. destruct (pick_aged _ _ _ _ _ _ Ha Hp) as (s' & Hp').
    split; [exists s', r1, r2|]; [|by rewrite (ag_status _ _ _ _ _ Ha)]. by rewrite (ag_config _ _ _ _ _ Ha).
  Qed.
  Lemma leave x rel ns r : call_ok (CallPopAuthored ns r) -> forall q w s,
    world_ok pr w -> all_sane w -> turn (w_node w x) rel (CallPopAuthored ns r) ->
    ss_get (mx_sessions (w_node w x)) rel = SlFull s -> aq_queue (se_authored s) = q ->
    exists tr w', history pr w tr w' /\ quiet tr /\ moved [] w w' /\ still w w' /\ w_wire w' = w_wire w ++ q.
  Proof.
    intros Hcall q. induction q as [|p q IH]; intros w s Hw Hsane Ht Hs Hq.
    { exists [], w. rewrite app_nil_r. split_and!; [constructor|apply quiet_nil|apply moved_refl|apply still_refl|done]. }
    destruct (Hw x) as (cf & hist & Hr). destruct (reachable_mx_ok pr Hok _ _ _ Hr) as [Hcf Hm].
    destruct (exec pr (w_node w x) (CallPopAuthored ns r)) as [[m1 a]|] eqn:He.
    2:{ destruct (C53_no_panic pr Hok cf hist (w_node w x) (CallPopAuthored ns r)) as (? & ? & ? & ? & ? & ? & ? & ? & _); try done.
        rewrite <- (mo_config _ _ _ Hm). apply Hsane. }
    destruct (turn_step pr Hok cf Hcf _ rel _ a m1 s Hm Hcall He Ht Hs) as (s1 & Hs1 & _ & Hq1).
    rewrite Hq in Hq1. destruct Hq1 as [-> Hq1].
    assert (Hfacts : aged pr index [] (w_node w x) m1 /\ mx_assembler m1 = mx_assembler (w_node w x) /\
              mx_keystore m1 = mx_keystore (w_node w x)).
    { destruct (C39_pop pr Hok cf Hcf _ ns r m1 (Some p) Hm Hcall He) as [(Hno & _)|(rel0 & s0 & r1 & loop & r2 & Hpick & Hget & Hgen & H)].
      { by apply Hno in Hs. }
      destruct Ht as [(s' & r1' & r2' & Hpick' & Hgen') Hph]. rewrite Hpick in Hpick'. injection Hpick' as -> <- <-.
      rewrite (mo_config _ _ _ Hm), Hgen in Hgen'. injection Hgen' as -> <-. rewrite Hs in Hget. injection Hget as <-.
      rewrite Hq, decide_True in H by done. destruct H as (_ & m2 & Em & H).
      assert (Ha : aged pr index [] (w_node w x) m2).
      { rewrite Em. split; [done..|]. intros rel'. rewrite get_set_slot. destruct (decide (rel = rel')) as [<-|Hne].
        - rewrite Hs. eexists. split; [done|]. by split_and!.
        - unfold aged_slot. destruct (ss_get _ rel') as [| | |s3]; [done..|]. by exists s3. }
      split; [|by destruct H as [-> | ->]; rewrite Em].
      eapply aged_events; [exact Ha|..]; by destruct H as [-> | ->]. }
    destruct Hfacts as (Ha & Hasm & Hks).
    set (w1 := World (with_node w x m1) (w_wire w ++ [p])).
    assert (Hhap : happens pr w (EvCall x (CallPopAuthored ns r) (RespPacket (Some p))) w1).
    { exact (HpCall pr w x (CallPopAuthored ns r) (RespPacket (Some p)) m1 I Hcall He). }
    assert (Hw1 : world_ok pr w1) by (by eapply happens_ok).
    assert (Hm1 : moved [] w w1) by (by apply moved_one).
    destruct (IH w1 s1) as (tr & w2 & Hh2 & Hq2 & Hm2 & Hst2 & Hwire2).
    - done.
    - by eapply moved_sane.
    - unfold w1. cbn [w_node]. rewrite with_node_same. by eapply turn_aged.
    - unfold w1. cbn [w_node]. by rewrite with_node_same.
    - done.
    - exists (Moment w (EvCall x (CallPopAuthored ns r) (RespPacket (Some p))) w1 :: tr), w2. split_and!.
      + by econstructor.
      + apply (quiet_app [_]); [|done]. split; [by repeat constructor|done].
      + exact (moved_trans [] [] _ _ _ Hm1 Hm2).
      + eapply still_trans; [|done]. by apply still_one.
      + rewrite Hwire2. unfold w1. cbn [w_wire]. by rewrite <- app_assoc.
  Qed.

  (** *** All together *)
  Lemma arrives request entries trips w x rel y key t id msg ns r :
    world_ok pr w -> all_sane w -> way_clear pr nodes index request trips w ->
    Forall (trip_to pr nodes index key t) trips -> addr_of nodes t = Some y ->
    carries pr nodes index (ready_of request entries) (kind_of request entries) trips id msg ->
    (exists s old, ss_get (mx_sessions (w_node w x)) rel = SlFull s /\
       map Some (aq_queue (se_authored s)) = map Some old ++ map first_packet trips) ->
    call_ok (CallPopAuthored ns r) -> turn (w_node w x) rel (CallPopAuthored ns r) ->
    room_for (w_node w y) id (length trips) ->
    (request = false -> length entries = length trips /\ NoDup (map fst entries) /\
       Forall (fun e => sk_entry (mx_keystore (w_node w y)) e.1 = Some e.2) entries) ->
    can_arrive pr w y msg.
  Proof.
    intros Hw Hsane Hclear Ht Hy (fs & mk & Hmsg & Hlen & Hne & Hix & Hsz & Hid & Hread) (s & old & Hs & Hq) Hcall Hturn
      (Hnone & Hmax & H1 & H2) Hks.
    destruct (leave x rel ns r Hcall _ w s Hw Hsane Hturn Hs eq_refl) as (tr1 & w1 & Hh1 & Hq1 & Hm1 & Hst1 & Hwire).
    assert (Hw1 : world_ok pr w1) by (by eapply history_ok).
    assert (Hfirst : aq_queue (se_authored s) = old ++ omap first_packet trips).
    { clear -Hq. revert Hq. generalize (aq_queue (se_authored s)). induction old as [|p old IH]; intros q Hq.
      - cbn in Hq |- *. revert q Hq. induction trips as [|trip trips IH]; intros [|p q] Hq; try done.
        cbn in Hq. injection Hq as Hp Hq. cbn. rewrite <- Hp. f_equal. by apply IH.
      - destruct q as [|p' q]; [done|]. cbn in Hq. injection Hq as -> Hq. cbn. f_equal. by apply IH. }
    assert (Htrips : Forall (fun trip => linked pr nodes index trip /\
              exists g, list.last trip = Some g /\ ap_peer_id (sg_to g) = y) trips).
    { eapply Forall_impl; [exact Ht|]. intros trip (Hl & _ & is & Hst). split; [done|].
      destruct (list.last trip) as [g|] eqn:E.
      - exists g. split; [done|]. rewrite last_lookup in E. rewrite <- (Forall2_length _ _ _ Hst) in E.
        destruct (Forall2_lookup_r _ _ _ _ _ Hst E) as (t' & Et & Ha & _). rewrite <- last_lookup in Et.
        rewrite last_snoc in Et. injection Et as <-. congruence.
      - apply last_None in E as ->. destruct is; inversion Hst. }
    destruct (Hw x) as (cfx & histx & Hrx). destruct (reachable_mx_ok pr Hok _ _ _ Hrx) as [_ Hmx].
    pose proof (so_packets _ _ _ (mx_ok_full _ _ _ _ _ Hmx Hs)) as Hpk. rewrite Hfirst in Hpk. apply Forall_app in Hpk as [_ Hpk].
    destruct (journeys request entries trips w w1 y fs mk Hclear Hw1 Hsane Hm1 Hst1 Htrips) with (n := length trips)
      as (tr2 & w2 & outs & Hh2 & Hp2 & _ & _ & Hasm & Hret & _); try done.
    - rewrite Hwire, Hfirst. by apply submseteq_inserts_l, submseteq_inserts_l.
    - eapply Forall_impl; [exact Hpk|]. by intros p [? _].
    - rewrite take_ge in Hasm by lia.
      destruct (Hw y) as (cf & hist & Hr). destruct (reachable_mx_ok pr Hok _ _ _ Hr) as [_ Hm].
      destruct (mo_assembler _ _ _ Hm) as (Hinv & L1 & L2 & L3). rewrite (mo_config _ _ _ Hm) in Hmax, H1, H2.
      destruct (alone_run (mx_assembler (w_node w y)) id fs) as (fa' & E); try done.
      + rewrite L3. lia.
      + by rewrite L1.
      + rewrite L2. by rewrite <- Hlen.
      + rewrite E in Hasm. injection Hasm as _ <-. exists (tr1 ++ tr2), w2. split_and!.
        * by eapply history_app.
        * apply Forall_app. split; [apply Hq1|done].
        * rewrite returned_app, (proj2 Hq1), Hret, omap_app. cbn. rewrite Hmsg.
          clear. by induction (length fs - 1).
  Qed.

End arrive.

(** ** Theorems *)
Section theorems.
  Context (pr : prims) (Hok : prims_ok pr) (Hexp : exp1_ok (pr_exp1 pr)).

  (** An accepted request can be delivered: if the nodes on its way have the session and have noted none of
      its packets, if the session can have a turn at the sender, and the destination has room for the
      message, then by sending and handling packets alone the network can bring it to the destination. *)
  Theorem C76_request w x index dest id data k ns r d mt w1 rel s key :
    world_ok pr w ->
    happens pr w (EvCall x (CallPostRequest index dest id data k ns r) (RespPost (Some d) (Ok mt))) w1 ->
    usable (w_node w x) index rel s -> honest pr (se_topology s) key ->
    let nodes := tp_mixnodes (se_topology s) in
    exists y trips surbs, request_sent pr w x index id data k rel nodes key d w1 y trips surbs /\
      forall ns' r', all_sane w1 -> way_clear pr nodes index true trips w1 ->
        call_ok (CallPopAuthored ns' r') -> turn (w_node w1 x) rel (CallPopAuthored ns' r') ->
        room_for (w_node w1 y) id (length trips) ->
        can_arrive pr w1 y (MRequest (RequestMessage index id (sc_contents data) surbs)).
  Proof.
    intros Hw Hhap Hus Hhon nodes.
    destruct (round_trip pr Hok _ _ _ _ _ _ _ _ _ _ _ _ _ _ _ Hw Hhap Hus Hhon)
      as (_ & y & trips & surbs & entries & dqs & dls & [H1 Hcar] & _). fold nodes in H1, Hcar.
    exists y, trips, surbs. split; [done|]. intros ns' r' Hsane Hclear Hcall Hturn Hroom.
    destruct H1 as (Hy & _ & _ & (s0 & s1 & _ & Hs1 & Hq) & _ & Htt & _).
    apply (arrives pr Hok nodes index Hexp true [] trips w1 x rel y key (TMixnodeIndex d) id _ ns' r'); try done.
    - by eapply happens_ok.
    - by exists s1, (aq_queue (se_authored s0)).
  Qed.

  (** ... and so can the reply, if no SURB is used twice and the keys of those used are still there. *)
  Theorem C76_reply w x index dest id data k ns r d mt w1 rel s key :
    world_ok pr w ->
    happens pr w (EvCall x (CallPostRequest index dest id data k ns r) (RespPost (Some d) (Ok mt))) w1 ->
    usable (w_node w x) index rel s -> honest pr (se_topology s) key ->
    let nodes := tp_mixnodes (se_topology s) in let me := self (se_topology s) ns in
    addr_of nodes me = Some x ->
    exists y trips surbs entries,
      request_sent pr w x index id data k rel nodes key d w1 y trips surbs /\
      mx_keystore (w_node w1 x) = ks_pushes (mx_keystore (w_node w x)) entries /\
      length entries = length surbs /\
      forall w2 y2 rsurbs left rid rdata rel2 s2 w3,
        world_ok pr w2 ->
        happens pr w2 (EvCall y2 (CallPostReply rsurbs index rid rdata) (RespReply left (Ok tt))) w3 ->
        usable (w_node w2 y2) index rel2 s2 -> tp_mixnodes (se_topology s2) = nodes ->
        Forall (fun u => u ∈ surbs) rsurbs ->
        exists rtrips used,
          reply_queued pr index id nodes key me x surbs entries w2 y2 rsurbs left rid rdata rel2 w3 rtrips used /\
          forall ns' r', all_sane w3 -> way_clear pr nodes index false rtrips w3 ->
            call_ok (CallPopAuthored ns' r') -> turn (w_node w3 y2) rel2 (CallPopAuthored ns' r') ->
            room_for (w_node w3 x) rid (length rtrips) ->
            NoDup (map (fun ue => fst (snd ue)) used) ->
            Forall (fun ue => sk_entry (mx_keystore (w_node w3 x)) (fst (snd ue)) = Some (snd (snd ue))) used ->
            can_arrive pr w3 x (MReply (ReplyMessage id (sc_contents rdata))).
  Proof.
    intros Hw Hhap Hus Hhon nodes me Hself.
    destruct (round_trip pr Hok _ _ _ _ _ _ _ _ _ _ _ _ _ _ _ Hw Hhap Hus Hhon)
      as (_ & y & trips & surbs & entries & dqs & dls & [H1 _] & H2 & H3 & _ & Hreply). fold nodes me in H1, Hreply.
    exists y, trips, surbs, entries. split; [done|]. split; [done|]. split; [done|].
    intros w2 y2 rsurbs left rid rdata rel2 s2 w3 Hw2 Hhap2 Hus2 Hn2 Hin.
    destruct (Hreply w2 y2 rsurbs left rid rdata rel2 s2 w3 Hw2 Hhap2 Hus2 Hn2 Hin Hself) as (rtrips & used & [Hrq Hcar] & _).
    exists rtrips, used. split; [done|]. intros ns' r' Hsane Hclear Hcall Hturn Hroom Hnd Hks.
    destruct Hrq as (_ & _ & Hlu & _ & (s0 & s1 & _ & Hs1 & Hq) & _ & Htt & _).
    apply (arrives pr Hok nodes index Hexp false (map snd used) rtrips w3 y2 rel2 x key me rid _ ns' r'); try done.
    - by eapply happens_ok.
    - by exists s1, (aq_queue (se_authored s0)).
    - intros _. rewrite map_length, map_map. split_and!; [done|done|]. by apply Forall_map.
  Qed.
End theorems.
