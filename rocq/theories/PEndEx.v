(** Concrete cases of C40_request and C41_reply: in the network of PExample, node 8 posts a request of
    3000 bytes, which takes two packets, with one SURB to node 24; both packets are carried there, one
    overtaking the other; node 24 posts a reply, which is carried back. *)
From Verif Require Import PEnd PExample.

(** ** Playing a network *)

(** A node makes a call; the packet in position [n] of the wire is delivered. *)
Inductive act := ADo (x : bytes) (c : call) | ADeliver (n : nat) (now : instant).
Definition next (w : world) (a : act) : option moment :=
  match a with
  | ADo x c =>
      match exec toy_prims (w_node w x) c with
      | Val (m, a) => Some (Moment w (EvCall x c a) (World (with_node w x m) (w_wire w ++ sent a)))
      | Panic => None
      end
  | ADeliver n now =>
      match w_wire w !! n with
      | Some p =>
          if decide (length (ap_packet p) = N.to_nat 2252) then
            match handle_packet toy_prims (w_node w (ap_peer_id p)) (ap_packet p) now with
            | Val (m, msg) => Some (Moment w (EvHandle true p now msg)
                (World (with_node w (ap_peer_id p) m) (take n (w_wire w) ++ drop (S n) (w_wire w))))
            | Panic => None
            end
          else None
      | None => None
      end
  end.
Fixpoint play_w (w : world) (l : list act) : option (list moment * world) :=
  match l with
  | [] => Some ([], w)
  | a :: l => match next w a with
              | Some mt => match play_w (mt_after mt) l with Some (tr, w') => Some (mt :: tr, w') | None => None end
              | None => None
              end
  end.
Definition act_ok (a : act) : Prop := match a with ADo _ c => not_handle c /\ call_ok c | ADeliver _ _ => True end.

Lemma next_happens w a mt : act_ok a -> next w a = Some mt -> happens toy_prims w (mt_event mt) (mt_after mt) /\ mt_before mt = w.
Proof.
  intros Ha H. destruct a as [x c|n now]; cbn [next] in H.
  - destruct (exec toy_prims (w_node w x) c) as [[m a]|] eqn:E; [|done]. injection H as <-. split; [|done].
    destruct Ha. by constructor.
  - destruct (w_wire w !! n) as [p|] eqn:Ep; [|done]. case_decide as Hl; [|done].
    destruct (handle_packet _ _ _ _) as [[m msg]|] eqn:E; [|done]. injection H as <-. split; [|done].
    apply HpDeliver; [|done|done]. symmetry. by apply take_drop_middle.
Qed.
Lemma play_w_history l : forall w tr w', Forall act_ok l -> play_w w l = Some (tr, w') -> history toy_prims w tr w'.
Proof.
  induction l as [|a l IH]; intros w tr w' Ha H; cbn [play_w] in H.
  { injection H as <- <-. constructor. }
  apply Forall_cons in Ha as [Ha1 Ha]. destruct (next w a) as [mt|] eqn:E; [|done].
  destruct (play_w (mt_after mt) l) as [[tr1 w1]|] eqn:E1; [|done]. injection H as <- <-.
  destruct (next_happens _ _ _ Ha1 E) as [Hh Hb]. destruct mt as [wb e wa]; cbn in *. subst wb.
  econstructor; [done|]. by apply IH.
Qed.

(** The mixnodes, and everywhere else copies of a node that is none. *)
Definition ex_peers : list bytes := map ex_peer [8; 16; 24; 32]%N.
Definition idle (m : mixnet) : bool := match fq_queue (mx_forward m) with [] => true | _ => false end.
Lemma idle_spec m : idle m = true -> fq_queue (mx_forward m) = [].
Proof. unfold idle. by destruct (fq_queue (mx_forward m)). Qed.
Definition with_world (f : world -> bool) : bool :=
  match start 8 ex_setup, start 16 ex_setup, start 24 ex_setup, start 32 ex_setup, start 40 ex_setup with
  | Some (_, a), Some (_, b), Some (_, c), Some (_, d), Some (_, e) =>
      idle e && f (World (fun x => if decide (x = ex_peer 8) then a else if decide (x = ex_peer 16) then b else
                                   if decide (x = ex_peer 24) then c else if decide (x = ex_peer 32) then d else e) [])
  | _, _, _, _, _ => false
  end.
Definition calm (w : world) : Prop := forall x, x ∉ ex_peers -> fq_queue (mx_forward (w_node w x)) = [].
Lemma with_world_spec f : with_world f = true -> exists w, world_ok toy_prims w /\ calm w /\ f w = true.
Proof.
  unfold with_world. intros H.
  destruct (start 8 ex_setup) as [[ha a]|] eqn:Ea; [|discriminate H].
  destruct (start 16 ex_setup) as [[hb b]|] eqn:Eb; [|discriminate H].
  destruct (start 24 ex_setup) as [[hc c]|] eqn:Ec; [|discriminate H].
  destruct (start 32 ex_setup) as [[hd d]|] eqn:Ed; [|discriminate H].
  destruct (start 40 ex_setup) as [[he e]|] eqn:Ee; [|discriminate H].
  apply andb_true_iff in H as [Hi H]. eexists. split; [|split; [|exact H]].
  - intros x. cbn [w_node]. repeat case_decide; eexists _, _; eapply start_reachable; eauto using ex_setup_ok.
  - intros x Hx. cbn [w_node].
    rewrite !decide_False; [by apply idle_spec|..]; intros ->; apply Hx; unfold ex_peers; cbn [map];
      repeat first [apply elem_of_list_here|apply elem_of_list_further].
Qed.

(** ** Checking what C40 and C41 ask of a history *)
Global Instance mixnode_eq_dec : EqDecision mixnode.
Proof. solve_decision. Defined.
Global Instance incomplete_message_eq_dec : EqDecision incomplete_message.
Proof. solve_decision. Defined.
Global Instance surb_value_eq_dec : EqDecision surb_value.
Proof. solve_decision. Defined.

Definition ex_key_at (peer : bytes) : bytes := ex_secret (nth 0 peer 0 - 100)%N.
Definition ex_key (t : target) : bytes :=
  match t with TMixnodeIndex i => ex_secret (nth (N.to_nat i) [8; 16; 24; 32] 0)%N | TPeerId _ => ex_secret 8 end.

Definition can_forward_b (g : stage) (m : mixnet) : bool :=
  on_current m (fun s => negb (bool_decide (PHandle.seen toy_prims s (ap_packet (sg_to g)))) &&
    (bool_decide (is_mixnode s) && (bool_decide (kp_secret (se_kx_pair s) = sg_key g) &&
     bool_decide (tp_mixnodes (se_topology s) = ex_nodes)))) &&
  (bool_decide (st_current_index (mx_status m) = 0%N) && bool_decide (has_room m)).
Lemma can_forward_b_spec g m : can_forward_b g m = true -> can_forward toy_prims ex_nodes 0 g m.
Proof.
  unfold can_forward_b, on_current. intros [H H']%andb_true_iff. apply andb_true_iff in H' as [H5 H6].
  destruct (ss_current (mx_sessions m)) as [| | |s] eqn:Es; try discriminate H.
  apply andb_true_iff in H as [H1 H]. apply andb_true_iff in H as [H2 H]. apply andb_true_iff in H as [H3 H4].
  apply negb_true_iff, bool_decide_eq_false in H1. apply bool_decide_eq_true in H2, H3, H4, H5, H6.
  split; [|exact H6]. exists RCurrent, s. split; [|split; [|exact H2]].
  - split; [exact Es|]. split; [symmetry; exact H5|]. split; [exact H3|exact H4].
  - split; [exact H1|]. intros E. discriminate E.
Qed.

(** The stages a packet goes through in the history, if at each of them it was first handled by a node
    able to forward it, which queued one packet or, at node [y], none. *)
Fixpoint chain (fuel : nat) (tr : list moment) (y : bytes) (p : addressed_packet) : option (list stage) :=
  match fuel with
  | O => None
  | S fuel =>
      match list_find (fun mt => handles mt p) tr with
      | Some (_, mt) =>
          let g := Stage p (ex_key_at (ap_peer_id p)) in
          let before := w_node (mt_before mt) (ap_peer_id p) in
          let after := w_node (mt_after mt) (ap_peer_id p) in
          if can_forward_b g before then
            match drop (length (fq_queue (mx_forward before))) (fq_queue (mx_forward after)) with
            | [] => Some [g]
            | [f] => if decide (ap_peer_id p = y) then None else
                     match chain fuel tr y (fp_packet f) with Some l => Some (g :: l) | None => None end
            | _ => None
            end
          else None
      | None => None
      end
  end.

Lemma found_first tr p i mt : list_find (fun mt => handles mt p) tr = Some (i, mt) -> first_at tr mt p.
Proof.
  intros (H1 & H2 & H3)%list_find_Some. exists (take i tr), (drop (S i) tr). split_and!.
  - symmetry. by apply take_drop_middle.
  - done.
  - intros mt' (j & Hj)%elem_of_list_lookup. apply lookup_take_Some in Hj as [Hj Hlt]. by eapply H3.
Qed.
Lemma first_unique tr p mt mt' : first_at tr mt p -> first_at tr mt' p -> mt = mt'.
Proof.
  intros (t1 & t2 & -> & H1 & H2) (t3 & t4 & E & H3 & H4).
  destruct (decide (length t1 < length t3)) as [Hlt|Hge].
  { exfalso. apply (H4 mt); [|done]. apply elem_of_list_lookup. exists (length t1).
    assert (Hx : (t1 ++ mt :: t2) !! length t1 = Some mt) by (by apply list_lookup_middle).
    rewrite E in Hx. by rewrite lookup_app_l in Hx. }
  destruct (decide (length t3 < length t1)) as [Hlt|Hge'].
  { exfalso. apply (H2 mt'); [|done]. apply elem_of_list_lookup. exists (length t3).
    assert (Hx : (t3 ++ mt' :: t4) !! length t3 = Some mt') by (by apply list_lookup_middle).
    rewrite <- E in Hx. by rewrite lookup_app_l in Hx. }
  apply app_inj_1 in E as [_ [= -> _]]; [done|lia].
Qed.
Lemma first_happens w tr w' mt p :
  history toy_prims w tr w' -> first_at tr mt p ->
  exists now msg, handle_packet toy_prims (w_node (mt_before mt) (ap_peer_id p)) (ap_packet p) now =
    Val (w_node (mt_after mt) (ap_peer_id p), msg).
Proof.
  intros Hh (t1 & t2 & -> & (b & now & msg & E) & _).
  destruct (history_split _ _ _ _ _ _ Hh) as (_ & Hhap & _). rewrite E in Hhap.
  exists now, msg. inversion Hhap; subst; cbn [w_node]; rewrite with_node_same; done.
Qed.

Definition keyed (trip : list stage) : Prop := Forall (fun g => sg_key g = ex_key_at (ap_peer_id (sg_to g))) trip.
Lemma chain_sound w tr w' y fuel : forall p l trip,
  history toy_prims w tr w' -> chain fuel tr y p = Some l ->
  linked toy_prims ex_nodes 0 trip -> keyed trip -> first_packet trip = Some p ->
  (exists q, last_packet trip = Some q /\ ap_peer_id q = y) ->
  trip = l.
Proof.
  induction fuel as [|fuel IH]; intros p l trip Hh H Hl Hk Hp Hy; cbn [chain] in H; [discriminate H|].
  destruct (list_find _ tr) as [[i mt]|] eqn:Ef; [|discriminate H].
  destruct (first_happens _ _ _ _ _ Hh (found_first _ _ _ _ Ef)) as (now & msg & Ehp).
  set (g := Stage p (ex_key_at (ap_peer_id p))) in *. cbv zeta in H.
  destruct (can_forward_b g _) eqn:Ec in H; [|discriminate H]. apply can_forward_b_spec in Ec.
  destruct trip as [|g0 trip]; [discriminate Hp|]. cbn in Hp. injection Hp as Hp.
  apply Forall_cons in Hk as [Hk0 Hk]. assert (g0 = g) as ->.
  { destruct g0 as [to k]. cbn in *. subst. done. }
  destruct trip as [|g' trip].
  - destruct (drop _ _) as [|f [|]] eqn:Ed in H; [by injection H as <-| |discriminate H].
    destruct Hy as (q & Hq & Eq). cbn in Hq. injection Hq as <-. by rewrite decide_True in H.
  - assert (Hpass : passes_on toy_prims ex_nodes 0 g g') by (by apply (Hl 0)).
    destruct (Hpass _ _ _ _ Ec Ehp) as (_ & dl & Ed). rewrite Ed, drop_app in H.
    case_decide; [discriminate H|]. cbn [fp_packet] in H.
    destruct (chain fuel tr y (sg_to g')) as [l'|] eqn:Ech; [|discriminate H]. injection H as <-. f_equal.
    apply (IH (sg_to g') l' (g' :: trip) Hh Ech); [|done|done|exact Hy]. intros j a b Ha Hb. by apply (Hl (S j)).
Qed.
Lemma chain_forward tr y fuel : forall p l g mt,
  chain fuel tr y p = Some l -> g ∈ l -> first_at tr mt (sg_to g) ->
  can_forward toy_prims ex_nodes 0 g (w_node (mt_before mt) (ap_peer_id (sg_to g))).
Proof.
  induction fuel as [|fuel IH]; intros p l g mt H Hg Hf; cbn [chain] in H; [discriminate H|].
  destruct (list_find _ tr) as [[i mt0]|] eqn:Ef; [|discriminate H]. apply found_first in Ef. cbv zeta in H.
  destruct (can_forward_b _ _) eqn:Ec in H; [|discriminate H]. apply can_forward_b_spec in Ec.
  assert (Hhere : g = Stage p (ex_key_at (ap_peer_id p)) ->
                  can_forward toy_prims ex_nodes 0 g (w_node (mt_before mt) (ap_peer_id (sg_to g)))).
  { intros ->. cbn in Hf. by rewrite <- (first_unique _ _ _ _ Ef Hf). }
  destruct (drop _ _) as [|f [|]] in H; [| |discriminate H].
  - injection H as <-. apply elem_of_list_singleton in Hg. auto.
  - case_decide; [discriminate H|]. destruct (chain fuel tr y (fp_packet f)) as [l'|] eqn:Ech; [|discriminate H].
    injection H as <-. apply elem_of_cons in Hg as [Hg|Hg]; [auto|]. by eapply IH.
Qed.

(** Events at the mixnodes only. *)
Definition at_node (mt : moment) : bytes := match mt_event mt with EvCall x _ _ => x | EvHandle _ p _ _ => ap_peer_id p end.
Definition inside (tr : list moment) : bool := forallb (fun mt => bool_decide (at_node mt ∈ ex_peers)) tr.
Lemma inside_calm w tr w' : history toy_prims w tr w' -> inside tr = true -> calm w -> calm w'.
Proof.
  induction 1 as [w|w e w1 tr w2 He Hh IH]; intros Hi Hc; [done|]. cbn [inside forallb] in Hi.
  apply andb_true_iff in Hi as [H1 Hi]. apply bool_decide_eq_true in H1. apply IH; [exact Hi|].
  intros x Hx. destruct (happens_call _ _ _ _ He) as (y & c & a & m & _ & _ & En & Hev).
  assert (Ey : at_node (Moment w e w1) = y) by (destruct e; cbn; by destruct Hev as [-> _]).
  rewrite En, with_node_other; [by apply Hc|]. intros ->. by rewrite Ey in H1.
Qed.
Definition finished (w : world) : bool :=
  match w_wire w with [] => true | _ => false end && forallb (fun x => idle (w_node w x)) ex_peers.
Lemma finished_spec w p : finished w = true -> calm w -> ~ under_way w p.
Proof.
  unfold finished. intros [H1 H2]%andb_true_iff Hc [Hw|(x & dl & Hx)].
  - destruct (w_wire w); [by apply elem_of_nil in Hw|discriminate H1].
  - destruct (decide (x ∈ ex_peers)) as [Hin|Hout].
    + rewrite forallb_forall in H2. apply elem_of_list_In in Hin. specialize (H2 _ Hin).
      apply idle_spec in H2. rewrite H2 in Hx. by apply elem_of_nil in Hx.
    + rewrite (Hc _ Hout) in Hx. by apply elem_of_nil in Hx.
Qed.

Definition sent_b (tr : list moment) (x : bytes) (p : addressed_packet) : bool :=
  existsb (fun mt => match mt_event mt with
                     | EvCall x' _ (RespPacket (Some q)) => bool_decide (x' = x) && bool_decide (q = p)
                     | _ => false end) tr.
Lemma sent_b_spec tr x p :
  sent_b tr x p = true -> exists mt c, mt ∈ tr /\ mt_event mt = EvCall x c (RespPacket (Some p)).
Proof.
  unfold sent_b. intros (mt & Hin & H)%existsb_exists. apply elem_of_list_In in Hin.
  destruct mt as [wb e wa]. cbn in H. destruct e as [x' c [| | | |[q|]| | |]|]; try discriminate H.
  apply andb_true_iff in H as [H1 H2]. apply bool_decide_eq_true in H1, H2. subst. by exists (Moment wb (EvCall x c (RespPacket (Some p))) wa), c.
Qed.
Definition none_b {A} (o : option A) : bool := match o with None => true | Some _ => false end.
Fixpoint undisturbed_b (id y : bytes) (ps : list addressed_packet) (tr : list moment) : bool :=
  match tr with
  | [] => true
  | mt :: tr =>
      match handled_of ps mt with
      | Some (p, _) =>
          (match arrivals (without p ps) tr with [] => true | _ => false end ||
           negb (none_b (held_for id (w_node (mt_after mt) y)))) && undisturbed_b id y (without p ps) tr
      | None =>
          bool_decide (held_for id (w_node (mt_after mt) y) = held_for id (w_node (mt_before mt) y)) &&
          undisturbed_b id y ps tr
      end
  end.
Lemma undisturbed_b_spec id y tr : forall ps, undisturbed_b id y ps tr = true -> undisturbed id y ps tr.
Proof.
  induction tr as [|mt tr IH]; intros ps H; [done|]. cbn [undisturbed_b] in H. cbn [undisturbed].
  destruct (handled_of ps mt) as [[p msg]|]; apply andb_true_iff in H as [H1 H2]; (split; [|by apply IH]).
  - apply orb_true_iff in H1 as [H1|H1].
    + left. by destruct (arrivals _ _).
    + right. intros E. rewrite E in H1. discriminate H1.
  - right. by apply bool_decide_eq_true in H1.
Qed.

(** All of it for packets [ps], sent from [x] to [y] for the message [id], in a history from [w] to [w']. *)
Definition check (w : world) (tr : list moment) (w' : world) (x y id : bytes) (ps : list addressed_packet)
    : option (list (list stage)) :=
  match mapM (chain 7 tr y) ps with
  | Some cs =>
      if inside tr && (finished w' && (forallb (sent_b tr x) ps &&
         (undisturbed_b id y (omap last_packet cs) tr && (none_b (held_for id (w_node w y)) &&
          (N.of_nat (length ps) <=? cf_max_fragments_per_message (mx_config (w_node w y)))%N))))
      then Some cs else None
  | None => None
  end.
Lemma check_spec w tr w' x y id ps cs t trips (ready : nat -> stage -> mixnet -> Prop) :
  history toy_prims w tr w' -> calm w -> check w tr w' x y id ps = Some cs ->
  addr_of ex_nodes (TMixnodeIndex t) = Some y ->
  map first_packet trips = map Some ps -> Forall (trip_to toy_prims ex_nodes 0 ex_key (TMixnodeIndex t)) trips ->
  (forall i trip g mt, trips !! i = Some trip -> list.last trip = Some g -> first_at tr mt (sg_to g) ->
     can_forward toy_prims ex_nodes 0 g (w_node (mt_before mt) (ap_peer_id (sg_to g))) ->
     ap_peer_id (sg_to g) = y -> ready i g (w_node (mt_before mt) (ap_peer_id (sg_to g)))) ->
  trips = cs /\ conveyed toy_prims ex_nodes 0 ready trips x w tr w' /\
  (N.of_nat (length trips) <= cf_max_fragments_per_message (mx_config (w_node w y)))%N /\
  held_for id (w_node w y) = None /\ undisturbed id y (omap last_packet trips) tr.
Proof.
  intros Hh Hcalm Hch Hy Hfirst Htr Hready. unfold check in Hch.
  destruct (mapM (chain 7 tr y) ps) as [cs'|] eqn:Em; [|discriminate Hch].
  destruct (_ && _) eqn:Hb in Hch; [|discriminate Hch]. injection Hch as ->.
  apply andb_true_iff in Hb as [H1 Hb]. apply andb_true_iff in Hb as [H2 Hb]. apply andb_true_iff in Hb as [H3 Hb].
  apply andb_true_iff in Hb as [H4 Hb]. apply andb_true_iff in Hb as [H5 H6].
  apply mapM_Some in Em.
  assert (Hlen : length trips = length ps) by (by rewrite <- (map_length Some ps), <- Hfirst, map_length).
  assert (Hkeyed : forall trip, trip_to toy_prims ex_nodes 0 ex_key (TMixnodeIndex t) trip -> keyed trip /\
            exists q, last_packet trip = Some q /\ ap_peer_id q = y).
  { intros trip (_ & _ & is & Hf). split.
    - apply Forall_lookup. intros j g Hj. destruct (Forall2_lookup_r _ _ _ _ _ Hf Hj) as (u & Hu & Ha & ->).
      assert (exists i, u = TMixnodeIndex i) as [i ->].
      { apply elem_of_list_lookup_2, elem_of_app in Hu as [Hu|Hu].
        - apply elem_of_list_fmap in Hu as (i & -> & _). by exists i.
        - apply elem_of_list_singleton in Hu as ->. by exists t. }
      unfold addr_of in Ha. destruct (ex_nodes !! N.to_nat i) as [mn|] eqn:Emn; [|discriminate Ha]. injection Ha as <-. cbn [ex_key].
      revert Emn. destruct (N.to_nat i) as [|[|[|[|n]]]]; unfold ex_nodes; cbn [map lookup list_lookup]; intros [= <-]; by vm_compute.
    - apply Forall2_app_inv_l in Hf as (t1 & t2 & _ & Hf & ->). apply Forall2_cons_inv_l in Hf as (g & t3 & [Ha _] & Hf & ->).
      apply Forall2_nil_inv_l in Hf as ->. exists (sg_to g). unfold last_packet. rewrite last_snoc. split; [done|].
      rewrite Hy in Ha. by injection Ha. }
  assert (Heq : trips = cs).
  { apply list_eq_same_length with (length trips); [by rewrite <- (Forall2_length _ _ _ Em)|done|].
    intros i trip c Hi Hti Hci. 
    destruct (Forall2_lookup_r _ _ _ _ _ Em Hci) as (p & Hp & Hc).
    rewrite Forall_forall in Htr. assert (Hin : trip ∈ trips) by (by eapply elem_of_list_lookup_2).
    destruct (Hkeyed _ (Htr _ Hin)) as [Hk Hl]. eapply (chain_sound w tr w' y 7 p); try done.
    - apply (Htr _ Hin).
    - assert (E : map first_packet trips !! i = map Some ps !! i) by (by rewrite Hfirst).
      rewrite !list_lookup_fmap, Hti, Hp in E. cbn in E. by injection E. }
  split; [done|]. rewrite <- Heq in H4. split_and!.
  - split.
    + done.
    + intros trip g Hin Hg. apply elem_of_list_lookup in Hin as [i Hi]. apply sent_b_spec.
      assert (E : map first_packet trips !! i = map Some ps !! i) by (by rewrite Hfirst).
      rewrite !list_lookup_fmap, Hi in E. destruct (ps !! i) as [p|] eqn:Hp; [|discriminate E]. cbn in E. injection E as E.
      unfold first_packet in E. rewrite Hg in E. cbn in E. injection E as ->.
      rewrite forallb_forall in H3. apply H3. apply elem_of_list_In. by eapply elem_of_list_lookup_2.
    + intros mt trip j g Hin Hj _ Hf. rewrite Heq in Hin. apply elem_of_list_lookup in Hin as [i Hi].
      destruct (Forall2_lookup_r _ _ _ _ _ Em Hi) as (p & _ & Hc). eapply chain_forward; [done| |done].
      by eapply elem_of_list_lookup_2.
    + intros mt i trip g Hi Hg Hf. apply (Hready i trip g mt Hi Hg Hf).
      * rewrite Heq in Hi. destruct (Forall2_lookup_r _ _ _ _ _ Em Hi) as (p & _ & Hc). eapply chain_forward; [done| |done].
        by apply last_Some_elem_of.
      * rewrite Forall_forall in Htr. destruct (Hkeyed trip) as [_ (q & Hq & Eq)].
        { apply Htr. by eapply elem_of_list_lookup_2. }
        unfold last_packet in Hq. rewrite Hg in Hq. by injection Hq as <-.
    + intros trip g _ _. apply finished_spec; [done|]. by eapply inside_calm.
  - rewrite Hlen. by apply N.leb_le.
  - by destruct (held_for id (w_node w y)).
  - by apply undisturbed_b_spec.
Qed.

(** ** The request and its reply *)
Definition ex_ask : call := CallPostRequest 0 (Some 2%N) ex_id ex_long 1 (ex_ns 8) ex_r.
Definition ex_answer (surbs : list bytes) : call :=
  CallPostReply surbs 0 (replicate 16 7%N) (Scattered 2 [4; 5]%N [] []).
Definition ex_pop (k : N) : act := ADo (ex_peer k) (CallPopAuthored (ex_ns k) ex_big).
Definition ex_fwd (k : N) : act := ADo (ex_peer k) (CallPopForward 0).
Definition ex_out : list act :=
  [ex_pop 8; ex_pop 8; ADeliver 1 5; ex_fwd 32; ADeliver 0 6; ex_fwd 32; ADeliver 0 7; ex_fwd 16;
   ADeliver 0 8; ex_fwd 16; ADeliver 0 9; ADeliver 0 10].
Definition ex_back : list act :=
  [ex_pop 24; ADeliver 0 11; ex_fwd 32; ADeliver 0 12; ex_fwd 16; ADeliver 0 13].
Lemma ex_ask_ok : act_ok (ADo (ex_peer 8) ex_ask).
Proof.
  split; [exact I|]. split; [|split; [apply replicate_length|intros d [= <-]; lia]].
  split; [apply replicate_length|]. split; [by vm_compute|]. split; by vm_compute.
Qed.
Lemma ex_answer_ok surbs : Forall (fun u => length u = 222) surbs -> act_ok (ADo (ex_peer 24) (ex_answer surbs)).
Proof.
  intros H. split; [exact I|]. split; [|exact H].
  split; [apply replicate_length|]. split; [by vm_compute|]. split; by vm_compute.
Qed.
Lemma ex_out_ok : Forall act_ok ex_out /\ Forall act_ok ex_back.
Proof. split; repeat (constructor; [first [exact I|split; [exact I|first [exact I|apply replicate_length]]]|]); constructor. Qed.

Definition queue_of (w : world) (x : bytes) : list addressed_packet :=
  match ss_current (mx_sessions (w_node w x)) with SlFull s => aq_queue (se_authored s) | _ => [] end.
(** The session of node [x], with an empty queue. *)
Definition session_b (w : world) (x : bytes) (f : session -> bool) : bool :=
  bool_decide (mx_status (w_node w x) = SessionStatus 0 PRequestsToCurrent) &&
  on_current (w_node w x) (fun s => bool_decide (tp_mixnodes (se_topology s) = ex_nodes) &&
    (match aq_queue (se_authored s) with [] => true | _ => false end && f s)).
Lemma session_b_spec w x f :
  session_b w x f = true ->
  exists s, usable (w_node w x) 0 RCurrent s /\ tp_mixnodes (se_topology s) = ex_nodes /\
    aq_queue (se_authored s) = [] /\ f s = true.
Proof.
  unfold session_b, on_current. intros [H1 H]%andb_true_iff. apply bool_decide_eq_true in H1.
  destruct (ss_current (mx_sessions (w_node w x))) as [| | |s] eqn:Es; try discriminate H.
  apply andb_true_iff in H as [H2 H]. apply andb_true_iff in H as [H3 H4]. apply bool_decide_eq_true in H2.
  exists s. split; [split; [rewrite H1; constructor; by left|exact Es]|]. split; [exact H2|]. split; [|exact H4].
  destruct (aq_queue (se_authored s)); [done|discriminate H3].
Qed.
Lemma queued_now w w1 x s trips :
  usable (w_node w x) 0 RCurrent s -> aq_queue (se_authored s) = [] ->
  PEnd.queued (w_node w x) (w_node w1 x) RCurrent trips -> map first_packet trips = map Some (queue_of w1 x).
Proof.
  intros [_ Hs] Hq (s0 & s1 & H0 & H1 & E). cbn in H0, H1. rewrite Hs in H0. injection H0 as <-.
  unfold queue_of. rewrite H1, E, Hq. done.
Qed.

(** What node 24 returns at the end. *)
Definition got (cs : list (list stage)) (tr : list moment) : list bytes :=
  match list.last (map snd (arrivals (omap last_packet cs) tr)) with
  | Some (Some (MRequest rq)) => rq_surbs rq
  | _ => []
  end.
Definition entries_of (w : world) (x : bytes) : lhm bytes surb_value := sk_surbs (mx_keystore (w_node w x)).
Definition kept_b (w1 : world) (tr : list moment) : bool :=
  forallb (fun mt => bool_decide (entries_of (mt_before mt) (ex_peer 8) = entries_of w1 (ex_peer 8)) ||
                     negb (bool_decide (at_node mt = ex_peer 8))) tr.
Definition ex_run (w : world) : bool :=
  session_b w (ex_peer 8) (fun s => bool_decide (self (se_topology s) (ex_ns 8) = TMixnodeIndex 0) &&
    bool_decide (tp_local_kx_public (se_topology s) = derive_kx_public toy_prims (ex_secret 8))) &&
  (match entries_of w (ex_peer 8) with [] => true | _ => false end &&
  match next w (ADo (ex_peer 8) ex_ask) with
  | Some (Moment _ (EvCall _ _ (RespPost (Some d) (Ok _))) w1) =>
      (d =? 2)%N &&
      match play_w w1 ex_out with
      | Some (tr, w2) =>
          match check w1 tr w2 (ex_peer 8) (ex_peer 24) ex_id (queue_of w1 (ex_peer 8)) with
          | Some cs =>
              (length cs =? 2) && (forallb (fun u => bool_decide (length u = 222)) (got cs tr) &&
              ((length (got cs tr) =? 1) && (session_b w2 (ex_peer 24) (fun _ => true) &&
              match next w2 (ADo (ex_peer 24) (ex_answer (got cs tr))) with
              | Some (Moment _ (EvCall _ _ (RespReply [] (Ok _))) w3) =>
                  match play_w w3 ex_back with
                  | Some (tr', w4) =>
                      match check w3 tr' w4 (ex_peer 24) (ex_peer 8) (replicate 16 7%N) (queue_of w3 (ex_peer 24)) with
                      | Some cs' => (length cs' =? 1) && kept_b w1 tr'
                      | None => false
                      end
                  | None => false
                  end
              | _ => false
              end)))
          | None => false
          end
      | None => false
      end
  | _ => false
  end).
Lemma ex_run_true : with_world ex_run = true.
Proof. by vm_compute. Qed.

(** C40: the hypotheses of C40_request hold, and those of [yields] hold of the trips it speaks of.
    C41: so they do for the reply: those of C41_reply and [reply_sent], and again of [yields]. *)
Example C40_C41_example :
  exists w mt w1 s trips surbs entries tr w2,
    world_ok toy_prims w /\
    happens toy_prims w (EvCall (ex_peer 8) ex_ask (RespPost (Some 2%N) (Ok mt))) w1 /\
    usable (w_node w (ex_peer 8)) 0 RCurrent s /\ honest toy_prims (se_topology s) ex_key /\
    tp_mixnodes (se_topology s) = ex_nodes /\
    addr_of ex_nodes (self (se_topology s) (ex_ns 8)) = Some (ex_peer 8) /\
    request_sent toy_prims w (ex_peer 8) 0 ex_id ex_long 1 RCurrent ex_nodes ex_key 2 w1 (ex_peer 24) trips surbs /\
    length trips = 2 /\ length surbs = 1 /\
    conveyed toy_prims ex_nodes 0 (ready_request toy_prims ex_nodes 0) trips (ex_peer 8) w1 tr w2 /\
    (N.of_nat (length trips) <= cf_max_fragments_per_message (mx_config (w_node w1 (ex_peer 24))))%N /\
    held_for ex_id (w_node w1 (ex_peer 24)) = None /\
    undisturbed ex_id (ex_peer 24) (omap last_packet trips) tr /\
    exists s2 w3 tr' w4 rtrips used,
      world_ok toy_prims w2 /\
      happens toy_prims w2 (EvCall (ex_peer 24) (ex_answer surbs) (RespReply [] (Ok tt))) w3 /\
      usable (w_node w2 (ex_peer 24)) 0 RCurrent s2 /\ tp_mixnodes (se_topology s2) = ex_nodes /\
      map fst used = surbs /\ map snd used = entries /\
      mx_keystore (w_node w1 (ex_peer 8)) = ks_pushes (mx_keystore (w_node w (ex_peer 8))) entries /\
      length rtrips = 1 /\
      conveyed toy_prims ex_nodes 0 (ready_reply toy_prims ex_nodes 0 (map snd used)) rtrips (ex_peer 24) w3 tr' w4 /\
      (N.of_nat (length rtrips) <= cf_max_fragments_per_message (mx_config (w_node w3 (ex_peer 8))))%N /\
      held_for (replicate 16 7%N) (w_node w3 (ex_peer 8)) = None /\
      undisturbed (replicate 16 7%N) (ex_peer 8) (omap last_packet rtrips) tr' /\
      map snd (arrivals (omap last_packet trips) tr) =
        [None; Some (MRequest (RequestMessage 0 ex_id (sc_contents ex_long) surbs))] /\
      map snd (arrivals (omap last_packet rtrips) tr') = [Some (MReply (ReplyMessage ex_id [4; 5]%N))].
Proof.
  pose proof toy_prims_ok as Hok.
  destruct (with_world_spec _ ex_run_true) as (w & Hw & Hcalm & H). unfold ex_run in H.
  apply andb_true_iff in H as [Hs H]. apply andb_true_iff in H as [He H].
  destruct (session_b_spec _ _ _ Hs) as (s & Hus & Hnodes & Hq & Hf). clear Hs.
  apply andb_true_iff in Hf as [Hself Hloc]. apply bool_decide_eq_true in Hself, Hloc.
  assert (He' : entries_of w (ex_peer 8) = []) by (destruct (entries_of w (ex_peer 8)); [done|discriminate He]). clear He.
  destruct (next w (ADo (ex_peer 8) ex_ask)) as [[w0 e w1]|] eqn:E1; [|discriminate H].
  destruct (next_happens _ _ _ ex_ask_ok E1) as [Hhap Hw0]. cbn [mt_event mt_after mt_before] in Hhap, Hw0. subst w0.
  assert (Hev : exists a, e = EvCall (ex_peer 8) ex_ask a).
  { cbn [next] in E1. destruct (exec _ _ _) as [[m a]|]; [|discriminate E1]. injection E1 as <- _. by exists a. }
  destruct Hev as [a ->]. clear E1.
  destruct a as [| | | | |[d|] [mt|]| |]; try discriminate H. apply andb_true_iff in H as [Hd H]. apply N.eqb_eq in Hd. subst d.
  destruct (play_w w1 ex_out) as [[tr w2]|] eqn:E2; [|discriminate H].
  pose proof (play_w_history _ _ _ _ (proj1 ex_out_ok) E2) as Hh1. clear E2.
  destruct (check w1 tr w2 _ _ _ _) as [cs|] eqn:Ec1; [|discriminate H].
  apply andb_true_iff in H as [Hcs H]. apply andb_true_iff in H as [Hlen H]. apply andb_true_iff in H as [Hgot H].
  apply andb_true_iff in H as [Hs2 H]. apply Nat.eqb_eq in Hcs, Hgot.
  destruct (session_b_spec _ _ _ Hs2) as (s2 & Hus2 & Hnodes2 & Hq2 & _). clear Hs2.
  assert (Hlen' : Forall (fun u => length u = 222) (got cs tr)).
  { apply Forall_forall. intros u Hu. rewrite forallb_forall in Hlen. apply elem_of_list_In in Hu.
    specialize (Hlen _ Hu). by apply bool_decide_eq_true in Hlen. }
  destruct (next w2 (ADo (ex_peer 24) (ex_answer (got cs tr)))) as [[w0 e w3]|] eqn:E3; [|discriminate H].
  destruct (next_happens _ _ _ (ex_answer_ok _ Hlen') E3) as [Hhap2 Hw0]. cbn [mt_event mt_after mt_before] in Hhap2, Hw0. subst w0.
  assert (Hev : exists a, e = EvCall (ex_peer 24) (ex_answer (got cs tr)) a).
  { cbn [next] in E3. destruct (exec _ _ _) as [[m a]|]; [|discriminate E3]. injection E3 as <- _. by exists a. }
  destruct Hev as [a ->]. clear E3.
  destruct a as [| | | | | |[|] [[]|]|]; try discriminate H.
  destruct (play_w w3 ex_back) as [[tr' w4]|] eqn:E4; [|discriminate H].
  pose proof (play_w_history _ _ _ _ (proj2 ex_out_ok) E4) as Hh2. clear E4.
  destruct (check w3 tr' w4 _ _ _ _) as [cs'|] eqn:Ec2; [|discriminate H].
  apply andb_true_iff in H as [Hcs' Hkept]. apply Nat.eqb_eq in Hcs'.
  assert (Hhon : honest toy_prims (se_topology s) ex_key).
  { split; [|intros p; exact Hloc]. rewrite Hnodes. intros i mn Hi. cbn [ex_key].
    revert Hi. destruct (N.to_nat i) as [|[|[|[|n]]]]; unfold ex_nodes; cbn [map lookup list_lookup]; intros [= <-]; reflexivity. }
  assert (Hsa : addr_of ex_nodes (self (se_topology s) (ex_ns 8)) = Some (ex_peer 8)) by (rewrite Hself; reflexivity).
  pose proof (C41_reply toy_prims Hok w (ex_peer 8) 0 (Some 2%N) ex_id ex_long 1 (ex_ns 8) ex_r 2 mt w1 RCurrent s ex_key
                Hw Hhap Hus Hhon) as HC41. cbv zeta in HC41. rewrite Hnodes in HC41.
  destruct (HC41 Hsa) as (y & trips & surbs & entries & Hsent & Hks & Hle & Hreply). clear HC41.
  assert (y = ex_peer 24) as ->.
  { destruct Hsent as [Hy _]. unfold ex_nodes in Hy. cbn [addr_of map lookup list_lookup] in Hy.
    change (N.to_nat 2) with 2 in Hy. by injection Hy. }
  assert (Hcalm1 : calm w1).
  { intros x Hx. destruct (happens_call _ _ _ _ Hhap) as (z & c & a & m & _ & _ & En & <- & _).
    rewrite En, with_node_other; [by apply Hcalm|]. intros ->. apply Hx. apply elem_of_list_here. }
  pose proof Hsent as (Hy & _ & Hns & Hqd & _ & Htr & Hyields).
  destruct (check_spec w1 tr w2 (ex_peer 8) (ex_peer 24) ex_id (queue_of w1 (ex_peer 8)) cs 2 trips
              (ready_request toy_prims ex_nodes 0) Hh1 Hcalm1 Ec1 Hy (queued_now _ _ _ _ _ Hus Hq Hqd) Htr)
    as (Et & Hconv & Hmax & Hheld & Hund).
  { intros i trip g mt' _ _ _ [Hc _] _. exact Hc. }
  destruct (Hyields tr w2 Hconv Hmax Hheld Hund) as [_ Harr].
  assert (Hsurbs : got cs tr = surbs).
  { unfold got. rewrite <- Et, Harr, last_snoc. reflexivity. }
  rewrite Hsurbs in Hhap2, Hgot. rewrite <- Et in Hcs.
  pose proof (history_ok toy_prims _ _ _ Hh1 (happens_ok toy_prims _ _ _ Hhap Hw)) as Hw2.
  destruct (Hreply w2 (ex_peer 24) surbs [] (replicate 16 7%N) (Scattered 2 [4; 5]%N [] []) RCurrent s2 w3 Hw2 Hhap2 Hus2 Hnodes2)
    as (rtrips & used & Hused & Hin & Hlu & _ & Hqd2 & _ & Htr2 & Hyields2).
  { apply Forall_forall. auto. }
  assert (Hcalm3 : calm w3).
  { assert (Hcalm2 : calm w2).
    { eapply inside_calm; [exact Hh1| |exact Hcalm1]. unfold check in Ec1. destruct (mapM _ _); [|discriminate Ec1].
      destruct (inside tr); [reflexivity|discriminate Ec1]. }
    intros x Hx. destruct (happens_call _ _ _ _ Hhap2) as (z & c & a & m & _ & _ & En & <- & _).
    rewrite En, with_node_other; [by apply Hcalm2|]. intros ->. apply Hx. 
    do 2 apply elem_of_list_further. apply elem_of_list_here. }
  rewrite Hself in Htr2.
  pose proof (queued_now _ _ _ _ _ Hus2 Hq2 Hqd2) as Hfp.
  destruct surbs as [|u [|]]; [discriminate Hgot| |discriminate Hgot].
  destruct entries as [|[uid v] [|]]; [discriminate Hle| |discriminate Hle].
  assert (Hu1 : used = [(u, (uid, v))]).
  { assert (Hl1 : length used = 1).
    { apply (f_equal length) in Hused. rewrite app_nil_l, reverse_length, map_length in Hused. by cbn in Hused. }
    destruct used as [|ue [|]]; [discriminate Hl1| |discriminate Hl1]. f_equal.
    specialize (Hin ue (elem_of_list_here _ _)). by apply elem_of_list_singleton in Hin. }
  subst used. cbn [map fst snd] in *.
  assert (Hent : entries_of w1 (ex_peer 8) = [(uid, v)]).
  { unfold entries_of. rewrite Hks. cbn [ks_pushes foldl ks_push sk_surbs]. unfold entries_of in He'. rewrite He'. 
    unfold make_room. by case_match. }
  assert (Hrl : length rtrips = 1) by (by rewrite <- Hlu).
  destruct (check_spec w3 tr' w4 (ex_peer 24) (ex_peer 8) (replicate 16 7%N) (queue_of w3 (ex_peer 24)) cs' 0 rtrips
              (ready_reply toy_prims ex_nodes 0 [(uid, v)]) Hh2 Hcalm3 Ec2 (eq_refl _) Hfp Htr2)
    as (Et2 & Hconv2 & Hmax2 & Hheld2 & Hund2).
  { intros i trip g mt' Hi Hg Hfst [(rel & s' & Hhs & Hun & _) _] Hpeer. split; [by exists rel, s'|].
    exists uid, v. split.
    - apply lookup_lt_Some in Hi. destruct i; [reflexivity|lia].
    - unfold kept_b in Hkept. rewrite forallb_forall in Hkept. destruct Hfst as (t1 & t2 & Etr & (b & now & msg & Eev) & _).
      assert (Hmt : In mt' tr') by (rewrite Etr; apply in_or_app; right; by left).
      specialize (Hkept _ Hmt). rewrite Hpeer. apply orb_true_iff in Hkept as [Hk|Hk].
      + apply bool_decide_eq_true in Hk. unfold sk_entry. change (sk_surbs _) with (entries_of (mt_before mt') (ex_peer 8)).
        rewrite Hk, Hent. cbn. by rewrite decide_True.
      + apply negb_true_iff, bool_decide_eq_false in Hk. exfalso. apply Hk. unfold at_node. by rewrite Eev. }
  destruct (Hyields2 tr' w4 Hconv2 Hmax2 Hheld2 Hund2) as [_ Harr2].
  exists w, mt, w1, s, trips, [u], [(uid, v)], tr, w2. do 13 (split; [assumption|]).
  exists s2, w3, tr', w4, rtrips, [(u, (uid, v))].
  do 4 (split; [assumption|]). do 2 (split; [reflexivity|]). do 6 (split; [assumption|]).
  split; [|by rewrite Harr2, Hrl]. rewrite Harr, Hcs. reflexivity.
Qed.

Print Assumptions C40_request.
Print Assumptions C41_reply.
