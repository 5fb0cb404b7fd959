(** C40, C41: requests and replies, from the posting node to the node they are meant for. *)
From Verif Require Export PTrip.

(** ** Specification *)

(** [key t] is the secret key of the node that target [t] stands for: the mixnodes have published the
    public keys to theirs; a peer id stands for the local node. *)
Definition honest (pr : prims) (t : topology) (key : target -> bytes) : Prop :=
  (forall i mn, tp_mixnodes t !! N.to_nat i = Some mn ->
     mn_kx_public mn = derive_kx_public pr (key (TMixnodeIndex i))) /\
  (forall p, tp_local_kx_public t = derive_kx_public pr (key (TPeerId p))).
(** The local node, as known to others. *)
Definition self (t : topology) (ns : network_status) : target :=
  match tp_local_node t with LMixnode i => TMixnodeIndex i | LNonMixnode _ => TPeerId (ns_local_peer_id ns) end.

(** A trip of one to six stages, each but the last at a mixnode, each to be read with the key of the
    node it is addressed to, ending at the node [t] stands for. *)
Definition trip_to (pr : prims) (nodes : list mixnode) (index : session_index) (key : target -> bytes)
    (t : target) (trip : list stage) : Prop :=
  linked pr nodes index trip /\ length trip ≤ 6 /\
  exists is, Forall2 (fun t g => addr_of nodes t = Some (ap_peer_id (sg_to g)) /\ sg_key g = key t)
               (map TMixnodeIndex is ++ [t]) trip.
Definition first_packet (trip : list stage) : option addressed_packet := sg_to <$> head trip.
Definition last_packet (trip : list stage) : option addressed_packet := sg_to <$> list.last trip.
(** The authored packet queue of the session gained the first packets of the trips. *)
Definition queued (m m' : mixnet) (rel : rel_session_index) (trips : list (list stage)) : Prop :=
  exists s s', ss_get (mx_sessions m) rel = SlFull s /\ ss_get (mx_sessions m') rel = SlFull s' /\
    map Some (aq_queue (se_authored s')) = map Some (aq_queue (se_authored s)) ++ map first_packet trips.

(** The packets of the trips are carried through the network to their ends. *)
Record conveyed (pr : prims) (nodes : list mixnode) (index : session_index)
    (ready : nat -> stage -> mixnet -> Prop) (trips : list (list stage)) (x : bytes)
    (w : world) (tr : list moment) (w' : world) : Prop := {
  ca_history : history pr w tr w';
  (** node [x] has sent all of them *)
  ca_sent : forall trip g, trip ∈ trips -> head trip = Some g ->
    exists mt c, mt ∈ tr /\ mt_event mt = EvCall x c (RespPacket (Some (sg_to g)));
  (** when one was first handled on the way, the node could forward it *)
  ca_forward : forall mt trip j g, trip ∈ trips -> trip !! j = Some g -> S j < length trip ->
    first_at tr mt (sg_to g) -> can_forward pr nodes index g (w_node (mt_before mt) (ap_peer_id (sg_to g)));
  (** when one was first handled at the end of its trip, the node was ready for it *)
  ca_end : forall mt i trip g, trips !! i = Some trip -> list.last trip = Some g ->
    first_at tr mt (sg_to g) -> ready i g (w_node (mt_before mt) (ap_peer_id (sg_to g)));
  (** none is still on its way *)
  ca_done : forall trip g, trip ∈ trips -> g ∈ trip -> ~ under_way w' (sg_to g)
}.

(** Once carried to node [y], which accepts a message of that many fragments, holds none with id [id] at
    first, and whose fragments of it are left alone, the last packet to arrive, and no other, makes [y]
    return [msg]. *)
Definition yields (pr : prims) (nodes : list mixnode) (index : session_index)
    (ready : nat -> stage -> mixnet -> Prop) (trips : list (list stage)) (x y : bytes) (id : bytes)
    (msg : message) (w : world) : Prop :=
  forall tr w', conveyed pr nodes index ready trips x w tr w' ->
    (N.of_nat (length trips) <= cf_max_fragments_per_message (mx_config (w_node w y)))%N ->
    held_for id (w_node w y) = None -> undisturbed id y (omap last_packet trips) tr ->
    map fst (arrivals (omap last_packet trips) tr) ≡ₚ omap last_packet trips /\
    map snd (arrivals (omap last_packet trips) tr) = replicate (length trips - 1) None ++ [Some msg].

(** Ready to take a request; ready to take the reply made with a given SURB: the keys are there. *)
Definition ready_request (pr : prims) nodes index (i : nat) (g : stage) (m : mixnet) : Prop :=
  can_take pr nodes index g m.
Definition ready_reply (pr : prims) nodes index (entries : list (bytes * surb_value)) (i : nat) (g : stage)
    (m : mixnet) : Prop :=
  can_read pr nodes index g m /\
  exists id v, entries !! i = Some (id, v) /\ sk_entry (mx_keystore m) id = Some v.

(** The trips carry fragments of the message [msg], with id [id], which the node at their end, when ready,
    gives to its assembler; what the packets contain there satisfies [kind]. *)
Definition carries (pr : prims) (nodes : list mixnode) (index : session_index)
    (ready : nat -> stage -> mixnet -> Prop) (kind : nat -> content -> Prop) (trips : list (list stage)) (id : bytes) (msg : message) : Prop :=
  exists fs mk, mk (msg_of fs) = msg /\
    length trips = length fs /\ fs <> [] /\ indexed fs /\ Forall frag_sized fs /\ Forall (fun f => sp_id f = id) fs /\
    forall i trip g f m now m' msg, trips !! i = Some trip -> list.last trip = Some g -> fs !! i = Some f ->
      (exists cf, mx_ok pr cf m) -> ready i g m -> handle_packet pr m (ap_packet (sg_to g)) now = Val (m', msg) ->
      (brings pr m (ap_packet (sg_to g)) f /\
       exists rel s, has_session nodes index (sg_key g) m rel s /\
         reads pr (mx_sessions m) (ap_packet (sg_to g)) rel s /\
         kind i (content_of pr s (ap_packet (sg_to g)))) /\
      exists out, fa_insert (mx_assembler m) f = Val (mx_assembler m', out) /\ msg = mk <$> out.
Definition request_kind (i : nat) (c : content) : Prop := exists data, c = CtRequest data.
Definition reply_kind (entries : list (bytes * surb_value)) (i : nat) (c : content) : Prop :=
  exists id v pl, entries !! i = Some (id, v) /\ c = CtReply id pl.

(** ** Proof *)
Lemma choose_list {A B} (R : A -> B -> Prop) l :
  Forall (fun x => exists y, R x y) l -> exists ys, Forall2 R l ys.
Proof.
  induction 1 as [|x l [y Hy] _ [ys IH]]; [by exists []|]. exists (y :: ys). by constructor.
Qed.
Lemma stops_of nodes (key : target -> bytes) ts : forall trip,
  Forall2 (fun t a => addr_of nodes t = Some a) ts (map (fun g => ap_peer_id (sg_to g)) trip) ->
  map sg_key trip = map key ts ->
  Forall2 (fun t g => addr_of nodes t = Some (ap_peer_id (sg_to g)) /\ sg_key g = key t) ts trip.
Proof.
  induction ts as [|t ts IH]; intros [|g trip] Hf Hk; cbn in *; try done.
  apply Forall2_cons in Hf as [Ha Hf]. injection Hk as Hk1 Hk2. constructor; [done|]. by apply IH.
Qed.
Lemma omap_last trips :
  Forall (fun trip : list stage => trip <> []) trips -> map Some (omap last_packet trips) = map last_packet trips.
Proof.
  induction 1 as [|trip trips Hne _ IH]; [done|]. cbn [map omap list_omap]. destruct (last_packet trip) as [p|] eqn:E.
  - cbn [map]. by rewrite <- IH.
  - unfold last_packet in E. destruct (list.last trip) as [g|] eqn:El; [done|]. by apply last_None in El.
Qed.
Lemma usable_unique m index rel s rel' s' : usable m index rel s -> usable m index rel' s' -> rel = rel' /\ s = s'.
Proof.
  intros [H1 H2] [H1' H2']. pose proof (in_time_rel _ _ _ _ H1 H1') as <-. split; [done|]. destruct rel; congruence.
Qed.

Section theend.
  Context (pr : prims) (Hok : prims_ok pr).

  Lemma honest_keys g k h rt key :
    route_ok g k h rt -> honest pr (rg_topology g) key ->
    rt_kx_publics rt = map (derive_kx_public pr) (map key (route_nodes rt)).
  Proof.
    intros Hr [H1 H2]. pose proof (ro_keys _ _ _ _ Hr) as Hf.
    induction Hf as [|t pub ts pubs Ht Hf IH]; [done|]. cbn [map]. f_equal; [|apply IH].
    destruct t as [i|p]; [|by rewrite Ht, (H2 p)]. destruct Ht as (mn & Hmn & <-). by apply H1.
  Qed.
  Lemma route_path g k h rt key :
    gen_ok g -> length (rg_local_peer_id g) = 32 -> route_ok g k h rt -> honest pr (rg_topology g) key ->
    path_ok (rt_targets rt) (map key (route_nodes rt)) /\ (rt_first rt <= 65279)%N.
  Proof.
    intros Hg Hp Hr Hk. destruct (route_fits g k h rt Hg Hp Hr) as [(H1 & H2 & H3 & H4) Hv].
    rewrite (honest_keys _ _ _ _ _ Hr Hk) in H1, H2. rewrite map_length in H1, H2.
    split; [by split_and!|]. destruct Hg as [[Hn _] _]. unfold valid_index in Hv. lia.
  Qed.

  (** The trip along a route. *)
  Lemma route_trip g k h rt key index p ds fin peer :
    route_ok g k h rt ->
    journey pr p (map key (route_nodes rt)) (zip (rt_targets rt) ds) fin -> length ds = length (rt_targets rt) ->
    addr_of (tp_mixnodes (rg_topology g)) (TMixnodeIndex (rt_first rt)) = Some peer ->
    exists trip y q, let t := match k with RkToMixnode i => TMixnodeIndex i | _ => local_target g end in
      trip_to pr (tp_mixnodes (rg_topology g)) index key t trip /\
      first_packet trip = Some (AddressedPacket peer p) /\
      addr_of (tp_mixnodes (rg_topology g)) t = Some y /\
      list.last trip = Some (Stage (AddressedPacket y q) (key t)) /\
      delayed pr (tp_mixnodes (rg_topology g)) index ds trip /\ journey pr q [key t] [] fin.
  Proof.
    intros Hr HJ Hds Hpeer. set (nodes := tp_mixnodes (rg_topology g)) in *.
    assert (Haddr : Forall (fun t => exists a, addr_of nodes t = Some a) (route_nodes rt)).
    { apply Forall_lookup. intros j t Hj.
      destruct (Forall2_lookup_l _ _ _ _ _ (ro_keys _ _ _ _ Hr) Hj) as (pub & _ & Ht). destruct t as [i|q]; [|by eexists]. destruct Ht as (mn & Hmn & _). cbn. fold nodes in Hmn. rewrite Hmn. by eexists. }
    unfold route_nodes in Haddr. apply Forall_cons in Haddr as [_ Haddr]. apply choose_list in Haddr as (peers & Hpeers).
    unfold route_nodes in HJ. cbn [map] in HJ.
    destruct (trip_of_journey pr Hok nodes index fin (zip (rt_targets rt) ds) (key (TMixnodeIndex (rt_first rt)))
                (map key (rt_targets rt)) p peer peers HJ) as (trip & lp & lk & q & Hk & Hpe & Hh & Hl & Hlast & Hhd & HJq).
    { change (map fst (zip (rt_targets rt) ds)) with ((zip (rt_targets rt) ds).*1). by rewrite fst_zip by lia. }
    assert (Hst : Forall2 (fun t g => addr_of nodes t = Some (ap_peer_id (sg_to g)) /\ sg_key g = key t)
                    (route_nodes rt) trip).
    { apply stops_of; [|by rewrite Hk]. rewrite Hpe. by constructor. }
    pose proof (ro_last _ _ _ _ Hr) as Hrl. set (t := match k with RkToMixnode i => TMixnodeIndex i | _ => local_target g end) in *.
    assert (Hends : addr_of nodes t = Some lp /\ lk = key t).
    { rewrite last_lookup in Hrl. rewrite last_lookup in Hlast. rewrite (Forall2_length _ _ _ Hst) in Hrl.
      destruct (Forall2_lookup_lr _ _ _ _ _ _ Hst Hrl Hlast) as [H1 H2]. done. }
    destruct Hends as [Hy ->]. exists trip, lp, q. cbv zeta. unfold trip_to. split_and!; try done.
    - rewrite <- (Forall2_length _ _ _ Hst). by apply (ro_length _ _ _ _ Hr).
    - apply last_Some in Hrl as (l & El). rewrite El in Hst.
      assert (His : exists is, l = map TMixnodeIndex is).
      { assert (Hall : forall j t', l !! j = Some t' -> exists i, t' = TMixnodeIndex i).
        { intros j [i|pp] Hj; [by exists i|]. exfalso. assert (Hlt := Hj). apply lookup_lt_Some in Hlt.
          pose proof (ro_peer _ _ _ _ Hr j pp) as Hx. rewrite El in Hx. rewrite lookup_app_l in Hx by done.
          specialize (Hx Hj). rewrite app_length in Hx. cbn in Hx. lia. }
        clear -Hall. induction l as [|t' l IH]; [by exists []|]. destruct (Hall 0 t' eq_refl) as [i ->].
        destruct IH as [is ->]; [intros j t' Hj; by apply (Hall (S j))|]. by exists (i :: is). }
      destruct His as [is ->]. by exists is.
    - unfold first_packet. by rewrite Hh.
    - change (map snd (zip (rt_targets rt) ds)) with ((zip (rt_targets rt) ds).*2) in Hhd. by rewrite snd_zip in Hhd by lia.
  Qed.

  (** Everything conveyed is handled at the end of its trip. *)
  Lemma conveyed_handled nodes index ready trips x w tr w' key t :
    world_ok pr w -> conveyed pr nodes index ready trips x w tr w' ->
    Forall (trip_to pr nodes index key t) trips ->
    forall trip g, trip ∈ trips -> g ∈ trip -> exists mt, mt ∈ tr /\ handles mt (sg_to g).
  Proof.
    intros Hw [Hh Hsent Hfwd Hend Hdone] Ht trip g Hin. revert g.
    rewrite Forall_forall in Ht. destruct (Ht trip Hin) as (Hl & _ & is & Hst).
    apply (carried_on pr Hok nodes index trip w tr w'); try done.
    - intros mt j g Hj Hlt Hfst. by eapply Hfwd.
    - destruct trip as [|g0 trip]; [by destruct is; inversion Hst|].
      destruct (Hsent (g0 :: trip) g0 Hin eq_refl) as (mt & c & Hmt & Ee). exists g0.
      apply elem_of_list_split in Hmt as (tr1 & tr2 & ->).
      destruct (history_split _ _ _ _ _ _ Hh) as (H1 & H2 & H3). rewrite Ee in H2.
      assert (Hw1 : world_ok pr (mt_after mt)).
      { eapply happens_ok; [exact H2|]. by eapply history_ok. }
      destruct (under_way_handled pr Hok _ _ _ (sg_to g0) H3 Hw1) as (mt' & Hin' & Hm').
      + left. destruct (happens_call _ _ _ _ H2) as (? & ? & ? & ? & _ & _ & _ & _ & _ & <- & _ & ->).
        apply elem_of_app. right. by left.
      + apply (Hdone _ _ Hin). left.
      + exists mt'. split_and!; [done| |done]. apply elem_of_app. right. by right.
    - intros g Hg. by eapply Hdone.
  Qed.

  (** What happens when the last packets of the trips arrive. *)
  Lemma conveyed_steps nodes index (ready : nat -> stage -> mixnet -> Prop) trips x y w key t kind fs (mk : generic_message -> message) tr w' :
    world_ok pr w -> Forall (trip_to pr nodes index key t) trips -> addr_of nodes t = Some y ->
    length trips = length fs -> indexed fs ->
    (forall i trip g f m now m' msg, trips !! i = Some trip -> list.last trip = Some g -> fs !! i = Some f ->
      (exists cf, mx_ok pr cf m) -> ready i g m -> handle_packet pr m (ap_packet (sg_to g)) now = Val (m', msg) ->
      (brings pr m (ap_packet (sg_to g)) f /\
       exists rel s, has_session nodes index (sg_key g) m rel s /\
         reads pr (mx_sessions m) (ap_packet (sg_to g)) rel s /\
         kind i (content_of pr s (ap_packet (sg_to g)))) /\
      exists out, fa_insert (mx_assembler m) f = Val (mx_assembler m', out) /\ msg = mk <$> out) ->
    conveyed pr nodes index ready trips x w tr w' ->
    let finals := omap last_packet trips in
    length finals = length trips /\ NoDup finals /\ Forall (fun p => ap_peer_id p = y) finals /\
    (forall p, p ∈ finals -> exists mt, mt ∈ tr /\ handles mt p) /\
    forall i p f mt, finals !! i = Some p -> fs !! i = Some f -> first_at tr mt p ->
      brings pr (w_node (mt_before mt) y) (ap_packet p) f /\
      exists b now fa out, fa_insert (mx_assembler (w_node (mt_before mt) y)) f = Val (fa, out) /\
        mx_assembler (w_node (mt_after mt) y) = fa /\ mt_event mt = EvHandle b p now (mk <$> out).
  Proof.
    intros Hw Ht Hy Hlen Hix Hread Hca finals.
    assert (Hlast : forall trip, trip ∈ trips -> exists g, list.last trip = Some g /\ ap_peer_id (sg_to g) = y /\ g ∈ trip).
    { intros trip Hin. rewrite Forall_forall in Ht. destruct (Ht trip Hin) as (_ & _ & is & Hst).
      destruct (list.last trip) as [g|] eqn:E.
      - exists g. split; [done|]. assert (Hst2 := Hst). rewrite last_lookup in E.
        rewrite <- (Forall2_length _ _ _ Hst) in E.
        destruct (Forall2_lookup_r _ _ _ _ _ Hst E) as (t' & Et & Ha & _). rewrite <- last_lookup in Et.
        rewrite last_snoc in Et. injection Et as <-. split; [congruence|]. by eapply elem_of_list_lookup_2.
      - apply last_None in E as ->. destruct is; inversion Hst. }
    assert (Hnn : Forall (fun trip : list stage => trip <> []) trips).
    { apply Forall_forall. intros trip Hin ->. by destruct (Hlast [] Hin) as (g & ? & _). }
    pose proof (omap_last trips Hnn) as Hom. fold finals in Hom.
    assert (Hlf : length finals = length trips).
    { rewrite <- (map_length Some finals), Hom. by rewrite map_length. }
    assert (Hfin : forall i p, finals !! i = Some p -> exists trip g, trips !! i = Some trip /\ list.last trip = Some g /\
              sg_to g = p /\ ap_peer_id p = y /\ g ∈ trip).
    { intros i p Hi. assert (E : map Some finals !! i = Some (Some p)) by (rewrite list_lookup_fmap; by rewrite Hi).
      rewrite Hom, list_lookup_fmap in E. destruct (trips !! i) as [trip|] eqn:Etr; [|done]. cbn in E. injection E as E.
      destruct (Hlast trip) as (g & Hg & Hgy & Hin); [by eapply elem_of_list_lookup_2|].
      unfold last_packet in E. rewrite Hg in E. cbn in E. injection E as E. exists trip, g. by rewrite <- E. }
    assert (Hall : forall p, p ∈ finals -> exists mt, mt ∈ tr /\ handles mt p).
    { intros p [i Hi]%elem_of_list_lookup. destruct (Hfin i p Hi) as (trip & g & Htr & Hg & <- & _ & Hin).
      eapply conveyed_handled; try done. by eapply elem_of_list_lookup_2. }
    assert (Hstep : forall i p f mt, finals !! i = Some p -> fs !! i = Some f -> first_at tr mt p ->
       brings pr (w_node (mt_before mt) y) (ap_packet p) f /\
       exists b now fa out, fa_insert (mx_assembler (w_node (mt_before mt) y)) f = Val (fa, out) /\
         mx_assembler (w_node (mt_after mt) y) = fa /\ mt_event mt = EvHandle b p now (mk <$> out)).
    { intros i p f mt Hi Hf Hfst. destruct (Hfin i p Hi) as (trip & g & Htr & Hg & <- & Hpy & Hin).
      pose proof (ca_end _ _ _ _ _ _ _ _ _ Hca mt i trip g Htr Hg Hfst) as Hready.
      destruct Hfst as (tr1 & tr2 & -> & (b & now & msg & Ee) & _).
      destruct (history_split _ _ _ _ _ _ (ca_history _ _ _ _ _ _ _ _ _ Hca)) as (H1 & H2 & _). rewrite Ee in H2.
      destruct (happens_call _ _ _ _ H2) as (x0 & c & a & m & _ & Hex & En & -> & -> & -> & _).
      cbn [exec] in Hex. apply out_bind_Val in Hex as ([m1 msg1] & Hh1 & [= -> ->]).
      destruct (history_ok pr _ _ _ H1 Hw (ap_peer_id (sg_to g))) as (cf1 & hist1 & Hr1).
      destruct (Hread i trip g f _ now _ _ Htr Hg Hf (ex_intro _ cf1 (proj2 (reachable_mx_ok pr Hok _ _ _ Hr1))) Hready Hh1)
        as ([Hb _] & out & Ei & ->).
      rewrite <- Hpy. split; [done|]. exists b, now, (mx_assembler m), out. split; [done|]. split; [|done].
      by rewrite En, with_node_same. }
    split_and!; [done| | |done|done].
    - apply NoDup_alt. intros i j p Hi Hj.
      destruct (lookup_lt_is_Some_2 fs i) as [f Hf]; [rewrite <- Hlen, <- Hlf; by eapply lookup_lt_Some|].
      destruct (lookup_lt_is_Some_2 fs j) as [f' Hf']; [rewrite <- Hlen, <- Hlf; by eapply lookup_lt_Some|].
      destruct (first_exists tr p) as (mt & Hmt); [apply Hall; by eapply elem_of_list_lookup_2|].
      destruct (Hstep i p f mt Hi Hf Hmt) as [B _]. destruct (Hstep j p f' mt Hj Hf' Hmt) as [B' _].
      rewrite (brings_unique _ _ _ _ _ B B') in Hf.
      destruct (Hix i f' Hf) as (_ & _ & ?). destruct (Hix j f' Hf') as (_ & _ & ?). lia.
    - apply Forall_forall. intros p [i Hi]%elem_of_list_lookup. by destruct (Hfin i p Hi) as (? & ? & _ & _ & _ & ? & _).
  Qed.

  (** From trips to the message. *)
  Lemma yields_of nodes index (ready : nat -> stage -> mixnet -> Prop) trips x y id w key t msg :
    world_ok pr w -> Forall (trip_to pr nodes index key t) trips -> addr_of nodes t = Some y ->
    forall kind, carries pr nodes index ready kind trips id msg -> yields pr nodes index ready trips x y id msg w.
  Proof.
    intros Hw Ht Hy kind (fs & mk & <- & Hlen & Hne & Hix & Hsz & Hid & Hread) tr w' Hca Hmax Hnone Hund.
    destruct (Hw y) as (cf & hist & Hr). destruct (reachable_mx_ok pr Hok _ _ _ Hr) as [_ Hm].
    rewrite (mo_config _ _ _ Hm) in Hmax.
    destruct (conveyed_steps _ _ _ _ _ _ _ _ _ _ fs mk _ _ Hw Ht Hy Hlen Hix Hread Hca) as (Hlf & Hnd & Hto & Hall & Hstep).
    split; [by apply arrivals_perm|].
    rewrite Hlen. eapply (delivers pr Hok w tr w' y cf hist id _ fs mk); try done.
    - apply Hca.
    - lia.
    - by rewrite <- Hlen.
  Qed.

  (** Reading at the end of a trip. *)
  Lemma reads_request cf nodes index g m f now m' msg :
    journey pr (ap_packet (sg_to g)) [sg_key g] []
      (fun out res => res = Ok ADeliverRequest /\ take PAYLOAD_DATA_SIZE out = f) ->
    mx_ok pr cf m -> can_take pr nodes index g m ->
    handle_packet pr m (ap_packet (sg_to g)) now = Val (m', msg) ->
    (brings pr m (ap_packet (sg_to g)) f /\
     exists rel s, has_session nodes index (sg_key g) m rel s /\
       reads pr (mx_sessions m) (ap_packet (sg_to g)) rel s /\
       content_of pr s (ap_packet (sg_to g)) = CtRequest f) /\
    exists out, fa_insert (mx_assembler m) f = Val (mx_assembler m', out) /\
      msg = (fun gm => MRequest (RequestMessage index (gm_id gm) (gm_data gm) (gm_surbs gm))) <$> out.
  Proof.
    intros HJ Hm (rel & s & Hs & Hu & Hmix) H. assert (Hs2 := Hs). destruct Hs2 as (_ & Hi & Hk & _).
    destruct (journey_request pr Hok _ _ _ s HJ Hk) as (Hp & Ho & Hc).
    pose proof (can_reads pr _ _ _ _ _ _ _ Hs Hu Ho) as Hr. split.
    { split; exists rel, s; [split; [done|]; by rewrite Hc|done]. }
    rewrite (handle_reads pr Hok _ _ _ _ _ Hp Hr) in H. unfold effect in H. rewrite Hc, decide_True in H by done.
    apply out_bind_Val in H as ([fa out] & Ei & H). exists out. rewrite Ei. destruct out as [gm|].
    - apply out_bind_Val in H as (i & E & [= <- <-]). split; [done|]. cbn. do 3 f_equal.
      apply rsi_add_index in E. destruct rel; cbn in *; lia.
    - by injection H as <- <-.
  Qed.
  Lemma reads_reply nodes index entries i g m f id keys mid now m' msg :
    journey pr (ap_packet (sg_to g)) [sg_key g] []
      (fun out res => res = Ok (ADeliverReply id) /\
         decrypt_reply_payload pr (take PAYLOAD_SIZE out) keys = (f ++ PAYLOAD_TAG, Ok tt)) ->
    length f = N.to_nat 2048 -> entries !! i = Some (id, SurbValue keys mid) ->
    ready_reply pr nodes index entries i g m ->
    handle_packet pr m (ap_packet (sg_to g)) now = Val (m', msg) ->
    (brings pr m (ap_packet (sg_to g)) f /\
     exists rel s, has_session nodes index (sg_key g) m rel s /\
       reads pr (mx_sessions m) (ap_packet (sg_to g)) rel s /\
       exists pl, content_of pr s (ap_packet (sg_to g)) = CtReply id pl) /\
    exists out, fa_insert (mx_assembler m) f = Val (mx_assembler m', out) /\
      msg = (fun gm => MReply (ReplyMessage mid (gm_data gm))) <$> out.
  Proof.
    intros HJ Hf He ((rel & s & Hs & Hu) & id' & v & He' & Hv) H. rewrite He in He'. injection He' as <- <-.
    assert (Hs2 := Hs). destruct Hs2 as (_ & _ & Hk & _).
    destruct (journey_reply pr Hok _ _ _ _ _ s HJ Hk) as (pl & Hp & Ho & Hc & Hd).
    pose proof (can_reads pr _ _ _ _ _ _ _ Hs Hu Ho) as Hr.
    assert (Ht : take (N.to_nat 2048) (f ++ PAYLOAD_TAG) = f) by (by apply take_app_alt).
    split.
    { split; exists rel, s; [|split_and!; [done..|by exists pl]]. split; [done|]. rewrite Hc. cbn [fragment_in]. rewrite Hv. cbn [sv_keys]. by rewrite Hd, Ht. }
    rewrite (handle_reads pr Hok _ _ _ _ _ Hp Hr) in H. unfold effect in H. rewrite Hc, Hv in H. cbn [sv_keys sv_message_id] in H.
    rewrite Hd, Ht in H. apply out_bind_Val in H as ([fa out] & Ei & [= <- <-]). exists out. by rewrite Ei.
  Qed.

  (** The delays on the way are those that the hops read from the packet. *)
  Definition hop_delays (ds : list delay) : Prop := length ds <= 5 /\ Forall (fun d => exists s, d = hop_delay pr s) ds.
  Lemma journey_delays fin ts : forall p sks ds,
    journey pr p sks (zip ts ds) fin -> length ds = length ts -> Forall (fun d => exists s, d = hop_delay pr s) ds.
  Proof.
    induction ts as [|t ts IH]; intros p sks [|d ds] HJ Hl; try done.
    cbn [zip zip_with] in HJ. destruct sks as [|sk [|sk' sks]]; [done|by destruct HJ as (_ & p' & _ & HJ)|].
    rewrite journey_cons in HJ. destruct HJ as (Hp & p' & Hpeel & HJ). constructor.
    - rewrite PACKET_SIZE_eq in Hp. specialize (Hpeel (replicate PACKET_SIZE 0%N) (replicate_length _ _)).
      exists (derive_kx_shared_secret pr (kx_public p) sk).
      rewrite (peel_eq pr Hok) in Hpeel by (rewrite ?PACKET_SIZE_eq; done || apply replicate_length). cbv zeta in Hpeel.
      destruct (decide _); [|done]. destruct (_ =? _)%N; [|destruct (_ =? _)%N]; [by destruct (decide _)|done|].
      do 3 (destruct (_ =? _)%N; [try done; by injection Hpeel as _ _ ->|]).
      destruct (_ <=? _)%N; [by injection Hpeel as _ _ ->|done].
    - apply (IH p' (sk' :: sks)); [exact HJ|]. cbn in Hl. lia.
  Qed.

  Lemma route_length g k h rt : route_ok g k h rt -> route_len rt = S (length (rt_targets rt)).
  Proof. intros Hr. unfold route_len. by rewrite <- (Forall2_length _ _ _ (ro_keys _ _ _ _ Hr)). Qed.

  (** The trips of the packets made. *)
  Lemma packet_trip g d h b p key index :
    gen_ok g -> length (rg_local_peer_id g) = 32 -> honest pr (rg_topology g) key ->
    packet_made pr g d h b p -> length (mp_fragment p) = N.to_nat 2048 ->
    exists trip y q,
      (exists ds, mp_delay p = foldl delay_add delay_zero ds /\ hop_delays ds /\
         delayed pr (tp_mixnodes (rg_topology g)) index ds trip /\ route_len (mp_route p) = length trip) /\
      trip_to pr (tp_mixnodes (rg_topology g)) index key (TMixnodeIndex d) trip /\
      first_packet trip = Some (mp_packet p) /\
      addr_of (tp_mixnodes (rg_topology g)) (TMixnodeIndex d) = Some y /\
      list.last trip = Some (Stage (AddressedPacket y q) (key (TMixnodeIndex d))) /\
      journey pr q [key (TMixnodeIndex d)] []
        (fun out res => res = Ok ADeliverRequest /\ take PAYLOAD_DATA_SIZE out = mp_fragment p).
  Proof.
    intros Hg Hp Hk (_ & _ & _ & Hr & Hpeer & _ & _ & r & r' & E) Hf.
    destruct (route_path _ _ _ _ _ Hg Hp Hr Hk) as [Hpath _].
    rewrite (honest_keys _ _ _ _ _ Hr Hk) in E.
    destruct (request_built pr Hok (replicate 188 0%N) (mp_fragment p) (replicate 16 0%N) (rt_targets (mp_route p))
                (map key (route_nodes (mp_route p))) r Hpath) as (p' & ds & r2 & E' & Hds & HJ); [done..|].
    rewrite E' in E. injection E as E Edl _. subst p'.
    destruct (route_trip g (RkToMixnode d) h (mp_route p) key index _ ds _ (ap_peer_id (mp_packet p)) Hr HJ Hds)
      as (trip & y & q & H1 & H2 & H3 & H4 & Hdel & H5).
    { unfold tp_index_to_peer_id in Hpeer. cbn. destruct (tp_mixnodes (rg_topology g) !! _); [|done]. by injection Hpeer as <-. }
    exists trip, y, q. split_and!; try done.
    - exists ds. split; [done|]. split; [|split; [done|by rewrite (route_length _ _ _ _ Hr), (proj1 Hdel), Hds]].
      split; [|by apply (journey_delays _ _ _ _ _ HJ)].
      rewrite Hds. destruct Hpath as (Hp1 & Hp2 & _). unfold route_nodes in Hp1, Hp2. rewrite map_length in *. cbn in *. lia.
    - rewrite H2. by destruct (mp_packet p).
  Qed.

  (** Every reply made with a SURB takes the same time. *)
  Definition reply_leg_of (nodes : list mixnode) (index : session_index) (key : target -> bytes) (me : target)
      (surb : bytes) (e : bytes * surb_value) (ds : list delay) : Prop :=
    exists i peer, addr_of nodes (TMixnodeIndex i) = Some peer /\
      forall f, length f = N.to_nat 2048 ->
        exists p trip y q,
          complete_reply_packet pr (replicate 188 0%N ++ f ++ replicate 16 0%N) surb = (p, Some i) /\
          trip_to pr nodes index key me trip /\ first_packet trip = Some (AddressedPacket peer p) /\
          delayed pr nodes index ds trip /\ addr_of nodes me = Some y /\
          list.last trip = Some (Stage (AddressedPacket y q) (key me)) /\
          journey pr q [key me] []
            (fun out res => res = Ok (ADeliverReply e.1) /\
               decrypt_reply_payload pr (take PAYLOAD_SIZE out) (sv_keys e.2) = (f ++ PAYLOAD_TAG, Ok tt)).
  Lemma reply_leg_made g d h u key index id :
    gen_ok g -> length (rg_local_peer_id g) = 32 -> honest pr (rg_topology g) key -> surb_made pr g d h u ->
    exists ds, ms_delay u = foldl delay_add delay_zero ds /\ route_len (ms_route u) = S (length ds) /\ hop_delays ds /\
      reply_leg_of (tp_mixnodes (rg_topology g)) index key (local_target g) (ms_surb u) (surb_entry id u) ds.
  Proof.
    intros Hg Hp Hk (Hr & Hsl & Hid & _ & surb0 & r & r' & Hs0 & E).
    destruct (route_path _ _ _ _ _ Hg Hp Hr Hk) as [Hpath Hidx].
    rewrite (honest_keys _ _ _ _ _ Hr Hk) in E.
    destruct (surb_built pr Hok surb0 (rt_first (ms_route u)) (rt_targets (ms_route u))
                (map key (route_nodes (ms_route u))) (ms_id u) r Hpath) as (surb & keys & ds & r2 & E' & _ & Hds & _ & HJ); [done..|].
    rewrite E' in E. injection E as -> -> Edl _. exists ds. split; [done|]. split; [by rewrite (route_length _ _ _ _ Hr), Hds|]. split.
    { split.
      - rewrite Hds. destruct Hpath as (Hp1 & Hp2 & _). unfold route_nodes in Hp1, Hp2. rewrite map_length in *. cbn in *. lia.
      - destruct (HJ (replicate 188 0%N) (replicate PAYLOAD_DATA_SIZE 0%N) (replicate 16 0%N)) as (p' & _ & HJp);
          [done|apply replicate_length|done|]. by apply (journey_delays _ _ _ _ _ HJp). }
    assert (Hfirst : exists peer, addr_of (tp_mixnodes (rg_topology g)) (TMixnodeIndex (rt_first (ms_route u))) = Some peer).
    { pose proof (ro_keys _ _ _ _ Hr) as Hf. unfold route_nodes in Hf. inversion Hf as [|? ? ? ? Hmn _ E1 E2].
      destruct Hmn as (mn & Hmn & _). cbn. rewrite Hmn. by eexists. }
    destruct Hfirst as (peer & Hfirst). exists (rt_first (ms_route u)), peer. split; [done|]. intros f Hf.
    destruct (HJ (replicate 188 0%N) f (replicate 16 0%N)) as (p' & Ep & HJp); [done..|].
    destruct (route_trip g (RkFromMixnode d) h (ms_route u) key index _ ds _ peer Hr HJp Hds Hfirst)
      as (trip & y & q & H1 & H2 & H3 & H4 & H5 & H6).
    exists p', trip, y, q. done.
  Qed.

  Lemma reply_trip nodes index key me surb e ds t p f :
    reply_leg_of nodes index key me surb e ds -> tp_mixnodes t = nodes -> first_hop t surb = Some (ap_peer_id p) ->
    (exists i, complete_reply_packet pr (replicate 188 0%N ++ f ++ replicate 16 0%N) surb = (ap_packet p, Some i)) ->
    length f = N.to_nat 2048 ->
    exists trip y q,
      trip_to pr nodes index key me trip /\ first_packet trip = Some p /\ delayed pr nodes index ds trip /\
      addr_of nodes me = Some y /\ list.last trip = Some (Stage (AddressedPacket y q) (key me)) /\
      journey pr q [key me] []
        (fun out res => res = Ok (ADeliverReply e.1) /\
           decrypt_reply_payload pr (take PAYLOAD_SIZE out) (sv_keys e.2) = (f ++ PAYLOAD_TAG, Ok tt)).
  Proof.
    intros (i & peer & Hpeer & Hleg) Ht Hfirst (i' & Ec) Hf.
    destruct (Hleg f Hf) as (p' & trip & y & q & Ec' & H1 & H2 & H3 & H4 & H5 & H6).
    rewrite Ec in Ec'. injection Ec' as <- ->. exists trip, y, q. split_and!; try done.
    assert (Hix : from_le16 (take 2 surb) = i).
    { unfold complete_reply_packet in Ec. injection Ec as _ Ec.
      change (slice surb 0 RAW_MIXNODE_INDEX_SIZE) with (take 2 (drop 0 surb)) in Ec. rewrite drop_0 in Ec.
      unfold mixnode_index_try_from in Ec. destruct (_ <=? _)%N; [|done]. by injection Ec. }
    unfold first_hop in Hfirst. rewrite Hix, Ht in Hfirst. cbn in Hpeer. rewrite Hfirst in Hpeer. injection Hpeer as <-.
    rewrite H2. by destruct p.
  Qed.

  Lemma made_of bs ps g d h :
    Forall2 (packet_made pr g d h) bs ps ->
    Forall3 fragment_made bs (map mp_fragment ps) (map (fun p => map ms_surb (mp_surbs p)) ps).
  Proof.
    induction 1 as [|b p bs ps (H1 & H2 & (pad & Hpad & Ef) & _) _ IH]; cbn [map]; constructor; [|done].
    split; [by rewrite map_length|]. split.
    - clear -H1. induction H1 as [|u us (_ & Hu & _) _ IH]; cbn; constructor; done.
    - exists pad. by rewrite map_length.
  Qed.

  Lemma no_surbs id data bs :
    args_ok id data 0 -> fragment_blueprints id data 0 = Val (Some bs) -> Forall (fun b => fb_num_surbs b = 0%N) bs.
  Proof.
    intros (_ & Hwf & Hd & Hs) Eb. destruct (C02_minimal id data 0 bs Hwf Hd Hs Eb) as [[_ [_ Hsum]] _].
    clear -Hsum. induction bs as [|b bs IH]; constructor; cbn in Hsum; [lia|]. apply IH.
    unfold plan_of in Hsum. unfold plan_of. lia.
  Qed.

  (** The request is on its way: at the node [d] stands for, [y], it will be returned with [surbs]. *)
  Definition request_sent (w : world) (x : bytes) (index : session_index) (id : bytes) (data : scattered N) (k : N)
      (rel : rel_session_index) (nodes : list mixnode) (key : target -> bytes) (d : mixnode_index) (w1 : world)
      (y : bytes) (trips : list (list stage)) (surbs : list bytes) : Prop :=
    addr_of nodes (TMixnodeIndex d) = Some y /\
    needs (data_len data) k (length trips) /\ N.of_nat (length surbs) = k /\
    queued (w_node w x) (w_node w1 x) rel trips /\ w_wire w1 = w_wire w /\
    Forall (trip_to pr nodes index key (TMixnodeIndex d)) trips /\
    yields pr nodes index (ready_request pr nodes index) trips x y id
      (MRequest (RequestMessage index id (sc_contents data) surbs)) w1.
  (** The reply is on its way: the SURBs were used from the end of the list, and it will be returned by
      node [x] if that has, for each packet, the entry of its SURB among [entries]. *)
  Definition reply_queued (index : session_index) (id : bytes) (nodes : list mixnode) (key : target -> bytes)
      (me : target) (x : bytes) (surbs : list bytes) (entries : list (bytes * surb_value))
      (w : world) (y : bytes) (rsurbs left : list bytes) (rid : bytes) (rdata : scattered N)
      (rel : rel_session_index) (w1 : world) (trips : list (list stage)) (used : list (bytes * (bytes * surb_value))) : Prop :=
    rsurbs = left ++ reverse (map fst used) /\ (forall ue, ue ∈ used -> ue ∈ zip surbs entries) /\
    length used = length trips /\ needs (data_len rdata) 0 (length trips) /\
    queued (w_node w y) (w_node w1 y) rel trips /\ w_wire w1 = w_wire w /\
    Forall (trip_to pr nodes index key me) trips /\
    yields pr nodes index (ready_reply pr nodes index (map snd used)) trips y x rid
      (MReply (ReplyMessage id (sc_contents rdata))) w1.
  Definition reply_sent (index : session_index) (id : bytes) (nodes : list mixnode) (key : target -> bytes)
      (me : target) (x : bytes) (surbs : list bytes) (entries : list (bytes * surb_value))
      (w : world) (y : bytes) (rsurbs left : list bytes) (rid : bytes) (rdata : scattered N)
      (rel : rel_session_index) (w1 : world) : Prop :=
    exists trips used,
      reply_queued index id nodes key me x surbs entries w y rsurbs left rid rdata rel w1 trips used.

  Lemma ss_get_put m rel s : ss_get (mx_sessions (mx_put_session m rel s)) rel = SlFull s.
  Proof. by destruct rel. Qed.

  (** The delays on the trips, and what is reported: the number of hops and the forwarding delay. *)
  Definition timed_legs (nodes : list mixnode) (index : session_index) (key : target -> bytes) (me : target)
      (trips : list (list stage)) (surbs : list bytes) (entries : list (bytes * surb_value))
      (dqs dls : list (list delay)) (u : duration) (mt : request_metrics) : Prop :=
    Forall2 (fun ds trip => hop_delays ds /\ delayed pr nodes index ds trip) dqs trips /\
    Forall3 (fun surb e ds => hop_delays ds /\ reply_leg_of nodes index key me surb e ds) surbs entries dls /\
    rqm_num_hops mt = max_nat 0 (map (S ∘ length) dqs) + max_nat 0 (map (S ∘ length) dls) /\
    exists dq dl,
      max_delays delay_zero (map (foldl delay_add delay_zero) dqs) = Val dq /\
      max_delays delay_zero (map (foldl delay_add delay_zero) dls) = Val dl /\
      delay_to_duration (delay_add dq dl) u = Val (rqm_forwarding_delay mt).

  (** All of it together. *)
  Lemma round_trip w x index dest id data k ns r d mt w1 rel s key :
    world_ok pr w ->
    happens pr w (EvCall x (CallPostRequest index dest id data k ns r) (RespPost (Some d) (Ok mt))) w1 ->
    usable (w_node w x) index rel s -> honest pr (se_topology s) key ->
    let nodes := tp_mixnodes (se_topology s) in
    (dest = None \/ dest = Some d) /\ exists y trips surbs entries dqs dls,
      (request_sent w x index id data k rel nodes key d w1 y trips surbs /\
       carries pr nodes index (ready_request pr nodes index) request_kind trips id
         (MRequest (RequestMessage index id (sc_contents data) surbs))) /\
      mx_keystore (w_node w1 x) = ks_pushes (mx_keystore (w_node w x)) entries /\
      length entries = length surbs /\
      timed_legs nodes index key (self (se_topology s) ns) trips surbs entries dqs dls
        (cf_mean_forwarding_delay (mx_config (w_node w x))) mt /\
      forall w2 y2 rsurbs left rid rdata rel2 s2 w3,
        world_ok pr w2 ->
        happens pr w2 (EvCall y2 (CallPostReply rsurbs index rid rdata) (RespReply left (Ok tt))) w3 ->
        usable (w_node w2 y2) index rel2 s2 -> tp_mixnodes (se_topology s2) = nodes ->
        Forall (fun u => u ∈ surbs) rsurbs -> addr_of nodes (self (se_topology s) ns) = Some x ->
        exists rtrips used,
          (reply_queued index id nodes key (self (se_topology s) ns) x surbs entries w2 y2 rsurbs left rid rdata rel2 w3
             rtrips used /\
           carries pr nodes index (ready_reply pr nodes index (map snd used)) (reply_kind (map snd used)) rtrips rid
             (MReply (ReplyMessage id (sc_contents rdata)))) /\
          Forall2 (fun ue trip => exists j ds, zip surbs entries !! j = Some ue /\ dls !! j = Some ds /\
                     delayed pr nodes index ds trip) used rtrips.
  Proof.
    intros Hw Hhap Hus Hhon nodes.
    assert (Hw1 : world_ok pr w1) by (by eapply happens_ok).
    destruct (happens_call _ _ _ _ Hhap) as (x' & c & a & m & Hcall & Hex & En & <- & <- & <- & _ & Hwire).
    destruct (Hw x) as (cf & hist & Hr). destruct (reachable_mx_ok pr Hok _ _ _ Hr) as [Hcf Hm].
    pose proof (mx_posting pr cf _ Hcf Hm) as Hpo. pose proof Hcall as (Hargs & Hns & _).
    assert (Hdest : forall d rel s, dest = Some d -> usable (w_node w x) index rel s -> valid_index (se_topology s) d).
    { intros d' rel' s' -> Hu'. destruct (decide (N.to_nat d' < length (tp_mixnodes (se_topology s')))) as [|Hn]; [done|].
      by destruct (C36_not_accepted pr cf Hcf _ _ _ _ _ _ _ _ _ _ _ _ Hm Hcall Hu' Hn Hex) as (_ & e & ?). }
    cbn [exec] in Hex. apply out_bind_Val in Hex as ([[m1 dd] res] & Ep & [= -> -> ->]).
    destruct (post_request_spec pr Hok _ index dest id data k ns r Hpo Hargs Hns Hdest)
      as [(e & E & _)|[[E _]|(m' & d' & mt' & rel' & s' & g & bs & ps & E & Hposted)]]; rewrite Ep in E; try done.
    injection E as <- <- <-. destruct (usable_unique _ _ _ _ _ _ Hus (po_usable _ _ _ _ _ _ _ _ _ _ _ _ _ _ _ _ _ Hposted)) as [<- <-].
    destruct Hposted as [_ [Hg Hgen] [_ Hdd] Hplan Hnum _ Hmade Hsurbs _ Hst _ Hhops Hdelay _ _].
    pose proof (usable_get _ _ _ _ Hus) as Hget.
    destruct (C25_generator (se_topology s) ns) as (g' & Hg' & _ & Egt & Egp & _); [by apply Hpo in Hget|].
    rewrite Hg in Hg'. injection Hg' as <-.
    rewrite <- Egp in Hns. rewrite <- Egt in Hhon.
    pose proof (made_of _ _ _ _ _ Hmade) as Hm3.
    destruct (fragments_made id data k bs _ _ Hargs Hplan Hm3) as (Hlf & Hfne & Hfs & Hfi & Hfid & Hmsg).
    rewrite map_length in Hlf.
    assert (Htrips : Forall (fun p => exists trip y q,
      (exists ds, mp_delay p = foldl delay_add delay_zero ds /\ hop_delays ds /\ delayed pr nodes index ds trip /\
         route_len (mp_route p) = length trip) /\
      trip_to pr nodes index key (TMixnodeIndex d) trip /\ first_packet trip = Some (mp_packet p) /\
      addr_of nodes (TMixnodeIndex d) = Some y /\
      list.last trip = Some (Stage (AddressedPacket y q) (key (TMixnodeIndex d))) /\
      journey pr q [key (TMixnodeIndex d)] []
        (fun out res => res = Ok ADeliverRequest /\ take PAYLOAD_DATA_SIZE out = mp_fragment p)) ps).
    { apply Forall_lookup. intros i p Hi. destruct (Forall2_lookup_r _ _ _ _ _ Hmade Hi) as (b & _ & Hb).
      unfold nodes. rewrite <- Egt. eapply packet_trip; try done.
      eapply (Forall_lookup_1 frag_sized); [exact Hfs|]. rewrite list_lookup_fmap. by rewrite Hi. }
    apply choose_list in Htrips as (trips & Htrips).
    assert (Hlt : length trips = length ps) by (symmetry; by eapply Forall2_length).
    assert (Hy : exists y, addr_of nodes (TMixnodeIndex d) = Some y).
    { destruct Htrips as [|p trip ps' trips' (y & q & _ & _ & _ & Hy & _) _]; [by cbn in Hfne|]. by exists y. }
    destruct Hy as [y Hy].
    assert (Ht : Forall (trip_to pr nodes index key (TMixnodeIndex d)) trips).
    { apply Forall_lookup. intros i trip Hi. by destruct (Forall2_lookup_r _ _ _ _ _ Htrips Hi) as (p & _ & y' & q & _ & ? & _). }
    destruct Hdelay as (dq & dl & Hdq & _ & Hdl & _ & HT).
    assert (H1 : exists dqs, map mp_delay ps = map (foldl delay_add delay_zero) dqs /\
      map (fun p => route_len (mp_route p)) ps = map (S ∘ length) dqs /\
      Forall2 (fun ds trip => hop_delays ds /\ delayed pr nodes index ds trip) dqs trips).
    { clear -Htrips. induction Htrips as [|p trip ps trips (y & q & (ds & Eds & Hds & Hdel & Hlen) & _) _ (dqs & E & E' & IH)]; [by exists []|].
      exists (ds :: dqs). cbn [map]. rewrite E, Eds, E', Hlen. split; [done|]. split; [|by constructor].
      f_equal. apply Hdel. }
    set (me := self (se_topology s) ns).
    assert (Eme : local_target g = me) by (unfold local_target, me, self; by rewrite Egt, Egp).
    assert (Hsm : Forall (surb_made pr g d (cf_num_hops (mx_config (w_node w x)))) (all_surbs ps)).
    { unfold all_surbs. apply Forall_concat, Forall_map. clear -Hmade.
      induction Hmade as [|b p bs ps Hp _ IH]; constructor; [|done]. by destruct Hp as (Hs & _). }
    assert (H2 : exists dls, map ms_delay (all_surbs ps) = map (foldl delay_add delay_zero) dls /\
      map (fun u => route_len (ms_route u)) (all_surbs ps) = map (S ∘ length) dls /\
      Forall3 (fun surb e ds => hop_delays ds /\ reply_leg_of nodes index key me surb e ds)
        (map ms_surb (all_surbs ps)) (map (surb_entry id) (all_surbs ps)) dls).
    { unfold nodes. clear -Hsm Eme Egt Hgen Hns Hhon Hok.
      induction Hsm as [|u us Hu _ (dls & E & E' & IH)]; [exists []; do 2 (split; [done|]); constructor|].
      destruct (reply_leg_made _ _ _ _ _ index id Hgen Hns Hhon Hu) as (ds & Eds & Hlen & Hds & Hleg).
      rewrite Egt, Eme in Hleg. exists (ds :: dls). cbn [map]. rewrite E, Eds, E', Hlen. do 2 (split; [done|]). by constructor. }
    destruct H1 as (dqs & E1 & E1' & H1), H2 as (dls & E2 & E2' & H2). rewrite E1 in Hdq. rewrite E2 in Hdl.
    rewrite E1', E2' in Hhops.
    split; [done|]. exists y, trips, (map ms_surb (all_surbs ps)), (map (surb_entry id) (all_surbs ps)), dqs, dls.
    split; [|split; [|split; [|split]]].
    - assert (Hcar : carries pr nodes index (ready_request pr nodes index) request_kind trips id
        (MRequest (RequestMessage index id (sc_contents data) (map ms_surb (all_surbs ps))))).
      { set (mk := fun gm => MRequest (RequestMessage index (gm_id gm) (gm_data gm) (gm_surbs gm))).
        exists (map mp_fragment ps), mk. split_and!; try done.
        - rewrite Hmsg. unfold mk. cbn. do 2 f_equal. unfold all_surbs. rewrite concat_map, map_map. done.
        - by rewrite map_length.
        - intros i trip gg f m' now m'' msg Hi Hg1 Hf (cf' & Hm') Hready Hh.
          rewrite list_lookup_fmap in Hf. destruct (ps !! i) as [p|] eqn:Hpi; [|done]. injection Hf as <-.
          destruct (Forall2_lookup_lr _ _ _ _ _ _ Htrips Hpi Hi) as (y' & q & _ & _ & _ & _ & Hl & HJ).
          rewrite Hg1 in Hl. injection Hl as ->.
          destruct (reads_request cf' nodes index (Stage (AddressedPacket y' q) (key (TMixnodeIndex d))) m' (mp_fragment p) now m'' msg)
            as [(Hb & rel' & s' & Hs' & Hr' & Hc') Ho]; [done..|]. split; [|exact Ho]. split; [exact Hb|].
          exists rel', s'. split; [done|]. split; [done|]. by eexists. }
      split; [|exact Hcar]. split_and!; try done.
      + by rewrite Hlt.
      + by rewrite map_length.
      + rewrite En, with_node_same. exists s, (se_set_authored s (AuthoredQueue (aq_config (se_authored s))
         (aq_queue (se_authored s) ++ map mp_packet ps))). split; [done|]. rewrite Hst. split; [apply ss_get_put|].
        cbn. rewrite map_app. f_equal. clear -Htrips. induction Htrips as [|p trip ps trips (y & q & _ & _ & H & _) _ IH]; [done|].
        cbn. by rewrite H, IH.
      + rewrite Hwire. apply app_nil_r.
      + by eapply (yields_of nodes index _ trips x y id w1 key (TMixnodeIndex d)).
    - rewrite En, with_node_same, Hst. by destruct rel.
    - by rewrite !map_length.
    - split; [done|]. split; [done|]. split; [done|]. by exists dq, dl.
    - intros w2 y2 rsurbs left rid rdata rel2 s2 w3 Hw2 Hhap2 Hus2 Hnodes Hin Hself.
      assert (Hw3 : world_ok pr w3) by (by eapply happens_ok).
      destruct (happens_call _ _ _ _ Hhap2) as (x' & c & a & m2 & Hcall2 & Hex2 & En2 & <- & <- & <- & _ & Hwire2).
      destruct (Hw2 y2) as (cf2 & hist2 & Hr2). destruct (reachable_mx_ok pr Hok _ _ _ Hr2) as [Hcf2 Hm2].
      pose proof (mx_posting pr cf2 _ Hcf2 Hm2) as Hpo2. pose proof Hcall2 as (Hargs2 & Hsl2).
      cbn [exec] in Hex2. apply out_bind_Val in Hex2 as ([[m3 l3] res3] & Ep2 & [= -> -> ->]).
      destruct (C37_post_reply pr _ rsurbs index rid rdata Hpo2 Hargs2)
        as [(e & E & _)|(rel' & s' & bs2 & used & packets & left2 & res2 & Hu2 & Hplan2 & Hnum2 & _ & E & Hres)];
        rewrite Ep2 in E; [done|]. injection E as -> <- <-. destruct Hres as [Ersurbs Hmade2].
      destruct (usable_unique _ _ _ _ _ _ Hus2 Hu2) as [<- <-].
      (* the SURBs used *)
      assert (Husr : Forall (fun u => exists jm, all_surbs ps !! jm.1 = Some jm.2 /\ ms_surb jm.2 = u) used).
      { apply Forall_forall. intros u Hu. rewrite Forall_forall in Hin.
        destruct (elem_of_list_fmap_2 ms_surb (all_surbs ps) u) as (mu & -> & Hmu).
        { apply Hin. rewrite Ersurbs. apply elem_of_app. right. by apply elem_of_reverse. }
        apply elem_of_list_lookup in Hmu as [j Hj]. by exists (j, mu). }
      apply choose_list in Husr as (mus & Hmus).
      (* the fragments *)
      assert (Hfr : exists fs, Forall3 fragment_made bs2 fs (map (fun _ => []) bs2) /\
         Forall3 (fun f u p => first_hop (se_topology s2) u = Some (ap_peer_id p) /\
            (exists i, complete_reply_packet pr (replicate 188 0%N ++ f ++ replicate 16 0%N) u = (ap_packet p, Some i))) fs used packets).
      { assert (Hns0 : Forall (fun b => fb_num_surbs b = 0%N) bs2) by (by eapply no_surbs).
        clear -Hmade2 Hns0. induction Hmade2 as [|b u p bs us ps (H1 & pad & i & Hpad & Hc) _ IH].
        { exists []. split; constructor. }
        apply Forall_cons in Hns0 as [Hb Hns0]. destruct (IH Hns0) as (fs & IH1 & IH2).
        eexists (_ :: fs). split.
        - cbn [map]. constructor; [|exact IH1]. split; [by rewrite Hb|]. split; [done|]. exists pad. split; [cbn; lia|done].
        - constructor; [|exact IH2]. split; [done|]. by exists i. }
      destruct Hfr as (fs2 & Hfm2 & Hfu2).
      destruct (fragments_made rid rdata 0 bs2 fs2 _ Hargs2 Hplan2 Hfm2) as (Hlf2 & Hfne2 & Hfs2 & Hfi2 & Hfid2 & Hmsg2).
      assert (L1 : length used = length fs2) by (symmetry; by eapply Forall3_length_lm).
      assert (L2 : length packets = length fs2) by (symmetry; by eapply Forall3_length_lr).
      assert (L3 : length mus = length fs2) by (rewrite <- L1; symmetry; by eapply Forall2_length).
      set (good := fun (f : bytes) (jm : nat * made_surb) (p : addressed_packet) (trip : list stage) =>
        exists y q ds, dls !! jm.1 = Some ds /\ trip_to pr nodes index key me trip /\ first_packet trip = Some p /\
          delayed pr nodes index ds trip /\
          addr_of nodes me = Some y /\ list.last trip = Some (Stage (AddressedPacket y q) (key me)) /\
          journey pr q [key me] []
            (fun out res => res = Ok (ADeliverReply (ms_id jm.2)) /\
               decrypt_reply_payload pr (take PAYLOAD_SIZE out) (ms_keys jm.2) = (f ++ PAYLOAD_TAG, Ok tt))).
      assert (Htrips2 : Forall (fun i => exists trip, forall f jm p,
        fs2 !! i = Some f -> mus !! i = Some jm -> packets !! i = Some p -> good f jm p trip) (seq 0 (length fs2))).
      { apply Forall_forall. intros i Hi%elem_of_seq.
        destruct (lookup_lt_is_Some_2 fs2 i) as [f Hf]; [lia|].
        destruct (lookup_lt_is_Some_2 mus i) as [[j mu] Hmu]; [lia|].
        destruct (Forall3_lookup_l _ _ _ _ _ _ Hfu2 Hf) as (u & p & Hu & Hp & Hfirst & Hcomp).
        destruct (Forall2_lookup_lr _ _ _ _ _ _ Hmus Hu Hmu) as [Hj Eu]. cbn [fst snd] in Hj, Eu. subst u.
        assert (Hfl : length f = N.to_nat 2048) by (by eapply (Forall_lookup_1 frag_sized)).
        assert (Hj1 : map ms_surb (all_surbs ps) !! j = Some (ms_surb mu)) by (by rewrite list_lookup_fmap, Hj).
        destruct (Forall3_lookup_l _ _ _ _ _ _ H2 Hj1) as (e & ds & He & Hds & _ & Hleg).
        rewrite list_lookup_fmap, Hj in He. injection He as <-.
        destruct (reply_trip nodes index key me _ _ ds (se_topology s2) p f Hleg Hnodes Hfirst Hcomp Hfl)
          as (trip & y' & q & G1 & G2 & G3 & G4 & G5 & G6).
        exists trip. intros f' jm' p' Hf' Hmu' Hp'.
        rewrite Hf in Hf'. rewrite Hmu in Hmu'. rewrite Hp in Hp'. injection Hf' as <-. injection Hmu' as <-. injection Hp' as <-.
        exists y', q, ds. done. }
      apply choose_list in Htrips2 as (trips2 & Htrips2).
      assert (L4 : length trips2 = length fs2) by (rewrite <- (Forall2_length _ _ _ Htrips2); apply seq_length).
      assert (Hat : forall i trip, trips2 !! i = Some trip ->
        exists f jm p, fs2 !! i = Some f /\ mus !! i = Some jm /\ packets !! i = Some p /\ good f jm p trip).
      { intros i trip Hi. assert (Hlti := Hi). apply lookup_lt_Some in Hlti.
        destruct (lookup_lt_is_Some_2 fs2 i) as [f Hf]; [lia|].
        destruct (lookup_lt_is_Some_2 mus i) as [jm Hmu]; [lia|].
        destruct (lookup_lt_is_Some_2 packets i) as [p Hp]; [lia|].
        destruct (Forall2_lookup_r _ _ _ _ _ Htrips2 Hi) as (j & Hj & Hall). apply lookup_seq in Hj as [-> _].
        exists f, jm, p. split_and!; try done. by apply Hall. }
      assert (Hzip : forall j mu, all_surbs ps !! j = Some mu ->
        zip (map ms_surb (all_surbs ps)) (map (surb_entry id) (all_surbs ps)) !! j = Some (ms_surb mu, surb_entry id mu)).
      { intros j mu Hj. rewrite lookup_zip_with, !list_lookup_fmap, Hj. done. }
      set (ues := map (fun jm => (ms_surb jm.2, surb_entry id jm.2)) mus).
      assert (Htt2 : Forall (trip_to pr nodes index key me) trips2).
      { apply Forall_lookup. intros i trip Hi. by destruct (Hat i trip Hi) as (f & jm & p & _ & _ & _ & y' & q & ds & _ & ? & _). }
      assert (Hcar2 : carries pr nodes index (ready_reply pr nodes index (map snd ues)) (reply_kind (map snd ues)) trips2 rid
                        (MReply (ReplyMessage id (sc_contents rdata)))).
      { exists fs2, (fun gm => MReply (ReplyMessage id (gm_data gm))). split_and!; try done; [by rewrite Hmsg2|].
        intros i trip gg f m' now m'' msg Hi Hg1 Hf _ Hready Hh.
        destruct (Hat i trip Hi) as (f' & [j mu] & p & Hf' & Hmu & _ & y' & q & ds & _ & _ & _ & _ & _ & Hl & HJ).
        rewrite Hf in Hf'. injection Hf' as <-. rewrite Hg1 in Hl. injection Hl as ->.
        assert (He : map snd ues !! i = Some (surb_entry id mu)).
        { unfold ues. rewrite map_map, list_lookup_fmap, Hmu. done. }
        destruct (reads_reply nodes index (map snd ues) i (Stage (AddressedPacket y' q) (key me)) m' f (ms_id mu) (ms_keys mu) id now m'' msg)
          as [(Hb & rel' & s' & Hs' & Hr' & pl & Hc') Ho]; try done.
        { by eapply (Forall_lookup_1 frag_sized). }
        split; [|exact Ho]. split; [exact Hb|]. exists rel', s'. split; [done|]. split; [done|]. by exists (ms_id mu), (SurbValue (ms_keys mu) id), pl. }
      exists trips2, ues. unfold ues in *. split; [split; [split_and!|]|].
      + rewrite Ersurbs. do 2 f_equal. rewrite map_map. cbn. clear -Hmus.
        induction Hmus as [|u mu us mus (_ & E) _ IH]; [done|]. cbn. by rewrite E, <- IH.
      + intros ue Hue. apply elem_of_list_fmap_2 in Hue as ([j mu] & -> & Hmu).
        apply elem_of_list_lookup in Hmu as [i Hi]. destruct (Forall2_lookup_r _ _ _ _ _ Hmus Hi) as (u & _ & Hal & _).
        apply elem_of_list_lookup. exists j. by apply Hzip.
      + rewrite map_length. lia.
      + by rewrite L4, Hlf2.
      + rewrite En2, with_node_same. exists s2, (se_set_authored s2 (AuthoredQueue (aq_config (se_authored s2))
         (aq_queue (se_authored s2) ++ packets))). split; [by apply usable_get in Hus2|]. split; [apply ss_get_put|].
        cbn. rewrite map_app. f_equal. apply list_eq. intros i. rewrite !list_lookup_fmap.
        destruct (trips2 !! i) as [trip|] eqn:Ei.
        * destruct (Hat i trip Ei) as (f & jm & p & _ & _ & -> & y' & q & ds & _ & _ & Hfp & _). cbn. by rewrite Hfp.
        * apply lookup_ge_None in Ei. rewrite (proj2 (lookup_ge_None packets i)) by lia. done.
      + rewrite Hwire2. apply app_nil_r.
      + exact Htt2.
      + by eapply (yields_of nodes index _ trips2 y2 x rid w3 key me).
      + exact Hcar2.
      + apply Forall2_fmap_l. apply Forall2_same_length_lookup. split; [lia|]. intros i [j mu] trip Hmu Hi.
        destruct (Hat i trip Hi) as (f & jm & p & _ & Hmu' & _ & y' & q & ds & Hds & _ & _ & Hdel & _).
        rewrite Hmu in Hmu'. injection Hmu' as <-. exists j, ds. split_and!; try done.
        apply Hzip. destruct (Forall2_lookup_r _ _ _ _ _ Hmus Hmu) as (u & _ & Hal & _). exact Hal.
  Qed.

  (** C40: a request accepted by [post_request] is queued as packets which honest nodes carry to the
      destination, where the last of them to arrive, and no other, yields the request, with exactly the
      posted id and data and the number of SURBs asked for. *)
  Theorem C40_request w x index dest id data k ns r d mt w1 rel s key :
    world_ok pr w ->
    happens pr w (EvCall x (CallPostRequest index dest id data k ns r) (RespPost (Some d) (Ok mt))) w1 ->
    usable (w_node w x) index rel s -> honest pr (se_topology s) key ->
    (dest = None \/ dest = Some d) /\
    exists y trips surbs,
      request_sent w x index id data k rel (tp_mixnodes (se_topology s)) key d w1 y trips surbs.
  Proof.
    intros Hw Hhap Hus Hhon.
    destruct (round_trip _ _ _ _ _ _ _ _ _ _ _ _ _ _ _ Hw Hhap Hus Hhon) as (Hd & y & trips & surbs & entries & dqs & dls & [H _] & _).
    split; [done|]. by exists y, trips, surbs.
  Qed.

  (** C41: ... and replies made with the SURBs of such a request, as handed to its recipient, reach the
      sender, where the last packet to arrive, and no other, yields the reply, with exactly the reply's
      data and the id of the request; provided that the sender still has the keys of the SURBs used. *)
  Theorem C41_reply w x index dest id data k ns r d mt w1 rel s key :
    world_ok pr w ->
    happens pr w (EvCall x (CallPostRequest index dest id data k ns r) (RespPost (Some d) (Ok mt))) w1 ->
    usable (w_node w x) index rel s -> honest pr (se_topology s) key ->
    let nodes := tp_mixnodes (se_topology s) in
    addr_of nodes (self (se_topology s) ns) = Some x ->
    exists y trips surbs entries,
      request_sent w x index id data k rel nodes key d w1 y trips surbs /\
      mx_keystore (w_node w1 x) = ks_pushes (mx_keystore (w_node w x)) entries /\
      length entries = length surbs /\
      forall w2 y2 rsurbs left rid rdata rel2 s2 w3,
        world_ok pr w2 ->
        happens pr w2 (EvCall y2 (CallPostReply rsurbs index rid rdata) (RespReply left (Ok tt))) w3 ->
        usable (w_node w2 y2) index rel2 s2 -> tp_mixnodes (se_topology s2) = nodes ->
        Forall (fun u => u ∈ surbs) rsurbs ->
        reply_sent index id nodes key (self (se_topology s) ns) x surbs entries w2 y2 rsurbs left rid rdata rel2 w3.
  Proof.
    intros Hw Hhap Hus Hhon nodes Hself.
    destruct (round_trip _ _ _ _ _ _ _ _ _ _ _ _ _ _ _ Hw Hhap Hus Hhon) as (_ & y & trips & surbs & entries & dqs & dls & [H1 _] & H2 & H3 & _ & H4).
    exists y, trips, surbs, entries. split_and!; try done. intros w2 y2 rsurbs left rid rdata rel2 s2 w3 G1 G2 G3 G4 G5.
    destruct (H4 w2 y2 rsurbs left rid rdata rel2 s2 w3 G1 G2 G3 G4 G5 Hself) as (rtrips & used & [H _] & _). by exists rtrips, used.
  Qed.
End theend.
