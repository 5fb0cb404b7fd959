(** From packets as built to trips through the network, and reassembly at the end of them. *)
From Verif Require Export PNet.

(** The peer a target stands for. *)
Definition addr_of (nodes : list mixnode) (t : target) : option bytes :=
  match t with
  | TMixnodeIndex i => mn_peer_id <$> nodes !! N.to_nat i
  | TPeerId p => Some p
  end.
Lemma addr_of_topology t tgt peer :
  addr_of (tp_mixnodes t) tgt = Some peer -> tp_target_to_peer_id t tgt = Ok peer.
Proof.
  destruct tgt as [i|p]; cbn; [|congruence]. unfold tp_index_to_peer_id.
  destruct (tp_mixnodes t !! N.to_nat i); [|done]. by intros [= ->].
Qed.

(** Every node able to forward the packet keeps the next one for [d] times its mean forwarding delay. *)
Definition holds_for (pr : prims) nodes index (d : delay) (g g' : stage) : Prop :=
  forall m now m' msg,
    can_forward pr nodes index g m -> handle_packet pr m (ap_packet (sg_to g)) now = Val (m', msg) ->
    exists h, delay_to_duration d (cf_mean_forwarding_delay (mx_config m)) = Val h /\
      fq_queue (mx_forward m') = fq_queue (mx_forward m) ++ [ForwardPacket (now + h)%N (sg_to g')].
Definition delayed (pr : prims) nodes index (ds : list delay) (trip : list stage) : Prop :=
  length trip = S (length ds) /\
  forall j d g g', ds !! j = Some d -> trip !! j = Some g -> trip !! S j = Some g' -> holds_for pr nodes index d g g'.

Section trip.
  Context (pr : prims) (Hok : prims_ok pr).

  Lemma shared_secret s p : shared pr s p = derive_kx_shared_secret pr (kx_public p) (kp_secret (se_kx_pair s)).
  Proof. done. Qed.
  Lemma peel_opens out s p out' a :
    length out = N.to_nat 2252 -> length p = N.to_nat 2252 ->
    peel pr out p (shared pr s p) = (out', Ok a) -> opens pr s p.
  Proof.
    intros Ho Hp H. rewrite (peel_eq pr Hok) in H by done. cbv zeta in H.
    destruct (decide (good_mac pr p (shared pr s p))) as [|Hn]; done.
  Qed.
  Lemma zeros_length : length (replicate (N.to_nat 2252) 0%N) = N.to_nat 2252.
  Proof. apply replicate_length. Qed.

  (** What the packet contains for a node with the right key. *)
  Lemma journey_forward p sk sk' sks t d fwd fin s :
    journey pr p (sk :: sk' :: sks) ((t, d) :: fwd) fin -> kp_secret (se_kx_pair s) = sk ->
    exists p', length p = N.to_nat 2252 /\ opens pr s p /\ content_of pr s p = CtForward t d p' /\
      journey pr p' (sk' :: sks) fwd fin /\
      forall out, length out = PACKET_SIZE ->
        peel pr out p (derive_kx_shared_secret pr (kx_public p) sk) = (p', Ok (AForwardTo t d)).
  Proof.
    rewrite journey_cons. intros (Hp & p' & Hpeel & HJ) Hk. exists p'. rewrite PACKET_SIZE_eq in Hp.
    pose proof (Hpeel (replicate (N.to_nat 2252) 0%N)) as H. rewrite PACKET_SIZE_eq in H.
    specialize (H zeros_length). rewrite <- Hk, <- shared_secret in H.
    assert (Hop : opens pr s p) by (by eapply peel_opens; [apply zeros_length|..]).
    split_and!; try done.
    destruct (peel_content pr Hok _ s p zeros_length Hp Hop) as (out' & Hc). rewrite H in Hc.
    destruct (content_of pr s p) as [t0 d0 n0|data|id pl|cid|]; try (by destruct Hc as (? & _)); try congruence.
    destruct Hc as (? & ?); done.
  Qed.
  Lemma journey_request q sk data s :
    journey pr q [sk] [] (fun out res => res = Ok ADeliverRequest /\ take PAYLOAD_DATA_SIZE out = data) ->
    kp_secret (se_kx_pair s) = sk ->
    length q = N.to_nat 2252 /\ opens pr s q /\ content_of pr s q = CtRequest data.
  Proof.
    cbn [journey]. intros (Hp & Hpeel) Hk. rewrite PACKET_SIZE_eq in Hp.
    pose proof (Hpeel (replicate (N.to_nat 2252) 0%N)) as H. rewrite PACKET_SIZE_eq in H.
    specialize (H zeros_length). rewrite <- Hk, <- shared_secret in H.
    destruct (peel pr _ q (shared pr s q)) as [out' res] eqn:E. destruct H as [-> H].
    assert (Hop : opens pr s q) by (by eapply peel_opens; [apply zeros_length|..]).
    split_and!; try done.
    destruct (peel_content pr Hok _ s q zeros_length Hp Hop) as (out2 & Hc). rewrite E in Hc.
    destruct (content_of pr s q) as [t0 d0 n0|data0|id pl|cid|]; try (by destruct Hc as (? & _)); try congruence.
    - destruct Hc as ([= <-] & Hd & _). f_equal. rewrite <- Hd. unfold slice. by rewrite drop_0.
    - destruct Hc as (? & ?); done.
  Qed.
  Lemma journey_reply q sk id keys data s :
    journey pr q [sk] [] (fun out res => res = Ok (ADeliverReply id) /\
       decrypt_reply_payload pr (take PAYLOAD_SIZE out) keys = (data, Ok tt)) ->
    kp_secret (se_kx_pair s) = sk ->
    exists pl, length q = N.to_nat 2252 /\ opens pr s q /\ content_of pr s q = CtReply id pl /\
      decrypt_reply_payload pr pl keys = (data, Ok tt).
  Proof.
    cbn [journey]. intros (Hp & Hpeel) Hk. rewrite PACKET_SIZE_eq in Hp.
    pose proof (Hpeel (replicate (N.to_nat 2252) 0%N)) as H. rewrite PACKET_SIZE_eq in H.
    specialize (H zeros_length). rewrite <- Hk, <- shared_secret in H.
    destruct (peel pr _ q (shared pr s q)) as [out' res] eqn:E. destruct H as [-> H].
    assert (Hop : opens pr s q) by (by eapply peel_opens; [apply zeros_length|..]).
    destruct (peel_content pr Hok _ s q zeros_length Hp Hop) as (out2 & Hc). rewrite E in Hc.
    destruct (content_of pr s q) as [t0 d0 n0|data0|id0 pl|cid|]; try (by destruct Hc as (? & _)); try congruence.
    - destruct Hc as ([= <- <-] & Hd & _). exists pl. split_and!; try done. rewrite <- Hd. unfold slice. by rewrite drop_0.
    - destruct Hc as (? & ?); done.
  Qed.

  Lemma can_reads nodes index key m rel s p :
    has_session nodes index key m rel s -> unseen pr m rel s p -> opens pr s p ->
    reads pr (mx_sessions m) p rel s.
  Proof.
    intros (Hg & _) [Hn Hc] Ho. destruct rel; cbn in Hg.
    - by apply ReadsCurrent.
    - apply ReadsPrev; [done|by apply Hc|done|done].
  Qed.
  Lemma handle_reads m p now rel s :
    length p = N.to_nat 2252 -> reads pr (mx_sessions m) p rel s ->
    handle_packet pr m p now = effect pr m rel s p now.
  Proof.
    intros Hp Hr. destruct (handle_packet_spec pr Hok m p now Hp) as [[Hn _]|(rel' & s' & Hr' & ->)]; [by apply Hn in Hr|].
    by destruct (reads_unique _ _ _ _ _ _ _ Hr' Hr) as [-> ->].
  Qed.

  Lemma enqueue_forward m fp : fq_queue (mx_forward (enqueue m fp)) = fq_queue (mx_forward m) ++ [fp].
  Proof. unfold enqueue. by destruct (decide _). Qed.
  Lemma hop_passes_on nodes index p sk sk' sks t d fwd fin peer peer' :
    journey pr p (sk :: sk' :: sks) ((t, d) :: fwd) fin -> addr_of nodes t = Some peer' ->
    exists p', journey pr p' (sk' :: sks) fwd fin /\
      passes_on pr nodes index (Stage (AddressedPacket peer p) sk) (Stage (AddressedPacket peer' p') sk') /\
      holds_for pr nodes index d (Stage (AddressedPacket peer p) sk) (Stage (AddressedPacket peer' p') sk').
  Proof.
    intros HJ Ha. pose proof HJ as HJ0. rewrite journey_cons in HJ0. destruct HJ0 as (_ & p' & Hpeel & HJ'). exists p'. split; [done|].
    cut (forall m now m' msg, can_forward pr nodes index (Stage (AddressedPacket peer p) sk) m ->
           handle_packet pr m p now = Val (m', msg) -> msg = None /\
           exists h, delay_to_duration d (cf_mean_forwarding_delay (mx_config m)) = Val h /\
             fq_queue (mx_forward m') = fq_queue (mx_forward m) ++ [ForwardPacket (now + h)%N (AddressedPacket peer' p')]).
    { intros Hall. split; intros m now m' msg Hm H; destruct (Hall m now m' msg Hm H) as (E & h & Eh & Eq); [|by exists h].
      split; [done|]. by exists (now + h)%N. }
    intros m now m' msg [(rel & s & Hs & Hu & Hm) Hroom] H. cbn [sg_to sg_key ap_packet] in *.
    pose proof Hs as (_ & _ & Hk & Hn).
    destruct (journey_forward _ _ _ _ _ _ _ _ s HJ Hk) as (p2 & Hp & Ho & Hc & _ & Hpeel2).
    assert (p2 = p') as ->.
    { assert (Hz : length (replicate PACKET_SIZE 0%N) = PACKET_SIZE) by apply replicate_length.
      specialize (Hpeel _ Hz). specialize (Hpeel2 _ Hz). congruence. }
    pose proof (can_reads _ _ _ _ _ _ _ Hs Hu Ho) as Hr.
    rewrite (handle_reads _ _ _ _ _ Hp Hr) in H. unfold effect in H. rewrite Hc in H.
    rewrite decide_True in H by done. rewrite <- Hn in Ha. rewrite (addr_of_topology _ _ _ Ha) in H.
    apply out_bind_Val in H as (dur & Ed & [= <- <-]). split; [done|]. exists dur. split; [done|]. by rewrite enqueue_forward.
  Qed.

  (** A trip from a journey. *)
  Lemma trip_of_journey nodes index fin fwd : forall sk sks p peer peers,
    journey pr p (sk :: sks) fwd fin ->
    Forall2 (fun t a => addr_of nodes t = Some a) (map fst fwd) peers ->
    exists trip last_peer last_key q,
      map sg_key trip = sk :: sks /\ map (fun g => ap_peer_id (sg_to g)) trip = peer :: peers /\
      head trip = Some (Stage (AddressedPacket peer p) sk) /\ linked pr nodes index trip /\
      list.last trip = Some (Stage (AddressedPacket last_peer q) last_key) /\
      delayed pr nodes index (map snd fwd) trip /\ journey pr q [last_key] [] fin.
  Proof.
    induction fwd as [|[t d] fwd IH]; intros sk sks p peer peers HJ Hf.
    - apply Forall2_nil_inv_l in Hf as ->. destruct sks; [|done].
      exists [Stage (AddressedPacket peer p) sk], peer, sk, p. unfold delayed. split_and!; try done.
    - apply Forall2_cons_inv_l in Hf as (peer' & peers' & Ha & Hf & ->).
      destruct sks as [|sk' sks]; [by destruct HJ as (_ & p' & _ & HJ)|].
      destruct (hop_passes_on nodes index p sk sk' sks t d fwd fin peer peer' HJ Ha) as (p' & HJ' & Hpass & Hhold).
      destruct (IH sk' sks p' peer' peers' HJ' Hf) as (trip & lp & lk & q & Hk & Hpe & Hh & Hl & Hlast & [Hhl Hhd] & HJq).
      exists (Stage (AddressedPacket peer p) sk :: trip), lp, lk, q. cbn [map]. rewrite Hk, Hpe.
      destruct trip as [|g0 trip]; [done|]. injection Hh as ->. split_and!; try done.
      + intros [|j] g g' Hj Hj'; cbn in Hj, Hj'; [|by eapply Hl].
        injection Hj as <-. injection Hj' as <-. exact Hpass.
      + split; [cbn [length map]; by rewrite <- Hhl|]. intros [|j] d' g g' Hd Hj Hj'; cbn in Hd, Hj, Hj'; [|by eapply Hhd].
        injection Hd as <-. injection Hj as <-. injection Hj' as <-. exact Hhold.
  Qed.

End trip.

(** ** Fragments of a message as made *)
Definition fragment_made (b : fragment_blueprint) (f : bytes) (us : list bytes) : Prop :=
  N.of_nat (length us) = fb_num_surbs b /\ Forall (fun s => length s = 222) us /\
  exists pad, length (sc_contents (fb_data b)) + length pad + 222 * length us = N.to_nat 2025 /\
    f = frag_bytes (fb_message_id b) (fb_last_index b) (fb_index b) (sc_contents (fb_data b)) pad us.
Lemma fragments_made id data s bs fs uss :
  args_ok id data s -> fragment_blueprints id data s = Val (Some bs) -> Forall3 fragment_made bs fs uss ->
  length fs = length bs /\ fs <> [] /\ Forall frag_sized fs /\ indexed fs /\ Forall (fun f => sp_id f = id) fs /\
  msg_of fs = GenericMessage id (sc_contents data) (concat uss).
Proof.
  intros (Hid & Hwf & Hd & Hs) E HF. unfold data_len in Hd.
  destruct (fragment_blueprints_spec id data s Hwf Hd Hs) as (n & _ & H1 & [[_ E']|(Hn & bs' & E' & Hlb & _ & _ & Hcat & Hb)]);
    rewrite E in E'; [done|]. injection E' as <-.
  assert (Hlf : length fs = length bs) by (symmetry; by eapply Forall3_length_lm).
  assert (Hne : fs <> []) by (intros ->; cbn in Hlf; lia).
  assert (Hfr : forall i f, fs !! i = Some f -> exists b us, bs !! i = Some b /\ uss !! i = Some us /\ fragment_made b f us).
  { intros i f Hf. destruct (Forall3_lookup_m _ _ _ _ i f HF Hf) as (b & us & ? & ? & ?). by exists b, us. }
  assert (Hfacts : forall i f, fs !! i = Some f -> exists b us, bs !! i = Some b /\ uss !! i = Some us /\
    frag_sized f /\ sp_valid f /\ sp_id f = id /\ sp_count f = N.of_nat (length fs) /\ sp_index f = N.of_nat i /\
    sp_data f = sc_contents (fb_data b) /\ sp_surbs f = us).
  { intros i f Hf. destruct (Hfr i f Hf) as (b & us & Hbi & Hui & Hl & Hu & pad & Hpad & ->).
    destruct (Hb i b Hbi) as (Em & El & Ei). rewrite Em, El, Ei. apply lookup_lt_Some in Hf.
    assert (length id = 16) by done. assert (n - 1 < 65536)%N by lia. assert (N.of_nat i < 65536)%N by lia.
    exists b, us. split_and!; try done.
    - by apply frag_bytes_length.
    - apply frag_bytes_valid; try done. lia.
    - by apply frag_bytes_id.
    - rewrite frag_bytes_count by done. lia.
    - by apply frag_bytes_index.
    - by apply frag_bytes_data.
    - by apply frag_bytes_surbs. }
  split_and!; try done.
  - apply Forall_lookup. intros i f Hf. by destruct (Hfacts i f Hf) as (b & us & _ & _ & ? & _).
  - intros i f Hf. destruct (Hfacts i f Hf) as (b & us & _ & _ & _ & ? & _ & ? & ? & _). done.
  - apply Forall_lookup. intros i f Hf. by destruct (Hfacts i f Hf) as (b & us & _ & _ & _ & _ & ? & _).
  - unfold msg_of. f_equal.
    + destruct fs as [|f fs]; [done|]. cbn. by destruct (Hfacts 0 f eq_refl) as (b & us & _ & _ & _ & _ & ? & _).
    + rewrite <- Hcat. f_equal. apply list_eq. intros i. rewrite !list_lookup_fmap.
      destruct (fs !! i) as [f|] eqn:Ef.
      * destruct (Hfacts i f Ef) as (b & us & -> & _ & _ & _ & _ & _ & _ & Ed & _). cbn. by rewrite Ed.
      * apply lookup_ge_None in Ef. rewrite Hlf in Ef. apply lookup_ge_None in Ef. by rewrite Ef.
    + f_equal. apply list_eq. intros i. rewrite list_lookup_fmap. destruct (fs !! i) as [f|] eqn:Ef.
      * destruct (Hfacts i f Ef) as (b & us & _ & -> & _ & _ & _ & _ & _ & _ & Es). cbn. by rewrite Es.
      * apply lookup_ge_None in Ef. rewrite Hlf in Ef. rewrite (Forall3_length_lr _ _ _ _ HF) in Ef.
        apply lookup_ge_None in Ef. by rewrite Ef.
Qed.

(** ** Reassembly in the course of a history *)
(** What a node holds of the message. *)
Definition held_for (id : bytes) (m : mixnet) : option incomplete_message :=
  lhm_get (fa_incomplete (mx_assembler m)) id.

(** What node [y] holds of the message is changed only by the first handlings of the packets [ps], and
    kept between them, until the last of them. *)
Fixpoint undisturbed (id y : bytes) (ps : list addressed_packet) (tr : list moment) : Prop :=
  match tr with
  | [] => True
  | mt :: tr =>
      match handled_of ps mt with
      | Some (p, _) =>
          (arrivals (without p ps) tr = [] \/ held_for id (w_node (mt_after mt) y) <> None) /\
          undisturbed id y (without p ps) tr
      | None =>
          (arrivals ps tr = [] \/
           held_for id (w_node (mt_after mt) y) = held_for id (w_node (mt_before mt) y)) /\
          undisturbed id y ps tr
      end
  end.

Lemma handled_of_Some ps mt p msg :
  handled_of ps mt = Some (p, msg) <-> p ∈ ps /\ exists b now, mt_event mt = EvHandle b p now msg.
Proof.
  unfold handled_of. destruct (mt_event mt) as [|b q now msg']; [split; [done|naive_solver]|].
  case_decide as Hd; [|split; [done|naive_solver]].
  split; [intros [= -> ->]; eauto|]. intros (_ & b' & now' & [= -> -> -> ->]). done.
Qed.
Lemma handled_of_None ps mt p : handled_of ps mt = None -> p ∈ ps -> ~ handles mt p.
Proof.
  intros H Hp (b & now & msg & E). assert (handled_of ps mt = Some (p, msg)); [|congruence].
  apply handled_of_Some. eauto.
Qed.
Lemma elem_of_without p q ps : q ∈ without p ps <-> q <> p /\ q ∈ ps.
Proof. unfold without. by rewrite elem_of_list_filter. Qed.

(** Packets that are handled arrive exactly once. *)
Lemma arrivals_perm tr : forall ps,
  NoDup ps -> (forall p, p ∈ ps -> exists mt, mt ∈ tr /\ handles mt p) -> map fst (arrivals ps tr) ≡ₚ ps.
Proof.
  induction tr as [|mt tr IH]; intros ps Hnd Hall; cbn [arrivals].
  { destruct ps as [|p ps]; [done|]. destruct (Hall p) as (mt & Hin & _); [left|]. by apply elem_of_nil in Hin. }
  assert (Hrest : forall p, p ∈ ps -> ~ handles mt p -> exists mt', mt' ∈ tr /\ handles mt' p).
  { intros p Hp Hn. destruct (Hall p Hp) as (mt' & [->|Hin]%elem_of_cons & Hm); [done|eauto]. }
  destruct (handled_of ps mt) as [[p msg]|] eqn:E.
  - apply handled_of_Some in E as (Hp & b & now & E). cbn [map fst]. rewrite IH.
    + apply elem_of_list_split in Hp as (l1 & l2 & ->). apply NoDup_app in Hnd as (H1 & H2 & [H3 H4]%NoDup_cons).
      assert (Ef : forall l, p ∉ l -> without p l = l).
      { intros l. induction l as [|q l IHl]; [done|]. intros [Hq Hl]%not_elem_of_cons. unfold without.
        rewrite filter_cons_True by done. f_equal. by apply IHl. }
      unfold without. rewrite filter_app, filter_cons_False by (by intros []).
      fold (without p l1). fold (without p l2). rewrite (Ef l1), (Ef l2).
      * apply Permutation_middle.
      * done.
      * intros Hx. apply (H2 p Hx). left.
    + by apply NoDup_filter.
    + intros q [Hne Hq]%elem_of_without. apply Hrest; [done|]. intros (b' & now' & msg' & E'). congruence.
  - apply IH; [done|]. intros p Hp. apply Hrest; [done|]. by eapply handled_of_None.
Qed.

Section asm.
  Context (pr : prims) (Hok : prims_ok pr).
  Context (y : bytes) (cf : config) (id : bytes)
    (frag : addressed_packet -> bytes) (mk : generic_message -> message).

  Lemma reassembled w tr w' :
    history pr w tr w' -> forall finals hist, reachable pr cf hist (w_node w y) ->
    (forall p, p ∈ finals -> frag_sized (frag p) /\ sp_id (frag p) = id) ->
    (forall mt p, first_at tr mt p -> p ∈ finals ->
       exists b now fa out, fa_insert (mx_assembler (w_node (mt_before mt) y)) (frag p) = Val (fa, out) /\
         mx_assembler (w_node (mt_after mt) y) = fa /\ mt_event mt = EvHandle b p now (mk <$> out)) ->
    undisturbed id y finals tr ->
    map snd (arrivals finals tr) =
    map (fmap mk) (one_run (cf_max_fragments_per_message cf) (view (mx_assembler (w_node w y)) id)
                     (map frag (map fst (arrivals finals tr)))).2.
  Proof.
    intros Hh. induction Hh as [w|w e w1 tr w2 He Hh IH]; intros finals hist Hr Hfr Hstep Hund; [done|].
    destruct (history_reachable pr w [Moment w e w1] w1 cf hist y) as (hist1 & Hr1).
    { econstructor; [done|constructor]. } { done. }
    cbn [arrivals undisturbed] in *. destruct (handled_of finals (Moment w e w1)) as [[p msg]|] eqn:Eh.
    2:{ destruct Hund as [[Hno|Hsame] Hund]; [by rewrite Hno|]. cbn in Hsame.
        assert (E : view (mx_assembler (w_node w1 y)) id = view (mx_assembler (w_node w y)) id).
        { unfold view. unfold held_for in Hsame. by rewrite Hsame. }
        rewrite <- E. apply (IH finals hist1); try done.
        intros mt p (tr1 & tr2 & -> & Hm & Hf) Hp. apply Hstep; [|done].
        exists (Moment w e w1 :: tr1), tr2. split_and!; try done.
        intros mt' [->|Hin]%elem_of_cons; [by eapply handled_of_None|by apply Hf]. }
    destruct Hund as [Hheld Hund]. pose proof Eh as (Hp & b & now & Ee)%handled_of_Some. cbn in Ee. subst e.
    destruct (Hfr p Hp) as [Hsz Hid].
    destruct (Hstep (Moment w (EvHandle b p now msg) w1) p) as (b' & now' & fa & out & Ei & Efa & Em); [|done|].
    { exists [], tr. split_and!; [done|by exists b, now, msg|]. by intros ? ?%elem_of_nil. }
    cbn in Ei, Efa, Em. injection Em as _ _ Em.
    assert (IH' : map snd (arrivals (without p finals) tr) =
      map (fmap mk) (one_run (cf_max_fragments_per_message cf) (view (mx_assembler (w_node w1 y)) id)
                     (map frag (map fst (arrivals (without p finals) tr)))).2).
    { apply (IH _ hist1); [done|..|done].
      - intros q [_ Hq]%elem_of_without. by apply Hfr.
      - intros mt q (tr1 & tr2 & -> & Hm & Hf) [Hne Hq]%elem_of_without. apply Hstep; [|done].
        exists (Moment w (EvHandle b p now msg) w1 :: tr1), tr2. split_and!; try done.
        intros mt' [->|Hin]%elem_of_cons; [|by apply Hf]. intros (? & ? & ? & [=]). done. }
    destruct (reachable_mx_ok pr Hok _ _ _ Hr) as [_ Hm]. destruct (mo_assembler _ _ _ Hm) as (Hinv & _ & _ & Hmax).
    destruct (insert_views_full (fun _ => True) _ (frag p) Hinv Hsz I) as (fa' & out' & Ei' & _ & Eo & _ & H1 & H2).
    rewrite Ei in Ei'. injection Ei' as <- <-. rewrite Hid in *. rewrite Hmax in *.
    cbn [map fst snd one_run]. destruct (one_step _ (view (mx_assembler (w_node w y)) id) (frag p)) as [v o] eqn:Es.
    cbn [fst snd] in *. subst o.
    destruct (one_run _ v _) as [v2 os] eqn:Er. cbn [snd map]. f_equal; [done|].
    destruct (arrivals (without p finals) tr) as [|q0 qs] eqn:Eq.
    { cbn in Er. injection Er as <- <-. done. }
    assert (Hv : view (mx_assembler (w_node w1 y)) id = v).
    { destruct Hheld as [Hheld|Hheld]; [done|].
      rewrite Efa, (H1 id).
      - by rewrite decide_True.
      - intros [Ho Hhd]. apply Hheld. specialize (H2 id Ho Hhd). unfold view in H2. unfold held_for. cbn. rewrite Efa.
        by destruct (lhm_get (fa_incomplete fa) id). }
    rewrite Hv in IH'. rewrite Er in IH'. cbn [snd] in IH'. exact IH'.
  Qed.
End asm.

(** What a packet gives to the assembler of the node reading it. *)
Definition fragment_in (pr : prims) (m : mixnet) (ct : content) : option bytes :=
  match ct with
  | CtRequest data => Some data
  | CtReply id pl =>
      match sk_entry (mx_keystore m) id with
      | Some v => match decrypt_reply_payload pr pl (sv_keys v) with
                  | (plain, Ok _) => Some (take (N.to_nat 2048) plain)
                  | _ => None
                  end
      | None => None
      end
  | _ => None
  end.
Definition brings (pr : prims) (m : mixnet) (p f : bytes) : Prop :=
  exists rel s, reads pr (mx_sessions m) p rel s /\ fragment_in pr m (content_of pr s p) = Some f.
Lemma brings_unique pr m p f f' : brings pr m p f -> brings pr m p f' -> f = f'.
Proof.
  intros (rel & s & Hr & E) (rel' & s' & Hr' & E'). destruct (reads_unique _ _ _ _ _ _ _ Hr Hr') as [-> ->]. congruence.
Qed.

Section deliver.
  Context (pr : prims) (Hok : prims_ok pr).

  (** All fragments of a message arrive at a node. *)
  Lemma delivers w tr w' y cf hist id finals fs mk :
    history pr w tr w' -> reachable pr cf hist (w_node w y) ->
    length finals = length fs -> Forall (fun p => ap_peer_id p = y) finals ->
    indexed fs -> fs <> [] -> Forall frag_sized fs -> Forall (fun f => sp_id f = id) fs ->
    (N.of_nat (length fs) <= cf_max_fragments_per_message cf)%N ->
    (forall p, p ∈ finals -> exists mt, mt ∈ tr /\ handles mt p) ->
    (forall i p f mt, finals !! i = Some p -> fs !! i = Some f -> first_at tr mt p ->
       brings pr (w_node (mt_before mt) y) (ap_packet p) f /\
       exists b now fa out, fa_insert (mx_assembler (w_node (mt_before mt) y)) f = Val (fa, out) /\
         mx_assembler (w_node (mt_after mt) y) = fa /\ mt_event mt = EvHandle b p now (mk <$> out)) ->
    undisturbed id y finals tr -> held_for id (w_node w y) = None ->
    map snd (arrivals finals tr) = replicate (length fs - 1) None ++ [Some (mk (msg_of fs))].
  Proof.
    intros Hh Hr Hlen Hto Hix Hne Hsz Hid Hmax Hall Hstep Hund Hnone.
    assert (Hfnd : NoDup fs).
    { apply NoDup_alt. intros i j f Hi Hj. destruct (Hix i f Hi) as (_ & _ & ?).
      destruct (Hix j f Hj) as (_ & _ & ?). lia. }
    assert (Hnd : NoDup finals).
    { apply NoDup_alt. intros i j p Hi Hj.
      destruct (lookup_lt_is_Some_2 fs i) as [f Hf]; [rewrite <- Hlen; by eapply lookup_lt_Some|].
      destruct (lookup_lt_is_Some_2 fs j) as [f' Hf']; [rewrite <- Hlen; by eapply lookup_lt_Some|].
      destruct (first_exists tr p) as (mt & Hmt); [apply Hall; by eapply elem_of_list_lookup_2|].
      destruct (Hstep i p f mt Hi Hf Hmt) as [B _]. destruct (Hstep j p f' mt Hj Hf' Hmt) as [B' _].
      rewrite (brings_unique _ _ _ _ _ B B') in Hf. by eapply NoDup_lookup. }
    set (frag := fun p => match list_find (fun q => q = p) finals with Some (i, _) => fs !!! i | None => [] end).
    assert (Hfrag : forall i p, finals !! i = Some p -> fs !! i = Some (frag p)).
    { intros i p Hi. unfold frag. destruct (list_find (fun q => q = p) finals) as [[j q]|] eqn:E.
      - apply list_find_Some in E as (Hj & -> & _). rewrite (NoDup_lookup _ _ _ _ Hnd Hi Hj).
        apply list_lookup_lookup_total_lt. rewrite <- Hlen. by eapply lookup_lt_Some.
      - apply list_find_None in E. eapply Forall_lookup in E; [|exact Hi]. done. }
    assert (Hmap : map frag finals = fs).
    { apply list_eq. intros i. rewrite list_lookup_fmap. destruct (finals !! i) as [p|] eqn:E.
      - cbn. by rewrite (Hfrag i p E).
      - cbn. symmetry. apply lookup_ge_None in E. apply lookup_ge_None. lia. }
    rewrite (reassembled pr Hok y cf id frag mk w tr w' Hh finals hist Hr).
    - assert (Hv : view (mx_assembler (w_node w y)) id = None).
      { unfold view, held_for in *. by rewrite Hnone. }
      rewrite Hv, (one_run_complete _ fs _ Hix Hne Hmax).
      + cbn [snd]. rewrite map_app. cbn. f_equal. clear. induction (length fs - 1) as [|n IH]; [done|]. cbn. by rewrite IH.
      + rewrite <- Hmap. apply Permutation_map. by apply arrivals_perm.
    - intros p [i Hi]%elem_of_list_lookup. pose proof (Hfrag i p Hi) as Hf.
      split; [by eapply (Forall_lookup_1 _ _ _ _ Hsz)|by eapply (Forall_lookup_1 (fun f => sp_id f = id))].
    - intros mt p Hf [i Hi]%elem_of_list_lookup. destruct (Hstep i p (frag p) mt Hi (Hfrag i p Hi) Hf) as (_ & ?). done.
    - done.
  Qed.
End deliver.
