(** C86, cover packets: destination, path, secret and payload are drawn from separate places. *)
From Verif Require Export PPaths.

(** ** Specification *)
(** Two generators whose next [i] outputs are the same *)
Definition alike (i : nat) (r r' : rng) : Prop :=
  forall j, j < i -> rng_tape r (rng_pos r + j) = rng_tape r' (rng_pos r' + j).

(** A cover packet that goes along [rt], whose secret is found at [j] and whose payload [n] places behind
    that *)
Definition cover_goes (pr : prims) (nodes : list mixnode) (key : target -> bytes) (rt : route)
    (p : addressed_packet) : Prop :=
  addr_of nodes (TMixnodeIndex (rt_first rt)) = Some (ap_peer_id p) /\
  goes pr key rt (ap_packet p) (fun _ res => res = Ok (ADeliverCover None)).
Definition cover_drawn (pr : prims) (nodes : list mixnode) (key : target -> bytes) (rt : route) (r : rng)
    (j n : nat) (p : addressed_packet) : Prop :=
  cover_goes pr nodes key rt p /\
  take 32 (ap_packet p) = derive_kx_public pr (bytes_at r j 32) /\
  drop 188 (ap_packet p) = bytes_at r (j + 32 + n) (N.to_nat 2064).
(** Destinations of drop cover (as in C62) *)
Definition aim (g : route_generator) (d : N) : Prop :=
  valid_index (rg_topology g) d /\ tp_local_node (rg_topology g) <> LMixnode d /\ rg_connected g <> [d].

(** ** Proof *)
Lemma alike_refl i r : alike i r r. Proof. by intros j _. Qed.
Lemma alike_le i i' r r' : i ≤ i' -> alike i' r r' -> alike i r r'.
Proof. intros Hi H j Hj. apply H. lia. Qed.
Lemma alike_after i i' r r' : alike (i + i') r r' -> alike i' (after r i) (after r' i).
Proof. intros H j Hj. cbn. rewrite <- !Nat.add_assoc. apply H. lia. Qed.
Lemma alike_draws ks : forall r r', alike (length ks) r r' -> draws r ks = draws r' ks.
Proof.
  induction ks as [|k ks IH]; intros r r' H; [done|]. cbn [draws length] in *. rewrite !draw_after. f_equal.
  - f_equal. unfold rng_draw. cbn. rewrite <- (Nat.add_0_r (rng_pos r)), <- (Nat.add_0_r (rng_pos r')). apply H. lia.
  - apply IH. by apply (alike_after 1).
Qed.
Lemma gen_bool_place p r b r1 :
  gen_bool p r = Val (b, r1) ->
  exists i, i ≤ 1 /\ r1 = after r i /\ forall r', alike i r r' -> gen_bool p r' = Val (b, after r' i).
Proof.
  unfold gen_bool. intros H. destruct (f_cmp p f_one) as [[]|]; try done.
  - exists 0. split; [lia|]. assert (b = true) as -> by congruence. assert (r1 = r) as -> by congruence.
    split; [by rewrite after_0|]. intros r' _. by rewrite after_0.
  - exists 1. split; [lia|].
    assert (Hd : forall r', alike 1 r r' -> rng_draw r' = ((rng_draw r).1, after r' 1)).
    { intros r' Ha. specialize (Ha 0 ltac:(lia)). rewrite !Nat.add_0_r in Ha. unfold rng_draw, after. cbn.
      rewrite Ha. do 2 f_equal. lia. }
    rewrite (Hd r (alike_refl _ _)) in H. destruct (f_cmp f_zero p) as [[]|]; try done;
      (split; [congruence|]; intros r' Ha; rewrite (Hd r' Ha); congruence).
Qed.
Lemma pick_session_place m r x r1 :
  pick_session m r = Val (x, r1) ->
  exists i, i ≤ 1 /\ r1 = after r i /\ forall r', alike i r r' -> pick_session m r' = Val (x, after r' i).
Proof.
  unfold pick_session. intros H.
  assert (H0 : forall y : option (rel_session_index * session), Val (y, r) = Val (x, r1) ->
    exists i, i ≤ 1 /\ r1 = after r i /\ forall r', alike i r r' -> Val (y, r') = Val (x, after r' i)).
  { intros y E. exists 0. assert (y = x) as -> by congruence. assert (r1 = r) as -> by congruence.
    split; [lia|]. split; [by rewrite after_0|]. intros r' _. by rewrite after_0. }
  destruct (ss_enumerate _) as [|s0 [|s1 [|]]]; try by apply H0. cbv zeta in *.
  apply out_bind_Val in H as ([b r2] & Eg & H). destruct (gen_bool_place _ _ _ _ Eg) as (i & Hi & -> & Ha).
  exists i. split; [done|]. split; [congruence|]. intros r' Hr'. rewrite (Ha r' Hr'). cbn [out_bind]. congruence.
Qed.

Section cover_paths.
  Context (pr : prims) (Hok : prims_ok pr) (cf : config).

  Lemma pop_cover m ns r0 m0 p0 :
    pop_next_authored_packet pr m ns r0 = Val (m0, Some p0) ->
    (exists rel s rest, ss_get (mx_sessions m) rel = SlFull s /\ aq_queue (se_authored s) = p0 :: rest) \/
    exists rel s kind i, i ≤ 2 /\ ss_get (mx_sessions m) rel = SlFull s /\
      forall r m' p, alike i r0 r -> pop_next_authored_packet pr m ns r = Val (m', Some p) ->
        gen_cover_packet pr (se_topology s) ns kind (cf_num_hops (mx_config m)) (after r i) = Val (Ok p).
  Proof.
    intros H. unfold pop_next_authored_packet in H. apply out_bind_Val in H as ([picked r1] & Ep & H).
    destruct picked as [[rel s]|]; [|congruence]. cbv zeta in H.
    apply out_bind_Val in H as ([loop r2] & Eg & H).
    assert (Hget : ss_get (mx_sessions m) rel = SlFull s).
    { unfold pick_session, ss_enumerate in Ep. destruct (mx_sessions m) as [[|? | |c] [|? | |v]]; cbn in Ep; try congruence;
        try (injection Ep as <- <- _; done).
      apply out_bind_Val in Ep as ([[] ?] & _ & Ep); injection Ep as <- <- _; done. }
    destruct (pick_session_place _ _ _ _ Ep) as (i & Hi & -> & Hpick).
    destruct (gen_bool_place _ _ _ _ Eg) as (i' & Hi' & -> & Hbool). clear Ep Eg.
    assert (Hcov : forall m1 kind r m' p, (if negb (cf_gen_cover_packets (mx_config m1)) then Val (m1, None)
       else res ← gen_cover_packet pr (se_topology s) ns kind (cf_num_hops (mx_config m1)) r;
            match res with Ok p => Val (m1, Some p) | Err _ => Val (m1, None) end) = Val (m', Some p) ->
       gen_cover_packet pr (se_topology s) ns kind (cf_num_hops (mx_config m1)) r = Val (Ok p)).
    { intros m1 kind r m' p H1. destruct (negb (cf_gen_cover_packets (mx_config m1))); [discriminate H1|].
      apply out_bind_Val in H1 as ([p'|] & Ec & H1); [|congruence]. assert (p' = p) as -> by congruence. exact Ec. }
    assert (Hr : forall r m' p, alike (i + i') r0 r -> pop_next_authored_packet pr m ns r = Val (m', Some p) ->
      (aq_queue (se_authored s) = [] \/ negb loop && allow_requests_and_replies (st_phase (mx_status m)) rel = false) ->
      gen_cover_packet pr (se_topology s) ns (if loop then CkLoop else CkDrop) (cf_num_hops (mx_config m)) (after r (i + i')) = Val (Ok p)).
    { intros r m' p Ha E Hq. unfold pop_next_authored_packet in E.
      rewrite (Hpick r) in E by (apply (alike_le _ (i + i')); [lia|done]). cbn [out_bind] in E. cbv zeta in E.
      change (mx_config (mx_or_events m NEXT_AUTHORED_PACKET_DEADLINE_CHANGED)) with (mx_config m) in *.
      rewrite (Hbool (after r i)) in E by (by apply alike_after). cbn [out_bind] in E. rewrite after_after in E.
      change (mx_status (mx_or_events m NEXT_AUTHORED_PACKET_DEADLINE_CHANGED)) with (mx_status m) in E.
      destruct (negb loop && _) eqn:El.
      - destruct Hq as [Hq|Hq]; [|congruence]. unfold aq_pop in E. rewrite Hq in E. by apply Hcov in E.
      - by apply Hcov in E. }
    change (mx_status (mx_or_events m NEXT_AUTHORED_PACKET_DEADLINE_CHANGED)) with (mx_status m) in H.
    destruct (negb loop && _) eqn:El.
    - unfold aq_pop in H. destruct (aq_queue (se_authored s)) as [|q rest] eqn:Eq.
      + right. exists rel, s, (if loop then CkLoop else CkDrop), (i + i'). split; [lia|]. split; [done|].
        intros r m' p Ha E. eapply Hr; [done|done|by left].
      + left. exists rel, s, rest. split; [done|]. injection H as _ ->. exact Eq.
    - right. exists rel, s, (if loop then CkLoop else CkDrop), (i + i'). split; [lia|]. split; [done|].
      intros r m' p Ha E. eapply Hr; [done|done|by right].
  Qed.

  Lemma cover_drawn_at g kind h rt key n peer r p dl r' :
    gen_ok g -> length (rg_local_peer_id g) = 32 -> honest pr (rg_topology g) key ->
    permitted g kind h rt -> 140 - PHeader.room (rt_targets rt) (KCover None) = n ->
    tp_index_to_peer_id (rg_topology g) (rt_first rt) = Ok peer ->
    build_cover_packet pr default_packet (rt_targets rt) (rt_kx_publics rt) None r = Val (p, dl, r') ->
    cover_drawn pr (tp_mixnodes (rg_topology g)) key rt r 0 n (AddressedPacket peer p).
  Proof.
    intros Hg Hpeer Hkey Hp Hn Hidx E. pose proof Hp as (Hr & _).
    destruct (route_path pr _ _ _ _ _ Hg Hpeer Hr Hkey) as [Hpath _].
    rewrite (honest_keys pr _ _ _ _ _ Hr Hkey) in E.
    assert (Hd : default_packet = replicate HEADER_SIZE 0%N ++ replicate (PACKET_SIZE - HEADER_SIZE) 0%N).
    { unfold default_packet. rewrite <- replicate_add. by f_equal. }
    rewrite Hd in E. revert E. generalize (replicate (PACKET_SIZE - HEADER_SIZE) 0%N). intros z E. clear Hd.
    destruct (cover_built pr Hok (replicate HEADER_SIZE 0%N) z (rt_targets rt)
                (map key (route_nodes rt)) None r Hpath) as (p' & ds & r2 & E' & Hds & HJ); [apply replicate_length|done|].
    assert (p' = p) as -> by congruence. clear E'.
    unfold build_cover_packet in E. apply out_bind_Val in E as (_ & _ & E). apply out_bind_Val in E as (_ & _ & E).
    apply out_bind_Val in E as ([[[hd ss] d'] r1] & Eb & E). cbv zeta in E.
    apply (build_header_draws pr Hok _ _ _ _ _ _ _ _ _ Hpath) in Eb as (rest & -> & Hrest & ->); [| |done].
    2:{ rewrite take_length, app_length, replicate_length. lia. }
    rewrite Hn in E. unfold cover_drawn, cover_goes. cbn [ap_packet ap_peer_id].
    destruct (rng_fill PAYLOAD_SIZE _) as [pl r3] eqn:Ef.
    assert (p = (derive_kx_public pr (bytes_at r 0 32) ++ rest) ++ pl) as Ep by congruence. split_and!.
    - unfold tp_index_to_peer_id in Hidx. cbn. destruct (tp_mixnodes (rg_topology g) !! _); [|done]. cbn. congruence.
    - exists (zip (rt_targets rt) ds). split; [by apply (map_fst_zip g)|exact HJ].
    - rewrite Ep, <- app_assoc. by apply starts_with_public.
    - rewrite Ep, drop_app_alt.
      + unfold bytes_at. rewrite PAYLOAD_SIZE_eq in Ef. replace (0 + 32 + n) with (32 + n) by lia. by rewrite Ef.
      + rewrite app_length, Hrest. 
        assert (Hpub : length (derive_kx_public pr (bytes_at r 0 32)) = 32) by apply (mont_mul_length _ Hok).
        by rewrite Hpub.
  Qed.

  Lemma cover_drawn_after pr' nodes key rt r i j n p :
    cover_drawn pr' nodes key rt (after r i) j n p -> cover_drawn pr' nodes key rt r (i + j) n p.
  Proof.
    intros (H1 & H2 & H3). rewrite bytes_after in H2, H3. split; [done|]. split; [done|].
    by replace (i + j + 32 + n) with (i + (j + 32 + n)) by lia.
  Qed.

  (** The path of a cover packet of a given kind *)
  Lemma path_drawn g kind r0 rt0 r0' :
    gen_ok g -> length (rg_local_peer_id g) = 32 -> kind_valid (rg_topology g) kind -> cf_num_hops cf ≤ 6 ->
    gen_route g kind (cf_num_hops cf) r0 = Val (Ok (rt0, r0')) ->
    exists ks out n, choice ks out (permitted g kind (cf_num_hops cf)) /\
      forall r p key, honest pr (rg_topology g) key ->
        ('(route, r) ←? gen_route g kind (cf_num_hops cf) r;
         match tp_index_to_peer_id (rg_topology g) (rt_first route) with
         | Err e => Val (Err e)
         | Ok peer_id =>
             '(packet, _, _) ← build_cover_packet pr default_packet (rt_targets route) (rt_kx_publics route) None r;
             Val (Ok {| ap_peer_id := peer_id; ap_packet := packet |})
         end) = Val (Ok p) ->
        permitted g kind (cf_num_hops cf) (out (draws r ks)) /\
        cover_drawn pr (tp_mixnodes (rg_topology g)) key (out (draws r ks)) r (length ks) n p.
  Proof.
    intros Hg Hpeer Hv Hh Er0.
    destruct (C29_route g kind (cf_num_hops cf) r0 Hg Hv Hh) as (Hr1 & _ & Hr3).
    assert (Hng : ~ no_gateway g) by (intros Hx; rewrite (Hr1 Hx) in Er0; congruence).
    assert (Hdec : enough_mixnodes g kind (cf_num_hops cf) \/ ~ enough_mixnodes g kind (cf_num_hops cf))
      by (unfold enough_mixnodes; lia).
    destruct Hdec as [Hen|Hen]; [|rewrite (Hr3 Hng Hen) in Er0; congruence].
    destruct (C62_uniform g kind _ Hg Hv Hh Hng Hen) as [ks Hku].
    destruct (uniform_choice _ _ _ Hku) as (out & Hout & Hgo).
    assert (Hp : forall r, permitted g kind (cf_num_hops cf) (out (draws r ks))).
    { intros r. destruct Hout as (Hb & Hp & _). apply Hp. by apply draws_lt. }
    exists ks, out, (140 - PHeader.room (rt_targets (out (draws r0 ks))) (KCover None)). split; [done|].
    intros r p key Hkey H. split; [done|]. rewrite Hgo in H. cbn [try_bind] in H.
    destruct (tp_index_to_peer_id _ _) as [peer|e] eqn:Hidx; [|congruence].
    apply out_bind_Val in H as ([[pk dl] r2] & Eb & H). assert (p = AddressedPacket peer pk) as -> by congruence.
    rewrite <- (Nat.add_0_r (length ks)). apply cover_drawn_after.
    eapply cover_drawn_at; [done|done|done|apply Hp| |exact Hidx|exact Eb].
    f_equal. eapply room_same; [done|apply Hp|apply Hp].
  Qed.

  (** C86, cover: if a cover packet is sent, its kind and session are decided by the first outputs of the
      generator, at most two. Whatever the outputs behind these are, if there is a packet then
      - loop cover goes along the path chosen, among all permitted, by those in the next place;
      - drop cover goes to the mixnode chosen by the next output, and, for each mixnode, along the path
        chosen by those behind it;
      and its secret and its payload come from the places behind these. *)
  Theorem C86_cover hist m ns r0 m0 p0 :
    reachable pr cf hist m -> length (ns_local_peer_id ns) = 32 ->
    pop_next_authored_packet pr m ns r0 = Val (m0, Some p0) ->
    (exists rel s rest, ss_get (mx_sessions m) rel = SlFull s /\ aq_queue (se_authored s) = p0 :: rest) \/
    exists rel s g i, i ≤ 2 /\ ss_get (mx_sessions m) rel = SlFull s /\ rg_new (se_topology s) ns = Val g /\
      let nodes := tp_mixnodes (se_topology s) in
      let drawn j kind := exists ks out n,
        choice ks out (permitted g kind (cf_num_hops cf)) /\
        forall r m' p key, alike j r0 r -> honest pr (se_topology s) key ->
          pop_next_authored_packet pr m ns r = Val (m', Some p) ->
          cover_drawn pr nodes key (out (draws (after r j) ks)) r (j + length ks) n p in
      drawn i RkLoop \/
      exists k dest, choice [k] dest (aim g) /\ drawn (i + 1) (RkToMixnode (dest (draws (after r0 i) [k]))) /\
        forall r m' p key, alike i r0 r -> honest pr (se_topology s) key ->
          pop_next_authored_packet pr m ns r = Val (m', Some p) ->
          exists rt, permitted g (RkToMixnode (dest (draws (after r i) [k]))) (cf_num_hops cf) rt /\
            cover_goes pr nodes key rt p.
  Proof.
    intros Hr Hns H0. destruct (reachable_mx_ok pr Hok _ _ _ Hr) as [Hcf Hm].
    pose proof (mx_posting pr cf m Hcf Hm) as (Hh & Hks & Htop).
    pose proof (mo_config _ _ _ Hm) as Ecf. rewrite Ecf in Hh.
    destruct (pop_cover _ _ _ _ _ H0) as [Hq|(rel & s & kind & i & Hi & Hget & Hpop)]; [by left|right].
    rewrite Ecf in Hpop. destruct (C25_generator (se_topology s) ns (Htop rel s Hget)) as (g & Eg & Hg & Etop & Epeer & _).
    exists rel, s, g, i. split; [done|]. split; [done|]. split; [done|]. cbv zeta.
    unfold gen_cover_packet in Hpop. rewrite Eg in Hpop. cbn [out_bind] in Hpop. rewrite <- Etop in *.
    pose proof (Hpop _ _ _ (alike_refl i r0) H0) as H1.
    destruct kind; [right|left; cbn [try_bind out_bind] in *].
    - apply try_bind_Val in H1 as ([rk r1] & Ek & H1). apply try_bind_Val in Ek as ([d0 r2] & Ed & Ek).
      assert (rk = RkToMixnode d0) as -> by congruence. assert (r2 = r1) as -> by congruence. clear Ek.
      assert (Hall : r1 = after (after r0 i) 1 /\ exists d, aim g d).
      { destruct (C29_destination g (after r0 i) Hg) as (Ha & Hb & Hc). cbv zeta in *.
        match type of Hc with ?n ≤ ?k => destruct (decide (n = k)) as [Heq|Hne] end.
        { rewrite (Ha Heq) in Ed. congruence. }
        destruct (Hb ltac:(lia)) as (d & Ed' & Hv & Hnot). rewrite draw_after in Ed'. split; [congruence|].
        exists d. split; [done|].
        destruct (tp_local_node (rg_topology g)) as [l|gs] eqn:El.
        - split; [|destruct Hg as [_ Hg']; rewrite El in Hg'; by rewrite Hg']. intros [= ->]. apply Hnot, elem_of_list_here.
        - split; [done|]. intros Hc'. rewrite Hc' in Hnot. apply Hnot, elem_of_list_here. }
      destruct Hall as [-> Hall]. destruct (C62_destination g Hg Hall) as [ks Hku].
      destruct (uniform_choice _ _ _ Hku) as (dest & Hdest & Hgo).
      assert (Hlen : length ks = 1).
      { rewrite Hgo in Ed. assert (E : after (after r0 i) (length ks) = after (after r0 i) 1) by congruence.
        apply (f_equal rng_pos) in E. cbn in E. lia. }
      destruct ks as [|k [|]]; [done| |done]. clear Hlen.
      exists k, dest. split; [done|]. 
      assert (Hrest : forall r m' p, alike i r0 r -> pop_next_authored_packet pr m ns r = Val (m', Some p) ->
        ('(route, r) ←? gen_route g (RkToMixnode (dest (draws (after r i) [k]))) (cf_num_hops cf) (after r (i + 1));
         match tp_index_to_peer_id (rg_topology g) (rt_first route) with
         | Err e => Val (Err e)
         | Ok peer_id =>
             '(packet, _, _) ← build_cover_packet pr default_packet (rt_targets route) (rt_kx_publics route) None r;
             Val (Ok {| ap_peer_id := peer_id; ap_packet := packet |})
         end) = Val (Ok p)).
      { intros r m' p Ha E. specialize (Hpop _ _ _ Ha E). rewrite Hgo in Hpop. cbn [try_bind out_bind] in Hpop.
        rewrite after_after in Hpop. exact Hpop. }
      assert (Hval : forall r, kind_valid (rg_topology g) (RkToMixnode (dest (draws (after r i) [k])))).
      { intros r. destruct Hdest as (Hb & Hp & _). apply (Hp (draws (after r i) [k])). by apply draws_lt. }
      split.
      + pose proof (Hrest _ _ _ (alike_refl i r0) H0) as E.
        apply try_bind_Val in E as ([rt0 r0'] & Er0 & _).
        destruct (path_drawn g _ _ _ _ Hg ltac:(congruence) (Hval r0) Hh Er0) as (ks & out & n & Hout & Hd).
        exists ks, out, n. split; [done|]. intros r m' p key Ha Hkey E.
        apply cover_drawn_after. eapply Hd; [done|].
        assert (Ed' : draws (after r0 i) [k] = draws (after r i) [k]) by (apply alike_draws; by apply alike_after).
        rewrite Ed'. apply (Hrest r m' p); [|done]. by eapply alike_le; [|done]; lia.
      + intros r m' p key Ha Hkey E. pose proof (Hrest _ _ _ Ha E) as E2. pose proof E2 as E3.
        apply try_bind_Val in E2 as ([rt0 r0'] & Er0 & _).
        destruct (path_drawn g _ _ _ _ Hg ltac:(congruence) (Hval r) Hh Er0) as (ks & out & n & Hout & Hd).
        destruct (Hd _ _ key Hkey E3) as [Hp [Hgoes _]]. by eexists.
    - apply try_bind_Val in H1 as ([rt0 r0'] & Er0 & _).
      destruct (path_drawn g RkLoop _ _ _ Hg ltac:(congruence) I Hh Er0) as (ks & out & n & Hout & Hd).
      exists ks, out, n. split; [done|]. intros r m' p key Ha Hkey E.
      apply cover_drawn_after. eapply Hd; [done|]. exact (Hpop _ _ _ Ha E).
  Qed.
End cover_paths.
