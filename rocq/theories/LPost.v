(** What [post_request] does, packet by packet. *)
From Verif Require Export PHandle LTape LBuild PScattered PFragPlan PFragWire PFragAsm PFragment.

(** ** Routes fit into packets *)
Lemma peers_at_most_one ts :
  (forall j p, ts !! j = Some (TPeerId p) -> S j = length ts) -> length (List.filter is_peer ts) ≤ 1.
Proof.
  induction ts as [|t ts IH]; intros H; [cbn; lia|].
  assert (Hts : forall j p, ts !! j = Some (TPeerId p) -> S j = length ts).
  { intros j p Hj. specialize (H (S j) p Hj). cbn in H. lia. }
  cbn [List.filter]. destruct t as [i|p]; cbn [is_peer]; [by apply IH|].
  specialize (H 0 p eq_refl). cbn in H. destruct ts; [cbn; lia|done].
Qed.
Lemma route_fits g k h rt :
  gen_ok g -> length (rg_local_peer_id g) = 32 -> route_ok g k h rt ->
  path_fits (rt_targets rt) (rt_kx_publics rt) /\ valid_index (rg_topology g) (rt_first rt).
Proof.
  intros [[Hn _] _] Hp Hr. pose proof (Forall2_length _ _ _ (ro_keys _ _ _ _ Hr)) as Hl.
  unfold route_nodes in Hl. cbn [length] in Hl. pose proof (ro_length _ _ _ _ Hr) as Hb.
  unfold route_nodes in Hb. cbn [length] in Hb.
  assert (Hix : forall j i, route_nodes rt !! j = Some (TMixnodeIndex i) ->
    N.to_nat i < length (tp_mixnodes (rg_topology g))).
  { intros j i Hj. destruct (Forall2_lookup_l _ _ _ _ _ (ro_keys _ _ _ _ Hr) Hj) as (key & _ & m & Hm & _).
    by apply lookup_lt_Some in Hm. }
  split; [|by apply (Hix 0)]. split; [lia|]. split; [lia|]. split.
  - apply Forall_lookup. intros j t Ht. assert (Ht' : route_nodes rt !! S j = Some t) by done.
    destruct t as [i|p]; cbn [target_ok].
    + apply Hix in Ht'. lia.
    + pose proof (ro_peer _ _ _ _ Hr _ _ Ht') as Hj. pose proof (ro_last _ _ _ _ Hr) as Hla.
      rewrite last_lookup in Hla. rewrite <- Hj in Hla. cbn [pred] in Hla. rewrite Ht' in Hla.
      injection Hla as Hla. destruct k as [i|i|]; [done| |];
        unfold local_target in Hla; destruct (tp_local_node _); congruence.
  - apply peers_at_most_one. intros j p Hj. pose proof (ro_peer _ _ _ _ Hr (S j) p Hj) as H.
    unfold route_nodes in H. cbn [length] in H. lia.
Qed.

(** ** Ids drawn from the tape *)
Definition drawn (tape : nat -> N) (pos : nat) (id : bytes) : Prop := id = (rng_fill 16 (Rng tape pos)).1.
Lemma drawn_length tape pos id : drawn tape pos id -> length id = 16.
Proof. intros ->. apply rng_fill_length. Qed.

(** ** Adding to the keystore *)
Definition ks_push (ks : surb_keystore) (e : bytes * surb_value) : surb_keystore :=
  SurbKeystore (sk_capacity ks) (make_room (sk_capacity ks) (sk_surbs ks) ++ [e]).
Definition ks_pushes (ks : surb_keystore) (es : list (bytes * surb_value)) : surb_keystore :=
  foldl ks_push ks es.
Definition ks_ids (ks : surb_keystore) : list bytes := lhm_keys (sk_surbs ks).

Lemma lhm_set_last {V} (l : lhm bytes V) k v v' :
  k ∉ lhm_keys l -> lhm_set (l ++ [(k, v)]) k v' = l ++ [(k, v')].
Proof.
  induction l as [|[k' w] l IH]; cbn; intros H.
  - by rewrite decide_True.
  - apply not_elem_of_cons in H as [Hne H]. rewrite decide_False by congruence. by rewrite IH.
Qed.
Lemma make_room_keys ks :
  lhm_keys (make_room (sk_capacity ks) (sk_surbs ks)) = make_room (sk_capacity ks) (ks_ids ks).
Proof.
  unfold make_room, ks_ids, lhm_keys. rewrite map_length.
  destruct (decide _); [|done]. by destruct (sk_surbs ks).
Qed.
Lemma make_room_elem {A} n (l : list A) x : x ∈ make_room n l -> x ∈ l.
Proof. unfold make_room. destruct (decide _); [|done]. destruct l; [done|]. by right. Qed.

Lemma sk_insert_cases ks mid r :
  ks_ok ks ->
  let id := (rng_fill 16 r).1 in
  (id ∈ ks_ids ks /\ sk_insert ks mid r = Panic) \/
  exists ks1, sk_insert ks mid r = Val (ks1, id, (rng_fill 16 r).2) /\
    forall keys, sk_set_keys ks1 id keys = ks_push ks (id, SurbValue keys mid) /\
                 ks_ok (ks_push ks (id, SurbValue keys mid)).
Proof.
  intros Hks id.
  destruct (C20_insert ks mid r Hks) as [Hf Hc]. fold id in Hf, Hc. cbv zeta in Hf, Hc.
  rewrite <- (ks_view_fst ks) || idtac.
  assert (Ek : (make_room (sk_capacity ks) (ks_view ks)).*1 = make_room (sk_capacity ks) (ks_ids ks)).
  { unfold ks_ids. rewrite <- ks_view_fst. unfold make_room. rewrite fmap_length.
    destruct (decide _); [|done]. by destruct (ks_view ks). }
  rewrite Ek in Hf, Hc.
  destruct (decide (id ∈ make_room (sk_capacity ks) (ks_ids ks))) as [Hin|Hnin].
  { left. split; [by eapply make_room_elem|by apply Hc]. }
  right. destruct (Hf Hnin) as (ks1 & E & Hok1 & Hcap & Hv). exists ks1. split; [done|].
  assert (E1 : sk_surbs ks1 = make_room (sk_capacity ks) (sk_surbs ks) ++ [(id, SurbValue [] mid)]).
  { clear -E Hks. unfold sk_insert in E.
    destruct (assert_or_panic _); [|done]. cbn [out_bind] in E.
    change SURB_ID_SIZE with 16 in E. rewrite (surjective_pairing (rng_fill 16 r)) in E. fold id in E.
    destruct (lhm_get _ id); [done|]. injection E as <-. cbn [sk_surbs]. unfold lhm_push_back. f_equal.
    unfold make_room. destruct (N.eqb_spec (N.of_nat (length (sk_surbs ks))) (sk_capacity ks)) as [Hq|Hq].
    - rewrite decide_True by done. by destruct (sk_surbs ks).
    - by rewrite decide_False. }
  intros keys.
  assert (Es : sk_set_keys ks1 id keys = ks_push ks (id, SurbValue keys mid)).
  { unfold sk_set_keys.
    assert (Hg : lhm_get (sk_surbs ks1) id = Some (SurbValue [] mid)).
    { rewrite E1, lhm_get_app. rewrite <- make_room_keys in Hnin. apply lhm_get_None in Hnin as ->.
      cbn. by rewrite decide_True. }
    rewrite Hg. unfold ks_push. rewrite Hcap, E1. cbn [sv_message_id].
    rewrite lhm_set_last; [done|]. by rewrite make_room_keys. }
  split; [done|]. rewrite <- Es. by apply C20_set_keys.
Qed.
Lemma ks_push_ids ks e x : x ∈ ks_ids (ks_push ks e) -> x = e.1 \/ x ∈ ks_ids ks.
Proof.
  unfold ks_ids, ks_push, lhm_keys. cbn [sk_surbs]. rewrite map_app, elem_of_app. intros [H|H].
  - right. apply elem_of_list_In, in_map_iff in H as (y & <- & Hy). apply elem_of_list_In in Hy.
    apply make_room_elem in Hy. apply elem_of_list_In, in_map_iff. exists y. split; [done|]. by apply elem_of_list_In.
  - left. cbn in H. by apply elem_of_list_singleton in H.
Qed.

(** ** Delays *)
Lemma delay_max_cases pr a b :
  delay_sum pr 5 a -> delay_sum pr 5 b ->
  (exists d, delay_sum pr 5 d /\ f_is_nan d = true /\ delay_max a b = Panic) \/
  exists d, delay_max a b = Val d /\ delay_sum pr 5 d.
Proof.
  intros Ha Hb. unfold delay_max, delay_cmp, f_cmp.
  destruct (f_is_nan a) eqn:Ea; [left; exists a; split_and!; try done; by destruct a|].
  destruct (f_is_nan b) eqn:Eb; [left; exists b; split_and!; try done; by destruct a, b|].
  right. destruct (SFcompare a b) as [c|] eqn:E; [|by destruct a, b].
  cbn [expect out_bind]. eexists. split; [done|]. by destruct c.
Qed.
(** The largest of a list of delays, as computed. *)
Fixpoint max_delays (d : delay) (ds : list delay) : outcome delay :=
  match ds with
  | [] => Val d
  | x :: ds' => d' ← delay_max d x; max_delays d' ds'
  end.
Definition max_nat (n : nat) (l : list nat) : nat := foldl Nat.max n l.

(** ** What is sent *)
Record made_surb := MadeSurb {
  ms_id : bytes;
  ms_keys : list bytes;
  ms_surb : bytes;
  ms_route : route;
  ms_delay : delay
}.
Record made_packet := MadePacket {
  mp_surbs : list made_surb;
  mp_fragment : bytes;
  mp_route : route;
  mp_packet : addressed_packet;
  mp_delay : delay
}.
Definition route_len (rt : route) : nat := length (rt_kx_publics rt).

Section post.
  Context (pr : prims) (Hok : prims_ok pr).

  Definition surb_made (g : route_generator) (d : mixnode_index) (h : nat) (u : made_surb) : Prop :=
    route_ok g (RkFromMixnode d) h (ms_route u) /\ length (ms_surb u) = 222 /\ length (ms_id u) = 16 /\
    delay_sum pr 5 (ms_delay u) /\
    exists surb0 r r', length surb0 = 222 /\
      build_surb pr surb0 [] (rt_first (ms_route u)) (rt_targets (ms_route u))
        (rt_kx_publics (ms_route u)) (ms_id u) r = Val (ms_surb u, ms_keys u, ms_delay u, r').
  Definition packet_made (g : route_generator) (d : mixnode_index) (h : nat) (b : fragment_blueprint)
      (p : made_packet) : Prop :=
    Forall (surb_made g d h) (mp_surbs p) /\ N.of_nat (length (mp_surbs p)) = fb_num_surbs b /\
    (exists pad, length (sc_contents (fb_data b)) + length pad + 222 * length (mp_surbs p) = N.to_nat 2025 /\
       mp_fragment p = frag_bytes (fb_message_id b) (fb_last_index b) (fb_index b)
                         (sc_contents (fb_data b)) pad (map ms_surb (mp_surbs p))) /\
    route_ok g (RkToMixnode d) h (mp_route p) /\
    tp_index_to_peer_id (rg_topology g) (rt_first (mp_route p)) = Ok (ap_peer_id (mp_packet p)) /\
    length (ap_packet (mp_packet p)) = PACKET_SIZE /\ delay_sum pr 5 (mp_delay p) /\
    exists r r',
      complete_request_packet pr (replicate 188 0%N ++ mp_fragment p ++ replicate 16 0%N)
        (rt_targets (mp_route p)) (rt_kx_publics (mp_route p)) r =
      Val (ap_packet (mp_packet p), mp_delay p, r').
  Definition surb_entry (mid : bytes) (u : made_surb) : bytes * surb_value :=
    (ms_id u, SurbValue (ms_keys u) mid).

  (** Why building may panic: two equal random SURB ids among the next [n] random bytes, or a delay
      that is not a number. *)
  Definition clash (n : nat) (ks : surb_keystore) (r : rng) : Prop :=
    exists j, rng_pos r ≤ j /\ j + 16 ≤ rng_pos r + n /\
      let id := (rng_fill 16 (Rng (rng_tape r) j)).1 in
      id ∈ ks_ids ks \/ exists i, rng_pos r ≤ i /\ i + 16 ≤ j /\ id = (rng_fill 16 (Rng (rng_tape r) i)).1.
  Definition nan_delay : Prop := exists d, delay_sum pr 5 d /\ f_is_nan d = true.

  (** Ids of made SURBs come from the tape. *)
  Definition ids_drawn (r r' : rng) (us : list made_surb) : Prop :=
    Forall (fun u => exists j, rng_pos r ≤ j /\ j + 16 ≤ rng_pos r' /\ drawn (rng_tape r) j (ms_id u)) us.

  Lemma ids_drawn_mono r0 r r' r1 us :
    same_tape r0 r -> same_tape r' r1 -> ids_drawn r r' us -> ids_drawn r0 r1 us.
  Proof.
    intros [E1 H1] [_ H2]. unfold ids_drawn. rewrite E1. intros Hf. eapply Forall_impl; [exact Hf|].
    intros u (j & ? & ? & ?). exists j. split_and!; try done; lia.
  Qed.

  Context (g : route_generator) (d : mixnode_index) (cf : config) (mid : bytes).
  Context (Hg : gen_ok g) (Hpeer : length (rg_local_peer_id g) = 32)
          (Hd : valid_index (rg_topology g) d) (Hh : cf_num_hops cf ≤ 6)
          (Hng : ~ no_gateway g) (Hen : enough_mixnodes g (RkToMixnode d) (cf_num_hops cf)).
  Notation rb := {| rb_route_generator := g; rb_destination_index := d |}.
  Notation h := (cf_num_hops cf).

  Lemma from_route r :
    exists rt r', gen_route g (RkFromMixnode d) h r = Val (Ok (rt, r')) /\ route_ok g (RkFromMixnode d) h rt.
  Proof.
    destruct (C29_route g (RkFromMixnode d) h r Hg Hd Hh) as (_ & Ha & _).
    destruct (Ha Hng Hen) as (rt & r' & E). exists rt, r'. split; [done|]. by eapply C25_route.
  Qed.
  Lemma to_route r :
    exists rt r', gen_route g (RkToMixnode d) h r = Val (Ok (rt, r')) /\ route_ok g (RkToMixnode d) h rt.
  Proof.
    destruct (C29_route g (RkToMixnode d) h r Hg Hd Hh) as (_ & Ha & _).
    destruct (Ha Hng Hen) as (rt & r' & E). exists rt, r'. split; [done|]. by eapply C25_route.
  Qed.

  (** Pushing SURBs made in order. *)
  Lemma clash_later k n ks (us : list made_surb) r0 r :
    takes k r0 r -> ids_drawn r0 r us -> clash n (ks_pushes ks (map (surb_entry mid) us)) r -> clash (k + n) ks r0.
  Proof.
    intros [[Et Hp] Hk] Hdr (j & Hj & Hj' & Hc). exists j. split; [lia|]. split; [lia|]. rewrite Et in Hc. cbv zeta in *.
    destruct Hc as [Hin|(i & Hi & Hij & E)].
    - revert ks Hin. induction Hdr as [|u us (i & Hi1 & Hi2 & Hu) Hus IH]; intros ks Hin; [by left|].
      cbn in Hin. destruct (IH _ Hin) as [Hin'|?]; [|by right].
      apply ks_push_ids in Hin' as [Heq|Hin']; [|by left].
      right. exists i. split_and!; [done|lia|]. rewrite Heq. cbn. exact Hu.
    - right. exists i. split_and!; [lia|done|done].
  Qed.

  Lemma clash_mono k n ks r : k ≤ n -> clash k ks r -> clash n ks r.
  Proof. intros H (j & Hj & Hj' & Hc). exists j. split; [done|]. split; [lia|done]. Qed.

  (** Random numbers used for a SURB: its id, its route, and its contents. *)
  Lemma write_surbs_spec offsets : forall st frag r,
    ks_ok (sst_keystore st) -> delay_sum pr 5 (sst_reply_delay st) ->
    length frag = N.to_nat 2048 -> Forall (fun off => off + 222 ≤ N.to_nat 2048) offsets ->
    (write_surbs pr cf rb mid offsets st frag r = Panic /\
       (clash (244 * length offsets) (sst_keystore st) r \/ nan_delay)) \/
    exists us dl r',
      write_surbs pr cf rb mid offsets st frag r =
        Val (SurbState (ks_pushes (sst_keystore st) (map (surb_entry mid) us))
                       (max_nat (sst_reply_hops st) (map (fun u => route_len (ms_route u)) us)) dl,
             Ok (put_surbs frag offsets (map ms_surb us), r')) /\
      max_delays (sst_reply_delay st) (map ms_delay us) = Val dl /\ delay_sum pr 5 dl /\
      length us = length offsets /\ Forall (surb_made g d h) us /\
      takes (244 * length offsets) r r' /\ ids_drawn r r' us /\
      ks_ok (ks_pushes (sst_keystore st) (map (surb_entry mid) us)).
  Proof.
    induction offsets as [|off offsets IH]; intros st frag r Hks Hdl Hfr Hoff; cbn [write_surbs].
    { right. exists [], (sst_reply_delay st), r. split; [by destruct st|]. split_and!; try done; constructor. }
    apply Forall_cons in Hoff as [Ho Hoff].
    destruct (sk_insert_cases (sst_keystore st) mid r Hks) as [[Hin ->]|(ks1 & -> & Hset)].
    { left. split; [done|]. left. exists (rng_pos r). split; [lia|]. split; [cbn [length]; lia|]. left. destruct r. exact Hin. }
    set (id := (rng_fill 16 r).1) in *. set (r1 := (rng_fill 16 r).2). cbn [out_bind].
    assert (Ht1 : takes 16 r r1) by (by eapply rng_fill_draws).
    assert (Hid : length id = 16) by apply rng_fill_length.
    unfold rb_build_surb. cbn [rb_route_generator rb_destination_index].
    destruct (from_route r1) as (rt & r2 & Er & Hrt). rewrite Er. cbn [try_bind].
    destruct (route_fits g _ _ rt Hg Hpeer Hrt) as [Hfit _].
    assert (Hs0 : length (slice frag off SURB_SIZE) = SURB_SIZE).
    { apply slice_length. rewrite Hfr. change SURB_SIZE with 222. lia. }
    destruct (build_surb_any pr Hok (slice frag off SURB_SIZE) (rt_first rt) _ _ id r2 Hs0 Hfit Hid)
      as (surb & keys & dl & r3 & Eb & Hsl & Hdl1).
    rewrite Eb. cbn [out_bind try_bind]. cbn [rm_forwarding_delay rm_num_hops].
    destruct (delay_max_cases pr (sst_reply_delay st) dl Hdl Hdl1) as [(nd & Hn1 & Hn2 & ->)|(dm & Edm & Hdm)].
    { left. split; [done|]. right. by exists nd. }
    rewrite Edm. cbn [out_bind].
    assert (Ht13 : takes (8 + 220) r1 r3).
    { eapply draws_trans; [by eapply gen_route_draws|by eapply build_surb_draws]. }
    assert (Ht3 : takes 244 r r3) by exact (draws_trans 16 (8 + 220) _ _ _ Ht1 Ht13).
    set (u := MadeSurb id keys surb rt dl).
    assert (Hu : surb_made g d h u).
    { split_and!; try done. exists (slice frag off SURB_SIZE), r2, r3. split; done. }
    destruct (Hset keys) as [Eset Hks2]. rewrite Eset.
    set (st2 := {| sst_keystore := _; sst_reply_hops := _; sst_reply_delay := _ |}).
    assert (Hud : ids_drawn r r3 [u]).
    { constructor; [|done]. exists (rng_pos r). split; [lia|]. split.
      - destruct Ht13 as [[_ H3] _]. cbn in H3. lia.
      - by destruct r. }
    destruct (IH st2 (put frag off surb) r3) as [[EP Hc]|(us & dl' & r' & E & Hmx & Hdl' & Hlen & Hms & Ht & Hids & Hks')].
    - exact Hks2.
    - exact Hdm.
    - rewrite put_length; [done|]. rewrite Hsl, Hfr. exact Ho.
    - done.
    - left. split; [exact EP|]. destruct Hc as [Hc|Hc]; [|by right]. left.
      cbn [length]. rewrite Nat.mul_succ_r, Nat.add_comm. by apply (clash_later _ _ _ [u] _ r3).
    - right. exists (u :: us), dl', r'. split; [exact E|]. split_and!.
      + cbn. rewrite Edm. exact Hmx.
      + done.
      + cbn. by rewrite Hlen.
      + by constructor.
      + cbn [length]. rewrite Nat.mul_succ_r, Nat.add_comm. by eapply draws_trans.
      + apply draws_tape in Ht, Ht3. apply (Forall_app_2 _ [u] us).
        * by eapply (ids_drawn_mono r r r3 r').
        * by eapply (ids_drawn_mono r r3 r' r').
      + exact Hks'.
  Qed.

  (** A blueprint as the planner makes them. *)
  Definition blueprint_ok (b : fragment_blueprint) : Prop :=
    sc_wf (fb_data b) /\ length (fb_message_id b) = 16 /\
    (N.of_nat (length (sc_contents (fb_data b))) + 222 * fb_num_surbs b <= 2025)%N.

  Lemma write_fragment_spec b st frag r :
    blueprint_ok b -> ks_ok (sst_keystore st) -> delay_sum pr 5 (sst_reply_delay st) ->
    length frag = N.to_nat 2048 ->
    (write_fragment pr cf rb mid b st frag r = Panic /\
       (clash (244 * N.to_nat (fb_num_surbs b)) (sst_keystore st) r \/ nan_delay)) \/
    exists us dl r' pad,
      write_fragment pr cf rb mid b st frag r =
        Val (SurbState (ks_pushes (sst_keystore st) (map (surb_entry mid) us))
                       (max_nat (sst_reply_hops st) (map (fun u => route_len (ms_route u)) us)) dl,
             Ok (frag_bytes (fb_message_id b) (fb_last_index b) (fb_index b)
                   (sc_contents (fb_data b)) pad (map ms_surb us), r')) /\
      length (sc_contents (fb_data b)) + length pad + 222 * length us = N.to_nat 2025 /\
      max_delays (sst_reply_delay st) (map ms_delay us) = Val dl /\ delay_sum pr 5 dl /\
      N.of_nat (length us) = fb_num_surbs b /\ Forall (surb_made g d h) us /\
      takes (244 * N.to_nat (fb_num_surbs b)) r r' /\ ids_drawn r r' us /\ ks_ok (ks_pushes (sst_keystore st) (map (surb_entry mid) us)).
  Proof.
    intros (Hwf & Hid & Hfit) Hks Hdl Hfr. unfold write_fragment.
    assert (Hns : (fb_num_surbs b <= 9)%N) by lia.
    destruct (fb_write_except_surbs b frag) as [f|] eqn:Ew.
    2:{ rewrite write_except_surbs_spec in Ew by (done || lia). done. }
    cbn [out_bind].
    assert (Hf : length f = N.to_nat 2048).
    { rewrite write_except_surbs_spec in Ew by (done || lia). injection Ew as <-.
      rewrite !app_length, drop_length, Hfr, Hid.  cbn [length]. lia. }
    destruct (write_surbs_spec (fb_surb_offsets b) st f r Hks Hdl Hf) as [HP|(us&dl&r'&E&Hm&Hd'&Hl&Hu&Ht&Hi&Hk)].
    { rewrite fb_surb_offsets_spec by done. apply Forall_forall. intros x Hx.
      apply elem_of_list_In, in_map_iff in Hx as (j & <- & Hj). apply in_seq in Hj. lia. }
    { left. destruct HP as [HP1 HP2]. split; [done|].
      rewrite fb_surb_offsets_spec, map_length, seq_length in HP2 by done. exact HP2. }
    right. rewrite fb_surb_offsets_spec, map_length, seq_length in Ht by done.
    rewrite fb_surb_offsets_spec, map_length, seq_length in Hl by done.
    assert (Hn : N.of_nat (length (map ms_surb us)) = fb_num_surbs b) by (rewrite map_length; lia).
    destruct (fill_spec b frag (map ms_surb us)) as (pad & Hpad & Ef); [done|done|done|done|done| |].
    { apply Forall_map. eapply Forall_impl; [exact Hu|]. intros u (_ & H & _). exact H. }
    rewrite map_length in Hpad.
    unfold fill in Ef. rewrite Ew in Ef. cbn [out_bind] in Ef. injection Ef as Ef.
    exists us, dl, r', pad. rewrite E. rewrite <- Ef. split_and!; try done.
    rewrite map_length in Hn. done.
  Qed.

  Lemma payload_of_default : get_payload_data default_packet = replicate (N.to_nat 2048) 0%N.
  Proof. vm_compute. done. Qed.
  Lemma packet_of_default (f : bytes) :
    length f = N.to_nat 2048 ->
    set_payload_data default_packet f = replicate 188 0%N ++ f ++ replicate 16 0%N.
  Proof.
    intros Hf. unfold set_payload_data, default_packet.
    replace (replicate PACKET_SIZE 0%N) with
      (replicate 188 0%N ++ replicate (N.to_nat 2048) 0%N ++ replicate 16 (0%N)) by (vm_compute; done).
    apply put_at; [by rewrite replicate_length|by rewrite replicate_length].
  Qed.

  (** Random numbers used for a packet: its route, its SURBs and its header. *)
  Definition packet_draws (b : fragment_blueprint) : nat := 8 + (244 * N.to_nat (fb_num_surbs b) + 188).
  Lemma build_packet_spec b st r :
    blueprint_ok b -> ks_ok (sst_keystore st) -> delay_sum pr 5 (sst_reply_delay st) ->
    (rb_build_packet pr rb (write_fragment pr cf rb mid b) h st r = Panic /\
     ((0 < fb_num_surbs b)%N /\ clash (packet_draws b) (sst_keystore st) r \/ nan_delay)) \/
    exists p dl r',
      rb_build_packet pr rb (write_fragment pr cf rb mid b) h st r =
        Val (SurbState (ks_pushes (sst_keystore st) (map (surb_entry mid) (mp_surbs p)))
               (max_nat (sst_reply_hops st) (map (fun u => route_len (ms_route u)) (mp_surbs p))) dl,
             Ok (mp_packet p, RouteMetrics (route_len (mp_route p)) (mp_delay p), r')) /\
      packet_made g d h b p /\
      max_delays (sst_reply_delay st) (map ms_delay (mp_surbs p)) = Val dl /\ delay_sum pr 5 dl /\
      takes (packet_draws b) r r' /\ ids_drawn r r' (mp_surbs p) /\
      ks_ok (ks_pushes (sst_keystore st) (map (surb_entry mid) (mp_surbs p))).
  Proof.
    intros Hb Hks Hdl. unfold rb_build_packet. cbn [rb_route_generator rb_destination_index].
    destruct (to_route r) as (rt & r1 & Er & Hrt). rewrite Er. cbn [out_bind].
    destruct (route_fits g _ _ rt Hg Hpeer Hrt) as [Hfit Hfirst].
    destruct (tp_index_to_peer_id (rg_topology g) (rt_first rt)) as [peer|] eqn:Ep.
    2:{ unfold tp_index_to_peer_id in Ep. apply lookup_lt_is_Some_2 in Hfirst as [x Hx]. by rewrite Hx in Ep. }
    pose proof (gen_route_draws _ _ _ _ _ _ Hh Er) as Ht1.
    rewrite payload_of_default.
    destruct (write_fragment_spec b st (replicate (N.to_nat 2048) 0%N) r1 Hb Hks Hdl)
      as [[-> Hc]|(us&dl&r2&pad&->&Hpad&Hm&Hd'&Hl&Hu&Ht&Hi&Hk)].
    { apply replicate_length. }
    { left. split; [done|]. destruct Hc as [Hc|Hc]; [|by right]. left.
      split.
      { destruct (N.eqb_spec (fb_num_surbs b) 0) as [E0|]; [|lia]. rewrite E0 in Hc. destruct Hc as (j & H1 & H2 & _). lia. }
      apply (clash_mono (8 + 244 * N.to_nat (fb_num_surbs b))); [unfold packet_draws; lia|].
      apply (clash_later _ _ _ [] _ r1); [done|constructor|done]. }
    right. cbn [out_bind]. destruct Hb as (Hwf & Hid & Hft).
    set (f := frag_bytes _ _ _ _ _ _).
    assert (Hf : length f = N.to_nat 2048).
    { unfold f, frag_bytes. rewrite !app_length, !length_to_le16, Hid. cbn [length].
      rewrite (concat_length_const _ 222).
      - rewrite reverse_length, map_length. lia.
      - apply Forall_reverse, Forall_map. eapply Forall_impl; [exact Hu|]. intros u (_ & H & _). exact H. }
    rewrite packet_of_default by done.
    destruct (complete_request_any pr Hok (replicate 188 0%N ++ f ++ replicate 16 0%N) (rt_targets rt) (rt_kx_publics rt) r2) as
      (pk & dk & r3 & Ek & Hpk & Hdk).
    { rewrite !app_length, !replicate_length. szlia. } { exact Hfit. }
    rewrite Ek. cbn [out_bind].
    exists (MadePacket us f rt (AddressedPacket peer pk) dk), dl, r3. split; [done|].
    pose proof (complete_request_draws _ _ _ _ _ _ _ _ Ek) as Ht3.
    split_and!; try done.
    - split_and!; try done.
      + exists pad. split; done.
      + by exists r2, r3.
    - eapply draws_trans; [done|]. by eapply draws_trans.
    - apply draws_tape in Ht1, Ht3. by apply (ids_drawn_mono r r1 r2 r3).
  Qed.

  (** The whole loop. *)
  Definition all_surbs (ps : list made_packet) : list made_surb := concat (map mp_surbs ps).
  Lemma post_request_loop_spec bs : forall st r,
    Forall blueprint_ok bs -> ks_ok (sst_keystore (pst_surb st)) ->
    delay_sum pr 5 (sst_reply_delay (pst_surb st)) -> delay_sum pr 5 (pst_request_delay st) ->
    (aq_len (pst_queue st) + N.of_nat (length bs) <= apc_capacity (aq_config (pst_queue st)))%N ->
    (post_request_loop pr cf rb mid bs st r = Panic /\
     (0 < sum_list (map (fun b => N.to_nat (fb_num_surbs b)) bs) /\
      clash (sum_list (map packet_draws bs)) (sst_keystore (pst_surb st)) r \/ nan_delay)) \/
    exists ps dl dq r',
      post_request_loop pr cf rb mid bs st r =
        Val (PostState
              (SurbState (ks_pushes (sst_keystore (pst_surb st)) (map (surb_entry mid) (all_surbs ps)))
                 (max_nat (sst_reply_hops (pst_surb st)) (map (fun u => route_len (ms_route u)) (all_surbs ps)))
                 dl)
              (AuthoredQueue (aq_config (pst_queue st)) (aq_queue (pst_queue st) ++ map mp_packet ps))
              (max_nat (pst_request_hops st) (map (fun p => route_len (mp_route p)) ps)) dq, Ok tt) /\
      Forall2 (packet_made g d h) bs ps /\
      max_delays (sst_reply_delay (pst_surb st)) (map ms_delay (all_surbs ps)) = Val dl /\
      delay_sum pr 5 dl /\
      max_delays (pst_request_delay st) (map mp_delay ps) = Val dq /\ delay_sum pr 5 dq /\
      takes (sum_list (map packet_draws bs)) r r' /\ ids_drawn r r' (all_surbs ps) /\
      ks_ok (ks_pushes (sst_keystore (pst_surb st)) (map (surb_entry mid) (all_surbs ps))).
  Proof.
    induction bs as [|b bs IH]; intros st r Hbs Hks Hdl Hdq Hsp; cbn [post_request_loop].
    { right. exists [], (sst_reply_delay (pst_surb st)), (pst_request_delay st), r.
      split; [|split_and!; try done; constructor].
      destruct st as [[] [] ? ?]. cbn. by rewrite app_nil_r. }
    apply Forall_cons in Hbs as [Hb Hbs]. cbn [length] in Hsp.
    destruct (build_packet_spec b (pst_surb st) r Hb Hks Hdl)
      as [[-> Hc]|(p & dl1 & r1 & -> & Hp & Hm1 & Hdl1 & Ht1 & Hi1 & Hk1)].
    { left. split; [done|]. destruct Hc as [[H0 Hc]|Hc]; [|by right]. left.
      split; [cbn; lia|]. eapply clash_mono; [|exact Hc]. cbn. lia. }
    cbn [out_bind]. unfold aq_push.
    destruct (N.ltb_spec (aq_len (pst_queue st)) (apc_capacity (aq_config (pst_queue st)))) as [Hlt|]; [|lia].
    cbn [assert_or_panic out_bind rm_forwarding_delay rm_num_hops].
    assert (Hdp : delay_sum pr 5 (mp_delay p)) by (by destruct Hp as (_&_&_&_&_&_&?&_)).
    destruct (delay_max_cases pr (pst_request_delay st) (mp_delay p) Hdq Hdp)
      as [(nd & Hn1 & Hn2 & ->)|(dm & Edm & Hdm)].
    { left. split; [done|]. right. by exists nd. }
    rewrite Edm. cbn [out_bind].
    set (st2 := {| pst_surb := _; pst_queue := _; pst_request_hops := _; pst_request_delay := _ |}).
    destruct (IH st2 r1) as [[EP Hc]|(ps & dl & dq & r' & E & Hps & Hm & Hd1 & Hmq & Hd2 & Ht & Hi & Hk)].
    - done.
    - exact Hk1.
    - exact Hdl1.
    - exact Hdm.
    - cbn [st2 pst_queue aq_config]. unfold aq_len in *. cbn [aq_queue]. rewrite app_length. cbn [length]. lia.
    - left. split; [exact EP|]. destruct Hc as [[H0 Hc]|Hc]; [|by right]. left. split; [cbn; lia|].
      by apply (clash_later (packet_draws b) _ _ (mp_surbs p) _ r1).
    - right. exists (p :: ps), dl, dq, r'.
      assert (Eall : all_surbs (p :: ps) = mp_surbs p ++ all_surbs ps) by done.
      assert (Hpush : forall ks l1 l2, ks_pushes ks (map (surb_entry mid) (l1 ++ l2)) =
        ks_pushes (ks_pushes ks (map (surb_entry mid) l1)) (map (surb_entry mid) l2)).
      { intros ks l1 l2. unfold ks_pushes. by rewrite map_app, foldl_app. }
      rewrite !Eall. rewrite E. cbn [st2 pst_surb pst_queue pst_request_hops pst_request_delay
        sst_keystore sst_reply_hops sst_reply_delay aq_config aq_queue] in *.
      split_and!; try done.
      + rewrite Hpush, <- app_assoc. unfold max_nat. rewrite map_app, foldl_app. done.
      + by constructor.
      + rewrite map_app. clear -Hm1 Hm. revert Hm1. generalize (sst_reply_delay (pst_surb st)).
        induction (map ms_delay (mp_surbs p)) as [|x l IHl]; intros d0; cbn; [by intros [= ->]|].
        destruct (delay_max d0 x); cbn; [apply IHl|done].
      + cbn. rewrite Edm. exact Hmq.
      + by apply (draws_trans (packet_draws b) _ _ r1).
      + apply draws_tape in Ht, Ht1. apply Forall_app. split.
        * by apply (ids_drawn_mono r r r1 r').
        * by apply (ids_drawn_mono r r1 r' r').
      + rewrite Hpush. exact Hk.
  Qed.
End post.
