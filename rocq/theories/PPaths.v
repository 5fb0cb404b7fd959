(** C86: the path of each packet and of each SURB is drawn separately from everything else. *)
From Verif Require Export PEnd PPosition PFresh.

(** ** Specification *)

(** Drawing one number below each of the bounds [ks] and applying [f] gives an element of [P], each for
    exactly one choice of the numbers. *)
Definition choice {A} (ks : list N) (f : list N -> A) (P : A -> Prop) : Prop :=
  Forall (fun k => (0 < k)%N) ks /\
  (forall vs, Forall2 N.lt vs ks -> P (f vs)) /\
  (forall a, P a -> exists vs, Forall2 N.lt vs ks /\ f vs = a /\
     forall vs', Forall2 N.lt vs' ks -> f vs' = a -> vs' = vs).

(** Where in the random output the draws for a SURB begin (its id of 16 bytes, its path, the 32-byte
    secret of its header, the 32-byte secret for the first layer of the reply), and those for a packet
    (its path, its SURBs, and the secret of its header) *)
Record surb_place := SurbPlace { pl_id : nat; pl_path : nat; pl_secret : nat; pl_shared : nat }.
Record packet_place := PacketPlace { pp_path : nat; pp_surbs : list surb_place; pp_secret : nat }.
(** These parts of the output, if a path takes [n] draws, or [n'] for a SURB *)
Definition surb_spans (n' : nat) (u : surb_place) : list (nat * nat) :=
  [(pl_id u, 16); (pl_path u, n'); (pl_secret u, 32); (pl_shared u, 32)].
Definition packet_spans (n n' : nat) (p : packet_place) : list (nat * nat) :=
  (pp_path p, n) :: concat (map (surb_spans n') (pp_surbs p)) ++ [(pp_secret p, 32)].
(** They follow each other without overlap. *)
Fixpoint apart (from : nat) (spans : list (nat * nat)) : Prop :=
  match spans with
  | [] => True
  | (i, n) :: rest => from ≤ i /\ apart (i + n) rest
  end.
Definition bytes_at (r : rng) (i n : nat) : bytes := (rng_fill n (after r i)).1.

Section spec.
  Context (pr : prims) (nodes : list mixnode) (key : target -> bytes).

  (** A packet is accepted along the path [rt] by the nodes on it, each of which finds the next, and the
      last finds what [fin] says. *)
  Definition goes (rt : route) (p : bytes) (fin : bytes -> result action peel_err -> Prop) : Prop :=
    exists fwd, map fst fwd = rt_targets rt /\ journey pr p (map key (route_nodes rt)) fwd fin.
  (** Any reply with this SURB goes along [rt], and is then recognised by the id drawn for it. *)
  Definition surb_drawn (ks : list N) (back : list N -> route) (r : rng) (u : surb_place) (surb : bytes) : Prop :=
    let rt := back (draws (after r (pl_path u)) ks) in
    slice surb 2 32 = derive_kx_public pr (bytes_at r (pl_secret u) 32) /\
    slice surb 190 32 = bytes_at r (pl_shared u) 32 /\
    forall f, length f = N.to_nat 2048 ->
      exists p, complete_reply_packet pr (replicate 188 0%N ++ f ++ replicate 16 0%N) surb = (p, Some (rt_first rt)) /\
        goes rt p (fun _ res => res = Ok (ADeliverReply (bytes_at r (pl_id u) 16))).
  Definition packet_drawn (ks ks' : list N) (out back : list N -> route) (r : rng) (l : packet_place)
      (p : addressed_packet) : Prop :=
    let rt := out (draws (after r (pp_path l)) ks) in
    take 32 (ap_packet p) = derive_kx_public pr (bytes_at r (pp_secret l) 32) /\
    addr_of nodes (TMixnodeIndex (rt_first rt)) = Some (ap_peer_id p) /\
    exists f, goes rt (ap_packet p) (fun o res => res = Ok ADeliverRequest /\ take PAYLOAD_DATA_SIZE o = f) /\
      Forall2 (surb_drawn ks' back r) (pp_surbs l) (sp_surbs f).
End spec.

(** ** Proof *)
Lemma draws_lt ks : forall r, Forall (fun k => (0 < k)%N) ks -> Forall2 N.lt (draws r ks) ks.
Proof.
  induction ks as [|k ks IH]; intros r H; cbn [draws]; [constructor|]. apply Forall_cons in H as [Hk H].
  constructor; [apply N.mod_lt; lia|by apply IH].
Qed.
Lemma uniform_choice {A} (m : rng -> route_result A) ks P :
  uniform m ks P -> exists f, choice ks f P /\ forall r, m r = Val (Ok (f (draws r ks), after r (length ks))).
Proof.
  intros (Hb & Hr & Hex). destruct (Hr (Rng (fun _ => 0%N) 0)) as (a0 & _ & _).
  set (f vs := match m (Rng (fun j => nth j vs 0%N) 0) with Val (Ok (a, _)) => a | _ => a0 end).
  assert (Hd : forall vs, Forall2 N.lt vs ks -> draws (Rng (fun j => nth j vs 0%N) 0) ks = vs).
  { intros vs H.
    assert (Hgen : forall t p, (forall j v, vs !! j = Some v -> t (p + j) = v) -> draws (Rng t p) ks = vs).
    { clear -H. induction H as [|v k vs ks Hv H IH]; intros t p Ht; [done|]. cbn. f_equal.
      - rewrite <- (Nat.add_0_r p), (Ht 0 v eq_refl). by apply N.mod_small.
      - apply IH. intros j w Hj. replace (S p + j) with (p + S j) by lia. by apply Ht. }
    apply Hgen. intros j v Hj. cbn. by apply nth_lookup_Some. }
  assert (Hf : forall r, m r = Val (Ok (f (draws r ks), after r (length ks))) /\ P (f (draws r ks))).
  { intros r. destruct (Hr r) as (a & E & Ha). destruct (Hex a Ha) as (vs & Hvs & Hiff).
    assert (Er : draws r ks = vs) by (apply Hiff; by eexists).
    assert (Ef : f (draws r ks) = a); [|by rewrite Ef].
    unfold f. assert (Hx : exists r', m (Rng (fun j => nth j (draws r ks) 0%N) 0) = Val (Ok (a, r'))).
    { apply Hiff. rewrite Er. by apply Hd. }
    destruct Hx as [r' ->]. done. }
  exists f. split; [|intros r; apply Hf]. split_and!; [done| |].
  - intros vs Hvs. rewrite <- (Hd vs Hvs). apply Hf.
  - intros a Ha. destruct (Hex a Ha) as (vs & Hvs & Hiff). exists vs. split_and!; [done| |].
    + destruct (proj2 (Hiff _) (Hd vs Hvs)) as [r' E]. rewrite (proj1 (Hf _)), (Hd vs Hvs) in E. congruence.
    + intros vs' Hvs' E. rewrite <- (Hd vs' Hvs'). apply Hiff. rewrite (proj1 (Hf _)), (Hd vs' Hvs'), E. by eexists.
Qed.

(** The headers for paths of the same kind take the same number of random bytes. *)
Definition target_size (t : target) : nat := length (fwd_block t) + 16.
Lemma room_sizes k k' ts : forall ts', length (fin_block k) = length (fin_block k') ->
  map target_size ts = map target_size ts' -> PHeader.room ts k = PHeader.room ts' k'.
Proof.
  induction ts as [|t ts IH]; intros [|t' ts'] Hf H; cbn in H; [exact Hf|done..|].
  assert (E : target_size t = target_size t') by congruence.
  assert (E' : map target_size ts = map target_size ts') by congruence.
  unfold PHeader.room in *. cbn [foldr]. rewrite (IH ts' Hf E'). unfold target_size in E. lia.
Qed.
Lemma route_sizes g kind h rt :
  route_ok g kind h rt ->
  map target_size (route_nodes rt) =
    replicate (length (route_nodes rt) - 1) 18 ++ [target_size (node_target g (last_node kind))].
Proof.
  intros H. destruct (permitted_nodes _ _ _ _ H) as (js & E & _). rewrite E, !map_app. cbn [map].
  rewrite app_length, !map_length. cbn [length]. f_equal.
  replace (length js + 1 - 1) with (length js) by lia.
  clear. induction js as [|j js IH]; [done|]. cbn [map replicate length]. f_equal. exact IH.
Qed.
Lemma room_same g kind h rt rt' k k' :
  length (fin_block k) = length (fin_block k') -> permitted g kind h rt -> permitted g kind h rt' ->
  PHeader.room (rt_targets rt) k = PHeader.room (rt_targets rt') k'.
Proof.
  intros Hf (Hr & Hl & _) (Hr' & Hl' & _). apply room_sizes; [done|].
  assert (E : map target_size (route_nodes rt) = map target_size (route_nodes rt')).
  { rewrite (route_sizes _ _ _ _ Hr), (route_sizes _ _ _ _ Hr'). by rewrite Hl, Hl'. }
  unfold route_nodes in E. cbn [map] in E. congruence.
Qed.

Section draws.
  Context (pr : prims) (Hok : prims_ok pr).

  Lemma build_header_draws (header : bytes) ts sks k r h ss d r' :
    path_ok ts sks -> length header = HEADER_SIZE -> kind_ok k ->
    build_header pr header ts (map (derive_kx_public pr) sks) k r = Val (h, ss, d, r') ->
    exists rest, h = derive_kx_public pr (bytes_at r 0 32) ++ rest /\ length rest = 156 /\
      r' = after r (32 + (140 - PHeader.room ts k)).
  Proof.
    intros Hpath Hh Hk E. pose proof Hpath as (Hl & Hm & Hts & _).
    assert (Hroom : PHeader.room ts k ≤ 140) by by eapply path_ok_room.
    destruct (C84_built pr Hok _ _ _ _ _ _ _ _ _ Hpath Hh Hk E) as (pub & r1 & buf & Hpub & Es & -> & Eg & Ew).
    assert (Hss : length ss = S (length ts)).
    { by rewrite Es, hop_secrets_length. }
    destruct (written pr Hok header ts ss k r1 Hh Hss ltac:(lia) Hts Hk Hroom) as (mac & actions & Ew' & Hseen & _).
    cbn zeta in Ew'. rewrite Ew in Ew'.
    assert (buf = mac ++ actions) as -> by congruence. assert (r' = after r1 (140 - PHeader.room ts k)) as -> by congruence.
    clear Ew'. destruct (seen_length pr Hok _ _ _ _ _ Hseen) as [Hml Hal].
    unfold gen_kx_public_and_shared_secrets in Eg. destruct (gen_kx_secret r) as [s r2] eqn:Ek.
    apply out_bind_Val in Eg as (secrets & _ & Eg).
    assert (pub = derive_kx_public pr s) as -> by congruence. assert (r2 = r1) as -> by congruence.
    unfold gen_kx_secret in Ek. exists (mac ++ actions). unfold bytes_at. rewrite after_0, Ek. split_and!.
    - done.
    - rewrite app_length. lia.
    - apply fill_after in Ek as ->. by rewrite after_after.
  Qed.

  Lemma bytes_after r i j n : bytes_at (after r i) j n = bytes_at r (i + j) n.
  Proof. unfold bytes_at. by rewrite after_after. Qed.

  Context (g : route_generator) (d : mixnode_index) (cf : config) (key : target -> bytes).
  Context (Hg : gen_ok g) (Hpeer : length (rg_local_peer_id g) = 32) (Hkey : honest pr (rg_topology g) key).
  Notation h := (cf_num_hops cf).
  Context (ks ks' : list N) (out back : list N -> route).
  Context (Hout : choice ks out (permitted g (RkToMixnode d) h))
          (Hgo : forall r, gen_route g (RkToMixnode d) h r = Val (Ok (out (draws r ks), after r (length ks)))).
  Context (Hback : choice ks' back (permitted g (RkFromMixnode d) h))
          (Hgb : forall r, gen_route g (RkFromMixnode d) h r = Val (Ok (back (draws r ks'), after r (length ks')))).
  (** Random bytes behind the routing actions of a packet and of a SURB *)
  Context (n n' : nat)
    (Hn : forall rt, permitted g (RkToMixnode d) h rt -> 140 - PHeader.room (rt_targets rt) KRequest = n)
    (Hn' : forall rt id, permitted g (RkFromMixnode d) h rt -> length id = 16 ->
             140 - PHeader.room (rt_targets rt) (KReply id) = n').
  Notation rb := {| rb_route_generator := g; rb_destination_index := d |}.
  Notation nodes := (tp_mixnodes (rg_topology g)).

  Lemma map_fst_zip {A B} (xs : list A) : forall ys : list B, length ys = length xs -> map fst (zip xs ys) = xs.
  Proof. induction xs as [|x xs IH]; intros [|y ys] Hl; try done. cbn in *. f_equal. apply IH. lia. Qed.

  Lemma request_drawn rt f r p dl r' :
    permitted g (RkToMixnode d) h rt -> length f = N.to_nat 2048 ->
    complete_request_packet pr (replicate 188 0%N ++ f ++ replicate 16 0%N) (rt_targets rt) (rt_kx_publics rt) r =
      Val (p, dl, r') ->
    take 32 p = derive_kx_public pr (bytes_at r 0 32) /\ r' = after r (32 + n) /\
    goes pr key rt p (fun o res => res = Ok ADeliverRequest /\ take PAYLOAD_DATA_SIZE o = f).
  Proof.
    intros Hp Hf E. pose proof Hp as (Hr & _). destruct (route_path pr _ _ _ _ _ Hg Hpeer Hr Hkey) as [Hpath _].
    rewrite (honest_keys pr _ _ _ _ _ Hr Hkey) in E.
    destruct (request_built pr Hok (replicate 188 0%N) f (replicate 16 0%N) (rt_targets rt)
                (map key (route_nodes rt)) r Hpath) as (p' & ds & r2 & E' & Hds & HJ); [done..|].
    assert (p' = p) as -> by congruence. clear E'.
    unfold complete_request_packet in E.
    apply out_bind_Val in E as (_ & _ & E). apply out_bind_Val in E as (_ & _ & E).
    apply out_bind_Val in E as ([[[hd ss] d'] r1] & Eb & E). cbv zeta in E.
    apply (build_header_draws _ _ _ _ _ _ _ _ _ Hpath) in Eb as (rest & -> & _ & ->); [| |done].
    2:{ rewrite take_length, app_length, replicate_length. szlia. }
    rewrite (Hn rt Hp) in E. split_and!.
    - match type of E with Val (?a, _, _) = _ => assert (p = a) as -> by congruence end.
      rewrite <- app_assoc. by apply starts_with_public.
    - congruence.
    - exists (zip (rt_targets rt) ds). split; [by apply map_fst_zip|exact HJ].
  Qed.

  Lemma surb_drawn_at rt surb0 id r surb keys dl r' :
    permitted g (RkFromMixnode d) h rt -> length surb0 = 222 -> length id = 16 ->
    build_surb pr surb0 [] (rt_first rt) (rt_targets rt) (rt_kx_publics rt) id r = Val (surb, keys, dl, r') ->
    slice surb 2 32 = derive_kx_public pr (bytes_at r 0 32) /\ slice surb 190 32 = bytes_at r (32 + n') 32 /\
    length surb = 222 /\ r' = after r (32 + n' + 32) /\
    forall f, length f = N.to_nat 2048 ->
      exists p, complete_reply_packet pr (replicate 188 0%N ++ f ++ replicate 16 0%N) surb = (p, Some (rt_first rt)) /\
        goes pr key rt p (fun _ res => res = Ok (ADeliverReply id)).
  Proof.
    intros Hp Hs0 Hid E. pose proof Hp as (Hr & _). destruct (route_path pr _ _ _ _ _ Hg Hpeer Hr Hkey) as [Hpath Hidx].
    rewrite (honest_keys pr _ _ _ _ _ Hr Hkey) in E.
    destruct (surb_built pr Hok surb0 (rt_first rt) (rt_targets rt) (map key (route_nodes rt)) id r Hpath)
      as (surb1 & keys1 & ds & r2 & E' & Hsl & Hds & _ & HJ); [done..|].
    assert (surb1 = surb) as -> by congruence. clear E'.
    unfold build_surb in E.
    apply out_bind_Val in E as (_ & _ & E). apply out_bind_Val in E as (_ & _ & E).
    apply out_bind_Val in E as ([[[hd ss] d'] r1] & Eb & E). cbv zeta in E.
    destruct (rng_fill SHARED_SECRET_SIZE r1) as [sh r3] eqn:Er.
    apply out_bind_Val in E as (k1 & _ & E). apply out_bind_Val in E as (k2 & _ & E).
    apply (build_header_draws _ _ _ _ _ _ _ _ _ Hpath) in Eb as (rest & -> & Hrest & ->); [| |done].
    2:{ apply slice_length. rewrite Hs0. unfold HEADER_SIZE. vm_compute. lia. }
    rewrite (Hn' rt id Hp Hid) in Er.
    match type of E with Val (?a, _, _, _) = _ => assert (surb = a) as -> by congruence end.
    assert (r3 = r') as -> by congruence. clear E.
    assert (Hpub : length (derive_kx_public pr (bytes_at r 0 32)) = 32) by apply (mont_mul_length _ Hok).
    split_and!.
    - rewrite <- app_assoc. apply slice_at; [by rewrite length_to_le16|done].
    - rewrite <- !app_assoc. rewrite (app_assoc (to_le16 _)), (app_assoc (to_le16 _ ++ _)).
      rewrite <- (app_nil_r sh), (app_assoc _ sh []), <- (app_assoc _ sh []).
      assert (sh = bytes_at r (32 + n') 32) as <-.
      { unfold bytes_at. change (rng_fill 32) with (rng_fill SHARED_SECRET_SIZE). by rewrite Er. }
      apply slice_at.
      + rewrite !app_length, length_to_le16, Hpub, Hrest. done.
      + pose proof (rng_fill_length SHARED_SECRET_SIZE (after r (32 + n'))) as Hl. by rewrite Er in Hl.
    - exact Hsl.
    - apply fill_after in Er as ->. by rewrite after_after.
    - intros f Hf. destruct (HJ (replicate 188 0%N) f (replicate 16 0%N)) as (p & Ep & HJp); [done..|].
      exists p. split; [exact Ep|]. exists (zip (rt_targets rt) ds). split; [by apply map_fst_zip|].
      eapply journey_mono; [|exact HJp]. cbn. by intros o res [? _].
  Qed.

  (** Where things are drawn, from position [i] on *)
  Definition surb_draws_n : nat := 16 + length ks' + (32 + n') + 32.
  Fixpoint surb_places (i k : nat) : list surb_place :=
    match k with
    | 0 => []
    | S k => SurbPlace i (i + 16) (i + 16 + length ks') (i + 16 + length ks' + (32 + n')) ::
             surb_places (i + surb_draws_n) k
    end.
  Fixpoint packet_places (i : nat) (l : list nat) : list packet_place :=
    match l with
    | [] => []
    | k :: l => PacketPlace i (surb_places (i + length ks) k) (i + length ks + surb_draws_n * k) ::
                packet_places (i + length ks + surb_draws_n * k + (32 + n)) l
    end.
  Lemma apart_surbs k : forall from i rest, from ≤ i ->
    (forall from', from' ≤ i + surb_draws_n * k -> apart from' rest) ->
    apart from (concat (map (surb_spans (length ks')) (surb_places i k)) ++ rest).
  Proof.
    induction k as [|k IH]; intros from i rest Hi Hr; cbn [surb_places map concat app].
    - apply Hr. lia.
    - unfold surb_spans at 1. cbn [pl_id pl_path pl_secret pl_shared app apart].
      split_and!; try lia. apply IH; [unfold surb_draws_n; lia|]. intros from' Hf. apply Hr. lia.
  Qed.
  Lemma apart_packets l : forall from i, from ≤ i ->
    apart from (concat (map (packet_spans (length ks) (length ks')) (packet_places i l))).
  Proof.
    induction l as [|k l IH]; intros from i Hi; cbn [packet_places map concat]; [done|].
    unfold packet_spans at 1. cbn [pp_path pp_surbs pp_secret app apart]. split; [done|].
    rewrite <- app_assoc. apply apart_surbs; [lia|]. intros from' Hf. cbn [app apart].
    split; [done|]. apply IH. lia.
  Qed.

  Lemma write_surbs_drawn mid offsets : forall i st frag r st' frag' r',
    ks_ok (sst_keystore st) -> length frag = N.to_nat 2048 -> Forall (fun off => off + 222 ≤ N.to_nat 2048) offsets ->
    write_surbs pr cf rb mid offsets st frag (after r i) = Val (st', Ok (frag', r')) ->
    exists surbs, frag' = put_surbs frag offsets surbs /\ r' = after r (i + surb_draws_n * length offsets) /\
      Forall (fun u => length u = 222) surbs /\ ks_ok (sst_keystore st') /\
      Forall2 (surb_drawn pr key ks' back r) (surb_places i (length offsets)) surbs.
  Proof.
    induction offsets as [|off offsets IH]; intros i st frag r st' frag' r' Hks Hfr Hoff H; cbn [write_surbs] in H.
    { exists []. assert (frag = frag') as <- by congruence. assert (r' = after r i) as -> by congruence.
      assert (st = st') as <- by congruence. split_and!; try done; [|constructor]. cbn [length]. f_equal. lia. }
    apply Forall_cons in Hoff as [Ho Hoff].
    destruct (sk_insert_cases (sst_keystore st) mid (after r i) Hks) as [[Hin E]|(ks1 & E & Hset)]; rewrite E in H; [done|].
    cbn [out_bind] in H. clear E. destruct (rng_fill 16 (after r i)) as [id r1] eqn:Eid. cbn [fst snd] in *.
    assert (Hidl : length id = 16).
    { pose proof (rng_fill_length 16 (after r i)) as Hl. by rewrite Eid in Hl. }
    assert (Hid : id = bytes_at r i 16) by (unfold bytes_at; by rewrite Eid).
    apply fill_after in Eid as ->. rewrite after_after in H.
    apply out_bind_Val in H as (res & Eb & H). destruct res as [[[[surb keys] metrics] r2]|e]; [|done].
    unfold rb_build_surb in Eb. cbn [rb_route_generator rb_destination_index] in Eb. rewrite Hgb in Eb. cbn [try_bind] in Eb.
    rewrite after_after in Eb.
    set (rt := back (draws (after r (i + 16)) ks')) in *.
    assert (Hrt : permitted g (RkFromMixnode d) h rt).
    { destruct Hback as (Hp & Hb & _). apply Hb. by apply draws_lt. }
    apply out_bind_Val in Eb as ([[[surb' keys'] d'] r4] & Es & Eb).
    assert (surb' = surb) as -> by congruence. assert (keys' = keys) as -> by congruence.
    assert (r4 = r2) as -> by congruence. clear Eb.
    assert (Hs0 : length (slice frag off SURB_SIZE) = 222).
    { apply slice_length. rewrite Hfr. change SURB_SIZE with 222. lia. }
    destruct (surb_drawn_at _ _ _ _ _ _ _ _ Hrt Hs0 Hidl Es) as (H1 & H2 & H3 & -> & H5).
    apply out_bind_Val in H as (dl & _ & H). destruct (Hset keys) as [Ek Hks2]. rewrite Ek, after_after in H.
    replace (i + 16 + length ks' + (32 + n' + 32)) with (i + surb_draws_n) in H by (unfold surb_draws_n; lia).
    apply IH in H as (surbs & -> & -> & Hl & Hk & Hf); [|exact Hks2| |exact Hoff].
    2:{ rewrite put_length; [done|]. rewrite H3, Hfr. exact Ho. }
    exists (surb :: surbs). split_and!.
    - done.
    - cbn [length]. f_equal. lia.
    - by constructor.
    - done.
    - cbn [length surb_places]. constructor; [|exact Hf].
      unfold surb_drawn. cbn [pl_id pl_path pl_secret pl_shared]. fold rt. rewrite bytes_after in H1, H2.
      rewrite Nat.add_0_r in H1. rewrite <- Hid. done.
  Qed.

  Lemma packets_drawn mid bs : forall i st r st',
    Forall blueprint_ok bs -> Forall (fun b => fb_last_index b < 65536 /\ fb_index b < 65536)%N bs ->
    ks_ok (sst_keystore (pst_surb st)) ->
    post_request_loop pr cf rb mid bs st (after r i) = Val (st', Ok tt) ->
    exists ps, aq_queue (pst_queue st') = aq_queue (pst_queue st) ++ ps /\
      Forall2 (packet_drawn pr nodes key ks ks' out back r)
        (packet_places i (map (fun b => N.to_nat (fb_num_surbs b)) bs)) ps.
  Proof.
    induction bs as [|b bs IH]; intros i st r st' Hbs Hix Hks H; cbn [post_request_loop] in H.
    { assert (st = st') as <- by congruence. exists []. split; [by rewrite app_nil_r|constructor]. }
    apply Forall_cons in Hbs as [(Hwf & Hid & Hfit) Hbs]. apply Forall_cons in Hix as [[Hix1 Hix2] Hix].
    apply out_bind_Val in H as ([sst res] & Eb & H). destruct res as [[[packet metrics] r1]|e]; [|congruence].
    unfold rb_build_packet in Eb. cbn [rb_route_generator rb_destination_index] in Eb. rewrite Hgo in Eb.
    cbn [out_bind] in Eb. rewrite after_after in Eb.
    set (rt := out (draws (after r i) ks)) in *.
    assert (Hrt : permitted g (RkToMixnode d) h rt).
    { destruct Hout as (Hp & Hb & _). apply Hb. by apply draws_lt. }
    destruct (tp_index_to_peer_id _ _) as [peer|e] eqn:Epeer; [|congruence]. cbv zeta in Eb.
    apply out_bind_Val in Eb as ([s2 written] & Ew & Eb). destruct written as [[data r3]|e]; [|congruence].
    apply out_bind_Val in Eb as ([[pk dl] r4] & Ec & Eb).
    assert (s2 = sst) as -> by congruence. assert (r4 = r1) as -> by congruence.
    assert (packet = AddressedPacket peer pk) as -> by congruence. clear Eb.
    rewrite payload_of_default in Ew. unfold write_fragment in Ew.
    pose proof (replicate_length (N.to_nat 2048) 0%N) as Hz. revert Hz Ew.
    generalize (replicate (N.to_nat 2048) 0%N). intros z Hz Ew.
    assert (Hns : (fb_num_surbs b <= 9)%N) by lia.
    apply out_bind_Val in Ew as (frag & Efrag & Ew).
    assert (Hfl : length frag = N.to_nat 2048).
    { rewrite write_except_surbs_spec in Efrag by (done || lia).
      injection Efrag as <-. rewrite !app_length, drop_length, Hz, Hid. cbn [length]. lia. }
    apply write_surbs_drawn in Ew as (surbs & -> & -> & Hsl & Hks2 & Hsd); [|done|exact Hfl|].
    2:{ rewrite fb_surb_offsets_spec by done. apply Forall_forall. intros x Hx.
        apply elem_of_list_In, in_map_iff in Hx as (j & <- & Hj). apply in_seq in Hj. lia. }
    assert (Hol : length (fb_surb_offsets b) = N.to_nat (fb_num_surbs b))
      by (by rewrite fb_surb_offsets_spec, map_length, seq_length by done).
    rewrite Hol in Hsd, Ec.
    assert (Hnl : N.of_nat (length surbs) = fb_num_surbs b).
    { apply Forall2_length in Hsd. rewrite <- Hsd. clear. 
      assert (Hl : forall k i, length (surb_places i k) = k) by (induction k; intros; cbn; [done|]; by rewrite IHk).
      rewrite Hl. lia. }
    destruct (fill_spec b z surbs) as (pad & Hpad & Ef); [done..|].
    unfold fill in Ef. rewrite Efrag in Ef. cbn [out_bind] in Ef.
    set (f := frag_bytes _ _ _ _ _ _) in Ef. assert (put_surbs frag (fb_surb_offsets b) surbs = f) as Ef' by congruence.
    rewrite Ef' in Ec. clear Ef.
    assert (Hf : length f = N.to_nat 2048) by (by apply frag_bytes_length).
    rewrite packet_of_default in Ec by done.
    destruct (request_drawn _ _ _ _ _ _ Hrt Hf Ec) as (H1 & -> & H3).
    rewrite after_after in H. rewrite bytes_after, Nat.add_0_r in H1.
    apply out_bind_Val in H as (q & Eq & H). apply out_bind_Val in H as (dm & _ & H).
    unfold aq_push in Eq. apply out_bind_Val in Eq as (_ & _ & Eq).
    apply IH in H as (ps & Hq & Hps); [|done|done|exact Hks2]. cbn [pst_surb pst_queue] in *.
    exists (AddressedPacket peer pk :: ps). split.
    - rewrite Hq. assert (aq_queue q = aq_queue (pst_queue st) ++ [AddressedPacket peer pk]) as ->.
      { injection Eq as <-. done. }
      by rewrite <- app_assoc.
    - cbn [map packet_places]. constructor; [|exact Hps].
      unfold packet_drawn. cbn [pp_path pp_surbs pp_secret ap_packet ap_peer_id]. fold rt. split_and!.
      + exact H1.
      + unfold tp_index_to_peer_id in Epeer. cbn. destruct (tp_mixnodes (rg_topology g) !! _) as [x|]; [|done]. cbn. congruence.
      + exists f. split; [exact H3|].
        assert (Hfs : sp_surbs f = surbs) by (by apply frag_bytes_surbs). by rewrite Hfs.
  Qed.
End draws.

Lemma enough_back g d h : enough_mixnodes g (RkToMixnode d) h -> enough_mixnodes g (RkFromMixnode d) h.
Proof. done. Qed.

Section paths.
  Context (pr : prims) (Hok : prims_ok pr) (cf : config).

  (** C86: there are fixed places of the random output such that, whatever that output is, the path of
      each packet of an accepted request, and of each of its SURBs, is chosen by what is found in its
      place, among all that are permitted; no two of these places overlap, nor do they overlap the
      places of the ids and secrets. *)
  Theorem C86_paths hist m index d id data k ns rel s key r0 m0 dest0 mt0 :
    reachable pr cf hist m -> args_ok id data k -> length (ns_local_peer_id ns) = 32 ->
    usable m index rel s -> honest pr (se_topology s) key ->
    (* the request is not refused *)
    post_request pr m index (Some d) id data k ns r0 = Val (m0, dest0, Ok mt0) ->
    exists g ks ks' out back places,
      rg_new (se_topology s) ns = Val g /\
      choice ks out (permitted g (RkToMixnode d) (cf_num_hops cf)) /\
      choice ks' back (permitted g (RkFromMixnode d) (cf_num_hops cf)) /\
      apart 0 (concat (map (packet_spans (length ks) (length ks')) places)) /\
      N.of_nat (length (concat (map pp_surbs places))) = k /\ needs (data_len data) k (length places) /\
      forall r m' dest mt, post_request pr m index (Some d) id data k ns r = Val (m', dest, Ok mt) ->
        exists s' packets, ss_get (mx_sessions m') rel = SlFull s' /\
          aq_queue (se_authored s') = aq_queue (se_authored s) ++ packets /\
          Forall2 (packet_drawn pr (tp_mixnodes (se_topology s)) key ks ks' out back r) places packets.
  Proof.
    intros Hr Hargs Hns Hu Hkey H0. destruct (reachable_mx_ok pr Hok _ _ _ Hr) as [Hcf Hm].
    pose proof (mx_posting pr cf m Hcf Hm) as (Hh & Hks & Htop).
    pose proof (mo_config _ _ _ Hm) as Ecf. rewrite Ecf in Hh.
    assert (Hargs2 := Hargs). destruct Hargs2 as (Hid & Hwf & Hd & Hs).
    assert (Hget : ss_get (mx_sessions m) rel = SlFull s) by (destruct Hu as [_ Hu]; by destruct rel).
    pose proof (Htop rel s Hget) as Ht.
    destruct (C25_generator (se_topology s) ns Ht) as (g & Eg & Hg & Etop & Epeer & _).
    (* what does not depend on the random numbers *)
    destruct (fragment_blueprints id data k) as [[bs|]|] eqn:Eb.
    2:{ unfold post_request in H0. rewrite Eb in H0. done. }
    2:{ unfold post_request in H0. rewrite Eb in H0. done. }
    assert (Hpost : forall r m' dest mt, post_request pr m index (Some d) id data k ns r = Val (m', dest, Ok mt) ->
      exists st, post_request_loop pr cf (RequestBuilder g d) id bs
                   {| pst_surb := SurbState (mx_keystore m) 0 delay_zero; pst_queue := se_authored s;
                      pst_request_hops := 0; pst_request_delay := delay_zero |} r = Val (st, Ok tt) /\
        ss_get (mx_sessions m') rel = SlFull (se_set_authored s (pst_queue st))).
    { intros r m' dest mt H. unfold post_request in H. rewrite Eb in H. cbn [out_bind] in H.
      destruct (_ <? _)%N; [congruence|].
      pose proof (post_session_spec m index) as Hps.
      destruct (post_session _ _ _) as [[rel' s1]|e] eqn:Es; [|congruence].
      destruct (usable_unique _ _ _ _ _ _ Hps Hu) as [-> ->].
      destruct (aq_check_space _ _); [|congruence].
      unfold rb_new in H. rewrite Eg in H. cbn [out_bind try_bind] in H. rewrite Ecf in H.
      apply out_bind_Val in H as ([st res] & El & H). cbv zeta in H. destruct res as [[]|e]; [|congruence].
      apply out_bind_Val in H as (fd & _ & H). apply out_bind_Val in H as (qd & _ & H).
      exists st. split; [exact El|].
      match type of H with Val (?a, _, _) = _ => assert (m' = a) as -> by congruence end.
      unfold mx_put_session, mx_set_sessions. cbn. by destruct rel. }
    pose proof (needs_blueprints _ _ _ _ Hwf Hd Hs Eb) as Hn.
    destruct (Hpost _ _ _ _ H0) as (st0 & E0 & _).
    destruct bs as [|b bs'] eqn:Ebs; [destruct Hn as [Hn _]; cbn in Hn; lia|]. rewrite <- Ebs in *.
    assert (Hfirst : exists rt r', gen_route g (RkToMixnode d) (cf_num_hops cf) r0 = Val (Ok (rt, r'))).
    { rewrite Ebs in E0. cbn [post_request_loop] in E0.
      apply out_bind_Val in E0 as ([sst res] & E1 & E0). destruct res as [[[packet metrics] r1]|e]; [|congruence].
      unfold rb_build_packet in E1. apply out_bind_Val in E1 as (rres & Er & E1).
      destruct rres as [[rt r2]|e]; [|congruence]. by exists rt, r2. }
    destruct Hfirst as (rt0 & r0' & Er0).
    pose proof (gen_route_to_valid _ _ _ _ _ _ Er0) as Hv.
    destruct (C29_route g (RkToMixnode d) (cf_num_hops cf) r0 Hg Hv Hh) as (Hr1 & _ & Hr3).
    assert (Hng : ~ no_gateway g) by (intros Hx; rewrite (Hr1 Hx) in Er0; congruence).
    assert (Hdec : enough_mixnodes g (RkToMixnode d) (cf_num_hops cf) \/
      ~ enough_mixnodes g (RkToMixnode d) (cf_num_hops cf)) by (unfold enough_mixnodes; lia).
    destruct Hdec as [Hen|Hen]; [|rewrite (Hr3 Hng Hen) in Er0; congruence].
    destruct (C62_uniform g (RkToMixnode d) _ Hg Hv Hh Hng Hen) as [ks Hku].
    destruct (C62_uniform g (RkFromMixnode d) _ Hg Hv Hh Hng (enough_back _ _ _ Hen)) as [ks' Hku'].
    destruct (uniform_choice _ _ _ Hku) as (out & Hout & Hgo).
    destruct (uniform_choice _ _ _ Hku') as (back & Hback & Hgb).
    (* a path of each kind, for the size of the headers *)
    assert (Hp1 : permitted g (RkToMixnode d) (cf_num_hops cf) (out (draws r0 ks))).
    { destruct Hout as (Hp & Hb & _). apply Hb. by apply draws_lt. }
    assert (Hp2 : permitted g (RkFromMixnode d) (cf_num_hops cf) (back (draws r0 ks'))).
    { destruct Hback as (Hp & Hb & _). apply Hb. by apply draws_lt. }
    set (n := 140 - PHeader.room (rt_targets (out (draws r0 ks))) KRequest).
    set (n' := 140 - PHeader.room (rt_targets (back (draws r0 ks'))) (KReply id)).
    exists g, ks, ks', out, back, (packet_places ks ks' n n' 0 (map (fun b => N.to_nat (fb_num_surbs b)) bs)).
    split_and!; [done|done|done| | | |].
    - apply (apart_packets g); [congruence|lia].
    - destruct (C02_minimal id data k bs Hwf Hd Hs Eb) as [[_ [_ Hsum]] _].
      apply surbs_sum in Hsum.
      assert (Hl : forall l i, length (concat (map pp_surbs (packet_places ks ks' n n' i l))) = sum_list l).
      { assert (Hl1 : forall j i, length (surb_places ks' n' i j) = j)
          by (clear; induction j; intros; cbn; [done|]; by rewrite IHj).
        clear -Hl1. induction l as [|x l IH]; intros i; [done|]. cbn [packet_places map concat pp_surbs sum_list].
        by rewrite app_length, Hl1, IH. }
      rewrite Hl, Hsum. lia.
    - assert (Hl : forall l i, length (packet_places ks ks' n n' i l) = length l)
        by (clear; induction l; intros; cbn; [done|]; by rewrite IHl).
      by rewrite Hl, map_length.
    - intros r m' dest mt H. destruct (Hpost _ _ _ _ H) as (st & E & Es). exists (se_set_authored s (pst_queue st)).
      rewrite <- (after_0 r) in E.
      apply (packets_drawn pr Hok g d cf key Hg ltac:(congruence) ltac:(by rewrite Etop) ks ks' out back Hout Hgo Hback Hgb n n')
        in E as (ps & Hq & Hps).
      + exists ps. rewrite <- Etop. split_and!; [done|exact Hq|exact Hps].
      + intros rt Hrt. unfold n. f_equal. by eapply room_same.
      + intros rt i Hrt Hi. unfold n'. f_equal. eapply room_same; [|done|done]. cbn. by rewrite Hi, Hid.
      + by eapply blueprints_ok.
      + unfold data_len in Hd. 
        destruct (fragment_blueprints_spec id data k Hwf Hd Hs) as (z & _ & Hz1 & [[_ E']|(Hz & bs2 & E' & Hlb & _ & _ & Hcat & Hb)]);
          rewrite Eb in E'; [done|]. injection E' as <-.
        apply Forall_lookup. intros j b0 Hj. destruct (Hb j b0 Hj) as (_ & -> & ->). apply lookup_lt_Some in Hj. lia.
      + exact Hks.
  Qed.

  (** A destination left open is drawn first (C62_destination); the rest is as if it had been given. *)
  Theorem C86_open hist m index id data k ns r m' d mt :
    reachable pr cf hist m -> post_request pr m index None id data k ns r = Val (m', Some d, Ok mt) ->
    post_request pr m index (Some d) id data k ns (after r 1) = Val (m', Some d, Ok mt) /\
    exists rel s g, usable m index rel s /\ rg_new (se_topology s) ns = Val g /\
      choose_destination_index g r = Val (Ok (d, after r 1)).
  Proof.
    intros Hr H. destruct (reachable_mx_ok pr Hok _ _ _ Hr) as [Hcf Hm].
    pose proof (mx_posting pr cf m Hcf Hm) as (Hh & Hks & Htop).
    unfold post_request in *. destruct (fragment_blueprints id data k) as [[bs|]|]; [|done..]. cbn [out_bind] in *.
    destruct (_ <? _)%N; [congruence|].
    pose proof (post_session_spec m index) as Hps.
    destruct (post_session _ _ _) as [[rel s]|e] eqn:Es; [|congruence].
    pose proof (usable_get _ _ _ _ Hps) as Hget. pose proof (Htop rel s Hget) as Ht.
    destruct (aq_check_space _ _); [|congruence].
    destruct (C25_generator (se_topology s) ns Ht) as (g & Eg & Hg & Etop & Epeer & _).
    unfold rb_new in *. rewrite Eg in *. cbn [out_bind try_bind] in *.
    destruct (C29_destination g r Hg) as (Ha & Hb & Hc). cbv zeta in *.
    match type of Hc with ?n ≤ ?k => destruct (decide (n = k)) as [Heq|Hne] end.
    { rewrite (Ha Heq) in H. cbn [out_bind try_bind] in H. congruence. }
    destruct (Hb ltac:(lia)) as (d' & Ed & _). rewrite Ed in H. cbn [out_bind try_bind] in H. rewrite draw_after in *.
    assert (Edd : d' = d).
    { apply out_bind_Val in H as ([st res] & El & H). cbv zeta in H. destruct res as [[]|e]; [|congruence].
      apply out_bind_Val in H as (fd & _ & H). apply out_bind_Val in H as (qd & _ & H).
      cbn [rb_destination_index] in H. congruence. }
    subst d'. split.
    - apply out_bind_Val in H as ([st res] & El & H). rewrite El. cbn [out_bind]. cbv zeta in *.
      destruct res as [[]|e]; [exact H|congruence].
    - exists rel, s, g. done.
  Qed.
End paths.
