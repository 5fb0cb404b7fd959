(** C84: a hop cannot tell how far on its path a packet is. *)
From Verif Require Export PSphinx PUniform.

(** ** Specification *)

(** Writing the MAC and the routing actions of a header, for given shared secrets: what [build_header]
    does after the key exchange (C84_built) *)
Definition write_header (pr : prims) (header : bytes) (ts : list target) (ss : list bytes)
    (k : packet_kind) (r : rng) : outcome (bytes * rng) :=
  let st := {| bs_buf := drop KX_PUBLIC_SIZE header; bs_offset := 0; bs_total_delay := delay_zero;
               bs_hops := []; bs_pad := replicate (ACTIONS_SIZE - RAW_ACTION_SIZE) 0%N |} in
  st ← forward_loop pr st ts ss;
  '(buf, r) ← last_hop pr st ss k r;
  '(buf, _) ← backward_loop pr buf (bs_pad st) (reverse (bs_hops st));
  Val (buf, r).
(** The same, in the form that [uniform] is about *)
Definition writing (pr : prims) (header : bytes) (ts : list target) (ss : list bytes)
    (k : packet_kind) (r : rng) : route_result bytes :=
  '(buf, r) ← write_header pr header ts ss k r; Val (Ok (buf, r)).

(** MAC and routing actions that take a packet through hops with shared secrets [ss] to the targets [ts]
    and finally tell [k] ([seen], in PHeader.v), and which are bytes, as far as they are not fixed by
    that: [room ts k] of the 140 bytes of routing actions are. *)
Definition works (pr : prims) (ts : list target) (ss : list bytes) (k : packet_kind) (buf : bytes) : Prop :=
  exists mac actions, buf = mac ++ actions /\ seen pr ts ss k mac actions /\
    Forall (fun b => (b < 256)%N) (take (140 - room ts k) (behind_last pr ts ss k actions)).

(** [reaches pr p sks q]: after hops with secret keys [sks] have forwarded packet [p], it is [q]. *)
Fixpoint reaches (pr : prims) (p : bytes) (sks : list bytes) (q : bytes) : Prop :=
  match sks with
  | [] => q = p
  | sk :: sks' => exists out p' t d, length out = PACKET_SIZE /\
      peel pr out p (derive_kx_shared_secret pr (kx_public p) sk) = (p', Ok (AForwardTo t d)) /\
      reaches pr p' sks' q
  end.

(** Given that the key [pub] gives the secrets [ss] at the hops of path [ts], a packet of kind [k] may
    be made as [p], whatever was in the buffer. *)
Definition may_be_made (pr : prims) (ts : list target) (ss : list bytes) (k : packet_kind)
    (pub payload p : bytes) : Prop :=
  exists r buf, p = pub ++ buf ++ payload /\
    forall header, length header = HEADER_SIZE ->
      exists r', write_header pr header ts ss k r = Val (buf, r').

(** ** Proof *)
Section proof.
  Context (pr : prims) (Hok : prims_ok pr).

  Lemma draws_fill n r : draws r (replicate n 256%N) = (rng_fill n r).1.
  Proof.
    revert r. induction n as [|n IH]; intros [t p]; [done|]. cbn [replicate draws rng_fill fst seq map].
    rewrite Nat.add_0_r. f_equal. rewrite IH. cbn [rng_fill rng_draw snd rng_tape rng_pos fst].
    rewrite <- seq_shift, map_map. apply map_ext. intros i. do 2 f_equal. lia.
  Qed.
  Lemma fill_after n r v r' : rng_fill n r = (v, r') -> r' = after r n.
  Proof. by intros [= _ <-]. Qed.

  Lemma written header ts ss k r :
    length header = HEADER_SIZE -> length ss = S (length ts) -> length ss ≤ 6 ->
    Forall target_ok ts -> kind_ok k -> room ts k ≤ 140 ->
    exists mac actions,
      let n := 140 - room ts k in
      write_header pr header ts ss k r = Val (mac ++ actions, after r n) /\
      seen pr ts ss k mac actions /\
      draws r (replicate n 256%N) = take n (behind_last pr ts ss k actions) /\
      Forall (fun b => (b < 256)%N) (take (140 - length (fin_block k)) (behind_last pr ts ss k actions)).
  Proof.
    intros Hh Hss Hmax Hts Hk Hroom. unfold write_header.
    set (st := {| bs_buf := _; bs_offset := _; bs_total_delay := _; bs_hops := _; bs_pad := _ |}).
    destruct (build_loops pr Hok ss k r ts ss st []) as (st'&hs&bufl&r'&M&E&pad'&F1&F2&F3&F4&F5&F6&F7&F8&F9&F10).
    { split; [cbn; rewrite drop_length; szlia|]. done. }
    { done. } { done. } { done. } { done. } { done. }
    { cbn. szlia. }
    rewrite F1. cbn [out_bind]. rewrite F4. cbn [out_bind].
    cbn [st bs_hops app] in F2. rewrite F2, F5. cbn [out_bind].
    exists M, E. rewrite app_nil_r in *. cbn [st bs_offset] in F9. rewrite Nat.sub_0_r in F9. cbn zeta in F9 |- *.
    split_and!.
    - cbn [st bs_offset bs_buf take app]. do 2 f_equal. by eapply fill_after.
    - done.
    - by rewrite draws_fill, F9.
    - by apply F10.
  Qed.

  Lemma rest_length ts : forall ss k mac actions,
    seen pr ts ss k mac actions -> length (behind_last pr ts ss k actions) = 190 - length (fin_block k).
  Proof.
    induction ts as [|t ts IH]; intros ss k mac actions; destruct ss as [|s ss]; try done.
    - destruct ss; [|done]. intros (Hl & _ & _). cbn [behind_last].
      by rewrite drop_length, routing_alt, apply_keystream_length, app_length, Hl.
    - intros (Hl & _ & mac' & actions' & rest & Hr & Hs). cbn [behind_last].
      apply seen_length in Hs as Hlen; [|done]. destruct Hlen as [Hm Ha].
      rewrite Hr, app_assoc, drop_app_alt, take_app_alt by (rewrite ?app_length; lia). by eapply IH.
  Qed.

  (** The routing actions are determined by the bytes that they do not fix. *)
  Lemma seen_inj ts : forall ss k j mac mac' A B,
    Forall target_ok ts -> seen pr ts ss k mac A -> seen pr ts ss k mac' B ->
    j + room ts k ≤ 140 -> drop (140 - j) A = drop (140 - j) B ->
    take (140 - j - room ts k) (behind_last pr ts ss k A) = take (140 - j - room ts k) (behind_last pr ts ss k B) ->
    mac = mac' /\ A = B.
  Proof.
    induction ts as [|t ts IH]; intros ss k j mac mac' A B Hts; destruct ss as [|s ss]; try done.
    - destruct ss; [|done]. intros (HA & HmA & rA & HrA) (HB & HmB & rB & HrB) Hroom Hd Hr.
      cbn [behind_last room foldr] in *.
      assert (A = B) as ->; [|by subst].
      rewrite <- (take_drop (140 - j) A), <- (take_drop (140 - j) B). f_equal; [|done].
      rewrite HrA, HrB, !drop_app in Hr.
      set (ks := actions_keystream pr (sds_actions_encryption_key (small_derived_secrets pr s)) 190).
      assert (Ht : forall X, length X = 140 -> take (140 - j) X = apply_keystream (take (140 - j) (routing pr X s)) ks).
      { intros X HX. rewrite routing_alt. fold ks. rewrite apply_keystream_take, apply_keystream_invol.
        by rewrite take_app_le by lia. }
      rewrite (Ht A HA), (Ht B HB), HrA, HrB. f_equal.
      rewrite !take_app_ge by lia. by f_equal.
    - intros (HA & HmA & MA & A' & rA & HrA & HsA) (HB & HmB & MB & B' & rB & HrB & HsB) Hroom Hd Hr.
      apply Forall_cons in Hts as [Ht Hts].
      cbn [behind_last room foldr] in *. fold (room ts k) in *. set (blk := fwd_block t) in *.
      pose proof (seen_length pr Hok _ _ _ _ _ HsA) as [HMA HA'].
      pose proof (seen_length pr Hok _ _ _ _ _ HsB) as [HMB HB'].
      assert (Ha : length blk + 16 ≤ 50).
      { unfold blk. destruct t; cbn [fwd_block]; rewrite ?app_length, length_to_le16; cbn in Ht; lia. }
      set (a := length blk + 16) in *.
      assert (Hsub : forall X M X' rX, routing pr X s = blk ++ M ++ X' ++ rX -> length M = 16 -> length X' = 140 ->
                take 140 (drop a (routing pr X s)) = X').
      { intros X M X' rX E HM HX. rewrite E, app_assoc, drop_app_alt by (rewrite app_length; unfold a; lia).
        by rewrite take_app_alt by done. }
      rewrite (Hsub _ _ _ _ HrA HMA HA'), (Hsub _ _ _ _ HrB HMB HB') in Hr.
      set (ks := actions_keystream pr (sds_actions_encryption_key (small_derived_secrets pr s)) 190).
      assert (Hend : forall X M X' rX, length X = 140 -> routing pr X s = blk ++ M ++ X' ++ rX ->
                length M = 16 -> length X' = 140 ->
                drop (140 - (j + a)) X' =
                  take (j + a) (apply_keystream (drop (140 - j) X ++ replicate 50 0%N) (drop (140 - j) ks))).
      { intros X M X' rX HX E HM HX'.
        assert (Ed : drop (140 - j) (routing pr X s) =
                  apply_keystream (drop (140 - j) X ++ replicate 50 0%N) (drop (140 - j) ks)).
        { rewrite routing_alt. fold ks. rewrite <- (take_drop (140 - j) X) at 1. rewrite <- app_assoc, apply_keystream_app.
          assert (Hl : length (take (140 - j) X) = 140 - j) by (rewrite take_length; lia).
          rewrite drop_app_alt by (by rewrite apply_keystream_length). by rewrite Hl. }
        rewrite <- Ed, E, app_assoc.
        assert (Hbm : length (blk ++ M) = a) by (rewrite app_length; unfold a; lia).
        rewrite drop_app_ge, Hbm by lia. replace (140 - j - a) with (140 - (j + a)) by lia.
        rewrite drop_app_le by lia.
        rewrite take_app_alt by (rewrite drop_length; lia). done. }
      destruct (IH ss k (j + a) MA MB A' B') as [-> ->]; [done|done|done|lia| | |].
      { by rewrite (Hend _ _ _ _ HA HrA HMA HA'), (Hend _ _ _ _ HB HrB HMB HB'), Hd. }
      { replace (140 - (j + a) - room ts k) with (140 - j - (length blk + 16 + room ts k)) by (unfold a; lia). done. }
      assert (A = B) as ->; [|by subst].
      assert (Hx : forall X, length X = 140 -> X = apply_keystream (take 140 (routing pr X s)) ks).
      { intros X HX. rewrite routing_alt. fold ks. rewrite apply_keystream_take, apply_keystream_invol.
        by rewrite take_app_alt by done. }
      rewrite (Hx A HA), (Hx B HB), HrA, HrB. f_equal.
      rewrite !app_assoc, !(take_app_le (_ ++ B')); [done|rewrite !app_length; lia..].
  Qed.

  Lemma works_made header ts ss k mac actions :
    length header = HEADER_SIZE -> length ss = S (length ts) -> length ss ≤ 6 ->
    Forall target_ok ts -> kind_ok k -> room ts k ≤ 140 -> seen pr ts ss k mac actions ->
    let n := 140 - room ts k in let fill := take n (behind_last pr ts ss k actions) in
    length fill = n /\
    forall r, (exists r', write_header pr header ts ss k r = Val (mac ++ actions, r')) <->
              draws r (replicate n 256%N) = fill.
  Proof.
    intros Hh Hss Hmax Hts Hk Hroom Hs n fill. split.
    { unfold fill. rewrite take_length, (rest_length _ _ _ _ _ Hs). pose proof (room_fin ts k).
      unfold n. lia. }
    intros r. destruct (written header ts ss k r Hh Hss Hmax Hts Hk Hroom) as (mac' & actions' & E & Hs' & Hd & _).
    fold n in E, Hd. cbn zeta in E, Hd. rewrite E, Hd. split.
    - intros [r' E']. assert (Eb : mac' ++ actions' = mac ++ actions) by congruence.
      apply app_inj_1 in Eb as [_ ->]; [done|].
      apply (seen_length pr Hok) in Hs as [-> _]. by apply (seen_length pr Hok) in Hs' as [-> _].
    - intros Hf. destruct (seen_inj ts ss k 0 mac' mac actions' actions) as [-> ->]; [done|done|done|lia| | |].
      + apply (seen_length pr Hok) in Hs as [_ Hl]. apply (seen_length pr Hok) in Hs' as [_ Hl'].
        rewrite !drop_ge by lia. done.
      + rewrite Nat.sub_0_r. exact Hf.
      + eauto.
  Qed.

  (** One hop *)
  Lemma seen_peel k t ts sk ss pub mac actions payload out :
    let s := derive_kx_shared_secret pr pub sk in
    length pub = 32 -> length payload = PAYLOAD_SIZE -> target_ok t -> length out = PACKET_SIZE ->
    seen pr (t :: ts) (s :: ss) k mac actions ->
    exists mac' actions',
      peel pr out (pub ++ mac ++ actions ++ payload) s =
        (blind_kx_public pr pub s ++ mac' ++ actions' ++
           pr_lioness_decrypt pr (derive_payload_encryption_key pr s) payload,
         Ok (AForwardTo t (hop_delay pr s))) /\
      seen pr ts ss k mac' actions' /\
      behind_last pr (t :: ts) (s :: ss) k actions = behind_last pr ts ss k actions'.
  Proof.
    intros s Hpub Hpl Ht Hout Hseen.
    pose proof Hseen as [Hmac Hact]%(seen_length pr Hok).
    destruct Hseen as (_ & Hm & mac' & actions' & rest & Hrt & Hseen).
    destruct (parts pub mac actions payload) as (Hp & Hkx & Hkx' & Hpm & Hpa & Hpp); [done..|].
    set (p := pub ++ mac ++ actions ++ payload) in *.
    pose proof Hseen as [Hmac' Hact']%(seen_length pr Hok).
    exists mac', actions'. split; [|split; [done|]].
    2:{ cbn [behind_last]. rewrite Hrt, app_assoc, drop_app_alt, take_app_alt by (rewrite ?app_length; lia). done. }
    rewrite PACKET_SIZE_eq in Hout.
    rewrite (peel_eq pr Hok) by done. cbv zeta.
    rewrite decide_True by (unfold good_mac; by rewrite Hpm, Hpa).
    unfold action_code, next_packet, plain_payload. rewrite Hpa, Hkx', Hpp, Hrt.
    set (pub' := blind_kx_public pr pub s).
    destruct t as [i|peer]; cbn in Ht; unfold fwd_block.
    + change (take 2 (to_le16 i ++ mac' ++ actions' ++ rest)) with (to_le16 i).
      rewrite from_to_le16 by lia.
      repeat match goal with
      | |- context [(i =? ?k)%N] => rewrite (proj2 (N.eqb_neq i k)) by lia
      end.
      rewrite (proj2 (N.leb_le i 65279)) by lia.
      f_equal. fold pub'. f_equal.
      rewrite (app_assoc mac' actions' rest).
      rewrite slice_at by (rewrite ?app_length; done || lia). by rewrite <- app_assoc.
    + rewrite <- (app_assoc (to_le16 65280)).
      change (take 2 (to_le16 65280 ++ peer ++ mac' ++ actions' ++ rest)) with (to_le16 65280).
      change (from_le16 (to_le16 65280)) with 65280%N.
      change (65280 =? 65281)%N with false. change (65280 =? 65282)%N with false.
      change (65280 =? 65283)%N with false. change (65280 =? 65284)%N with false.
      change (65280 =? 65280)%N with true. cbn match.
      f_equal; [|f_equal; f_equal; f_equal; by apply slice_at].
      fold pub'. f_equal. rewrite (app_assoc (to_le16 65280)), (app_assoc mac' actions' rest).
      rewrite slice_at; [by rewrite <- app_assoc| |]; rewrite !app_length, ?length_to_le16; lia.
  Qed.

  Lemma reaches_seen k i : forall ts sks pub mac actions payload q,
    i ≤ length ts -> length sks = S (length ts) -> Forall target_ok ts ->
    length pub = 32 -> length payload = PAYLOAD_SIZE ->
    seen pr ts (hop_secrets pr pub sks) k mac actions ->
    reaches pr (pub ++ mac ++ actions ++ payload) (take i sks) q ->
    exists pub' mac' actions',
      length pub' = 32 /\
      q = pub' ++ mac' ++ actions' ++ dec_layers pr payload (take i (hop_secrets pr pub sks)) /\
      hop_secrets pr pub' (drop i sks) = drop i (hop_secrets pr pub sks) /\
      seen pr (drop i ts) (drop i (hop_secrets pr pub sks)) k mac' actions' /\
      behind_last pr (drop i ts) (drop i (hop_secrets pr pub sks)) k actions' =
        behind_last pr ts (hop_secrets pr pub sks) k actions.
  Proof.
    induction i as [|i IH]; intros ts sks pub mac actions payload q Hi Hlen Hts Hpub Hpl Hs Hr.
    - rewrite take_0 in Hr |- *. change (q = pub ++ mac ++ actions ++ payload) in Hr. subst q.
      exists pub, mac, actions. by rewrite !drop_0.
    - destruct ts as [|t ts]; [cbn in Hi; lia|]. destruct sks as [|sk sks]; [done|].
      apply Forall_cons in Hts as [Ht Hts].
      rewrite hop_secrets_cons in *. set (s := derive_kx_shared_secret pr pub sk) in *.
      set (ss := hop_secrets pr (blind_kx_public pr pub s) sks) in *.
      cbn [take reaches] in Hr. destruct Hr as (out & p' & t' & d & Hout & Hp & Hr).
      pose proof Hs as [Hmac Hact]%(seen_length pr Hok).
      destruct (parts pub mac actions payload) as (_ & Hkx & _); [done..|].
      rewrite Hkx in Hp. fold s in Hp.
      destruct (seen_peel k t ts sk ss pub mac actions payload out Hpub Hpl Ht Hout Hs)
        as (mac' & actions' & E & Hs' & Hrest).
      fold s in E. rewrite E in Hp. injection Hp as <- _ _.
      destruct (IH ts sks (blind_kx_public pr pub s) mac' actions'
        (pr_lioness_decrypt pr (derive_payload_encryption_key pr s) payload) q)
        as (pub2 & mac2 & actions2 & H1 & H2 & H3 & H4 & H5); [cbn in Hi; lia|by injection Hlen|done| | |done|done|].
      { apply (blind_length pr Hok). }
      { by apply (lioness_decrypt_length _ Hok). }
      fold ss in H2, H3, H4, H5. exists pub2, mac2, actions2. cbn [drop take]. split_and!; [done|exact H2|done|done|].
      by rewrite H5.
  Qed.

  Lemma room_drop i ts k : room (drop i ts) k ≤ room ts k.
  Proof.
    revert i. induction ts as [|t ts IH]; intros [|i]; cbn [drop room foldr]; try done.
    specialize (IH i). fold (room ts k) (room (drop i ts) k). unfold room in *. lia.
  Qed.

  Lemma enc_dec_some payload ss i :
    length payload = PAYLOAD_SIZE ->
    dec_layers pr (encrypt_payload_layers pr payload (reverse ss)) (take i ss) =
      encrypt_payload_layers pr payload (reverse (drop i ss)).
  Proof.
    intros Hp. revert i. induction ss as [|s ss IH]; intros [|i]; try done.
    cbn [take drop]. unfold encrypt_payload_layers at 1. rewrite reverse_cons, foldl_app. cbn [foldl].
    fold (encrypt_payload_layers pr payload (reverse ss)). cbn [dec_layers foldl]. unfold encrypt_payload.
    rewrite (lioness_decrypt_encrypt _ Hok) by (by apply enc_dec_layers). apply IH.
  Qed.

  (** ** Theorems *)

  (** C84, the header: for given secrets, [write_header] draws a number of bytes that depends on the path
      and the kind only, makes a header that works, and makes each header that works for exactly one
      choice of these bytes. *)
  Theorem C84_uniform (header : bytes) ts ss k :
    length header = HEADER_SIZE -> path_ok ts ss -> kind_ok k ->
    uniform (writing pr header ts ss k) (replicate (140 - room ts k) 256%N) (works pr ts ss k).
  Proof.
    intros Hh Hpath Hk. pose proof Hpath as (Hl & Hm & Hts & _).
    assert (Hroom : room ts k ≤ 140) by by eapply path_ok_room.
    split_and!.
    - apply Forall_replicate. lia.
    - intros r. destruct (written header ts ss k r Hh Hl Hm Hts Hk Hroom) as (mac & actions & E & Hs & Hd & _).
      exists (mac ++ actions). cbn zeta in E. unfold writing. rewrite E. cbn [out_bind]. rewrite replicate_length.
      split; [done|]. exists mac, actions. split_and!; [done|done|]. cbn zeta in Hd. rewrite <- Hd, draws_fill.
      apply rng_fill_bytes.
    - intros buf (mac & actions & -> & Hs & Hb).
      destruct (works_made header ts ss k mac actions Hh Hl Hm Hts Hk Hroom Hs) as [Hfl Hiff]. cbn zeta in Hfl, Hiff.
      eexists. split.
      2:{ intros r. rewrite <- (Hiff r). unfold writing. split.
          - intros [r' E]. destruct (write_header _ _ _ _ _ _) as [[b r2]|]; [|done]. cbn [out_bind] in E.
            exists r2. f_equal. f_equal. congruence.
          - intros [r' E]. rewrite E. cbn [out_bind]. by exists r'. }
      apply Forall2_same_length_lookup_2; [by rewrite replicate_length|].
      intros i x y Hx [-> _]%lookup_replicate. rewrite Forall_lookup in Hb. by eapply Hb.
  Qed.

  (** C84, the sender: this is how packets are made. *)
  Theorem C84_built (header : bytes) ts sks k r h ss total r' :
    path_ok ts sks -> length header = HEADER_SIZE -> kind_ok k ->
    build_header pr header ts (map (derive_kx_public pr) sks) k r = Val (h, ss, total, r') ->
    exists pub r1 buf, length pub = 32 /\ ss = hop_secrets pr pub sks /\ h = pub ++ buf /\
      gen_kx_public_and_shared_secrets pr (map (derive_kx_public pr) sks) r = Val (pub, ss, r1) /\
      write_header pr header ts ss k r1 = Val (buf, r').
  Proof.
    intros (Hl & Hm & Hts & _) Hh Hk. unfold build_header. rewrite map_length.
    rewrite bool_decide_eq_true_2 by lia. cbn [assert_or_panic out_bind].
    rewrite bool_decide_eq_true_2 by szlia. cbn [assert_or_panic out_bind].
    destruct (C14_key_agreement pr Hok sks r Hm) as (pub&r1&E1&Hpub&_). rewrite E1. cbn [out_bind].
    unfold write_header. intros E.
    match type of E with context [forward_loop pr ?st ?ts ?ss] => destruct (forward_loop pr st ts ss) as [st'|] eqn:F1 end; [|done].
    cbn [out_bind] in E. destruct (last_hop _ _ _ _ _) as [[b r2]|] eqn:F2; [|done]. cbn [out_bind] in E.
    destruct (backward_loop _ _ _ _) as [[b2 pad]|] eqn:F3; [|done]. cbn [out_bind] in E.
    injection E as <- <- _ <-. exists pub, r1, b2. rewrite F1. cbn [out_bind]. rewrite F2. cbn [out_bind]. rewrite F3. cbn [out_bind]. split_and!; try done.
    rewrite Hpub. apply (mont_mul_length _ Hok).
  Qed.

  Lemma on_the_way (header payload : bytes) ts sks k r h ss total r' i q :
    path_ok ts sks -> length header = HEADER_SIZE -> kind_ok k -> length payload = PAYLOAD_SIZE ->
    build_header pr header ts (map (derive_kx_public pr) sks) k r = Val (h, ss, total, r') ->
    i ≤ length ts -> reaches pr (h ++ payload) (take i sks) q ->
    hop_secrets pr (kx_public q) (drop i sks) = drop i ss /\
    may_be_made pr (drop i ts) (drop i ss) k (kx_public q) (dec_layers pr payload (take i ss)) q.
  Proof.
    intros Hpath Hh Hk Hpl HB Hi Hr. pose proof Hpath as (Hl & Hm & Hts & _).
    assert (Hroom : room ts k ≤ 140) by by eapply path_ok_room.
    destruct (C84_built header ts sks k r h ss total r' Hpath Hh Hk HB) as (pub & r1 & buf & Hpub & -> & -> & _ & EW).
    set (ss := hop_secrets pr pub sks) in *.
    assert (Hss : length ss = S (length ts)) by (unfold ss; by rewrite hop_secrets_length).
    destruct (written header ts ss k r1 Hh Hss) as (mac & actions & E & Hs & _ & Hb); [lia|done..|].
    cbn zeta in E. rewrite E in EW. injection EW as <- _. rewrite <- !app_assoc in Hr.
    destruct (reaches_seen k i ts sks pub mac actions payload q Hi Hl Hts Hpub Hpl Hs Hr)
      as (pub' & mac' & actions' & Hpub' & -> & Esec & Hs' & Hrest).
    fold ss in Esec, Hs', Hrest |- *.
    pose proof (seen_length pr Hok _ _ _ _ _ Hs') as [Hmac' Hact'].
    destruct (parts pub' mac' actions' (dec_layers pr payload (take i ss))) as (_ & Hkx & _);
      [done|done|done|by apply (dec_layers_length pr Hok)|].
    rewrite Hkx. split; [exact Esec|].
    assert (Hroom' : room (drop i ts) k ≤ 140) by (pose proof (room_drop i ts k); lia).
    assert (Hss' : length (drop i ss) = S (length (drop i ts))) by (rewrite !drop_length; lia).
    assert (Hmax' : length (drop i ss) ≤ 6) by (rewrite drop_length; lia).
    assert (Hts' : Forall target_ok (drop i ts)) by by apply Forall_drop.
    set (n := 140 - room (drop i ts) k).
    set (fill := take n (behind_last pr (drop i ts) (drop i ss) k actions')).
    assert (Hfill : Forall2 N.lt fill (replicate n 256%N)).
    { apply Forall2_same_length_lookup_2.
      - rewrite replicate_length. unfold fill. rewrite take_length, (rest_length _ _ _ _ _ Hs').
        pose proof (room_fin (drop i ts) k). unfold n. lia.
      - intros j x y Hx [-> _]%lookup_replicate. rewrite Forall_lookup in Hb. apply (Hb j).
        rewrite <- Hrest. unfold fill in Hx. apply lookup_take_Some in Hx as [Hx Hj].
        rewrite lookup_take; [done|]. pose proof (room_fin (drop i ts) k). unfold n in Hj. lia. }
    destruct (draws_exist _ _ Hfill) as [r2 Hd].
    exists r2, (mac' ++ actions'). split; [by rewrite <- app_assoc|]. intros header' Hh'.
    destruct (works_made header' (drop i ts) (drop i ss) k mac' actions' Hh' Hss' Hmax' Hts' Hk Hroom' Hs')
      as [_ Hiff]. by apply Hiff.
  Qed.

  Lemma journey_reaches i : forall p sks fwd fin,
    journey pr p sks fwd fin -> i ≤ length fwd -> exists q, reaches pr p (take i sks) q.
  Proof.
    induction i as [|i IH]; intros p sks fwd fin HJ Hi.
    - exists p. by rewrite take_0.
    - destruct fwd as [|[t d] fwd]; [cbn in Hi; lia|]. destruct sks as [|sk sks]; [done|].
      rewrite journey_cons in HJ. destruct HJ as (_ & p' & Hp & HJ).
      destruct (IH p' sks fwd fin HJ) as [q Hq]; [cbn in Hi; lia|].
      exists q. cbn [take reaches]. exists (replicate PACKET_SIZE 0%N), p', t, d.
      split_and!; [by rewrite replicate_length|apply Hp; by rewrite replicate_length|done].
  Qed.

  (** C84, requests: whatever hop a request has got to, it is what a sender makes whose path begins
      there, carrying the same data, for the secrets of these hops and some random bytes. *)
  Theorem C84_request (header data tag : bytes) ts sks r p total r' i q :
    path_ok ts sks -> length header = HEADER_SIZE -> length data = PAYLOAD_DATA_SIZE ->
    length tag = PAYLOAD_TAG_SIZE ->
    complete_request_packet pr (header ++ data ++ tag) ts (map (derive_kx_public pr) sks) r =
      Val (p, total, r') ->
    i ≤ length ts -> reaches pr p (take i sks) q ->
    let ss := hop_secrets pr (kx_public q) (drop i sks) in
    may_be_made pr (drop i ts) ss KRequest (kx_public q)
      (encrypt_payload_layers pr (data ++ PAYLOAD_TAG) (reverse ss)) q.
  Proof.
    intros Hpath Hh Hd Ht E Hi Hr. pose proof Hpath as (Hl & Hm & Hts & _).
    unfold complete_request_packet in E. rewrite map_length in E.
    rewrite bool_decide_eq_true_2 in E by lia. cbn [assert_or_panic out_bind] in E.
    rewrite bool_decide_eq_true_2 in E by szlia. cbn [assert_or_panic out_bind] in E.
    rewrite take_app_alt in E by done. rewrite drop_app_alt in E by done.
    destruct (build_header _ _ _ _ _ _) as [[[[h ss] d] r2]|] eqn:EB; [|done]. cbn [out_bind] in E.
    rewrite put_tag in E by done. injection E as <- _ _.
    assert (Hpl : length (data ++ PAYLOAD_TAG) = PAYLOAD_SIZE) by (by rewrite app_length, Hd).
    destruct (on_the_way header (encrypt_payload_layers pr (data ++ PAYLOAD_TAG) (reverse ss))
      ts sks KRequest r h ss d r2 i q Hpath Hh I) as [Es Hmade]; [by apply enc_dec_layers|done|done|done|].
    cbn zeta. rewrite Es. by rewrite enc_dec_some in Hmade.
  Qed.

  (** C84, replies and cover packets: the same for their headers. *)
  Theorem C84_reply (surb0 : bytes) first ts sks id r surb keys total r' packet p j i q :
    path_ok ts sks -> length surb0 = SURB_SIZE -> length id = 16 -> length packet = PACKET_SIZE ->
    build_surb pr surb0 [] first ts (map (derive_kx_public pr) sks) id r = Val (surb, keys, total, r') ->
    complete_reply_packet pr packet surb = (p, j) ->
    i ≤ length ts -> reaches pr p (take i sks) q ->
    exists payload, may_be_made pr (drop i ts) (hop_secrets pr (kx_public q) (drop i sks)) (KReply id)
      (kx_public q) payload q.
  Proof.
    intros Hpath Hs0 Hid Hp E Ec Hi Hr. pose proof Hpath as (Hl & Hm & Hts & _).
    set (header0 := slice surb0 RAW_MIXNODE_INDEX_SIZE HEADER_SIZE).
    assert (Hh : length header0 = HEADER_SIZE).
    { unfold header0. apply slice_length. rewrite Hs0. unfold SURB_SIZE. szlia. }
    unfold build_surb in E. rewrite map_length in E.
    rewrite bool_decide_eq_true_2 in E by lia. cbn [assert_or_panic out_bind] in E.
    rewrite bool_decide_eq_true_2 in E by szlia. cbn [assert_or_panic out_bind] in E.
    fold header0 in E. destruct (build_header _ _ _ _ _ _) as [[[[h ss] d] r2]|] eqn:EB; [|done]. cbn [out_bind] in E.
    destruct (rng_fill SHARED_SECRET_SIZE r2) as [shared r3] eqn:Er.
    destruct (av_push _ _ _) as [ks1|]; [|done]. cbn [out_bind] in E.
    destruct (push_payload_keys _ _ _) as [ks2|]; [|done]. cbn [out_bind] in E.
    assert (surb = to_le16 first ++ h ++ shared) as -> by congruence. clear E.
    assert (Hhl : length h = HEADER_SIZE).
    { destruct (C84_built header0 ts sks (KReply id) r h ss d r2 Hpath Hh Hid EB) as (pub & r1 & buf & Hpub & -> & -> & _ & EW).
      destruct (written header0 ts (hop_secrets pr pub sks) (KReply id) r1 Hh) as (mac & actions & E & Hs & _);
        [by rewrite hop_secrets_length|by rewrite hop_secrets_length|done|done|by eapply path_ok_room|].
      cbn zeta in E. rewrite E in EW. injection EW as <- _. apply (seen_length pr Hok) in Hs as [H1 H2].
      rewrite !app_length. szlia. }
    unfold complete_reply_packet in Ec.
    replace (slice (to_le16 first ++ h ++ shared) RAW_MIXNODE_INDEX_SIZE HEADER_SIZE) with h in Ec
      by (symmetry; by apply slice_at).
    match type of Ec with (h ++ ?x, _) = _ => assert (p = h ++ x) as -> by congruence end. clear Ec.
    eapply (on_the_way _ _ _ _ (KReply id)) in Hr; [|exact Hpath|exact Hh|exact Hid| |exact EB|exact Hi].
    - destruct Hr as [Es Hmade]. rewrite Es. eauto.
    - apply (lioness_decrypt_length _ Hok). rewrite put_length.
      + rewrite drop_length. szlia.
      + rewrite drop_length. change (length PAYLOAD_TAG) with PAYLOAD_TAG_SIZE. szlia.
  Qed.
  Theorem C84_cover (packet : bytes) ts sks id r p total r' i q :
    path_ok ts sks -> length packet = PACKET_SIZE -> kind_ok (KCover id) ->
    build_cover_packet pr packet ts (map (derive_kx_public pr) sks) id r = Val (p, total, r') ->
    i ≤ length ts -> reaches pr p (take i sks) q ->
    exists payload, may_be_made pr (drop i ts) (hop_secrets pr (kx_public q) (drop i sks)) (KCover id)
      (kx_public q) payload q.
  Proof.
    intros Hpath Hp Hid E Hi Hr. pose proof Hpath as (Hl & Hm & Hts & _).
    unfold build_cover_packet in E. rewrite map_length in E.
    rewrite bool_decide_eq_true_2 in E by lia. cbn [assert_or_panic out_bind] in E.
    rewrite bool_decide_eq_true_2 in E by szlia. cbn [assert_or_panic out_bind] in E.
    destruct (build_header _ _ _ _ _ _) as [[[[h ss] d] r2]|] eqn:EB; [|done]. cbn [out_bind] in E.
    destruct (rng_fill PAYLOAD_SIZE r2) as [payload r3] eqn:Er. injection E as <- _ _.
    eapply (on_the_way _ _ _ _ (KCover id)) in Hr; [|exact Hpath| |exact Hid| |exact EB|exact Hi].
    - destruct Hr as [Es Hmade]. rewrite Es. eauto.
    - rewrite take_length. szlia.
    - pose proof (rng_fill_length PAYLOAD_SIZE r2) as H. by rewrite Er in H.
  Qed.

  (** Every hop of the path is reached. *)
  Lemma request_everywhere (header data tag : bytes) ts sks r :
    path_ok ts sks -> length header = HEADER_SIZE -> length data = PAYLOAD_DATA_SIZE ->
    length tag = PAYLOAD_TAG_SIZE ->
    exists p total r',
      complete_request_packet pr (header ++ data ++ tag) ts (map (derive_kx_public pr) sks) r =
        Val (p, total, r') /\
      forall i, i ≤ length ts -> exists q, reaches pr p (take i sks) q /\
        let ss := hop_secrets pr (kx_public q) (drop i sks) in
        may_be_made pr (drop i ts) ss KRequest (kx_public q)
          (encrypt_payload_layers pr (data ++ PAYLOAD_TAG) (reverse ss)) q.
  Proof.
    intros Hpath Hh Hd Ht. destruct (C08_request pr Hok header data tag ts sks r) as (p & total & r' & fwd & E & Hf & HJ);
      [done..|].
    exists p, total, r'. split; [exact E|]. intros i Hi.
    destruct (journey_reaches i p sks fwd _ HJ) as [q Hq]; [rewrite <- Hf, map_length in Hi; done|].
    exists q. split; [exact Hq|]. by eapply C84_request.
  Qed.
End proof.

(** ** Example: the request of six hops of PSphinx.v. At each hop it is as if the path began there; and
    the packet that gets to the sixth is made for a path of this hop alone with the bytes found in it. *)
Example ex_position :
  exists p total r',
    complete_request_packet toy_prims (replicate HEADER_SIZE 85%N ++ ex_data ++ replicate 16 99%N)
      ex_ts (map (derive_kx_public toy_prims) ex_sks) ex_rng = Val (p, total, r') /\
    forall i, i ≤ 5 -> exists q, reaches toy_prims p (take i ex_sks) q /\
      let ss := hop_secrets toy_prims (kx_public q) (drop i ex_sks) in
      may_be_made toy_prims (drop i ex_ts) ss KRequest (kx_public q)
        (encrypt_payload_layers toy_prims (ex_data ++ PAYLOAD_TAG) (reverse ss)) q.
Proof.
  exact (request_everywhere toy_prims toy_prims_ok (replicate HEADER_SIZE 85%N) ex_data (replicate 16 99%N) ex_ts ex_sks ex_rng ex_path_ok
    eq_refl eq_refl eq_refl).
Qed.

Fixpoint ex_carry (p : bytes) (sks : list bytes) : bytes :=
  match sks with
  | [] => p
  | sk :: sks' =>
      ex_carry (peel toy_prims (replicate PACKET_SIZE 170%N) p
                  (derive_kx_shared_secret toy_prims (kx_public p) sk)).1 sks'
  end.
Definition ex_alone (i : nat) : bool :=
  match complete_request_packet toy_prims (replicate HEADER_SIZE 85%N ++ ex_data ++ replicate 16 99%N)
          ex_ts (map (derive_kx_public toy_prims) ex_sks) ex_rng with
  | Val (p, _, _) =>
      let q := ex_carry p (take i ex_sks) in
      let ss := hop_secrets toy_prims (kx_public q) (drop i ex_sks) in
      let ts := drop i ex_ts in
      let fill := take (140 - room ts KRequest) (behind_last toy_prims ts ss KRequest (p_actions q)) in
      match write_header toy_prims (replicate HEADER_SIZE 7%N) ts ss KRequest (Rng (fun j => nth j fill 0%N) 0) with
      | Val (buf, r) => bool_decide (buf = p_mac q ++ p_actions q) && (rng_pos r =? length fill)
      | Panic => false
      end
  | Panic => false
  end.
Example ex_alone_all :
  map ex_alone [0; 1; 2; 3; 4; 5] = repeat true 6 /\
  map (fun i => 140 - room (drop i ex_ts) KRequest) [0; 1; 2; 3; 4; 5] = [16; 34; 52; 70; 120; 138].
Proof. vm_compute. done. Qed.

Print Assumptions C84_uniform.
Print Assumptions C84_built.
Print Assumptions C84_request.
Print Assumptions C84_reply.
Print Assumptions C84_cover.
