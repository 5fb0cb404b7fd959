(** C08-C11 and C15: packets built by the author, as seen by the hops. *)
From Verif Require Export PHeader Toy.

(** ** Specification *)

(** A permitted path: 1 to 6 hops (whose secret keys are [sks]), so one target less; at most one
    target is a peer id. *)
Definition is_peer (t : target) : bool := match t with TPeerId _ => true | _ => false end.
Definition path_ok (ts : list target) (sks : list bytes) : Prop :=
  length sks = S (length ts) /\ length sks ≤ 6 /\ Forall target_ok ts /\
  length (List.filter is_peer ts) ≤ 1.

(** [journey pr p sks fwd fin]: the packet [p] is carried through nodes with secret keys [sks]; each
    but the last peels it, whatever the contents of its output buffer, to a packet to be forwarded to
    the target and after the delay listed in [fwd]; the output buffer and result of the last satisfy
    [fin]. *)
Fixpoint journey (pr : prims) (p : bytes) (sks : list bytes) (fwd : list (target * delay))
    (fin : bytes -> result action peel_err -> Prop) : Prop :=
  match sks, fwd with
  | [sk], [] =>
      length p = PACKET_SIZE /\
      forall out, length out = PACKET_SIZE ->
        let '(out', res) := peel pr out p (derive_kx_shared_secret pr (kx_public p) sk) in
        fin out' res
  | sk :: sks', (t, d) :: fwd' =>
      length p = PACKET_SIZE /\
      exists p',
        (forall out, length out = PACKET_SIZE ->
           peel pr out p (derive_kx_shared_secret pr (kx_public p) sk) = (p', Ok (AForwardTo t d))) /\
        journey pr p' sks' fwd' fin
  | _, _ => False
  end.

(** ** Proof *)
Lemma journey_cons pr p sk sks t d fwd fin :
  journey pr p (sk :: sks) ((t, d) :: fwd) fin =
  (length p = PACKET_SIZE /\
   exists p',
     (forall out, length out = PACKET_SIZE ->
        peel pr out p (derive_kx_shared_secret pr (kx_public p) sk) = (p', Ok (AForwardTo t d))) /\
     journey pr p' sks fwd fin).
Proof. by destruct sks. Qed.

Lemma path_ok_room ts sks k : path_ok ts sks -> kind_ok k -> room ts k ≤ 140.
Proof.
  intros (H1 & H2 & Hts & Hp) Hk.
  assert (Hr : room ts k ≤ 18 * length ts + 32 * length (List.filter is_peer ts) + 18).
  { clear H1 H2 Hp. induction Hts as [|t ts Ht Hts IH].
    - destruct k as [|?|[]]; cbn [room foldr fin_block]; rewrite ?app_length, ?length_to_le16;
        cbn in Hk; lia.
    - cbn [room foldr List.filter]. fold (room ts k).
      destruct t as [i|p]; cbn [fwd_block is_peer length]; rewrite ?app_length, ?length_to_le16;
        cbn in Ht; lia. }
  lia.
Qed.

Section proof.
  Context (pr : prims) (Hok : prims_ok pr).

  (** the parts of an assembled packet *)
  Lemma parts (pub mac actions payload : bytes) :
    length pub = 32 -> length mac = 16 -> length actions = 140 -> length payload = PAYLOAD_SIZE ->
    let p := pub ++ mac ++ actions ++ payload in
    length p = N.to_nat 2252 /\ kx_public p = pub /\ p_kx p = pub /\ p_mac p = mac /\
    p_actions p = actions /\ p_payload p = payload.
  Proof.
    intros H1 H2 H3 H4 p. unfold p.
    split; [rewrite !app_length; szlia|].
    split; [by apply slice_0|]. split; [by apply take_app_alt|].
    split; [unfold p_mac; rewrite drop_app_alt by done; by apply take_app_alt|].
    split.
    - unfold p_actions. rewrite app_assoc, drop_app_alt by (rewrite app_length; lia).
      by apply take_app_alt.
    - unfold p_payload. rewrite !app_assoc, drop_app_alt; [done|].
      rewrite !app_length. lia.
  Qed.

  Definition dec_layers (payload : bytes) (ss : list bytes) : bytes :=
    foldl (fun p s => pr_lioness_decrypt pr (derive_payload_encryption_key pr s) p) payload ss.
  Lemma dec_layers_length payload ss :
    length payload = PAYLOAD_SIZE -> length (dec_layers payload ss) = PAYLOAD_SIZE.
  Proof.
    revert payload. induction ss as [|s ss IH]; intros payload Hp; [done|].
    cbn [dec_layers foldl]. apply IH. by apply (lioness_decrypt_length _ Hok).
  Qed.

  (** What the last hop gets, in terms of the payload [pl] that reaches it. *)
  Definition fin_of (k : packet_kind) (pl s : bytes) (out : bytes) (res : result action peel_err)
    : Prop :=
    match k with
    | KRequest =>
        let x := pr_lioness_decrypt pr (derive_payload_encryption_key pr s) pl in
        take (N.to_nat 2064) out = x /\
        res = if decide (drop (N.to_nat 2048) x = replicate 16 0%N) then Ok ADeliverRequest
              else Err PePayloadTag
    | KReply id => take (N.to_nat 2064) out = pl /\ res = Ok (ADeliverReply id)
    | KCover id => res = Ok (ADeliverCover id)
    end.

  Lemma journey_of_seen k ts : forall sks pub mac actions payload,
    length pub = 32 -> length payload = PAYLOAD_SIZE ->
    Forall target_ok ts -> kind_ok k ->
    seen pr ts (hop_secrets pr pub sks) k mac actions ->
    exists s, list.last (hop_secrets pr pub sks) = Some s /\
    journey pr (pub ++ mac ++ actions ++ payload) sks
      (zip ts (map (hop_delay pr) (take (length ts) (hop_secrets pr pub sks))))
      (fin_of k (dec_layers payload (take (length ts) (hop_secrets pr pub sks))) s).
  Proof.
    induction ts as [|t ts IH]; intros sks pub mac actions payload Hpub Hpl Hts Hk Hseen.
    - destruct sks as [|sk [|]]; try done.
      pose proof Hseen as [Hmac Hact]%(seen_length pr Hok).
      rewrite hop_secrets_cons in *. cbn [hop_secrets hop_publics zip_with] in *.
      set (s := derive_kx_shared_secret pr pub sk) in *. exists s. split; [done|].
      destruct Hseen as (_ & Hm & rest & Hrt).
      destruct (parts pub mac actions payload) as (Hp & Hkx & Hkx' & Hpm & Hpa & Hpp); [done..|].
      set (p := pub ++ mac ++ actions ++ payload) in *.
      cbn [length take map zip zip_with journey dec_layers foldl].
      split; [by rewrite PACKET_SIZE_eq|]. intros out Hout. rewrite PACKET_SIZE_eq in Hout.
      rewrite Hkx. fold s. rewrite (peel_eq pr Hok) by done. cbv zeta.
      rewrite decide_True by (unfold good_mac; by rewrite Hpm, Hpa).
      unfold action_code. rewrite Hpa, Hrt, Hpp.
      assert (Hpay : forall pl, length pl = PAYLOAD_SIZE ->
        take (N.to_nat 2064) (pl ++ drop (N.to_nat 2064) out) = pl).
      { intros pl Hl. apply take_app_alt. rewrite Hl. szlia. }
      assert (Hsl : forall c (id : bytes), length id = 16 ->
        slice ((to_le16 c ++ id) ++ rest) 2 16 = id).
      { intros c id Hid. rewrite <- app_assoc. by apply slice_at. }
      destruct k as [|id|[id|]]; cbn in Hk; cbn [fin_of].
      + split; [|unfold plain_payload; by rewrite Hpp].
        unfold plain_payload. rewrite Hpp. apply Hpay. by apply (lioness_decrypt_length _ Hok).
      + split; [by apply Hpay|]. f_equal. f_equal.
        by apply Hsl.
      + f_equal. f_equal. f_equal. by apply Hsl.
      + done.
    - destruct sks as [|sk sks]; [done|].
      pose proof Hseen as [Hmac Hact]%(seen_length pr Hok).
      rewrite hop_secrets_cons in *.
      set (s := derive_kx_shared_secret pr pub sk) in *.
      destruct Hseen as (_ & Hm & mac' & actions' & rest & Hrt & Hseen).
      apply Forall_cons in Hts as [Ht Hts].
      destruct (parts pub mac actions payload) as (Hp & Hkx & Hkx' & Hpm & Hpa & Hpp); [done..|].
      set (p := pub ++ mac ++ actions ++ payload) in *.
      pose proof Hseen as [Hmac' Hact']%(seen_length pr Hok).
      set (pub' := blind_kx_public pr pub s) in *.
      set (payload' := pr_lioness_decrypt pr (derive_payload_encryption_key pr s) payload).
      destruct (IH sks pub' mac' actions' payload') as (sl & Hsl & HJ); [..|done|].
      { apply (blind_length pr Hok). }
      { by apply (lioness_decrypt_length _ Hok). }
      { done. } { done. }
      exists sl. split; [by rewrite last_cons, Hsl|].
      cbn [length take map zip zip_with]. rewrite journey_cons.
      split; [by rewrite PACKET_SIZE_eq|].
      exists (pub' ++ mac' ++ actions' ++ payload'). split; [|exact HJ].
      intros out Hout. rewrite PACKET_SIZE_eq in Hout. rewrite Hkx. fold s.
      rewrite (peel_eq pr Hok) by done. cbv zeta.
      rewrite decide_True by (unfold good_mac; by rewrite Hpm, Hpa).
      unfold action_code, next_packet, plain_payload. rewrite Hpa, Hkx', Hpp, Hrt.
      destruct t as [i|peer]; cbn in Ht; unfold fwd_block.
      + change (take 2 (to_le16 i ++ mac' ++ actions' ++ rest)) with (to_le16 i).
        rewrite from_to_le16 by lia.
        repeat match goal with
        | |- context [(i =? ?k)%N] => rewrite (proj2 (N.eqb_neq i k)) by lia
        end.
        rewrite (proj2 (N.leb_le i 65279)) by lia.
        f_equal. fold pub'. f_equal.
        rewrite (app_assoc mac' actions' rest).
        rewrite slice_at by (rewrite ?app_length; done || lia). by rewrite <- app_assoc.
      + rewrite <- (app_assoc (to_le16 65280)).
        change (take 2 (to_le16 65280 ++ peer ++ mac' ++ actions' ++ rest)) with (to_le16 65280).
        change (from_le16 (to_le16 65280)) with 65280%N.
        change (65280 =? 65281)%N with false. change (65280 =? 65282)%N with false.
        change (65280 =? 65283)%N with false. change (65280 =? 65284)%N with false.
        change (65280 =? 65280)%N with true. cbn match.
        f_equal; [|f_equal; f_equal; f_equal; by apply slice_at].
        fold pub'. f_equal. rewrite (app_assoc (to_le16 65280)), (app_assoc mac' actions' rest).
        rewrite slice_at by (rewrite ?app_length, ?length_to_le16; done || lia).
        by rewrite <- app_assoc.
  Qed.

  Lemma journey_mono p sks fwd (fin fin' : bytes -> result action peel_err -> Prop) :
    (forall out res, fin out res -> fin' out res) ->
    journey pr p sks fwd fin -> journey pr p sks fwd fin'.
  Proof.
    intros Hf. revert p fwd. induction sks as [|sk sks IH]; intros p fwd; [done|].
    destruct sks as [|sk' sks], fwd as [|[t d] fwd]; cbn [journey]; try done.
    - intros [H1 H2]. split; [done|]. intros out Ho. specialize (H2 out Ho).
      destruct (peel _ _ _ _). by apply Hf.
    - intros (H1 & p' & H2 & H3). split; [done|]. exists p'. split; [done|]. by apply IH.
  Qed.
  (** A packet makes only one journey. *)
  Lemma journey_unique p sks fwd fwd' fin fin' :
    journey pr p sks fwd fin -> journey pr p sks fwd' fin' ->
    length fwd = length fwd' -> fwd = fwd'.
  Proof.
    revert p fwd fwd'. induction sks as [|sk sks IH]; intros p fwd fwd'; [done|].
    destruct fwd as [|[t d] fwd], fwd' as [|[t' d'] fwd']; try done.
    intros H1 H2 Hl.
    rewrite journey_cons in H1, H2.
    destruct H1 as (_ & p1 & H1 & J1), H2 as (_ & p2 & H2 & J2).
    specialize (H1 (replicate PACKET_SIZE 0%N) (replicate_length _ _)).
    specialize (H2 (replicate PACKET_SIZE 0%N) (replicate_length _ _)).
    rewrite H1 in H2. injection H2 as <- <- <-. f_equal.
    eapply IH; [done..|]. cbn [length] in Hl. lia.
  Qed.
  Lemma journey_length p sks fwd fin : journey pr p sks fwd fin -> length sks = S (length fwd).
  Proof.
    revert p fwd. induction sks as [|sk sks IH]; intros p fwd; [done|].
    destruct sks as [|sk' sks], fwd as [|[t d] fwd]; cbn [journey]; try done.
    - by intros (_ & p' & _ & []).
    - intros (H1 & p' & H2 & H3). cbn [length]. f_equal. eapply (IH p'). done.
  Qed.

  (** ** Payload layers *)
  Lemma enc_dec_layers payload ss :
    length payload = PAYLOAD_SIZE ->
    length (encrypt_payload_layers pr payload (reverse ss)) = PAYLOAD_SIZE /\
    dec_layers (encrypt_payload_layers pr payload (reverse ss)) ss = payload.
  Proof.
    intros Hp. induction ss as [|s ss [IHl IH]]; [done|].
    unfold encrypt_payload_layers. rewrite reverse_cons, foldl_app. cbn [foldl].
    fold (encrypt_payload_layers pr payload (reverse ss)).
    split; [by apply (lioness_encrypt_length _ Hok)|].
    cbn [dec_layers foldl]. unfold encrypt_payload. by rewrite (lioness_decrypt_encrypt _ Hok).
  Qed.
  Lemma foldl_enc_dec payload (keys : list bytes) :
    length payload = PAYLOAD_SIZE ->
    foldl (fun p key => encrypt_payload pr p key)
      (foldl (fun p key => pr_lioness_decrypt pr key p) payload keys) (reverse keys) = payload.
  Proof.
    revert payload. induction keys as [|k keys IH]; intros payload Hp; [done|].
    cbn [foldl]. rewrite reverse_cons, foldl_app. rewrite IH by (by apply (lioness_decrypt_length _ Hok)).
    cbn [foldl]. by apply (lioness_encrypt_decrypt _ Hok).
  Qed.
  Lemma dec_layers_map payload ss :
    dec_layers payload ss =
      foldl (fun p key => pr_lioness_decrypt pr key p) payload (map (derive_payload_encryption_key pr) ss).
  Proof. revert payload. induction ss as [|s ss IH]; intros payload; [done|]. apply IH. Qed.

  Lemma put_tag (data tag : bytes) :
    length data = PAYLOAD_DATA_SIZE -> length tag = PAYLOAD_TAG_SIZE ->
    put (data ++ tag) PAYLOAD_DATA_SIZE PAYLOAD_TAG = data ++ PAYLOAD_TAG.
  Proof.
    intros Hd Ht. rewrite <- (app_nil_r tag), put_at by done. by rewrite app_nil_r.
  Qed.

  Lemma last_take_snoc {A} (l : list A) x n :
    list.last l = Some x -> length l = S n -> l = take n l ++ [x].
  Proof.
    intros Hl Hn. apply last_Some in Hl as (l' & ->). rewrite app_length in Hn. cbn in Hn.
    rewrite take_app_alt by lia. done.
  Qed.

  (** ** Theorems *)

  (** The packet buffer before completion: any header, the payload data, any tag. *)
  Lemma request_built (header data tag : bytes) ts sks r :
    path_ok ts sks -> length header = HEADER_SIZE -> length data = PAYLOAD_DATA_SIZE ->
    length tag = PAYLOAD_TAG_SIZE ->
    exists p ds r',
      complete_request_packet pr (header ++ data ++ tag) ts (map (derive_kx_public pr) sks) r =
        Val (p, foldl delay_add delay_zero ds, r') /\
      length ds = length ts /\
      journey pr p sks (zip ts ds)
        (fun out res => res = Ok ADeliverRequest /\ take PAYLOAD_DATA_SIZE out = data).
  Proof.
    intros Hpath Hh Hd Ht. pose proof Hpath as (Hl & Hm & Hts & _).
    destruct (seen_build pr Hok header ts sks KRequest r) as (pub&mac&actions&r'&EB&Hpub&Hseen);
      [done..|by eapply path_ok_room|].
    cbv zeta in *. set (ss := hop_secrets pr pub sks) in *.
    unfold complete_request_packet. rewrite map_length.
    rewrite bool_decide_eq_true_2 by lia. cbn [assert_or_panic out_bind].
    rewrite bool_decide_eq_true_2 by szlia. cbn [assert_or_panic out_bind].
    rewrite take_app_alt by done. rewrite drop_app_alt by done.
    rewrite EB. cbn [out_bind]. rewrite put_tag by done.
    assert (Hpl : length (data ++ PAYLOAD_TAG) = PAYLOAD_SIZE).
    { rewrite app_length, Hd. done. }
    destruct (enc_dec_layers (data ++ PAYLOAD_TAG) ss Hpl) as [Hel Hdec].
    set (payload := encrypt_payload_layers pr (data ++ PAYLOAD_TAG) (reverse ss)) in *.
    destruct (journey_of_seen KRequest ts sks pub mac actions payload) as (s & Hs & HJ); [done..|].
    fold ss in Hs, HJ.
    assert (Hss : length ss = S (length ts)) by (unfold ss; rewrite hop_secrets_length; done).
    eexists _, _, _. split; [reflexivity|]. split.
    { rewrite map_length, take_length. lia. }
    rewrite <- !app_assoc. eapply journey_mono; [|exact HJ].
    intros out res [H1 H2].
    pose proof (last_take_snoc ss s (length ts) Hs Hss) as Ess.
    assert (E : pr_lioness_decrypt pr (derive_payload_encryption_key pr s)
                  (dec_layers payload (take (length ts) ss)) = data ++ PAYLOAD_TAG).
    { rewrite <- Hdec. rewrite Ess at 2. unfold dec_layers. by rewrite foldl_app. }
    cbv zeta in H1, H2. rewrite E in H1, H2. split.
    - rewrite decide_True in H2; [done|]. rewrite drop_app_alt by done. done.
    - assert (Et : take PAYLOAD_DATA_SIZE (take (N.to_nat 2064) out) = take PAYLOAD_DATA_SIZE out).
      { rewrite take_take. f_equal; szlia. }
      rewrite <- Et, H1. by apply take_app_alt.
  Qed.

  (** C08. Every request packet built for a permitted path reaches the end of its path: each hop
      finds its target and the last hop gets the payload data. *)
  Theorem C08_request (header data tag : bytes) ts sks r :
    path_ok ts sks -> length header = HEADER_SIZE -> length data = PAYLOAD_DATA_SIZE ->
    length tag = PAYLOAD_TAG_SIZE ->
    exists p total r' fwd,
      complete_request_packet pr (header ++ data ++ tag) ts (map (derive_kx_public pr) sks) r =
        Val (p, total, r') /\
      map fst fwd = ts /\
      journey pr p sks fwd
        (fun out res => res = Ok ADeliverRequest /\ take PAYLOAD_DATA_SIZE out = data).
  Proof.
    intros Hpath Hh Hd Ht.
    destruct (request_built header data tag ts sks r) as (p&ds&r'&E&Hds&HJ); [done..|].
    eexists p, _, r', _. split; [done|]. split; [|done]. apply fst_zip. lia.
  Qed.

  (** C10, the packet: a cover packet reaches the end of its path and is recognised there. *)
  Lemma cover_built (header rest : bytes) ts sks id r :
    path_ok ts sks -> length header = HEADER_SIZE -> kind_ok (KCover id) ->
    exists p ds r',
      build_cover_packet pr (header ++ rest) ts (map (derive_kx_public pr) sks) id r =
        Val (p, foldl delay_add delay_zero ds, r') /\
      length ds = length ts /\
      journey pr p sks (zip ts ds) (fun out res => res = Ok (ADeliverCover id)).
  Proof.
    intros Hpath Hh Hid. pose proof Hpath as (Hl & Hm & Hts & _).
    destruct (seen_build pr Hok header ts sks (KCover id) r) as (pub&mac&actions&r'&EB&Hpub&Hseen);
      [done..|by eapply path_ok_room|].
    cbv zeta in *. set (ss := hop_secrets pr pub sks) in *.
    unfold build_cover_packet. rewrite map_length.
    rewrite bool_decide_eq_true_2 by lia. cbn [assert_or_panic out_bind].
    rewrite bool_decide_eq_true_2 by szlia. cbn [assert_or_panic out_bind].
    rewrite take_app_alt by done. rewrite EB. cbn [out_bind].
    destruct (rng_fill PAYLOAD_SIZE r') as [payload r''] eqn:Er.
    assert (Hpl : length payload = PAYLOAD_SIZE).
    { pose proof (rng_fill_length PAYLOAD_SIZE r') as H. by rewrite Er in H. }
    destruct (journey_of_seen (KCover id) ts sks pub mac actions payload) as (s & Hs & HJ); [done..|].
    fold ss in Hs, HJ.
    eexists _, _, _. split; [reflexivity|]. split.
    { rewrite map_length, take_length. unfold ss. rewrite hop_secrets_length. lia. }
    rewrite <- !app_assoc. eapply journey_mono; [|exact HJ]. done.
  Qed.
  Theorem C10_cover (header rest : bytes) ts sks id r :
    path_ok ts sks -> length header = HEADER_SIZE -> kind_ok (KCover id) ->
    exists p total r' fwd,
      build_cover_packet pr (header ++ rest) ts (map (derive_kx_public pr) sks) id r =
        Val (p, total, r') /\
      map fst fwd = ts /\
      journey pr p sks fwd (fun out res => res = Ok (ADeliverCover id)).
  Proof.
    intros Hpath Hh Hid.
    destruct (cover_built header rest ts sks id r) as (p&ds&r'&E&Hds&HJ); [done..|].
    eexists p, _, r', _. split; [done|]. split; [|done]. apply fst_zip. lia.
  Qed.

  (** C09. SURBs. *)
  Lemma push_payload_keys_spec keys ss :
    length keys + length ss ≤ MAX_HOPS ->
    push_payload_keys pr keys ss = Val (keys ++ map (derive_payload_encryption_key pr) ss).
  Proof.
    revert keys. induction ss as [|s ss IH]; intros keys Hl; cbn [push_payload_keys map].
    { by rewrite app_nil_r. }
    unfold av_push. cbn [length] in Hl. destruct (decide _) as [_|Hn]; [|lia]. cbn [out_bind].
    rewrite IH; [by rewrite <- app_assoc|]. rewrite app_length. cbn. lia.
  Qed.

  Lemma surb_built (surb0 : bytes) first ts sks id r :
    path_ok ts sks -> length surb0 = SURB_SIZE -> length id = 16 -> (first ≤ 65279)%N ->
    exists surb keys ds r',
      build_surb pr surb0 [] first ts (map (derive_kx_public pr) sks) id r =
        Val (surb, keys, foldl delay_add delay_zero ds, r') /\
      length surb = SURB_SIZE /\ length ds = length ts /\ length keys = length sks /\
      forall header data tag,
        length header = HEADER_SIZE -> length data = PAYLOAD_DATA_SIZE ->
        length tag = PAYLOAD_TAG_SIZE ->
        exists p, complete_reply_packet pr (header ++ data ++ tag) surb = (p, Some first) /\
          journey pr p sks (zip ts ds)
            (fun out res => res = Ok (ADeliverReply id) /\
               decrypt_reply_payload pr (take PAYLOAD_SIZE out) keys = (data ++ PAYLOAD_TAG, Ok tt)).
  Proof.
    intros Hpath Hs0 Hid Hfirst. pose proof Hpath as (Hl & Hm & Hts & _).
    set (header0 := slice surb0 RAW_MIXNODE_INDEX_SIZE HEADER_SIZE).
    assert (Hh : length header0 = HEADER_SIZE).
    { unfold header0. apply slice_length. rewrite Hs0. unfold SURB_SIZE. szlia. }
    destruct (seen_build pr Hok header0 ts sks (KReply id) r) as (pub&mac&actions&r1&EB&Hpub&Hseen);
      [done..|by eapply path_ok_room|].
    cbv zeta in *. set (ss := hop_secrets pr pub sks) in *.
    assert (Hss : length ss = S (length ts)) by (unfold ss; rewrite hop_secrets_length; done).
    unfold build_surb. rewrite map_length.
    rewrite bool_decide_eq_true_2 by lia. cbn [assert_or_panic out_bind].
    rewrite bool_decide_eq_true_2 by szlia. cbn [assert_or_panic out_bind].
    fold header0. rewrite EB. cbn [out_bind].
    destruct (rng_fill SHARED_SECRET_SIZE r1) as [shared r2] eqn:Er.
    assert (Hsh : length shared = 32).
    { pose proof (rng_fill_length SHARED_SECRET_SIZE r1) as H. by rewrite Er in H. }
    unfold av_push. destruct (decide _) as [_|Hn]; [|destruct Hn; cbn; szlia]. cbn [out_bind].
    replace (length ss - 1) with (length ts) by lia.
    rewrite push_payload_keys_spec by (rewrite take_length; cbn; szlia). cbn [out_bind].
    eexists _, _, _, _. split; [reflexivity|].
    apply seen_length in Hseen as Hlen; [|done]. destruct Hlen as [Hmac Hact].
    split; [|split; [|split]].
    - rewrite !app_length, length_to_le16. unfold SURB_SIZE. szlia.
    - rewrite map_length, take_length. lia.
    - rewrite !app_length, map_length, take_length. cbn. lia.
    - intros header data tag Hhd Hd Ht.
      unfold complete_reply_packet. rewrite drop_app_alt by done. rewrite put_tag by done.
      cbv zeta.
      assert (Hpm : length (pub ++ mac ++ actions) = 188) by (rewrite !app_length; lia).
      assert (E1 : slice (to_le16 first ++ (pub ++ mac ++ actions) ++ shared) 0 RAW_MIXNODE_INDEX_SIZE =
        to_le16 first) by done.
      assert (E2 : slice (to_le16 first ++ (pub ++ mac ++ actions) ++ shared) RAW_MIXNODE_INDEX_SIZE
        HEADER_SIZE = pub ++ mac ++ actions) by (by apply slice_at).
      assert (E3 : slice (to_le16 first ++ (pub ++ mac ++ actions) ++ shared)
        (RAW_MIXNODE_INDEX_SIZE + HEADER_SIZE) SHARED_SECRET_SIZE = shared).
      { rewrite app_assoc. rewrite <- (app_nil_r shared) at 1. apply slice_at; [|done].
        rewrite app_length, length_to_le16. szlia. }
      rewrite E1, E2, E3. rewrite from_to_le16 by lia.
      unfold mixnode_index_try_from. change MAX_MIXNODE_INDEX with 65279%N.
      rewrite (proj2 (N.leb_le first 65279)) by lia.
      eexists. split; [reflexivity|]. unfold decrypt_payload.
      assert (Hpl : length (data ++ PAYLOAD_TAG) = PAYLOAD_SIZE) by (by rewrite app_length, Hd).
      set (payload := pr_lioness_decrypt pr _ (data ++ PAYLOAD_TAG)).
      assert (Hpay : length payload = PAYLOAD_SIZE) by (by apply (lioness_decrypt_length _ Hok)).
      destruct (journey_of_seen (KReply id) ts sks pub mac actions payload) as (s & _ & HJ); [done..|].
      fold ss in HJ. rewrite <- !app_assoc. eapply journey_mono; [|exact HJ].
      intros out res [H1 H2]. split; [done|].
      rewrite PAYLOAD_SIZE_eq, H1. unfold decrypt_reply_payload.
      rewrite dec_layers_map.
      assert (E : foldl (fun p key => pr_lioness_decrypt pr key p) payload
          (map (derive_payload_encryption_key pr) (take (length ts) ss)) =
        foldl (fun p key => pr_lioness_decrypt pr key p) (data ++ PAYLOAD_TAG)
          ([derive_payload_encryption_key pr shared] ++
           map (derive_payload_encryption_key pr) (take (length ts) ss))) by done.
      rewrite E. cbn [app]. rewrite foldl_enc_dec by done.
      f_equal. unfold check_payload_tag. rewrite decide_True; [done|].
      rewrite <- (app_nil_r PAYLOAD_TAG) at 1. by apply slice_at.
  Qed.
  (** A reply completed with a SURB is addressed to the SURB's first hop, reaches the end of the path,
      and decrypts there, with the keys kept by the SURB's creator, to the reply data. *)
  Theorem C09_reply (surb0 : bytes) first ts sks id r :
    path_ok ts sks -> length surb0 = SURB_SIZE -> length id = 16 -> (first ≤ 65279)%N ->
    exists surb keys total r' ds,
      build_surb pr surb0 [] first ts (map (derive_kx_public pr) sks) id r =
        Val (surb, keys, total, r') /\
      length surb = SURB_SIZE /\ length ds = length ts /\
      forall header data tag,
        length header = HEADER_SIZE -> length data = PAYLOAD_DATA_SIZE ->
        length tag = PAYLOAD_TAG_SIZE ->
        exists p, complete_reply_packet pr (header ++ data ++ tag) surb = (p, Some first) /\
          journey pr p sks (zip ts ds)
            (fun out res => res = Ok (ADeliverReply id) /\
               exists pl, decrypt_reply_payload pr (take PAYLOAD_SIZE out) keys = (pl, Ok tt) /\
                          take PAYLOAD_DATA_SIZE pl = data).
  Proof.
    intros Hpath Hs0 Hid Hfirst.
    destruct (surb_built surb0 first ts sks id r) as (surb&keys&ds&r'&E&Hsl&Hds&_&HJ); [done..|].
    exists surb, keys, (foldl delay_add delay_zero ds), r', ds.
    split; [done|]. split; [done|]. split; [done|].
    intros header data tag Hh Hd Ht. destruct (HJ header data tag Hh Hd Ht) as (p & Ep & HJp).
    exists p. split; [done|]. eapply journey_mono; [|exact HJp].
    intros out res [H1 H2]. split; [done|]. eexists. split; [exact H2|]. by apply take_app_alt.
  Qed.

  (** C11. The total delay is the sum, in order from zero, of the delays applied on the way. *)
  Theorem C11_request (header data tag : bytes) ts sks r p total r' fwd fin :
    path_ok ts sks -> length header = HEADER_SIZE -> length data = PAYLOAD_DATA_SIZE ->
    length tag = PAYLOAD_TAG_SIZE ->
    complete_request_packet pr (header ++ data ++ tag) ts (map (derive_kx_public pr) sks) r =
      Val (p, total, r') ->
    journey pr p sks fwd fin ->
    total = foldl f_add f_zero (map snd fwd).
  Proof.
    intros Hpath Hh Hd Ht E HJ.
    destruct (request_built header data tag ts sks r) as (p'&ds&r''&E'&Hds&HJ'); [done..|].
    rewrite E' in E. injection E as <- <- <-.
    pose proof (journey_length _ _ _ _ HJ). pose proof (journey_length _ _ _ _ HJ').
    rewrite (journey_unique _ _ _ _ _ _ HJ HJ') by lia. f_equal. symmetry. apply snd_zip. lia.
  Qed.
  Theorem C11_cover (header rest : bytes) ts sks id r p total r' fwd fin :
    path_ok ts sks -> length header = HEADER_SIZE -> kind_ok (KCover id) ->
    build_cover_packet pr (header ++ rest) ts (map (derive_kx_public pr) sks) id r =
      Val (p, total, r') ->
    journey pr p sks fwd fin ->
    total = foldl f_add f_zero (map snd fwd).
  Proof.
    intros Hpath Hh Hid E HJ.
    destruct (cover_built header rest ts sks id r) as (p'&ds&r''&E'&Hds&HJ'); [done..|].
    rewrite E' in E. injection E as <- <- <-.
    pose proof (journey_length _ _ _ _ HJ). pose proof (journey_length _ _ _ _ HJ').
    rewrite (journey_unique _ _ _ _ _ _ HJ HJ') by lia. f_equal. symmetry. apply snd_zip. lia.
  Qed.
  Theorem C11_surb (surb0 : bytes) first ts sks id r surb keys total r' header data tag p i fwd fin :
    path_ok ts sks -> length surb0 = SURB_SIZE -> length id = 16 -> (first ≤ 65279)%N ->
    length header = HEADER_SIZE -> length data = PAYLOAD_DATA_SIZE -> length tag = PAYLOAD_TAG_SIZE ->
    build_surb pr surb0 [] first ts (map (derive_kx_public pr) sks) id r =
      Val (surb, keys, total, r') ->
    complete_reply_packet pr (header ++ data ++ tag) surb = (p, i) ->
    journey pr p sks fwd fin ->
    total = foldl f_add f_zero (map snd fwd).
  Proof.
    intros Hpath Hs0 Hid Hfirst Hh Hd Ht E Ep HJ.
    destruct (surb_built surb0 first ts sks id r) as (surb'&keys'&ds&r''&E'&_&Hds&_&HJ'); [done..|].
    rewrite E' in E. injection E as <- <- <- <-.
    destruct (HJ' header data tag Hh Hd Ht) as (p' & Ep' & HJp).
    rewrite Ep' in Ep. injection Ep as <- <-.
    pose proof (journey_length _ _ _ _ HJ). pose proof (journey_length _ _ _ _ HJp).
    rewrite (journey_unique _ _ _ _ _ _ HJ HJp) by lia. f_equal. symmetry. apply snd_zip. lia.
  Qed.

  (** C15. Building never panics on permitted paths... *)
  Theorem C15_no_panic ts sks r id cid (packet surb0 : bytes) first :
    path_ok ts sks -> length packet = PACKET_SIZE -> length surb0 = SURB_SIZE -> length id = 16 ->
    kind_ok (KCover cid) ->
    complete_request_packet pr packet ts (map (derive_kx_public pr) sks) r ≠ Panic /\
    build_surb pr surb0 [] first ts (map (derive_kx_public pr) sks) id r ≠ Panic /\
    build_cover_packet pr packet ts (map (derive_kx_public pr) sks) cid r ≠ Panic.
  Proof.
    intros Hpath Hp Hs0 Hid Hcid. pose proof Hpath as (Hl & Hm & Hts & _).
    assert (HB : forall h k, length h = HEADER_SIZE -> kind_ok k ->
      exists y, build_header pr h ts (map (derive_kx_public pr) sks) k r = Val y /\
                length y.1.1.2 = length sks).
    { intros h k Hh Hk.
      destruct (seen_build pr Hok h ts sks k r) as (pub&mac&actions&r1&EB&_);
        [done..|by eapply path_ok_room|].
      eexists. split; [exact EB|]. cbn. apply hop_secrets_length. }
    unfold complete_request_packet, build_surb, build_cover_packet. rewrite !map_length.
    rewrite bool_decide_eq_true_2 by lia. cbn [assert_or_panic out_bind].
    rewrite bool_decide_eq_true_2 by szlia. cbn [assert_or_panic out_bind].
    split; [|split].
    - destruct (HB (take HEADER_SIZE packet) KRequest) as ([[[]]] & E & _); [|done|by rewrite E].
      rewrite take_length. szlia.
    - destruct (HB (slice surb0 RAW_MIXNODE_INDEX_SIZE HEADER_SIZE) (KReply id))
        as ([[[? ss]]] & E & Hss); [|done|].
      + apply slice_length. rewrite Hs0. unfold SURB_SIZE. szlia.
      + rewrite E. cbn [out_bind]. destruct (rng_fill _ _). unfold av_push.
        destruct (decide _) as [_|Hn]; [|destruct Hn; cbn; szlia]. cbn [out_bind].
        cbn in Hss. rewrite push_payload_keys_spec by (rewrite take_length; cbn; szlia). done.
    - destruct (HB (take HEADER_SIZE packet) (KCover cid)) as ([[[]]] & E & _); [|done|].
      + rewrite take_length. szlia.
      + rewrite E. cbn [out_bind]. by destruct (rng_fill _ _).
  Qed.
  (** ... and exactly on the paths whose actions fit in the header: in particular every path of 6
      hops with two or more peer ids makes it panic. *)
  Theorem C15_exact (header : bytes) ts sks k r :
    length header = HEADER_SIZE -> Forall target_ok ts -> kind_ok k ->
    length sks = S (length ts) -> length sks ≤ 6 ->
    build_header pr header ts (map (derive_kx_public pr) sks) k r ≠ Panic <->
    18 * length ts + 32 * length (List.filter is_peer ts) + length (fin_block k) ≤ 140.
  Proof.
    intros Hh Hts Hk Hl Hm.
    assert (Hr : room ts k = 18 * length ts + 32 * length (List.filter is_peer ts) + length (fin_block k)).
    { clear Hl. induction Hts as [|t ts Ht Hts IH]; [done|].
      cbn [room foldr List.filter]. fold (room ts k). rewrite IH.
      destruct t as [i|p]; cbn [fwd_block is_peer length]; rewrite ?app_length, ?length_to_le16;
        cbn in Ht; lia. }
    rewrite <- Hr. split.
    - intros HB. destruct (build_header _ _ _ _ _ _) as [x|] eqn:E; [|done].
      by apply build_header_room in E as (_&_&?).
    - intros HR. by destruct (seen_build pr Hok header ts sks k r) as (?&?&?&?&->&_).
  Qed.
  Theorem C15_two_peer_ids (header : bytes) ts sks k r :
    length header = HEADER_SIZE -> Forall target_ok ts -> kind_ok k ->
    length ts = 5 -> length sks = 6 -> 2 ≤ length (List.filter is_peer ts) ->
    build_header pr header ts (map (derive_kx_public pr) sks) k r = Panic.
  Proof.
    intros Hh Hts Hk Hl Hm Hp.
    destruct (build_header _ _ _ _ _ _) as [x|] eqn:E; [|done]. exfalso.
    pose proof (fin_block_pos k).
    pose proof (C15_exact header ts sks k r Hh Hts Hk) as HC.
    rewrite E in HC. rewrite Hl, Hm in HC. assert (Val x ≠ Panic) as H2 by done. apply HC in H2; lia.
  Qed.

  (** C14, the key in the packet: the public key in the packet as it reaches a hop is the one the
      author's [i]-th secret was computed for. *)
  Theorem C14_packet_key (out p sk : bytes) p' t d :
    length out = PACKET_SIZE -> length p = PACKET_SIZE ->
    peel pr out p (derive_kx_shared_secret pr (kx_public p) sk) = (p', Ok (AForwardTo t d)) ->
    forall sks, hop_publics pr (kx_public p) (sk :: sks) =
      kx_public p :: hop_publics pr (kx_public p') sks.
  Proof.
    intros Ho Hp E sks. cbn [hop_publics]. f_equal. f_equal.
    set (s := derive_kx_shared_secret pr (kx_public p) sk) in *.
    rewrite PACKET_SIZE_eq in *. rewrite (peel_eq pr Hok) in E by done. cbv zeta in E.
    assert (Hn : forall off, kx_public (next_packet pr p s off) = blind_kx_public pr (kx_public p) s).
    { intros off. unfold next_packet, kx_public at 1. rewrite slice_0 by apply (blind_length pr Hok).
      unfold kx_public, slice, p_kx. rewrite drop_0. done. }
    repeat match type of E with
    | context [if ?b then _ else _] => destruct b; try done
    end; injection E as <- <- <-; by rewrite Hn.
  Qed.
End proof.

(** ** Examples: a path of 6 hops, the fourth target being a peer id, with concrete primitives. *)
Definition ex_ts : list target :=
  [TMixnodeIndex 3%N; TMixnodeIndex 65279%N; TMixnodeIndex 0%N; TPeerId (to_le 32 77777%N); TMixnodeIndex 9%N].
Definition ex_sks : list bytes := map (fun i => to_le 32 (i * 7919 + 12345)) [1; 2; 3; 4; 5; 6]%N.
Definition ex_rng : rng := Rng (fun i => N.of_nat i * 37 + 11)%N 0.
Definition ex_data : bytes := map (fun i => N.of_nat i mod 256)%N (seq 0 PAYLOAD_DATA_SIZE).

Example ex_path_ok : path_ok ex_ts ex_sks.
Proof. repeat split; cbn; try lia. repeat constructor; cbn; try lia. Qed.

(** Running the model: the packet is forwarded five times and then delivered. *)
Fixpoint run_journey (p : bytes) (sks : list bytes) : list target * option (bytes * action) :=
  match sks with
  | [] => ([], None)
  | sk :: sks' =>
      match peel toy_prims (replicate PACKET_SIZE 170%N) p
              (derive_kx_shared_secret toy_prims (kx_public p) sk) with
      | (p', Ok (AForwardTo t d)) =>
          let '(ts, fin) := run_journey p' sks' in (t :: ts, fin)
      | (out, Ok a) => ([], Some (out, a))
      | (_, Err _) => ([], None)
      end
  end.
Example ex_request :
  match complete_request_packet toy_prims (replicate HEADER_SIZE 85%N ++ ex_data ++ replicate 16 99%N)
          ex_ts (map (derive_kx_public toy_prims) ex_sks) ex_rng with
  | Val (p, _, _) =>
      match run_journey p ex_sks with
      | (ts, Some (out, a)) => ts = ex_ts /\ a = ADeliverRequest /\ take PAYLOAD_DATA_SIZE out = ex_data
      | _ => False
      end
  | Panic => False
  end.
Proof. vm_compute. repeat split. Qed.
Example ex_wrong_key :
  match complete_request_packet toy_prims (replicate HEADER_SIZE 85%N ++ ex_data ++ replicate 16 99%N)
          ex_ts (map (derive_kx_public toy_prims) ex_sks) ex_rng with
  | Val (p, _, _) => run_journey p (to_le 32 5%N :: drop 1 ex_sks) = ([], None)
  | Panic => False
  end.
Proof. vm_compute. done. Qed.
(** two peer ids, six hops *)
Example ex_two_peers :
  build_header toy_prims (replicate HEADER_SIZE 85%N)
    [TPeerId (to_le 32 1%N); TMixnodeIndex 2%N; TPeerId (to_le 32 77777%N); TMixnodeIndex 0%N; TMixnodeIndex 9%N]
    (map (derive_kx_public toy_prims) ex_sks) KRequest ex_rng = Panic.
Proof. vm_compute. done. Qed.

Print Assumptions C08_request.
Print Assumptions C09_reply.
Print Assumptions C10_cover.
Print Assumptions C11_request.
Print Assumptions C11_cover.
Print Assumptions C11_surb.
Print Assumptions C12_forwarded.
Print Assumptions C12_delivered.
Print Assumptions C13_classification.
Print Assumptions C14_key_agreement.
Print Assumptions C14_packet_key.
Print Assumptions C15_no_panic.
Print Assumptions C15_exact.
Print Assumptions C15_two_peer_ids.
Print Assumptions C16_tamper.
Print Assumptions C16_mac_changed.
Print Assumptions C16_payload_tag.
