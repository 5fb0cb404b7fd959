(** C79: a payload changed on the way takes the same route, and never comes out as the original. *)
From Verif Require Import LBase.
From Verif Require Export PProvenance.
Local Open Scope nat_scope.

(** ** Specification *)

(** Packets with the same header, the first 188 bytes, and different payloads. *)
Definition altered (p p' : bytes) : Prop :=
  length p = N.to_nat 2252 /\ length p' = N.to_nat 2252 /\ take 188 p' = take 188 p /\ drop 188 p' <> drop 188 p.
(** Nodes with the secret keys [ks], one after the other, forward packet [p] with these targets and delays,
    after which it is [q]. *)
Inductive goes (pr : prims) : list bytes -> bytes -> list (target * delay) -> bytes -> Prop :=
| GoesEnd p : goes pr [] p [] p
| GoesOn k ks p out q t d l r :
    length out = N.to_nat 2252 ->
    peel pr out p (derive_kx_shared_secret pr (take 32 p) k) = (q, Ok (AForwardTo t d)) ->
    goes pr ks q l r -> goes pr (k :: ks) p ((t, d) :: l) r.

(** ** Proof *)
Lemma pair_inj {A B} (a c : A) (b d : B) : (a, b) = (c, d) -> a = c /\ b = d.
Proof. by intros [= -> ->]. Qed.
Lemma altered_header p p' : altered p p' -> p_kx p' = p_kx p /\ p_mac p' = p_mac p /\ p_actions p' = p_actions p.
Proof.
  intros (_ & _ & H & _).
  assert (Hp : forall i j, i + j ≤ 188 -> take j (drop i p') = take j (drop i p)).
  { intros i j Hij. assert (E : forall x : bytes, take j (drop i x) = take j (drop i (take 188 x))).
    { intros x. rewrite skipn_firstn_comm, take_take. f_equal. lia. }
    by rewrite (E p'), (E p), H. }
  unfold p_kx, p_mac, p_actions. rewrite <- (drop_0 p), <- (drop_0 p') at 1. split_and!; [apply (Hp 0 32)|apply Hp|apply Hp]; lia.
Qed.
Lemma min_deadline_snoc l f f' : fp_deadline f = fp_deadline f' -> min_deadline (l ++ [f]) = min_deadline (l ++ [f']).
Proof. intros H. induction l as [|g l IH]; cbn [app min_deadline]; [by rewrite H|by rewrite IH]. Qed.
Section alter.
  Context (pr : prims) (Hok : prims_ok pr).

  Lemma lioness_inj k a b :
    length a = PAYLOAD_SIZE -> length b = PAYLOAD_SIZE -> pr_lioness_decrypt pr k a = pr_lioness_decrypt pr k b -> a = b.
  Proof.
    intros Ha Hb H. rewrite <- (lioness_encrypt_decrypt pr Hok k a Ha), <- (lioness_encrypt_decrypt pr Hok k b Hb). by rewrite H.
  Qed.
  Lemma lioness_inj' k a b :
    length a = PAYLOAD_SIZE -> length b = PAYLOAD_SIZE -> pr_lioness_encrypt pr k a = pr_lioness_encrypt pr k b -> a = b.
  Proof.
    intros Ha Hb H. rewrite <- (lioness_decrypt_encrypt pr Hok k a Ha), <- (lioness_decrypt_encrypt pr Hok k b Hb). by rewrite H.
  Qed.

  (** What an altered packet decrypts to is different. *)
  Lemma altered_plain p p' s : altered p p' -> plain_payload pr p' s <> plain_payload pr p s.
  Proof.
    intros (Hp & Hp' & _ & Hd) E. apply Hd. apply (lioness_inj _ (p_payload p') (p_payload p)) in E; [done|by apply p_payload_length..].
  Qed.
  Lemma altered_next p p' s off :
    altered p p' -> off ≤ 34 -> altered (next_packet pr p s off) (next_packet pr p' s off).
  Proof.
    intros Ha Hoff. pose proof (altered_plain _ _ s Ha) as Hpl. pose proof (altered_header _ _ Ha) as (Hk & _ & Hac).
    destruct Ha as (Hp & Hp' & _ & _). split_and!; [by apply (next_packet_length pr Hok)..| |].
    - unfold next_packet. rewrite Hk, Hac, !app_assoc, !take_app_alt; [done|..];
        unfold slice; rewrite app_length, (blind_length pr Hok), take_length, drop_length, routing_length, p_actions_length by done; szlia.
    - unfold next_packet. rewrite Hk, Hac, !app_assoc, !drop_app_alt; [done|..];
        unfold slice; rewrite app_length, (blind_length pr Hok), take_length, drop_length, routing_length, p_actions_length by done; szlia.
  Qed.

  (** The same header, peeled with the same secret: the same action, and what is left of the packet differs. *)
  Theorem C79_peel out out' p p' s q q' r r' :
    length out = N.to_nat 2252 -> length out' = N.to_nat 2252 -> altered p p' ->
    peel pr out p s = (q, r) -> peel pr out' p' s = (q', r') ->
    match r with
    | Ok (AForwardTo t d) => r' = Ok (AForwardTo t d) /\ altered q q'
    | Ok ADeliverRequest => r' = Err PePayloadTag \/ r' = Ok ADeliverRequest /\ take (N.to_nat 2048) q' <> take (N.to_nat 2048) q
    | Ok (ADeliverReply id) => r' = Ok (ADeliverReply id) /\ take (N.to_nat 2064) q' <> take (N.to_nat 2064) q
    | Ok (ADeliverCover id) => r' = Ok (ADeliverCover id)
    | Err PePayloadTag => r' = Err PePayloadTag \/ r' = Ok ADeliverRequest
    | Err e => r' = Err e
    end.
  Proof.
    intros Ho Ho' Ha E E'. pose proof (altered_header _ _ Ha) as (Hk & Hm & Hac). pose proof (altered_plain _ _ s Ha) as Hpl.
    pose proof Ha as (Hp & Hp' & _ & Hd).
    rewrite (peel_eq pr Hok) in E by done. rewrite (peel_eq pr Hok) in E' by done. cbv zeta in E, E'.
    assert (Hg : good_mac pr p' s <-> good_mac pr p s) by (unfold good_mac; by rewrite Hm, Hac).
    unfold action_code in E, E'. rewrite Hac in E'.
    pose proof (plain_payload_length pr Hok p s Hp) as Hl. pose proof (plain_payload_length pr Hok p' s Hp') as Hl'.
    destruct (decide (good_mac pr p s)) as [Hgm|Hgm].
    2:{ rewrite decide_False in E' by (by rewrite Hg). by simplify_eq. }
    rewrite decide_True in E' by (by apply Hg).
    set (code := from_le16 (take 2 (routing pr (p_actions p) s))) in *.
    destruct (code =? 65281)%N.
    { apply pair_inj in E as [<- <-]; apply pair_inj in E' as [<- <-].
      destruct (decide (drop (N.to_nat 2048) (plain_payload pr p s) = _)) as [Ht|Ht];
        (destruct (decide (drop (N.to_nat 2048) (plain_payload pr p' s) = _)) as [Ht'|Ht']; cbv iota; [|by left]); right; [|done].
      split; [done|]. rewrite !take_app_le by lia. intros Hx. apply Hpl.
      rewrite <- (take_drop (N.to_nat 2048) (plain_payload pr p' s)), <- (take_drop (N.to_nat 2048) (plain_payload pr p s)).
      congruence. }
    destruct (code =? 65282)%N.
    { apply pair_inj in E as [<- <-]; apply pair_inj in E' as [<- <-]. split; [done|].
      pose proof (p_payload_length p Hp) as Hpp. pose proof (p_payload_length p' Hp') as Hpp'. rewrite PAYLOAD_SIZE_eq in Hpp, Hpp'.
      rewrite !take_app_alt by done. exact Hd. }
    destruct (code =? 65283)%N; [by simplify_eq|]. destruct (code =? 65284)%N; [by simplify_eq|].
    destruct (code =? 65280)%N.
    { apply pair_inj in E as [<- <-]; apply pair_inj in E' as [<- <-]. split; [done|]. apply altered_next; [done|lia]. }
    destruct (code <=? 65279)%N; [|by simplify_eq].
    apply pair_inj in E as [<- <-]; apply pair_inj in E' as [<- <-]. split; [done|]. apply altered_next; [done|lia].
  Qed.

  (** Over any number of hops: the same way with the same delays, altered at the end as well. *)
  Theorem C79_route ks p l q p' :
    goes pr ks p l q -> altered p p' -> exists q', goes pr ks p' l q' /\ altered q q'.
  Proof.
    intros H. revert p'. induction H as [p|k ks p out q t d l r Ho E Hg IH]; intros p' Ha; [by exists p'; split; [constructor|]|].
    destruct (peel pr out p' (derive_kx_shared_secret pr (take 32 p) k)) as [q' r'] eqn:E'.
    destruct (C79_peel out out p p' _ q q' _ r' Ho Ho Ha E E') as [-> Hq].
    destruct (IH _ Hq) as (r2 & Hg2 & Ha2). exists r2. split; [|done].
    pose proof (altered_header _ _ Ha) as (Hk & _). unfold p_kx in Hk. rewrite <- Hk in E'. by econstructor.
  Qed.

  (** A reply payload that was altered decrypts to something else, whatever the keys. *)
  Lemma reply_fold keys : forall a b,
    length a = PAYLOAD_SIZE -> length b = PAYLOAD_SIZE -> a <> b ->
    let f := foldl (fun p key => encrypt_payload pr p key) in
    length (f a keys) = PAYLOAD_SIZE /\ length (f b keys) = PAYLOAD_SIZE /\ f a keys <> f b keys.
  Proof.
    induction keys as [|k keys IH]; intros a b Ha Hb Hne; [done|]. cbn [foldl]. apply IH.
    - by apply (lioness_encrypt_length pr Hok).
    - by apply (lioness_encrypt_length pr Hok).
    - intros E. apply Hne. by eapply lioness_inj'.
  Qed.
  Theorem C79_reply pl pl' keys plain plain' r' :
    length pl = N.to_nat 2064 -> length pl' = N.to_nat 2064 -> pl' <> pl ->
    decrypt_reply_payload pr pl keys = (plain, Ok tt) -> decrypt_reply_payload pr pl' keys = (plain', r') ->
    r' = Err PePayloadTag \/ r' = Ok tt /\ take (N.to_nat 2048) plain' <> take (N.to_nat 2048) plain.
  Proof.
    intros Hl Hl' Hne E E'. rewrite <- PAYLOAD_SIZE_eq in Hl, Hl'.
    destruct (reply_fold (reverse keys) pl' pl Hl' Hl Hne) as (H1 & H2 & H3).
    unfold decrypt_reply_payload in E, E'. injection E as <- E. injection E' as <- E'.
    assert (Hs : forall x : bytes, length x = PAYLOAD_SIZE -> slice x PAYLOAD_DATA_SIZE PAYLOAD_TAG_SIZE = drop (N.to_nat 2048) x).
    { intros x Hx. unfold slice. change PAYLOAD_DATA_SIZE with (N.to_nat 2048). apply take_ge. rewrite drop_length, Hx. szlia. }
    rewrite Hs in E, E' by done. unfold check_payload_tag in E, E'.
    destruct (decide (drop (N.to_nat 2048) (foldl _ pl (reverse keys)) = PAYLOAD_TAG)) as [Ht|Ht]; [|discriminate E].
    destruct (decide (drop (N.to_nat 2048) (foldl _ pl' (reverse keys)) = PAYLOAD_TAG)) as [Ht'|Ht']; [right|by left].
    split; [done|]. intros Hx. apply H3. rewrite <- (take_drop (N.to_nat 2048) (foldl _ pl' _)), <- (take_drop (N.to_nat 2048) (foldl _ pl _)).
    congruence.
  Qed.

  (** *** A node *)
  Lemma altered_shared p p' s : altered p p' -> shared pr s p' = shared pr s p.
  Proof. intros Ha. destruct (altered_header _ _ Ha) as (Hk & _). unfold shared. by rewrite Hk. Qed.
  Lemma altered_reads p p' ss rel s : altered p p' -> reads pr ss p rel s -> reads pr ss p' rel s.
  Proof.
    intros Ha. pose proof (altered_header _ _ Ha) as (_ & Hm & Hac).
    assert (Hs : forall s, PHandle.seen pr s p' <-> PHandle.seen pr s p).
    { intros s0. unfold PHandle.seen, tag_of. by rewrite (altered_shared _ _ _ Ha). }
    assert (Hop : forall s, opens pr s p' <-> opens pr s p).
    { intros s0. unfold opens, good_mac. by rewrite (altered_shared _ _ _ Ha), Hm, Hac. }
    intros [s0 H1 H2 H3|s0 H1 H2 H3 H4].
    - apply ReadsCurrent; [done|by rewrite Hs|by rewrite Hop].
    - apply ReadsPrev; [done| |by rewrite Hs|by rewrite Hop]. intros c Hc. rewrite Hs, Hop. by apply H2.
  Qed.
  Lemma altered_sym p p' : altered p p' -> altered p' p.
  Proof. intros (H1 & H2 & H3 & H4). split_and!; [done..|]. congruence. Qed.
  (** The contents, for any session that reads one and so the other. *)
  Lemma altered_content p p' s :
    altered p p' ->
    match content_of pr s p with
    | CtForward t d n => exists n', content_of pr s p' = CtForward t d n' /\ altered n n'
    | CtRequest f => content_of pr s p' = CtGarbage \/ exists f', content_of pr s p' = CtRequest f' /\ f' <> f
    | CtReply id pl => exists pl', content_of pr s p' = CtReply id pl' /\ pl' <> pl /\
                         length pl = N.to_nat 2064 /\ length pl' = N.to_nat 2064
    | CtCover id => content_of pr s p' = CtCover id
    | CtGarbage => content_of pr s p' = CtGarbage \/ exists f', content_of pr s p' = CtRequest f'
    end.
  Proof.
    intros Ha. pose proof (altered_header _ _ Ha) as (_ & _ & Hac). pose proof (altered_plain _ _ (shared pr s p) Ha) as Hpl.
    pose proof Ha as (Hp & Hp' & _ & Hd). unfold content_of. rewrite (altered_shared _ _ _ Ha). cbv zeta. unfold action_code. rewrite Hac.
    set (code := from_le16 _). set (k := shared pr s p) in *.
    assert (Hl : forall x, length x = N.to_nat 2252 -> length (p_payload x) = N.to_nat 2064).
    { intros x Hx. rewrite p_payload_length by done. apply PAYLOAD_SIZE_eq. }
    destruct (decide (code = 65281%N)).
    { destruct (decide (drop _ (plain_payload pr p k) = _)) as [Ht|Ht];
        (destruct (decide (drop _ (plain_payload pr p' k) = _)) as [Ht'|Ht']; [right|by left]); eexists; [|done].
      split; [done|]. intros Hx. apply Hpl.
      rewrite <- (take_drop (N.to_nat 2048) (plain_payload pr p' k)), <- (take_drop (N.to_nat 2048) (plain_payload pr p k)). congruence. }
    destruct (decide (code = 65282%N)). { eexists. split_and!; [done|done|by apply Hl..]. }
    destruct (decide (code = 65283%N)); [done|]. destruct (decide (code = 65284%N)); [done|].
    destruct (decide (code = 65280%N)). { eexists. split; [done|]. apply altered_next; [done|lia]. }
    destruct (decide (code <= 65279)%N); [|by left]. eexists. split; [done|]. apply altered_next; [done|lia].
  Qed.

  (** The node does with the altered packet what it would have done with the other: it forwards it to the
      same peer at the same time; if it takes a fragment out of both, they differ. *)
  Theorem C79_node m p p' now m1 msg m1' msg' :
    altered p p' -> handle_packet pr m p now = Val (m1, msg) -> handle_packet pr m p' now = Val (m1', msg') ->
    (mx_forward m1 = mx_forward m /\ mx_forward m1' = mx_forward m /\ mx_events m1 = mx_events m /\ mx_events m1' = mx_events m \/
     exists deadline peer n n', altered n n' /\
       fq_queue (mx_forward m1) = fq_queue (mx_forward m) ++ [ForwardPacket deadline (AddressedPacket peer n)] /\
       fq_queue (mx_forward m1') = fq_queue (mx_forward m) ++ [ForwardPacket deadline (AddressedPacket peer n')] /\
       mx_sessions m1' = mx_sessions m1 /\ mx_events m1' = mx_events m1 /\ msg = None /\ msg' = None) /\
    mx_keystore m1' = mx_keystore m1 /\
    forall f f', yields pr m p f -> yields pr m p' f' -> f' <> f.
  Proof.
    intros Ha E E'. pose proof Ha as (Hp & Hp' & _). split; [|split].
    - destruct (handle_packet_spec pr Hok m p now Hp) as [[Hn E1]|(rel & s & Hr & E1)].
      { left. destruct (handle_packet_spec pr Hok m p' now Hp') as [[_ E2]|(rel & s & Hr & _)].
        - rewrite E in E1. rewrite E' in E2. injection E1 as -> ->. injection E2 as -> ->. done.
        - by apply (altered_reads _ _ _ _ _ (altered_sym _ _ Ha)), Hn in Hr. }
      pose proof (altered_reads _ _ _ _ _ Ha Hr) as Hr'.
      destruct (handle_packet_spec pr Hok m p' now Hp') as [[Hn' _]|(rel2 & s2 & Hr2 & E2)]; [by apply Hn' in Hr'|].
      destruct (reads_unique _ _ _ _ _ _ _ Hr' Hr2) as [<- <-]. rewrite E in E1. rewrite E' in E2. symmetry in E1, E2. clear E E'.
      pose proof (altered_content p p' s Ha) as Hc. unfold effect in E1, E2.
      assert (Htag : tag_of pr s p' = tag_of pr s p) by (unfold tag_of; by rewrite (altered_shared _ _ _ Ha)).
      assert (Hkeep : forall q mm mo, content_of pr s q = content_of pr s q ->
                (forall t d n, content_of pr s q <> CtForward t d n) -> effect pr m rel s q now = Val (mm, mo) ->
                mx_forward mm = mx_forward m /\ mx_events mm = mx_events m).
      { intros q mm mo _ Hnf Hq. unfold effect in Hq. destruct (content_of pr s q) as [t d n|f|id pl|cid|].
        - by destruct (Hnf t d n).
        - destruct (decide (is_mixnode s)); [|by injection Hq as <- _].
          apply out_bind_Val in Hq as ([fa [g|]] & _ & Hq); [|by injection Hq as <- _].
          apply out_bind_Val in Hq as (ix & _ & Hq). by injection Hq as <- _.
        - destruct (sk_entry _ _) as [v|]; [|by injection Hq as <- _].
          destruct (decrypt_reply_payload pr pl (sv_keys v)) as [pl' [|]]; [|by injection Hq as <- _].
          apply out_bind_Val in Hq as ([fa o] & _ & Hq). by injection Hq as <- _.
        - by injection Hq as <- _.
        - by injection Hq as <- _. }
      destruct (content_of pr s p) as [t d n|f|id pl|cid|] eqn:Ec.
      + destruct Hc as (n' & Ec' & Hn). rewrite Ec' in E2. destruct (decide (is_mixnode s /\ has_room m)) as [Hroom|].
        2:{ left. injection E1 as <- <-. injection E2 as <- <-. done. }
        destruct (tp_target_to_peer_id (se_topology s) t) as [peer|e].
        2:{ left. injection E1 as <- <-. injection E2 as <- <-. done. }
        right. apply out_bind_Val in E1 as (dur & Ed & E1). rewrite Ed in E2. cbn [out_bind] in E2.
        exists (now + dur)%N, peer, n, n'. split; [done|]. unfold enqueue, noted in E1, E2. rewrite Htag in E2.
        cbn [mx_forward mx_put_session mx_set_sessions] in E1, E2.
        assert (Hd : fq_next_deadline (ForwardQueue (fq_capacity (mx_forward m)) (fq_queue (mx_forward m) ++ [ForwardPacket (now + dur)%N (AddressedPacket peer n')])) =
                     fq_next_deadline (ForwardQueue (fq_capacity (mx_forward m)) (fq_queue (mx_forward m) ++ [ForwardPacket (now + dur)%N (AddressedPacket peer n)]))).
        { unfold fq_next_deadline. cbn [fq_queue]. by apply min_deadline_snoc. }
        rewrite Hd in E2. destruct (decide (_ = fq_next_deadline (mx_forward m))); injection E1 as <- <-; injection E2 as <- <-; done.
      + left. destruct (Hkeep p m1 msg eq_refl) as [-> ->]; [by rewrite Ec|unfold effect; by rewrite Ec|].
        destruct (Hkeep p' m1' msg' eq_refl) as [-> ->]; [|done|done].
        destruct Hc as [->|(f' & -> & _)]; done.
      + left. destruct (Hkeep p m1 msg eq_refl) as [-> ->]; [by rewrite Ec|unfold effect; by rewrite Ec|].
        destruct (Hkeep p' m1' msg' eq_refl) as [-> ->]; [|done|done].
        by destruct Hc as (pl' & -> & _).
      + left. destruct (Hkeep p m1 msg eq_refl) as [-> ->]; [by rewrite Ec|unfold effect; by rewrite Ec|].
        destruct (Hkeep p' m1' msg' eq_refl) as [-> ->]; [by rewrite Hc|done|done].
      + left. destruct (Hkeep p m1 msg eq_refl) as [-> ->]; [by rewrite Ec|unfold effect; by rewrite Ec|].
        destruct (Hkeep p' m1' msg' eq_refl) as [-> ->]; [|done|done].
        destruct Hc as [->|(f' & ->)]; done.
    - destruct (handle_packet_spec pr Hok m p now Hp) as [[Hn E1]|(rel & s & Hr & E1)].
      { destruct (handle_packet_spec pr Hok m p' now Hp') as [[_ E2]|(rel & s & Hr & _)].
        - rewrite E in E1. rewrite E' in E2. injection E1 as -> ->. injection E2 as -> ->. done.
        - by apply (altered_reads _ _ _ _ _ (altered_sym _ _ Ha)), Hn in Hr. }
      pose proof (altered_reads _ _ _ _ _ Ha Hr) as Hr'.
      destruct (handle_packet_spec pr Hok m p' now Hp') as [[Hn' _]|(rel2 & s2 & Hr2 & E2)]; [by apply Hn' in Hr'|].
      destruct (reads_unique _ _ _ _ _ _ _ Hr' Hr2) as [<- <-]. rewrite E in E1. rewrite E' in E2. symmetry in E1, E2. clear E E'.
      pose proof (altered_content p p' s Ha) as Hc.
      assert (Hkeep : forall q mm mo, effect pr m rel s q now = Val (mm, mo) ->
                mx_keystore mm = match content_of pr s q with
                                 | CtReply id _ => match sk_entry (mx_keystore m) id with
                                                   | Some _ => sk_remove (mx_keystore m) id | None => mx_keystore m end
                                 | _ => mx_keystore m end).
      { intros q mm mo Hq. unfold effect in Hq. destruct (content_of pr s q) as [t d n|f|id pl|cid|].
        - destruct (decide _); [|by injection Hq as <- _]. destruct (tp_target_to_peer_id _ _); [|by injection Hq as <- _].
          apply out_bind_Val in Hq as (dur & _ & Hq). injection Hq as <- _. unfold enqueue. by destruct (decide _).
        - destruct (decide (is_mixnode s)); [|by injection Hq as <- _].
          apply out_bind_Val in Hq as ([fa [g|]] & _ & Hq); [|by injection Hq as <- _].
          apply out_bind_Val in Hq as (ix & _ & Hq). by injection Hq as <- _.
        - destruct (sk_entry _ _) as [v|]; [|by injection Hq as <- _].
          destruct (decrypt_reply_payload pr pl (sv_keys v)) as [pl' [|]]; [|by injection Hq as <- _].
          apply out_bind_Val in Hq as ([fa o] & _ & Hq). by injection Hq as <- _.
        - by injection Hq as <- _.
        - by injection Hq as <- _. }
      rewrite (Hkeep _ _ _ E1), (Hkeep _ _ _ E2). clear E1 E2 Hkeep.
      destruct (content_of pr s p) as [t d n|f|id pl|cid|].
      + by destruct Hc as (n' & -> & _).
      + by destruct Hc as [->|(f' & -> & _)].
      + by destruct Hc as (pl' & -> & _).
      + by rewrite Hc.
      + by destruct Hc as [->|(f' & ->)].
    - intros f f' Hy Hy'.
      destruct Hy as [rel s Hr Hct _|rel s id pl v plain Hr Hct Hsk Hd ->];
        (destruct Hy' as [rel' s' Hr' Hct' _|rel' s' id' pl' v' plain' Hr' Hct' Hsk' Hd' ->]);
        pose proof (altered_reads _ _ _ _ _ Ha Hr) as Hr2; destruct (reads_unique _ _ _ _ _ _ _ Hr' Hr2) as [-> ->];
        pose proof (altered_content p p' s Ha) as Hc; rewrite Hct, Hct' in Hc.
      + destruct Hc as [?|(f2 & [= ->] & ?)]; done.
      + destruct Hc as [?|(f2 & ? & _)]; done.
      + destruct Hc as (pl2 & ? & _). done.
      + destruct Hc as (pl2 & [= <- <-] & Hne & Hl & Hl'). rewrite Hsk in Hsk'. injection Hsk' as <-.
        destruct (C79_reply pl pl' (sv_keys v) plain plain' (Ok tt) Hl Hl' Hne Hd Hd') as [?|[_ ?]]; done.
  Qed.
End alter.
