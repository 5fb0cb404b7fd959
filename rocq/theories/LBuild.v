(** Packet construction for arbitrary public keys (the keys of mixnodes are whatever was given to
    [maybe_set_mixnodes]): it returns packets of the right size whenever the path fits. *)
From Verif Require Export PSphinx.

Definition path_fits (ts : list target) (keys : list bytes) : Prop :=
  length keys = S (length ts) /\ length keys ≤ 6 /\ Forall target_ok ts /\
  length (List.filter is_peer ts) ≤ 1.

(** A sum, in order from zero, of at most [n] delays of hops. *)
Definition delay_sum (pr : prims) (n : nat) (d : delay) : Prop :=
  exists ss : list bytes, length ss ≤ n /\ d = foldl delay_add delay_zero (map (hop_delay pr) ss).
Lemma delay_sum_zero pr n : delay_sum pr n delay_zero.
Proof. exists []. split; [cbn; lia|done]. Qed.

Section any.
  Context (pr : prims) (Hok : prims_ok pr).

  Lemma gen_kx_loop_any keys : forall i kpub n secrets,
    (i ≠ 0 -> secrets ≠ []) -> length secrets + length keys ≤ MAX_HOPS ->
    exists ss, gen_kx_loop pr i kpub n secrets keys = Val ss /\ length ss = length secrets + length keys.
  Proof.
    induction keys as [|k keys IH]; intros i kpub n secrets Hi Hl; cbn [gen_kx_loop].
    { exists secrets. split; [done|]. cbn. lia. }
    cbn [length] in Hl.
    assert (Hc : forall a b, exists ss,
      (secrets' ← av_push MAX_HOPS secrets (pr_mont_mul pr k b); gen_kx_loop pr (S i) a b secrets' keys)
        = Val ss /\ length ss = length secrets + S (length keys)).
    { intros a b. unfold av_push. destruct (decide (length secrets < MAX_HOPS)) as [_|Hn]; [|lia].
      cbn [out_bind].
      destruct (IH (S i) a b (secrets ++ [pr_mont_mul pr k b])) as (ss & E & Hss).
      - intros _ [_ ?]%app_eq_nil. done.
      - rewrite app_length. cbn. lia.
      - exists ss. split; [done|]. rewrite Hss, app_length. cbn. lia. }
    destruct (decide (i ≠ 0)) as [H|H]; [|apply Hc]. specialize (Hi H).
    destruct (list.last secrets) as [x|] eqn:E; [cbn [expect out_bind]; apply Hc|].
    by apply last_None in E.
  Qed.
  Lemma gen_kx_any keys r :
    length keys ≤ 6 ->
    exists pub ss r', gen_kx_public_and_shared_secrets pr keys r = Val (pub, ss, r') /\
      length pub = 32 /\ length ss = length keys.
  Proof.
    intros Hl. unfold gen_kx_public_and_shared_secrets.
    destruct (gen_kx_secret r) as [secret r'].
    destruct (gen_kx_loop_any keys 0 (derive_kx_public pr secret)
      (scalar_from_bytes_mod_order (clamp_integer secret)) []) as (ss & -> & Hs); [done|exact Hl|].
    cbn [out_bind]. do 3 eexists. split; [done|]. split; [|done].
    apply (mont_mul_length _ Hok).
  Qed.

  Lemma build_header_any header ts keys k r :
    length header = HEADER_SIZE -> path_fits ts keys -> kind_ok k ->
    exists h ss r',
      build_header pr header ts keys k r =
        Val (h, ss, foldl delay_add delay_zero (map (hop_delay pr) (take (length ts) ss)), r') /\
      length h = HEADER_SIZE /\ length ss = length keys.
  Proof.
    intros Hh (Hlen & Hmax & Hts & Hp) Hk. unfold build_header.
    rewrite bool_decide_eq_true_2 by lia. cbn [assert_or_panic out_bind].
    rewrite bool_decide_eq_true_2 by (unfold MAX_HOPS; lia). cbn [assert_or_panic out_bind].
    destruct (gen_kx_any keys r Hmax) as (pub & ss & r1 & -> & Hpub & Hss). cbn [out_bind].
    set (st := {| bs_buf := _; bs_offset := _; bs_total_delay := _; bs_hops := _; bs_pad := _ |}).
    destruct (build_loops pr Hok ss k r1 ts ss st []) as (st'&hs&bufl&r'&M&E&pad'&F1&F2&F3&F4&F5&F6&F7&F8&_).
    { split; [cbn; rewrite drop_length; szlia|]. done. }
    { lia. }
    { done. } { done. } { done. }
    { cbn [st bs_offset]. rewrite Nat.add_0_l. apply (path_ok_room ts keys); [|done].
      split_and!; done. }
    { cbn. szlia. }
    rewrite F1. cbn [out_bind]. rewrite F4. cbn [out_bind].
    cbn [st bs_hops app] in F2. rewrite F2, F5. cbn [out_bind].
    exists (pub ++ M ++ E), ss, r'. split; [|split; [|done]].
    - cbn [st bs_offset bs_buf take app]. by rewrite F3.
    - apply seen_length in F8 as [_ HE]; [|done..]. rewrite app_nil_r in HE. rewrite !app_length. szlia.
  Qed.

  Lemma hop_delays_sum (ss : list bytes) n :
    n ≤ 5 -> delay_sum pr 5 (foldl delay_add delay_zero (map (hop_delay pr) (take n ss))).
  Proof. intros Hn. exists (take n ss). split; [rewrite take_length; lia|done]. Qed.

  Lemma encrypt_layers_length payload ss :
    length payload = PAYLOAD_SIZE -> length (encrypt_payload_layers pr payload ss) = PAYLOAD_SIZE.
  Proof.
    revert payload. induction ss as [|s ss IH]; intros p Hp; [done|]. cbn. apply IH.
    by apply (lioness_encrypt_length _ Hok).
  Qed.

  Lemma complete_request_any packet ts keys r :
    length packet = PACKET_SIZE -> path_fits ts keys ->
    exists p d r', complete_request_packet pr packet ts keys r = Val (p, d, r') /\
      length p = PACKET_SIZE /\ delay_sum pr 5 d.
  Proof.
    intros Hp Hf. pose proof Hf as (Hlen & Hmax & _). unfold complete_request_packet.
    rewrite bool_decide_eq_true_2 by lia. cbn [assert_or_panic out_bind].
    rewrite bool_decide_eq_true_2 by (unfold MAX_HOPS; lia). cbn [assert_or_panic out_bind].
    destruct (build_header_any (take HEADER_SIZE packet) ts keys KRequest r) as (h&ss&r'&->&Hh&Hs).
    { rewrite take_length. szlia. } { done. } { done. }
    cbn [out_bind]. do 3 eexists. split; [done|]. split.
    - rewrite app_length, encrypt_layers_length; [szlia|].
      rewrite put_length.
      + rewrite drop_length. szlia.
      + rewrite drop_length. change (length PAYLOAD_TAG) with PAYLOAD_TAG_SIZE. szlia.
    - apply hop_delays_sum. lia.
  Qed.

  Lemma build_surb_any surb first ts keys id r :
    length surb = SURB_SIZE -> path_fits ts keys -> length id = 16 ->
    exists s ks d r', build_surb pr surb [] first ts keys id r = Val (s, ks, d, r') /\
      length s = SURB_SIZE /\ delay_sum pr 5 d.
  Proof.
    intros Hp Hf Hid. pose proof Hf as (Hlen & Hmax & _). unfold build_surb.
    rewrite bool_decide_eq_true_2 by lia. cbn [assert_or_panic out_bind].
    rewrite bool_decide_eq_true_2 by (unfold MAX_HOPS; lia). cbn [assert_or_panic out_bind].
    destruct (build_header_any (slice surb RAW_MIXNODE_INDEX_SIZE HEADER_SIZE) ts keys (KReply id) r)
      as (h&ss&r'&->&Hh&Hs).
    { apply slice_length. rewrite Hp. unfold SURB_SIZE. szlia. } { done. } { done. }
    cbn [out_bind]. destruct (rng_fill SHARED_SECRET_SIZE r') as [sec r2] eqn:Er.
    assert (Hsec : length sec = SHARED_SECRET_SIZE).
    { pose proof (rng_fill_length SHARED_SECRET_SIZE r') as H. by rewrite Er in H. }
    unfold av_push. destruct (decide _) as [_|Hn]; [|destruct Hn; cbn; szlia]. cbn [out_bind].
    rewrite push_payload_keys_spec by (rewrite take_length; cbn; szlia). cbn [out_bind].
    do 4 eexists. split; [done|]. split.
    - rewrite !app_length, length_to_le16. unfold SURB_SIZE. szlia.
    - apply hop_delays_sum. lia.
  Qed.

  Lemma build_cover_any packet ts keys id r :
    length packet = PACKET_SIZE -> path_fits ts keys -> kind_ok (KCover id) ->
    exists p d r', build_cover_packet pr packet ts keys id r = Val (p, d, r') /\
      length p = PACKET_SIZE.
  Proof.
    intros Hp Hf Hid. pose proof Hf as (Hlen & Hmax & _). unfold build_cover_packet.
    rewrite bool_decide_eq_true_2 by lia. cbn [assert_or_panic out_bind].
    rewrite bool_decide_eq_true_2 by (unfold MAX_HOPS; lia). cbn [assert_or_panic out_bind].
    destruct (build_header_any (take HEADER_SIZE packet) ts keys (KCover id) r) as (h&ss&r'&->&Hh&Hs).
    { rewrite take_length. szlia. } { done. } { done. }
    cbn [out_bind]. destruct (rng_fill PAYLOAD_SIZE r') as [pl r2] eqn:Er.
    do 3 eexists. split; [done|].
    pose proof (rng_fill_length PAYLOAD_SIZE r') as H. rewrite Er in H. cbn in H.
    rewrite app_length. szlia.
  Qed.
End any.
