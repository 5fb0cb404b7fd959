(** C85: whatever must be unpredictable is read from the random number generator, each time anew. *)
From Verif Require Export PPost PSess PUniform.

(** ** Specification *)

(** The strings [vs] are the output of generator [r], one after the other, possibly with other numbers
    drawn before, between and after them: no two of them share a byte of the output. *)
Fixpoint fresh (r : rng) (vs : list bytes) : Prop :=
  match vs with
  | [] => True
  | v :: vs => exists i, v = (rng_fill (length v) (after r i)).1 /\ fresh (after r (i + length v)) vs
  end.

(** What is drawn for a SURB (its id, the secret for its header, and the secret for the first layer of
    the reply), and for a packet (its SURBs and the secret for its header) *)
Record surb_seed := SurbSeed { sd_id : bytes; sd_secret : bytes; sd_shared : bytes }.
Record packet_seed := PacketSeed { pd_surbs : list surb_seed; pd_secret : bytes }.
Definition surb_strings (u : surb_seed) : list bytes := [sd_id u; sd_secret u; sd_shared u].
Definition packet_strings (p : packet_seed) : list bytes := concat (map surb_strings (pd_surbs p)) ++ [pd_secret p].
Definition surb_sizes (u : surb_seed) : Prop :=
  length (sd_id u) = 16 /\ length (sd_secret u) = 32 /\ length (sd_shared u) = 32.

(** [ss] are the secrets that the maker of a header with secret [s] shares with the hops of a path. *)
Definition agreed (pr : prims) (s : bytes) (ss : list bytes) : Prop :=
  exists publics, forall r, (rng_fill 32 r).1 = s ->
    exists r', gen_kx_public_and_shared_secrets pr publics r = Val (derive_kx_public pr s, ss, r').

(** The keys kept for a SURB are those derived from its secrets. *)
Definition entry_of (pr : prims) (u : surb_seed) (e : bytes * surb_value) : Prop :=
  e.1 = sd_id u /\ exists ss, agreed pr (sd_secret u) ss /\
    sv_keys e.2 = derive_payload_encryption_key pr (sd_shared u) ::
                  map (derive_payload_encryption_key pr) (take (length ss - 1) ss).

(** ** Proof *)
(** [vs] are found between [r] and [r']. *)
Fixpoint fresh_to (r r' : rng) (vs : list bytes) : Prop :=
  match vs with
  | [] => same_tape r r'
  | v :: vs => exists i, v = (rng_fill (length v) (after r i)).1 /\ fresh_to (after r (i + length v)) r' vs
  end.
Lemma same_tape_after r r' : same_tape r r' -> exists i, r' = after r i.
Proof.
  intros [Et Hp]. exists (rng_pos r' - rng_pos r). destruct r as [t p], r' as [t' p']. cbn in *. subst.
  unfold after. cbn. f_equal. lia.
Qed.
Lemma after_same r i : same_tape r (after r i).
Proof. split; [done|cbn; lia]. Qed.
Lemma fresh_to_fresh vs : forall r r', fresh_to r r' vs -> fresh r vs.
Proof. induction vs as [|v vs IH]; intros r r'; cbn; [done|]. intros (i & E & H). exists i. eauto. Qed.
Lemma fresh_to_before r1 r2 r' vs : same_tape r1 r2 -> fresh_to r2 r' vs -> fresh_to r1 r' vs.
Proof.
  intros Hs. destruct vs as [|v vs]; cbn [fresh_to]; [by apply same_tape_trans|].
  apply same_tape_after in Hs as [k ->]. intros (i & E & H). exists (k + i).
  rewrite after_after in E, H. split; [done|]. by rewrite <- Nat.add_assoc.
Qed.
Lemma fresh_before r1 r2 vs : same_tape r1 r2 -> fresh r2 vs -> fresh r1 vs.
Proof.
  intros Hs. destruct vs as [|v vs]; cbn [fresh]; [done|].
  apply same_tape_after in Hs as [k ->]. intros (i & E & H). exists (k + i).
  rewrite after_after in E, H. split; [done|]. by rewrite <- Nat.add_assoc.
Qed.
Lemma fresh_to_app vs : forall r1 r2 r3 vs', fresh_to r1 r2 vs -> fresh_to r2 r3 vs' -> fresh_to r1 r3 (vs ++ vs').
Proof.
  induction vs as [|v vs IH]; intros r1 r2 r3 vs' H H'; cbn [app fresh_to] in *.
  - by eapply fresh_to_before.
  - destruct H as (i & E & H). exists i. eauto.
Qed.
Lemma fresh_to_fill n r v r' : rng_fill n r = (v, r') -> fresh_to r r' [v].
Proof.
  intros E. exists 0. rewrite after_0.
  assert (El : length v = n).
  { pose proof (rng_fill_length n r) as H. by rewrite E in H. }
  rewrite El. split; [by rewrite E|]. cbn [fresh_to].
  unfold rng_fill in E. injection E as _ <-. apply same_tape_refl.
Qed.

Lemma gen_route_tape g k n r x r' : gen_route g k n r = Val (Ok (x, r')) -> same_tape r r'.
Proof.
  unfold gen_route. intros H. inv_ok.
  repeat match goal with
  | H : special_hop _ _ _ _ = _ |- _ => apply special_hop_draws, draws_tape in H
  | H : route_loop _ _ _ _ _ _ _ _ = _ |- _ => apply route_loop_draws, draws_tape in H
  end.
  eauto using same_tape_trans.
Qed.
Lemma gen_bool_tape p r b r' : gen_bool p r = Val (b, r') -> same_tape r r'.
Proof.
  unfold gen_bool. intros H. destruct (f_cmp p f_one) as [[]|]; try discriminate H; [by injection H as _ <-|].
  destruct (f_cmp f_zero p) as [[]|]; try discriminate H;
    destruct (rng_draw r) as [v r1] eqn:Ed; apply rng_draw_draws, draws_tape in Ed; by injection H as _ <-.
Qed.
Lemma pick_session_tape m r x r' : pick_session m r = Val (x, r') -> same_tape r r'.
Proof.
  unfold pick_session. intros H. repeat case_match; inv_ok; try done.
  by eapply gen_bool_tape.
Qed.
Lemma rng_pick_tape n : forall pool r xs r', rng_pick pool n r = (xs, r') -> same_tape r r'.
Proof.
  induction n as [|n IH]; intros pool r xs r' H; cbn [rng_pick] in H; [by injection H as _ <-|].
  destruct (rng_draw r) as [v r1] eqn:Ed. apply rng_draw_draws, draws_tape in Ed.
  destruct (pool !! _); [|by injection H as _ <-].
  destruct (rng_pick _ n r1) as [ys r2] eqn:Ep. apply IH in Ep. injection H as _ <-. by eapply same_tape_trans.
Qed.
Lemma tp_new_tape ms k n r t r' : tp_new ms k n r = Val (t, r') -> same_tape r r'.
Proof.
  unfold tp_new. intros H. inv_ok. case_match; inv_ok; [done|].
  match goal with H : rng_sample _ _ _ = _ |- _ => unfold rng_sample in H; case_match; [done|]; injection H as H end.
  by eapply rng_pick_tape.
Qed.

Section fresh.
  Context (pr : prims) (Hok : prims_ok pr).

  Lemma gen_kx_fresh keys r pub ss r' :
    gen_kx_public_and_shared_secrets pr keys r = Val (pub, ss, r') ->
    exists s, length s = 32 /\ pub = derive_kx_public pr s /\ agreed pr s ss /\ fresh_to r r' [s].
  Proof.
    unfold gen_kx_public_and_shared_secrets. destruct (gen_kx_secret r) as [s r1] eqn:Es. intros H.
    apply out_bind_Val in H as (secrets & E & H). injection H as <- <- <-. unfold gen_kx_secret in Es.
    exists s. split_and!.
    - pose proof (rng_fill_length 32 r) as H. by rewrite Es in H.
    - done.
    - exists keys. intros r0 E0. unfold gen_kx_public_and_shared_secrets, gen_kx_secret.
      destruct (rng_fill 32 r0) as [s0 r0'] eqn:Er. cbn [fst] in E0. subst s0. rewrite E. cbn [out_bind]. by eexists.
    - by eapply fresh_to_fill.
  Qed.
  Lemma last_hop_tape st ss k r x r' : last_hop pr st ss k r = Val (x, r') -> same_tape r r'.
  Proof. intros H. by eapply draws_tape, last_hop_draws. Qed.
  Lemma build_header_fresh hd ts keys k r h ss d r' :
    build_header pr hd ts keys k r = Val (h, ss, d, r') ->
    exists s rest, length s = 32 /\ h = derive_kx_public pr s ++ rest /\ agreed pr s ss /\ fresh_to r r' [s].
  Proof.
    unfold build_header. intros H.
    apply out_bind_Val in H as (_ & _ & H). apply out_bind_Val in H as (_ & _ & H).
    apply out_bind_Val in H as ([[pub secrets] r1] & Eg & H).
    apply out_bind_Val in H as (st & _ & H). apply out_bind_Val in H as ([buf r2] & El & H).
    apply out_bind_Val in H as ([buf' pad'] & _ & H).
    assert (pub ++ buf' = h) as <- by congruence. assert (secrets = ss) as -> by congruence.
    assert (r2 = r') as -> by congruence. clear H.
    destruct (gen_kx_fresh _ _ _ _ _ Eg) as (s & Hs & -> & Ha & Hf). exists s, buf'. split_and!; [done|done|done|].
    apply (fresh_to_app [s] r r1 r' []); [done|]. by eapply last_hop_tape.
  Qed.
  Lemma starts_with_public s (rest : bytes) : take 32 (derive_kx_public pr s ++ rest) = derive_kx_public pr s.
  Proof. apply take_app_alt. symmetry. apply (mont_mul_length _ Hok). Qed.
  Lemma complete_request_fresh p ts keys r q d r' :
    complete_request_packet pr p ts keys r = Val (q, d, r') ->
    exists s, length s = 32 /\ take 32 q = derive_kx_public pr s /\ fresh_to r r' [s].
  Proof.
    unfold complete_request_packet. intros H.
    apply out_bind_Val in H as (_ & _ & H). apply out_bind_Val in H as (_ & _ & H).
    apply out_bind_Val in H as ([[[h ss] d'] r1] & Eb & H). cbv zeta in H.
    destruct (build_header_fresh _ _ _ _ _ _ _ _ _ Eb) as (s & rest & Hs & -> & _ & Hf). exists s.
    assert (r1 = r') as <- by congruence. split_and!; [done| |done].
    match type of H with Val (?a, _, _) = _ => assert (q = a) as -> by congruence end.
    rewrite <- app_assoc. apply starts_with_public.
  Qed.
  Lemma push_payload_keys_eq ss : forall keys keys',
    push_payload_keys pr keys ss = Val keys' -> keys' = keys ++ map (derive_payload_encryption_key pr) ss.
  Proof.
    induction ss as [|s ss IH]; intros keys keys' H; cbn [push_payload_keys] in H.
    { injection H as <-. cbn. by rewrite app_nil_r. }
    apply out_bind_Val in H as (k1 & E & H). apply IH in H as ->.
    unfold av_push in E. destruct (decide _); [|done]. injection E as <-. rewrite <- app_assoc. done.
  Qed.
  Lemma build_surb_fresh s0 first ts keys id r surb ks d r' :
    build_surb pr s0 [] first ts keys id r = Val (surb, ks, d, r') ->
    exists s sh ss, length s = 32 /\ length sh = 32 /\ agreed pr s ss /\ fresh_to r r' [s; sh] /\
      ks = derive_payload_encryption_key pr sh :: map (derive_payload_encryption_key pr) (take (length ss - 1) ss).
  Proof.
    unfold build_surb. intros H.
    apply out_bind_Val in H as (_ & _ & H). apply out_bind_Val in H as (_ & _ & H).
    apply out_bind_Val in H as ([[[h ss] d'] r1] & Eb & H). cbv zeta in H.
    destruct (rng_fill SHARED_SECRET_SIZE r1) as [sh r2] eqn:Er.
    apply out_bind_Val in H as (k1 & E1 & H). apply out_bind_Val in H as (k2 & E2 & H).
    destruct (build_header_fresh _ _ _ _ _ _ _ _ _ Eb) as (s & rest & Hs & _ & Ha & Hf).
    exists s, sh, ss. assert (r2 = r') as <- by congruence. assert (k2 = ks) as -> by congruence. clear H.
    apply push_payload_keys_eq in E2 as ->. unfold av_push in E1. destruct (decide _); [|done]. injection E1 as <-.
    split_and!; [done| |done| |done].
    - pose proof (rng_fill_length SHARED_SECRET_SIZE r1) as H. by rewrite Er in H.
    - apply (fresh_to_app [s] r r1 r2 [sh]); [done|]. by eapply fresh_to_fill.
  Qed.

  (** Every entry of the second keystore is in the first, or belongs to one of [us]. *)
  Definition entries_of (ks ks' : surb_keystore) (us : list surb_seed) : Prop :=
    forall e, e ∈ sk_surbs ks' -> e ∈ sk_surbs ks \/ exists u, u ∈ us /\ entry_of pr u e.
  Lemma entries_trans ks1 ks2 ks3 us us' : entries_of ks1 ks2 us -> entries_of ks2 ks3 us' -> entries_of ks1 ks3 (us ++ us').
  Proof.
    intros H1 H2 e He. destruct (H2 e He) as [He'|(u & Hu & Hue)].
    - destruct (H1 e He') as [?|(u & Hu & Hue)]; [by left|]. right. exists u. split; [|done]. apply elem_of_app. by left.
    - right. exists u. split; [|done]. apply elem_of_app. by right.
  Qed.
  Lemma ks_push_entries ks e e' : e' ∈ sk_surbs (ks_push ks e) -> e' = e \/ e' ∈ sk_surbs ks.
  Proof.
    cbn. intros H. apply elem_of_app in H as [H|H]; [right|left; by apply elem_of_list_singleton].
    unfold make_room in H. destruct (decide _); [|done]. destruct (sk_surbs ks); cbn in *; [done|]. by right.
  Qed.

  Lemma write_surbs_fresh cf rb mid offsets : forall st frag r st' frag' r',
    ks_ok (sst_keystore st) ->
    write_surbs pr cf rb mid offsets st frag r = Val (st', Ok (frag', r')) ->
    exists us, length us = length offsets /\ Forall surb_sizes us /\
      fresh_to r r' (concat (map surb_strings us)) /\
      ks_ok (sst_keystore st') /\ entries_of (sst_keystore st) (sst_keystore st') us.
  Proof.
    induction offsets as [|off offsets IH]; intros st frag r st' frag' r' Hks H; cbn [write_surbs] in H.
    { injection H as <- <- <-. exists []. split_and!; try done. intros e He. by left. }
    destruct (sk_insert_cases (sst_keystore st) mid r Hks) as [[Hin E]|(ks1 & E & Hset)]; rewrite E in H; [done|].
    cbn [out_bind] in H. clear E. destruct (rng_fill 16 r) as [id r1] eqn:Eid. cbn [fst snd] in *.
    apply out_bind_Val in H as (res & Eb & H). destruct res as [[[[surb keys] metrics] r2]|e]; [|done].
    unfold rb_build_surb in Eb. apply try_bind_Val in Eb as ([rt r3] & Er & Eb).
    apply out_bind_Val in Eb as ([[[surb' keys'] d'] r4] & Es & Eb).
    assert (keys' = keys) as -> by congruence. assert (r4 = r2) as -> by congruence. clear Eb.
    destruct (build_surb_fresh _ _ _ _ _ _ _ _ _ _ Es) as (s & sh & ss & Hs & Hsh & Ha & Hf & Hk).
    apply out_bind_Val in H as (dl & _ & H). destruct (Hset keys) as [Ek Hks2]. rewrite Ek in H.
    apply IH in H as (us & Hl & Hus & Hfr & Hks' & Hen); [|exact Hks2]. cbn [sst_keystore] in Hen.
    assert (Hidl : length id = 16).
    { pose proof (rng_fill_length 16 r) as H. by rewrite Eid in H. }
    exists (SurbSeed id s sh :: us). split_and!.
    - cbn. by rewrite Hl.
    - by constructor.
    - cbn [map concat]. eapply fresh_to_app; [|exact Hfr].
      unfold surb_strings. cbn [sd_id sd_secret sd_shared]. apply (fresh_to_app [id] r r1 r2 [s; sh]).
      + by eapply fresh_to_fill.
      + eapply fresh_to_before; [|exact Hf]. by eapply gen_route_tape.
    - done.
    - refine (entries_trans _ _ _ [SurbSeed id s sh] us _ Hen).
      intros e He. apply ks_push_entries in He as [->|He]; [|by left]. right.
      eexists. split; [by left|]. split; [done|]. exists ss. split; done.
  Qed.

  Lemma post_loop_fresh cf rb mid bs : forall st r st',
    ks_ok (sst_keystore (pst_surb st)) ->
    post_request_loop pr cf rb mid bs st r = Val (st', Ok tt) ->
    exists (ps : list packet_seed) qs, length ps = length bs /\
      Forall (fun p => length (pd_secret p) = 32 /\ Forall surb_sizes (pd_surbs p)) ps /\
      fresh r (concat (map packet_strings ps)) /\
      aq_queue (pst_queue st') = aq_queue (pst_queue st) ++ qs /\
      Forall2 (fun p q => take 32 (ap_packet q) = derive_kx_public pr (pd_secret p)) ps qs /\
      entries_of (sst_keystore (pst_surb st)) (sst_keystore (pst_surb st')) (concat (map pd_surbs ps)).
  Proof.
    assert (Hgen : forall bs st r st', ks_ok (sst_keystore (pst_surb st)) ->
      post_request_loop pr cf rb mid bs st r = Val (st', Ok tt) ->
      exists (ps : list packet_seed) qs r', length ps = length bs /\
        Forall (fun p => length (pd_secret p) = 32 /\ Forall surb_sizes (pd_surbs p)) ps /\
        fresh_to r r' (concat (map packet_strings ps)) /\
        aq_queue (pst_queue st') = aq_queue (pst_queue st) ++ qs /\
        Forall2 (fun p q => take 32 (ap_packet q) = derive_kx_public pr (pd_secret p)) ps qs /\
        entries_of (sst_keystore (pst_surb st)) (sst_keystore (pst_surb st')) (concat (map pd_surbs ps))).
    { clear bs. induction bs as [|b bs IH]; intros st r st' Hks H; cbn [post_request_loop] in H.
      { assert (st = st') as <- by congruence. exists [], [], r. split_and!; try done; [by rewrite app_nil_r|].
        intros e He. by left. }
      apply out_bind_Val in H as ([sst res] & Eb & H). destruct res as [[[packet metrics] r1]|e]; [|congruence].
      unfold rb_build_packet in Eb. apply out_bind_Val in Eb as (rres & Er & Eb).
      destruct rres as [[rt r2]|e]; [|congruence].
      destruct (tp_index_to_peer_id _ _) as [peer|e]; [|congruence]. cbv zeta in Eb.
      apply out_bind_Val in Eb as ([s2 written] & Ew & Eb). destruct written as [[data r3]|e]; [|congruence].
      apply out_bind_Val in Eb as ([[pk dl] r4] & Ec & Eb).
      assert (s2 = sst) as -> by congruence. assert (r4 = r1) as -> by congruence.
      assert (packet = AddressedPacket peer pk) as -> by congruence. clear Eb.
      unfold write_fragment in Ew. apply out_bind_Val in Ew as (frag & _ & Ew).
      destruct (write_surbs_fresh _ _ _ _ _ _ _ _ _ _ Hks Ew) as (us & _ & Hus & Hfu & Hks2 & Hen).
      destruct (complete_request_fresh _ _ _ _ _ _ _ Ec) as (s & Hs & Hp & Hfs).
      apply out_bind_Val in H as (q & Eq & H). apply out_bind_Val in H as (dm & _ & H).
      unfold aq_push in Eq. apply out_bind_Val in Eq as (_ & _ & Eq).
      apply IH in H as (ps & qs & r' & Hl & Hps & Hf & Hq & Hqs & Hen'); [|exact Hks2].
      cbn [pst_surb pst_queue] in *.
      exists (PacketSeed us s :: ps), (AddressedPacket peer pk :: qs), r'. split_and!.
      - cbn. by rewrite Hl.
      - by constructor.
      - cbn [map concat]. eapply fresh_to_app; [|exact Hf]. unfold packet_strings. cbn [pd_surbs pd_secret].
        eapply fresh_to_app; [|exact Hfs]. eapply fresh_to_before; [|exact Hfu]. by eapply gen_route_tape.
      - rewrite Hq. assert (aq_queue q = aq_queue (pst_queue st) ++ [AddressedPacket peer pk]) as ->.
        { injection Eq as <-. done. }
        by rewrite <- app_assoc.
      - by constructor.
      - cbn [map concat]. by eapply entries_trans. }
    intros st r st' Hks H. destruct (Hgen _ _ _ _ Hks H) as (ps & qs & r' & H1 & H2 & H3 & H4).
    exists ps, qs. split_and!; try apply H4; try done. by eapply fresh_to_fresh.
  Qed.

  (** C85, requests: the secret of each packet, and the id and the two secrets of each SURB, are read
      from separate places of the random output. *)
  Theorem C85_request m index dest mid data n ns r m' dest' metrics :
    ks_ok (mx_keystore m) ->
    post_request pr m index dest mid data n ns r = Val (m', dest', Ok metrics) ->
    exists (ps : list packet_seed) qs rel s s',
      fresh r (concat (map packet_strings ps)) /\
      Forall (fun p => length (pd_secret p) = 32 /\ Forall surb_sizes (pd_surbs p)) ps /\
      ss_get (mx_sessions m) rel = SlFull s /\ ss_get (mx_sessions m') rel = SlFull s' /\
      aq_queue (se_authored s') = aq_queue (se_authored s) ++ qs /\
      Forall2 (fun p q => take 32 (ap_packet q) = derive_kx_public pr (pd_secret p)) ps qs /\
      (forall e, e ∈ sk_surbs (mx_keystore m') -> e ∈ sk_surbs (mx_keystore m) \/
         exists u, u ∈ concat (map pd_surbs ps) /\ entry_of pr u e).
  Proof.
    intros Hks H. unfold post_request in H. apply out_bind_Val in H as ([bs|] & _ & H); [|congruence].
    destruct (_ <? _)%N; [congruence|]. destruct (post_session _ _ _) as [[rel s]|e] eqn:Es; [|congruence].
    destruct (aq_check_space _ _); [|congruence].
    apply out_bind_Val in H as ([[rb r1]|e] & Erb & H); [|congruence].
    apply out_bind_Val in H as ([st res] & El & H). cbv zeta in H. destruct res as [[]|e]; [|congruence].
    apply out_bind_Val in H as (fd & _ & H). apply out_bind_Val in H as (qd & _ & H).
    set (m1 := mx_put_session _ _ _) in H. assert (m' = m1) as -> by congruence. clear H. unfold m1. clear m1.
    apply post_loop_fresh in El as (ps & qs & _ & Hps & Hf & Hq & Hqs & Hen); [|exact Hks].
    exists ps, qs, rel, s. eexists. split_and!.
    - eapply fresh_before; [|exact Hf]. by eapply draws_tape, rb_new_draws.
    - done.
    - unfold post_session in Es. repeat case_match; congruence.
    - apply ss_get_set || (unfold mx_put_session, mx_set_sessions; cbn; by destruct rel).
    - exact Hq.
    - done.
    - exact Hen.
  Qed.

  Lemma build_cover_fresh p0 ts keys id r p d r' :
    build_cover_packet pr p0 ts keys id r = Val (p, d, r') ->
    exists secret payload rest, fresh_to r r' [secret; payload] /\ length secret = 32 /\ length payload = N.to_nat 2064 /\
      p = derive_kx_public pr secret ++ rest ++ payload.
  Proof.
    unfold build_cover_packet. intros H.
    apply out_bind_Val in H as (_ & _ & H). apply out_bind_Val in H as (_ & _ & H).
    apply out_bind_Val in H as ([[[h ss] d'] r1] & Eb & H). cbv zeta in H.
    destruct (rng_fill PAYLOAD_SIZE r1) as [pl r2] eqn:Er.
    destruct (build_header_fresh _ _ _ _ _ _ _ _ _ Eb) as (s & rest & Hs & -> & _ & Hf).
    exists s, pl, rest. assert (r2 = r') as <- by congruence. split_and!.
    - apply (fresh_to_app [s] r r1 r2 [pl]); [done|]. by eapply fresh_to_fill.
    - done.
    - pose proof (rng_fill_length PAYLOAD_SIZE r1) as Hl. rewrite Er in Hl. rewrite PAYLOAD_SIZE_eq in Hl. exact Hl.
    - rewrite app_assoc. congruence.
  Qed.
  Lemma gen_cover_fresh t ns kind h r p :
    gen_cover_packet pr t ns kind h r = Val (Ok p) ->
    exists secret payload rest, fresh r [secret; payload] /\ length secret = 32 /\ length payload = N.to_nat 2064 /\
      ap_packet p = derive_kx_public pr secret ++ rest ++ payload.
  Proof.
    unfold gen_cover_packet. intros H. apply out_bind_Val in H as (g & _ & H).
    apply try_bind_Val in H as ([rk r1] & Ek & H). apply try_bind_Val in H as ([rt r2] & Er & H).
    destruct (tp_index_to_peer_id _ _) as [peer|]; [|congruence].
    apply out_bind_Val in H as ([[pk d] r3] & Eb & H). assert (p = AddressedPacket peer pk) as -> by congruence.
    destruct (build_cover_fresh _ _ _ _ _ _ _ _ Eb) as (s & pl & rest & Hf & Hs & Hl & E).
    exists s, pl, rest. split_and!; try done. eapply fresh_before; [|by eapply fresh_to_fresh].
    eapply same_tape_trans; [|by eapply gen_route_tape].
    destruct kind; [|by injection Ek as _ <-].
    apply try_bind_Val in Ek as ([i r4] & Ec & Ek). assert (r4 = r1) as -> by congruence.
    by eapply draws_tape, choose_destination_draws.
  Qed.

  (** C85, cover: a packet that was not queued has its secret and its whole payload from separate places
      of the random output. *)
  Theorem C85_cover m ns r m' p :
    pop_next_authored_packet pr m ns r = Val (m', Some p) ->
    (exists rel s rest, ss_get (mx_sessions m) rel = SlFull s /\ aq_queue (se_authored s) = p :: rest) \/
    exists secret payload rest, fresh r [secret; payload] /\ length secret = 32 /\ length payload = N.to_nat 2064 /\
      ap_packet p = derive_kx_public pr secret ++ rest ++ payload.
  Proof.
    unfold pop_next_authored_packet. intros H. apply out_bind_Val in H as ([picked r1] & Ep & H).
    destruct picked as [[rel s]|]; [|congruence]. cbv zeta in H.
    apply out_bind_Val in H as ([loop r2] & Eg & H).
    assert (Ht : same_tape r r2).
    { eapply same_tape_trans; [by eapply pick_session_tape|by eapply gen_bool_tape]. }
    assert (Hget : ss_get (mx_sessions m) rel = SlFull s).
    { unfold pick_session, ss_enumerate in Ep. destruct (mx_sessions m) as [[|? | |c] [|? | |v]]; cbn in Ep; try congruence;
        try (injection Ep as <- <- _; done).
      apply out_bind_Val in Ep as ([[] ?] & _ & Ep); injection Ep as <- <- _; done. }
    assert (Hcov : forall m1 kind, (if negb (cf_gen_cover_packets (mx_config m1)) then Val (m1, None)
       else res ← gen_cover_packet pr (se_topology s) ns kind (cf_num_hops (mx_config m1)) r2;
            match res with Ok p => Val (m1, Some p) | Err _ => Val (m1, None) end) = Val (m', Some p) ->
       exists secret payload rest, fresh r [secret; payload] /\ length secret = 32 /\ length payload = N.to_nat 2064 /\
         ap_packet p = derive_kx_public pr secret ++ rest ++ payload).
    { intros m1 kind H1. destruct (negb (cf_gen_cover_packets (mx_config m1))); [discriminate H1|].
      apply out_bind_Val in H1 as ([p'|] & Ec & H1); [|congruence]. assert (p' = p) as -> by congruence.
      apply gen_cover_fresh in Ec as (secret & pl & rest & Hf & Hr). exists secret, pl, rest. split; [|done].
      by eapply fresh_before. }
    destruct (negb loop && _).
    - unfold aq_pop in H. destruct (aq_queue (se_authored s)) as [|q rest] eqn:Eq.
      + right. eapply Hcov. exact H.
      + left. exists rel, s, rest. split; [done|]. injection H as _ ->. exact Eq.
    - right. eapply Hcov. exact H.
  Qed.

  (** C85, sessions: the key pair of a new session, unless it was generated before, and the key of its
      replay filter are from separate places of the random output. *)
  Theorem C85_session m rel mixnodes r m' called s :
    maybe_set_mixnodes pr m rel mixnodes r = Val (m', called) ->
    ss_get (mx_sessions m') rel = SlFull s ->
    ss_get (mx_sessions m) rel = SlFull s \/
    length (rf_key (se_filter s)) = 32 /\
    ((ss_get (mx_sessions m) rel = SlKxPair (se_kx_pair s) /\ fresh r [rf_key (se_filter s)]) \/
     exists secret, length secret = 32 /\ se_kx_pair s = KxPair secret (derive_kx_public pr secret) /\
       fresh r [secret; rf_key (se_filter s)]).
  Proof.
    unfold maybe_set_mixnodes. cbv zeta. intros H Hs.
    assert (Hget : forall ss sl, ss_get (ss_set ss rel sl) rel = sl) by (intros; by destruct rel).
    assert (Hdis : forall m1 : mixnet, mx_set_sessions m1 (ss_set (mx_sessions m1) rel SlDisabled) = m' -> False).
    { intros m1 <-. cbn in Hs. rewrite Hget in Hs. discriminate Hs. }
    destruct (ss_get (mx_sessions m) rel) as [|k| |s0] eqn:Eg.
    3:{ assert (m' = m) as -> by congruence. congruence. }
    3:{ assert (m' = m) as -> by congruence. left. congruence. }
    all: right; apply out_bind_Val in H as (_ & _ & H);
      (destruct mixnodes as [mixnodes|e]; [|exfalso; destruct e;
         [apply (Hdis m); congruence || (assert (m' = m) as -> by congruence; congruence)
         |apply (Hdis m); congruence || (assert (m' = m) as -> by congruence; congruence)]]).
    - unfold kx_pair_gen in H. destruct (gen_kx_secret r) as [secret r1] eqn:Es. unfold gen_kx_secret in Es.
      apply out_bind_Val in H as ([t r2] & Et & H). apply tp_new_tape in Et.
      destruct (if tp_is_mixnode t then _ else _) as [scf|];
        [|exfalso; apply (Hdis m); congruence].
      unfold rf_new in H. destruct (rng_fill 32 r2) as [key r3] eqn:Ek. injection H as <- _.
      unfold mx_put_session in Hs. cbn in Hs. rewrite Hget in Hs. injection Hs as <-. cbn [se_filter rf_key se_kx_pair].
      split; [pose proof (rng_fill_length 32 r2) as Hl; by rewrite Ek in Hl|].
      right. exists secret. split_and!; [pose proof (rng_fill_length 32 r) as Hl; by rewrite Es in Hl|done|].
      apply (fresh_to_fresh _ r r3). apply (fresh_to_app [secret] r r1 r3 [key]); [by eapply fresh_to_fill|].
      eapply fresh_to_before; [exact Et|]. by eapply fresh_to_fill.
    - apply out_bind_Val in H as ([t r2] & Et & H). apply tp_new_tape in Et.
      destruct (if tp_is_mixnode t then _ else _) as [scf|];
        [|exfalso; apply (Hdis m); congruence].
      unfold rf_new in H. destruct (rng_fill 32 r2) as [key r3] eqn:Ek. injection H as <- _.
      unfold mx_put_session in Hs. cbn in Hs. rewrite Hget in Hs. injection Hs as <-. cbn [se_filter rf_key se_kx_pair].
      split; [pose proof (rng_fill_length 32 r2) as Hl; by rewrite Ek in Hl|].
      left. split; [done|]. eapply fresh_before; [exact Et|]. eapply fresh_to_fresh, fresh_to_fill. exact Ek.
  Qed.

  (** The key pair generated ahead of a session *)
  Theorem C85_next m r m' public :
    next_kx_public pr m r = (m', public) ->
    exists k, mx_next_kx_pair m' = Some k /\ public = kp_public k /\
      (mx_next_kx_pair m = Some k \/
       exists secret, length secret = 32 /\ k = KxPair secret (derive_kx_public pr secret) /\ fresh r [secret]).
  Proof.
    unfold next_kx_public. intros H. destruct (mx_next_kx_pair m) as [k|] eqn:Ek.
    { injection H as <- <-. exists k. split_and!; [done|done|by left]. }
    unfold kx_pair_gen in H. destruct (gen_kx_secret r) as [s r1] eqn:Es. injection H as <- <-.
    exists (kx_pair_from pr s). split_and!; [done|done|]. right. exists s. unfold gen_kx_secret in Es. split_and!.
    - pose proof (rng_fill_length 32 r) as Hl. by rewrite Es in Hl.
    - done.
    - eapply fresh_to_fresh, fresh_to_fill. exact Es.
  Qed.
End fresh.
