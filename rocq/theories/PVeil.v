(** C72: the contents of messages, and their lengths within the same number of fragments, show only in
    the payloads of packets. *)
From Verif Require Export PHide PCalls.

(** ** Specification *)

(** What of a packet is not payload: where it goes and its header. *)
Definition outside (p : addressed_packet) : bytes * bytes := (ap_peer_id p, take 188 (ap_packet p)).

(** Two calls that differ only in what is in the payloads. A packet comes in with another payload (at
    the receiver of a request, either both payloads are genuine or neither is), or another message with
    another id is posted that takes as many fragments. *)
Definition same_shape (pr : prims) (m : mixnet) (c c' : call) : Prop :=
  match c, c' with
  | CallHandle p now, CallHandle p' now' =>
      now = now' /\ take 188 p = take 188 p' /\
      forall rel s, ss_get (mx_sessions m) rel = SlFull s ->
        (content_of pr s p = CtGarbage <-> content_of pr s p' = CtGarbage)
  | CallPostRequest index dest _ data num_surbs ns r, CallPostRequest index' dest' _ data' num_surbs' ns' r' =>
      index = index' /\ dest = dest' /\ num_surbs = num_surbs' /\ ns = ns' /\ r = r' /\
      exists n, needs (data_len data) num_surbs n /\ needs (data_len data') num_surbs n
  | CallPostReply surbs index _ data, CallPostReply surbs' index' _ data' =>
      surbs = surbs' /\ index = index' /\
      exists n, needs (data_len data) 0 n /\ needs (data_len data') 0 n
  | _, _ => c = c'
  end.
(** The results of two such calls: packets sent are the same outside, and everything else is the same,
    but for the messages received, which go to the application. *)
Definition same_look (a a' : resp) : Prop :=
  match a, a' with
  | RespPacket p, RespPacket p' => outside <$> p = outside <$> p'
  | RespMessage _, RespMessage _ => True
  | _, _ => a = a'
  end.
(** Two histories of such calls, side by side. *)
Inductive pair_run (pr : prims) : mixnet -> mixnet -> list (call * resp) -> list (call * resp) -> mixnet -> mixnet -> Prop :=
| PairNil m n : pair_run pr m n [] [] m n
| PairCons m n c c' a a' m1 n1 h h' m2 n2 :
    call_ok c -> call_ok c' -> same_shape pr m c c' ->
    exec pr m c = Val (m1, a) -> exec pr n c' = Val (n1, a') ->
    pair_run pr m1 n1 h h' m2 n2 -> pair_run pr m n ((c, a) :: h) ((c', a') :: h') m2 n2.

(** ** Proof *)

Definition rel_out {A B} (R : A -> B -> Prop) (o : outcome A) (o' : outcome B) : Prop :=
  match o, o' with Val x, Val y => R x y | Panic, Panic => True | _, _ => False end.
Lemma rel_bind {A B C D} (R : A -> B -> Prop) (S : C -> D -> Prop) o o' (f : A -> outcome C) (g : B -> outcome D) :
  rel_out R o o' -> (forall x y, R x y -> rel_out S (f x) (g y)) -> rel_out S (out_bind o f) (out_bind o' g).
Proof. intros H Hf. destruct o, o'; try done. by apply Hf. Qed.
Lemma rel_eq {A} (o : outcome A) : rel_out eq o o.
Proof. by destruct o. Qed.
Definition rel_res {A B E} (R : A -> B -> Prop) (o : result A E) (o' : result B E) : Prop :=
  match o, o' with Ok x, Ok y => R x y | Err e, Err e' => e = e' | _, _ => False end.

(** Keystores that differ only in the ids of the messages. *)
Definition key_of (e : bytes * surb_value) : bytes * list bytes := (e.1, sv_keys e.2).
Definition same_keys (k k' : surb_keystore) : Prop :=
  sk_capacity k = sk_capacity k' /\ map key_of (sk_surbs k) = map key_of (sk_surbs k').
Lemma keys_get (l l' : lhm bytes surb_value) id :
  map key_of l = map key_of l' -> sv_keys <$> lhm_get l id = sv_keys <$> lhm_get l' id.
Proof.
  revert l'. induction l as [|[i v] l IH]; intros [|[i' v'] l']; try done. cbn. intros H. unfold key_of in H at 1 3. cbn in H.
  injection H as -> Hv H. destruct (decide (i' = id)); [cbn; by rewrite Hv|by apply IH].
Qed.
Lemma keys_set (l l' : lhm bytes surb_value) id v v' :
  map key_of l = map key_of l' -> sv_keys v = sv_keys v' -> map key_of (lhm_set l id v) = map key_of (lhm_set l' id v').
Proof.
  intros H Hv. revert l' H. induction l as [|[i w] l IH]; intros [|[i' w'] l']; try done. cbn. intros H. unfold key_of in H at 1 3. cbn in H.
  injection H as -> Hw H. destruct (decide (i' = id)); cbn; unfold key_of at 1 3; cbn; [by rewrite Hv, H|by rewrite Hw, (IH _ H)].
Qed.
Lemma keys_remove (l l' : lhm bytes surb_value) id :
  map key_of l = map key_of l' -> map key_of (lhm_remove l id) = map key_of (lhm_remove l' id).
Proof.
  intros H. revert l' H. induction l as [|[i w] l IH]; intros [|[i' w'] l']; try done. cbn. intros H. unfold key_of in H at 1 3. cbn in H.
  injection H as -> Hw H. destruct (decide (i' = id)); [done|]. cbn. unfold key_of at 1 3. cbn. by rewrite Hw, (IH _ H).
Qed.
Lemma insert_keys k k' mid mid' r :
  same_keys k k' ->
  rel_out (fun x y => same_keys x.1.1 y.1.1 /\ x.1.2 = y.1.2 /\ x.2 = y.2) (sk_insert k mid r) (sk_insert k' mid' r).
Proof.
  intros [Hc Hk]. assert (Hl : length (sk_surbs k) = length (sk_surbs k')).
  { rewrite <- (map_length key_of), Hk. apply map_length. }
  unfold sk_insert. rewrite <- Hc, <- Hl. apply (rel_bind eq); [apply rel_eq|]. intros _ _ _.
  destruct (rng_fill SURB_ID_SIZE r) as [id r1].
  set (l := if (N.of_nat (length (sk_surbs k)) =? sk_capacity k)%N then (lhm_pop_front (sk_surbs k)).2 else sk_surbs k).
  set (l' := if (N.of_nat (length (sk_surbs k)) =? sk_capacity k)%N then (lhm_pop_front (sk_surbs k')).2 else sk_surbs k').
  assert (Hm : map key_of l = map key_of l').
  { unfold l, l'. destruct (_ =? _)%N; [|done]. destruct (sk_surbs k) as [|e s], (sk_surbs k') as [|e' s']; try done.
    cbn in Hk |- *. by injection Hk. }
  pose proof (keys_get _ _ id Hm) as Hg. destruct (lhm_get l id), (lhm_get l' id); try done. cbn. split; [|done].
  split; [done|]. cbn. unfold lhm_push_back. by rewrite !map_app, Hm.
Qed.
Lemma set_keys_same k k' id ks : same_keys k k' -> same_keys (sk_set_keys k id ks) (sk_set_keys k' id ks).
Proof.
  intros [Hc Hk]. unfold sk_set_keys. pose proof (keys_get _ _ id Hk) as Hg.
  destruct (lhm_get (sk_surbs k) id), (lhm_get (sk_surbs k') id); try done. split; [done|]. cbn. by apply keys_set.
Qed.

(** *** Making packets *)
Lemma put_drop {A} (l l' : list A) n off v :
  n ≤ off -> off ≤ length l -> off ≤ length l' -> drop n l = drop n l' -> drop n (put l off v) = drop n (put l' off v).
Proof.
  intros Hn Hl Hl' H. unfold put. rewrite !drop_app_le by (rewrite take_length; lia).
  f_equal.
  - rewrite !skipn_firstn_comm. by rewrite H.
  - f_equal. replace (off + length v) with (n + (off + length v - n)) by lia. by rewrite <- !drop_drop, H.
Qed.

Section veil.
  Context (pr : prims) (Hok : prims_ok pr).

  (** The header that is built is as long as the buffer. *)
  Lemma write_at_length {A} (l : list A) off v l' : write_at l off v = Val l' -> length l' = length l.
  Proof. unfold write_at. destruct (decide _); [|done]. intros [= <-]. by apply put_length. Qed.
  Lemma modify_from_length l off f l' :
    (forall x, length (f x) = length x) -> modify_from l off f = Val l' -> length l' = length l.
  Proof.
    intros Hf. unfold modify_from. destruct (decide _); [|done]. intros [= <-].
    rewrite app_length, Hf, take_length, drop_length. lia.
  Qed.
  Lemma forward_loop_length st ts ss st' : forward_loop pr st ts ss = Val st' -> length (bs_buf st') = length (bs_buf st).
  Proof.
    revert st ss. induction ts as [|t ts IH]; intros st [|s ss] H; cbn in H; try (injection H as <-; done).
    apply out_bind_Val in H as (st1 & H1 & H). apply IH in H. rewrite H. unfold forward_step in H1.
    apply out_bind_Val in H1 as ([[buf off] act] & Hb & H1). apply out_bind_Val in H1 as (buf1 & Hb1 & H1).
    apply out_bind_Val in H1 as (hops & _ & H1). apply out_bind_Val in H1 as (kt & _ & H1).
    apply out_bind_Val in H1 as (pad & _ & H1). injection H1 as <-. cbn [bs_buf].
    apply write_at_length in Hb1. rewrite Hb1. destruct t as [i|peer]; [by injection Hb as <- _ _|].
    apply out_bind_Val in Hb as (b2 & Hb2 & Hb). injection Hb as <- _ _. by apply write_at_length in Hb2.
  Qed.
  Lemma backward_loop_length hs : forall buf pad buf' pad',
    backward_loop pr buf pad hs = Val (buf', pad') -> length buf' = length buf.
  Proof.
    induction hs as [|h hs IH]; intros buf pad buf' pad' H; cbn in H; [by injection H as <- _|].
    apply out_bind_Val in H as ([b1 p1] & H1 & H). apply IH in H. rewrite H. unfold backward_step in H1.
    apply out_bind_Val in H1 as (b2 & Hb2 & H1). apply out_bind_Val in H1 as (kt & _ & H1).
    apply out_bind_Val in H1 as (p2 & _ & H1). apply out_bind_Val in H1 as (at_ & _ & H1).
    apply out_bind_Val in H1 as (ph & _ & H1). apply out_bind_Val in H1 as (b3 & Hb3 & H1). injection H1 as <- _.
    apply write_at_length in Hb3. rewrite Hb3. eapply modify_from_length; [|exact Hb2].
    intros x. apply apply_keystream_length.
  Qed.
  Lemma build_header_length header ts keys k r h ss d r' :
    length header = 188 -> build_header pr header ts keys k r = Val (h, ss, d, r') -> length h = 188.
  Proof.
    intros Hl H. unfold build_header in H. apply out_bind_Val in H as (? & _ & H).
    apply out_bind_Val in H as (? & Hm & H). unfold assert_or_panic in Hm.
    destruct (bool_decide _) eqn:Em in Hm; [|done]. apply bool_decide_eq_true in Em.
    destruct (gen_kx_any pr Hok keys r) as (pub & ss1 & r1 & E & Hpub & _); [exact Em|]. rewrite E in H. cbn [out_bind] in H.
    apply out_bind_Val in H as (st & Hst & H). apply out_bind_Val in H as ([b1 r2] & Hb1 & H).
    apply out_bind_Val in H as ([b2 p2] & Hb2 & H). injection H as <- _ _ _.
    apply forward_loop_length in Hst. apply backward_loop_length in Hb2. cbn [bs_buf] in Hst.
    assert (length b1 = length (bs_buf st)).
    { clear -Hb1. unfold last_hop in Hb1.
      apply out_bind_Val in Hb1 as ([[buf off] act] & Hb & H1). apply out_bind_Val in H1 as (b2 & Hb2 & H1).
      apply out_bind_Val in H1 as ([b3 r3] & Hb3 & H1). apply out_bind_Val in H1 as (ls & _ & H1).
      apply out_bind_Val in H1 as (b4 & Hb4 & H1). apply out_bind_Val in H1 as (at_ & _ & H1).
      apply out_bind_Val in H1 as (ph & _ & H1). apply out_bind_Val in H1 as (b5 & Hb5 & H1). injection H1 as <- _.
      apply write_at_length in Hb5, Hb2. apply modify_from_length in Hb4; [|intros x; apply apply_keystream_length].
      destruct (decide _) in Hb3; [|done]. destruct (rng_fill _ r1) as [rnd r4] eqn:Er. injection Hb3 as <- _.
      pose proof (rng_fill_length (length b2 - (MAC_SIZE + off)) r1) as Hr. rewrite Er in Hr. cbn in Hr.
      rewrite app_length, take_length, Hr in Hb4.
      assert (length buf = length (bs_buf st)).
      { destruct k as [|id|[id|]]; [by injection Hb as <- _ _| | |by injection Hb as <- _ _];
          apply out_bind_Val in Hb as (b6 & Hb6 & Hb); injection Hb as <- _ _; by apply write_at_length in Hb6. }
      lia. }
    rewrite app_length, Hpub, Hb2. rewrite drop_length in Hst. change KX_PUBLIC_SIZE with 32 in Hst. lia.
  Qed.


  Lemma header_take (h x : bytes) : length h = 188 -> take 188 (h ++ x) = h.
  Proof. intros <-. apply take_app. Qed.
  Lemma complete_same p p' ts keys r :
    length (take 188 p) = 188 -> take 188 p = take 188 p' ->
    rel_out (fun x y => take 188 x.1.1 = take 188 y.1.1 /\ x.1.2 = y.1.2 /\ x.2 = y.2)
      (complete_request_packet pr p ts keys r) (complete_request_packet pr p' ts keys r).
  Proof.
    intros Hl H. unfold complete_request_packet. apply (rel_bind eq); [apply rel_eq|]. intros _ _ _.
    apply (rel_bind eq); [apply rel_eq|]. intros _ _ _. cbv zeta. change HEADER_SIZE with 188. rewrite <- H.
    destruct (build_header pr (take 188 p) ts keys KRequest r) as [[[[h ss] d] r']|] eqn:E; [|done].
    apply build_header_length in E; [|done]. cbn. by rewrite !header_take.
  Qed.
  Lemma write_surbs_same cf rb mid mid' n offsets : forall st st' f f' r,
    Forall (fun off => n ≤ off /\ off + 222 ≤ N.to_nat 2048) offsets ->
    length f = N.to_nat 2048 -> length f' = N.to_nat 2048 -> drop n f = drop n f' ->
    same_keys (sst_keystore st) (sst_keystore st') -> sst_reply_hops st = sst_reply_hops st' ->
    sst_reply_delay st = sst_reply_delay st' ->
    rel_out (fun x y => same_keys (sst_keystore x.1) (sst_keystore y.1) /\ sst_reply_hops x.1 = sst_reply_hops y.1 /\
        sst_reply_delay x.1 = sst_reply_delay y.1 /\ rel_res (fun a b => a.2 = b.2) x.2 y.2)
      (write_surbs pr cf rb mid offsets st f r) (write_surbs pr cf rb mid' offsets st' f' r).
  Proof.
    induction offsets as [|off offsets IH]; intros st st' f f' r Ho Hf Hf' Hd Hk Hh Hdl; cbn [write_surbs].
    { done. }
    apply Forall_cons in Ho as [[Ho1 Ho2] Ho].
    eapply rel_bind; [by apply insert_keys|]. intros [[ks id] r1] [[ks' id'] r1'] (Hks & E & E'). cbn in Hks, E, E'. subst id' r1'.
    assert (Es : slice f off SURB_SIZE = slice f' off SURB_SIZE).
    { unfold slice. f_equal. replace off with (n + (off - n)) by lia. by rewrite <- !drop_drop, Hd. }
    rewrite <- Es. destruct (rb_build_surb pr rb (slice f off SURB_SIZE) [] id (cf_num_hops cf) r1) as [[[[[surb keys] mt] r2]|e]|] eqn:Eb;
      cbn [out_bind]; [|done|done].
    rewrite <- Hdl. apply (rel_bind eq); [apply rel_eq|]. intros dl _ <-.
    assert (Hsl : length surb = 222).
    { unfold rb_build_surb, try_bind in Eb. apply out_bind_Val in Eb as ([[rt r3]|] & _ & Eb); [|done].
      apply out_bind_Val in Eb as ([[[sb ky] fd] r4] & Eb & E). injection E as -> _ _ _. unfold build_surb in Eb.
      apply out_bind_Val in Eb as (? & _ & Eb). apply out_bind_Val in Eb as (? & _ & Eb).
      apply out_bind_Val in Eb as ([[[h ss] d] r5] & Eh & Eb). apply build_header_length in Eh.
      2:{ apply slice_length. rewrite slice_length by (rewrite Hf; change SURB_SIZE with 222; lia).
          change SURB_SIZE with 222. change RAW_MIXNODE_INDEX_SIZE with 2. change HEADER_SIZE with 188. lia. }
      destruct (rng_fill SHARED_SECRET_SIZE r5) as [sec r6] eqn:Er.
      pose proof (rng_fill_length SHARED_SECRET_SIZE r5) as Hr. rewrite Er in Hr. cbn [fst] in Hr.
      apply out_bind_Val in Eb as (? & _ & Eb). apply out_bind_Val in Eb as (? & _ & Eb). injection Eb as <- _ _ _.
      cbn [length]. rewrite app_length, Eh, Hr. done. }
    apply IH; try done; cbn [sst_keystore sst_reply_hops sst_reply_delay].
    - rewrite put_length; [done|]. rewrite Hsl, Hf. done.
    - rewrite put_length; [done|]. rewrite Hsl, Hf'. done.
    - apply put_drop; [done|rewrite Hf; lia|rewrite Hf'; lia|done].
    - by apply set_keys_same.
    - by rewrite Hh.
  Qed.

  (** Blueprints that say the same but for the data. *)
  Definition same_plan (b b' : fragment_blueprint) : Prop :=
    blueprint_ok b /\ blueprint_ok b' /\ fb_num_surbs b = fb_num_surbs b'.
  Lemma blueprint_loop_same count : forall id id' last i data data' k bs bs',
    blueprint_loop id last i count data k = Val bs -> blueprint_loop id' last i count data' k = Val bs' ->
    Forall2 (fun b b' => fb_num_surbs b = fb_num_surbs b') bs bs'.
  Proof.
    induction count as [|count IH]; intros id id' last i data data' k bs bs' H H'; cbn [blueprint_loop] in H, H'.
    { injection H as <-. injection H' as <-. constructor. }
    apply out_bind_Val in H as (u & Hu & H). apply out_bind_Val in H as ([d1 d2] & _ & H). apply out_bind_Val in H as (rest & Hr & H).
    apply out_bind_Val in H' as (u' & Hu' & H'). apply out_bind_Val in H' as ([d1' d2'] & _ & H'). apply out_bind_Val in H' as (rest' & Hr' & H').
    injection H as <-. injection H' as <-. constructor; [done|]. by eapply IH.
  Qed.
  Lemma blueprints_same id id' data data' k n :
    args_ok id data k -> args_ok id' data' k -> needs (data_len data) k n -> needs (data_len data') k n ->
    (fragment_blueprints id data k = Val None /\ fragment_blueprints id' data' k = Val None) \/
    exists bs bs', fragment_blueprints id data k = Val (Some bs) /\ fragment_blueprints id' data' k = Val (Some bs') /\
      Forall2 same_plan bs bs'.
  Proof.
    intros Ha Ha' Hn Hn'.
    assert (Hex : forall id data, args_ok id data k -> needs (data_len data) k n ->
      (fragment_blueprints id data k = Val None /\ (65536 < N.of_nat n)%N) \/
      exists bs, fragment_blueprints id data k = Val (Some bs) /\ length bs = n /\ (N.of_nat n <= 65536)%N).
    { clear. intros id data (Hid & Hwf & Hd & Hs) Hn. pose proof (C02_total id data k Hwf Hd Hs) as Ht.
      destruct (fragment_blueprints id data k) as [[bs|]|] eqn:E; [| |done].
      - right. exists bs. split; [done|]. assert (length bs = n) as Hl by (symmetry; by eapply needs_unique, needs_blueprints).
        split; [done|]. lia.
      - left. split; [done|]. destruct Hn as (_ & (l & Hl & <-) & _). by apply Ht. }
    destruct (Hex id data Ha Hn) as [[E Hb]|(bs & E & Hl & Hb)], (Hex id' data' Ha' Hn') as [[E' Hb']|(bs' & E' & Hl' & Hb')];
      [by left|lia|lia|right].
    exists bs, bs'. split_and!; [done|done|].
    pose proof (blueprints_ok _ _ _ _ Ha E) as Hbs. pose proof (blueprints_ok _ _ _ _ Ha' E') as Hbs'.
    assert (HF : Forall2 (fun b b' => fb_num_surbs b = fb_num_surbs b') bs bs').
    { unfold fragment_blueprints in E, E'.
      apply out_bind_Val in E as (nf & En & E). apply out_bind_Val in E' as (nf' & En' & E').
      apply out_bind_Val in E as (li & Eli & E). apply out_bind_Val in E' as (li' & Eli' & E').
      destruct (_ <=? _)%N; [|done]. destruct (_ <=? _)%N; [|done].
      apply out_bind_Val in E as (b1 & Eb & E). apply out_bind_Val in E' as (b1' & Eb' & E').
      injection E as ->. injection E' as ->.
      assert (Hlen : forall c i id last d k bs, blueprint_loop id last i c d k = Val bs -> length bs = c).
      { clear. induction c as [|c IH]; intros i id last d k bs H; cbn [blueprint_loop] in H; [by injection H as <-|].
        apply out_bind_Val in H as (u & _ & H). apply out_bind_Val in H as ([d1 d2] & _ & H). apply out_bind_Val in H as (rest & Hr & H).
        injection H as <-. cbn. f_equal. by eapply IH. }
      assert (nf = nf') as <-.
      { apply Hlen in Eb, Eb'. lia. }
      rewrite Eli in Eli'. injection Eli' as <-. by eapply blueprint_loop_same. }
    clear -HF Hbs Hbs'. induction HF as [|b b' bs bs' H _ IH]; [constructor|].
    apply Forall_cons in Hbs as [? ?]. apply Forall_cons in Hbs' as [? ?]. constructor; [done|by apply IH].
  Qed.

  (** The fragments are of the same length and differ only before the SURBs. *)
  Lemma except_surbs_same b b' :
    same_plan b b' ->
    exists f f', fb_write_except_surbs b (replicate (N.to_nat 2048) 0%N) = Val f /\
      fb_write_except_surbs b' (replicate (N.to_nat 2048) 0%N) = Val f' /\
      length f = N.to_nat 2048 /\ length f' = N.to_nat 2048 /\
      drop (N.to_nat 2048 - 222 * N.to_nat (fb_num_surbs b)) f = drop (N.to_nat 2048 - 222 * N.to_nat (fb_num_surbs b)) f'.
  Proof.
    intros ((Hwf & Hid & Hfit) & (Hwf' & Hid' & Hfit') & En).
    assert (Hex : forall c, sc_wf (fb_data c) -> length (fb_message_id c) = 16 ->
      (N.of_nat (length (sc_contents (fb_data c))) + 222 * fb_num_surbs b <= 2025)%N ->
      exists f, fb_write_except_surbs c (replicate (N.to_nat 2048) 0%N) = Val f /\ length f = N.to_nat 2048 /\
        drop (N.to_nat 2048 - 222 * N.to_nat (fb_num_surbs b)) f = replicate (222 * N.to_nat (fb_num_surbs b)) 0%N).
    { clear. intros c Hwf Hid Hfit.
      rewrite write_except_surbs_spec; [|by rewrite replicate_length|done|lia]. eexists. split; [done|].
      assert (Hl : length (sc_contents (fb_data c)) + 23 ≤ N.to_nat 2048 - 222 * N.to_nat (fb_num_surbs b)) by lia.
      split.
      - rewrite !app_length, drop_length, replicate_length, Hid. rewrite !length_to_le16. cbn [length]. lia.
      - rewrite !app_assoc. rewrite drop_app_ge.
        2:{ rewrite !app_length, Hid, !length_to_le16. cbn [length]. lia. }
        rewrite drop_replicate, drop_replicate. f_equal. rewrite !app_length, Hid, !length_to_le16. cbn [length]. lia. }
    destruct (Hex b Hwf Hid Hfit) as (f & E & Hl & Hd). destruct (Hex b' Hwf' Hid') as (f' & E' & Hl' & Hd'); [by rewrite En|].
    exists f, f'. split_and!; try done. by rewrite Hd, Hd'.
  Qed.
  Definition same_surb (s s' : surb_state) : Prop :=
    same_keys (sst_keystore s) (sst_keystore s') /\ sst_reply_hops s = sst_reply_hops s' /\ sst_reply_delay s = sst_reply_delay s'.
  Lemma write_fragment_same cf rb mid mid' b b' st st' r :
    same_plan b b' -> same_surb st st' ->
    rel_out (fun x y => same_surb x.1 y.1 /\ rel_res (fun a b => a.2 = b.2) x.2 y.2)
      (write_fragment pr cf rb mid b st (replicate (N.to_nat 2048) 0%N) r)
      (write_fragment pr cf rb mid' b' st' (replicate (N.to_nat 2048) 0%N) r).
  Proof.
    intros Hb (Hk & Hh & Hd). pose proof Hb as ((_ & _ & Hfit) & _ & En).
    destruct (except_surbs_same b b' Hb) as (f & f' & E & E' & Hl & Hl' & Hdr).
    unfold write_fragment. rewrite E, E'. cbn [out_bind].
    assert (Eo : fb_surb_offsets b' = fb_surb_offsets b) by (unfold fb_surb_offsets; by rewrite En). rewrite Eo.
    pose proof (write_surbs_same cf rb mid mid' (N.to_nat 2048 - 222 * N.to_nat (fb_num_surbs b)) (fb_surb_offsets b) st st' f f' r) as H.
    destruct (write_surbs pr cf rb mid _ st f r) as [x|], (write_surbs pr cf rb mid' _ st' f' r) as [y|].
    1: destruct H as (? & ? & ? & ?); [|done..|done].
    2,3,4: try apply H; try done.
    all: rewrite fb_surb_offsets_spec by lia; apply Forall_forall; intros z Hx;
      apply elem_of_list_In, in_map_iff in Hx as (j & <- & Hj); apply in_seq in Hj; lia.
  Qed.
  Lemma default_header (f : bytes) : take 188 (set_payload_data default_packet f) = replicate 188 0%N.
  Proof.
    unfold set_payload_data, put. change HEADER_SIZE with 188. rewrite take_app_le.
    - rewrite take_take. unfold default_packet. rewrite take_replicate. f_equal. 
    - unfold default_packet. rewrite take_length, replicate_length. unfold PACKET_SIZE. change HEADER_SIZE with 188. lia.
  Qed.
  Lemma build_packet_same cf rb mid mid' b b' h st st' r :
    same_plan b b' -> same_surb st st' ->
    rel_out (fun x y => same_surb x.1 y.1 /\
        rel_res (fun a c => outside a.1.1 = outside c.1.1 /\ a.1.2 = c.1.2 /\ a.2 = c.2) x.2 y.2)
      (rb_build_packet pr rb (write_fragment pr cf rb mid b) h st r)
      (rb_build_packet pr rb (write_fragment pr cf rb mid' b') h st' r).
  Proof.
    intros Hb Hst. unfold rb_build_packet. apply (rel_bind eq); [apply rel_eq|]. intros [[rt r1]|e] _ <-; [|done].
    destruct (tp_index_to_peer_id _ _) as [peer|e]; [|done]. rewrite payload_of_default.
    eapply rel_bind; [by apply write_fragment_same|]. intros [s1 w] [s1' w'] [Hs1 Hw]. cbn [fst snd] in Hs1, Hw.
    destruct w as [[f r2]|e], w' as [[f' r2']|e']; cbn [rel_res] in Hw; try done. cbn [snd] in Hw. subst r2'.
    eapply rel_bind.
    { apply complete_same; [by rewrite default_header, replicate_length|by rewrite !default_header]. }
    intros [[p d] r3] [[p' d'] r3'] (Hp & Hd & Hr). cbn [fst snd] in *. subst d' r3'. cbn. split; [done|].
    unfold outside. cbn. by rewrite Hp.
  Qed.
  Definition same_queue (q q' : authored_queue) : Prop :=
    aq_config q = aq_config q' /\ map outside (aq_queue q) = map outside (aq_queue q').
  Lemma same_queue_len q q' : same_queue q q' -> aq_len q = aq_len q'.
  Proof. intros [_ H]. unfold aq_len. by rewrite <- (map_length outside), H, map_length. Qed.
  Lemma push_same q q' p p' :
    same_queue q q' -> outside p = outside p' -> rel_out same_queue (aq_push q p) (aq_push q' p').
  Proof.
    intros Hq Hp. unfold aq_push. rewrite (same_queue_len _ _ Hq). destruct Hq as [Hc Hq]. rewrite Hc.
    apply (rel_bind eq); [apply rel_eq|]. intros _ _ _. split; [done|]. cbn. by rewrite !map_app, Hq; cbn; rewrite Hp.
  Qed.
  Definition same_post (s s' : post_state) : Prop :=
    same_surb (pst_surb s) (pst_surb s') /\ same_queue (pst_queue s) (pst_queue s') /\
    pst_request_hops s = pst_request_hops s' /\ pst_request_delay s = pst_request_delay s'.
  Lemma request_loop_same cf rb mid mid' bs bs' : Forall2 same_plan bs bs' -> forall st st' r, same_post st st' ->
    rel_out (fun x y => same_post x.1 y.1 /\ x.2 = y.2)
      (post_request_loop pr cf rb mid bs st r) (post_request_loop pr cf rb mid' bs' st' r).
  Proof.
    induction 1 as [|b b' bs bs' Hb _ IH]; intros st st' r Hst; cbn [post_request_loop]; [done|].
    destruct Hst as (Hs & Hq & Hh & Hd). eapply rel_bind; [by apply build_packet_same|].
    intros [s1 x] [s1' x'] [Hs1 Hx]. cbn [fst snd] in Hs1, Hx.
    destruct x as [[[p mt] r1]|e], x' as [[[p' mt'] r1']|e']; cbn [rel_res] in Hx; try done.
    - destruct Hx as (Hp & Hm & Hr). cbn [fst snd] in Hp, Hm, Hr. subst mt' r1'.
      eapply rel_bind; [by apply push_same|]. intros q q' Hq'. rewrite <- Hd.
      apply (rel_bind eq); [apply rel_eq|]. intros d _ <-. apply IH. split_and!; try done. cbn. by rewrite Hh.
    - subst e'. cbn. split; [|done]. by split_and!.
  Qed.

  Lemma reply_packet_same b b' surb :
    same_plan b b' -> fb_num_surbs b = 0%N -> length surb = 222 -> exists f f',
    fb_write_except_surbs b (get_payload_data default_packet) = Val f /\
    fb_write_except_surbs b' (get_payload_data default_packet) = Val f' /\
    let x := complete_reply_packet pr (set_payload_data default_packet f) surb in
    let y := complete_reply_packet pr (set_payload_data default_packet f') surb in
    take 188 x.1 = take 188 y.1 /\ x.2 = y.2.
  Proof.
    intros Hb Hn Hl. rewrite payload_of_default. destruct (except_surbs_same b b' Hb) as (f & f' & E & E' & _).
    exists f, f'. split_and!; [done|done|]. cbv zeta. unfold complete_reply_packet. cbn [fst snd]. split; [|done].
    assert (length (slice surb RAW_MIXNODE_INDEX_SIZE HEADER_SIZE) = 188).
    { apply slice_length. rewrite Hl. change RAW_MIXNODE_INDEX_SIZE with 2. change HEADER_SIZE with 188. lia. }
    by rewrite !header_take.
  Qed.
  Lemma reply_loop_same t bs bs' : Forall2 same_plan bs bs' -> Forall (fun b => fb_num_surbs b = 0%N) bs ->
    forall surbs q q', Forall (fun s => length s = 222) surbs -> same_queue q q' ->
    rel_out (fun x y => x.1.1 = y.1.1 /\ same_queue x.1.2 y.1.2 /\ x.2 = y.2)
      (post_reply_loop pr t bs surbs q) (post_reply_loop pr t bs' surbs q').
  Proof.
    induction 1 as [|b b' bs bs' Hb _ IH]; intros Hz surbs q q' Hs Hq; cbn [post_reply_loop]; [done|].
    apply Forall_cons in Hz as [Hz0 Hz].
    destruct (vec_pop surbs) as [[surb left]|] eqn:Ev.
    2:{ destruct (except_surbs_same b b' Hb) as (f & f' & E & E' & _). by rewrite payload_of_default, E, E'. }
    assert (Hsu : length surb = 222 /\ Forall (fun s => length s = 222) left).
    { unfold vec_pop in Ev. destruct (list.last surbs) as [x|] eqn:El; [|done]. injection Ev as <- <-.
      apply last_Some in El as [l ->]. apply Forall_app in Hs as [Hs1 Hs2]. apply Forall_cons in Hs2 as [? _].
      split; [done|]. rewrite app_length. cbn. replace (length l + 1 - 1) with (length l) by lia. by rewrite take_app. }
    destruct Hsu as [Hsu Hle].
    destruct (reply_packet_same b b' surb Hb Hz0 Hsu) as (f & f' & E & E' & H). rewrite E, E'. cbn [out_bind expect].
    cbv zeta in H. destruct (complete_reply_packet pr (set_payload_data default_packet f) surb) as [p o].
    destruct (complete_reply_packet pr (set_payload_data default_packet f') surb) as [p' o']. cbn [fst snd] in H.
    destruct H as [Hp <-]. destruct o as [i|]; [|done]. destruct (tp_index_to_peer_id t i) as [peer|e]; [|done].
    eapply rel_bind.
    { apply push_same; [exact Hq|]. unfold outside. cbn. by rewrite Hp. }
    intros q1 q1' Hq1. by apply IH.
  Qed.

  (** *** Nodes that differ only in contents *)
  Definition same_sess (s t : session) : Prop := bare s = bare t /\ same_queue (se_authored s) (se_authored t).
  Definition same_slot (a b : session_slot) : Prop :=
    match a, b with SlFull s, SlFull t => same_sess s t | SlFull _, _ | _, SlFull _ => False | _, _ => a = b end.
  Definition fwd_outside (f : forward_packet) : instant * (bytes * bytes) := (fp_deadline f, outside (fp_packet f)).
  Record twin (m n : mixnet) : Prop := {
    tw_config : mx_config m = mx_config n;
    tw_status : mx_status m = mx_status n;
    tw_slot : forall rel, same_slot (ss_get (mx_sessions m) rel) (ss_get (mx_sessions n) rel);
    tw_kx : mx_next_kx_pair m = mx_next_kx_pair n;
    tw_capacity : fq_capacity (mx_forward m) = fq_capacity (mx_forward n);
    tw_forward : map fwd_outside (fq_queue (mx_forward m)) = map fwd_outside (fq_queue (mx_forward n));
    tw_keys : same_keys (mx_keystore m) (mx_keystore n);
    tw_events : mx_events m = mx_events n
  }.
  Lemma same_sess_refl s : same_sess s s.
  Proof. by split. Qed.
  Lemma same_slot_refl sl : same_slot sl sl.
  Proof. by destruct sl. Qed.
  Lemma twin_refl m : twin m m.
  Proof. split; try done. intros rel. apply same_slot_refl. Qed.
  Lemma same_slot_sym a b : same_slot a b -> same_slot b a.
  Proof. destruct a, b; cbn; try done. by intros [? [? ?]]. Qed.
  Lemma twin_sym m n : twin m n -> twin n m.
  Proof. intros []. split; try done; [|by destruct tw_keys0]. intros rel. by apply same_slot_sym. Qed.
  Lemma twin_bare m n rel : twin m n -> bare_slot (ss_get (mx_sessions m) rel) = bare_slot (ss_get (mx_sessions n) rel).
  Proof.
    intros H. pose proof (tw_slot _ _ H rel) as Hs. destruct (ss_get (mx_sessions m) rel), (ss_get (mx_sessions n) rel); try done.
    destruct Hs as [Hb _]. unfold bare_slot. by rewrite Hb.
  Qed.
  Lemma twin_full m n rel s :
    twin m n -> ss_get (mx_sessions m) rel = SlFull s -> exists t, ss_get (mx_sessions n) rel = SlFull t /\ same_sess s t.
  Proof.
    intros H E. pose proof (tw_slot _ _ H rel) as Hs. rewrite E in Hs. destruct (ss_get (mx_sessions n) rel) as [| | |t]; try done.
    by exists t.
  Qed.
  Lemma get_set ss rel rel' sl : ss_get (ss_set ss rel sl) rel' = if decide (rel' = rel) then sl else ss_get ss rel'.
  Proof. by destruct ss, rel, rel'. Qed.
  Lemma twin_set m n rel sl sl' : twin m n -> same_slot sl sl' -> twin (set_slot m rel sl) (set_slot n rel sl').
  Proof.
    intros [] Hs. split; try done. intros rel'. unfold set_slot. cbn [mx_set_sessions mx_sessions].
    rewrite !get_set. by destruct (decide _).
  Qed.
  Lemma twin_put m n rel s t : twin m n -> same_sess s t -> twin (mx_put_session m rel s) (mx_put_session n rel t).
  Proof. intros H Hs. by apply (twin_set m n rel (SlFull s) (SlFull t)). Qed.
  Lemma twin_or m n e : twin m n -> twin (mx_or_events m e) (mx_or_events n e).
  Proof. intros []. split; try done. cbn. by rewrite tw_events0. Qed.
  Lemma twin_keystore m n k k' : twin m n -> same_keys k k' -> twin (mx_set_keystore m k) (mx_set_keystore n k').
  Proof. intros [] H. by split. Qed.
  Lemma twin_assembler m n fa fb : twin m n -> twin (mx_set_assembler m fa) (mx_set_assembler n fb).
  Proof. intros []. by split. Qed.
  Lemma twin_queue s t q q' : same_sess s t -> same_queue q q' -> same_sess (se_set_authored s q) (se_set_authored t q').
  Proof. intros [Hb _] Hq. split; [|done]. exact Hb. Qed.

  Lemma post_session_same m n index :
    twin m n -> rel_res (fun x y => x.1 = y.1 /\ same_sess x.2 y.2 /\ ss_get (mx_sessions m) x.1 = SlFull x.2)
      (post_session (mx_sessions m) (mx_status m) index) (post_session (mx_sessions n) (mx_status n) index).
  Proof.
    intros H. unfold post_session. rewrite <- (tw_status _ _ H). destruct (rsi_from_session_index _ _) as [rel|]; [|done].
    destruct (negb _); [done|]. pose proof (tw_slot _ _ H rel) as Hs.
    destruct (ss_get (mx_sessions m) rel) eqn:E, (ss_get (mx_sessions n) rel); done.
  Qed.
  Lemma check_space_same q q' n : same_queue q q' -> aq_check_space q n = aq_check_space q' n.
  Proof. intros Hq. unfold aq_check_space. rewrite (same_queue_len _ _ Hq). destruct Hq as [-> _]. done. Qed.
  Lemma post_request_same m n index dest id id' data data' k ns r j :
    twin m n -> args_ok id data k -> args_ok id' data' k -> needs (data_len data) k j -> needs (data_len data') k j ->
    rel_out (fun x y => twin x.1.1 y.1.1 /\ x.1.2 = y.1.2 /\ x.2 = y.2)
      (post_request pr m index dest id data k ns r) (post_request pr n index dest id' data' k ns r).
  Proof.
    intros Ht Ha Ha' Hn Hn'. unfold post_request.
    destruct (blueprints_same id id' data data' k j Ha Ha' Hn Hn') as [[-> ->]|(bs & bs' & -> & -> & HF)]; cbn [out_bind]; [done|].
    rewrite <- (Forall2_length _ _ _ HF), <- (tw_config _ _ Ht). destruct (_ <? _)%N; [done|].
    pose proof (post_session_same m n index Ht) as Hp.
    destruct (post_session _ _ _) as [[rel s]|e], (post_session (mx_sessions n) _ _) as [[rel' t]|e']; try done.
    2:{ cbn in Hp. by subst. }
    destruct Hp as (E & Hs & Hg). cbn [fst snd] in E, Hs, Hg. subst rel'.
    pose proof Hs as [Hb Hq]. destruct (bare_fields _ _ Hb) as (E1 & E2 & E3 & E4).
    rewrite <- (check_space_same _ _ _ Hq). destruct (aq_check_space _ _) as [|e]; [|done]. rewrite <- E2.
    apply (rel_bind eq); [apply rel_eq|]. intros [[rb r1]|e] _ <-; [|done].
    eapply rel_bind.
    { apply request_loop_same; [exact HF|]. split; [|done]. split; [apply (tw_keys _ _ Ht)|done]. }
    intros [st res] [st' res'] [(Hsu & Hqu & Hh & Hd) Eres]. cbn [fst snd] in *. subst res'. cbv zeta.
    destruct Hsu as (Hks & Hrh & Hrd).
    set (m1 := mx_put_session (mx_set_keystore m _) rel _). set (n1 := mx_put_session (mx_set_keystore n _) rel _).
    assert (Ht1 : twin m1 n1).
    { apply twin_put; [by apply twin_keystore|by apply twin_queue]. }
    destruct res as [|e]; [|done]. rewrite <- Hd, <- Hrd.
    change (mx_config m1) with (mx_config m). change (mx_config n1) with (mx_config n). rewrite <- (tw_config _ _ Ht).
    apply (rel_bind eq); [apply rel_eq|]. intros fd _ <-.
    replace (estimate_authored_packet_queue_delay (mx_config m) (se_set_authored t (pst_queue st')))
      with (estimate_authored_packet_queue_delay (mx_config m) (se_set_authored s (pst_queue st))).
    2:{ unfold estimate_authored_packet_queue_delay, se_set_authored. cbn [se_mean_period se_authored].
        by rewrite E3, (same_queue_len _ _ Hqu). }
    apply (rel_bind eq); [apply rel_eq|]. intros qd _ <-. cbn. by rewrite Hh, Hrh.
  Qed.
  Lemma post_reply_same m n surbs index id id' data data' j :
    twin m n -> args_ok id data 0 -> args_ok id' data' 0 -> Forall (fun s => length s = 222) surbs ->
    needs (data_len data) 0 j -> needs (data_len data') 0 j ->
    rel_out (fun x y => twin x.1.1 y.1.1 /\ x.1.2 = y.1.2 /\ x.2 = y.2)
      (post_reply pr m surbs index id data) (post_reply pr n surbs index id' data').
  Proof.
    intros Ht Ha Ha' Hsu Hn Hn'. unfold post_reply.
    destruct (blueprints_same id id' data data' 0 j Ha Ha' Hn Hn') as [[-> ->]|(bs & bs' & Eb & -> & HF)]; cbn [out_bind]; [done|].
    rewrite Eb. cbn [out_bind]. rewrite <- (Forall2_length _ _ _ HF), <- (tw_config _ _ Ht). destruct (_ <? _)%N; [done|].
    pose proof (post_session_same m n index Ht) as Hp.
    destruct (post_session _ _ _) as [[rel s]|e], (post_session (mx_sessions n) _ _) as [[rel' t]|e']; try done.
    2:{ cbn in Hp. by subst. }
    destruct Hp as (E & Hs & Hg). cbn [fst snd] in E, Hs, Hg. subst rel'.
    pose proof Hs as [Hb Hq]. destruct (bare_fields _ _ Hb) as (E1 & E2 & E3 & E4).
    rewrite <- (check_space_same _ _ _ Hq). destruct (aq_check_space _ _) as [|e]; [|done]. rewrite <- E2.
    eapply rel_bind.
    { apply reply_loop_same; [exact HF| |exact Hsu|exact Hq].
      destruct Ha as (Hid & Hwf & Hd & Hz). destruct (C02_minimal id data 0 bs Hwf Hd Hz Eb) as [[_ [_ Hsum]] _].
      clear -Hsum. induction bs as [|b bs IH]; constructor; cbn in Hsum; [lia|]. apply IH.
      unfold plan_of in Hsum. unfold plan_of. lia. }
    intros [[l q] res] [[l' q'] res'] (El & Hq' & Er). cbn [fst snd] in *. subst l' res'. cbn. split; [|done].
    apply twin_put; [done|]. by apply twin_queue.
  Qed.

  (** The other calls. *)
  Lemma slot_same_empty a b : same_slot a b -> slot_is_empty a = slot_is_empty b.
  Proof. by destruct a, b. Qed.
  Lemma twin_sessions m n : twin m n ->
    same_slot (ss_current (mx_sessions m)) (ss_current (mx_sessions n)) /\ same_slot (ss_prev (mx_sessions m)) (ss_prev (mx_sessions n)).
  Proof. intros H. split; [apply (tw_slot _ _ H RCurrent)|apply (tw_slot _ _ H RPrev)]. Qed.
  Lemma twin_status m n st : twin m n -> twin (set_session_status m st) (set_session_status n st).
  Proof.
    intros Ht. unfold set_session_status. rewrite (tw_status _ _ Ht). destruct (decide _); [done|].
    assert (Hs : twin (shift_sessions m (st_current_index st)) (shift_sessions n (st_current_index st))).
    { unfold shift_sessions. rewrite (tw_status _ _ Ht), (tw_kx _ _ Ht). destruct (_ =? _)%N; [done|]. cbv zeta.
      destruct (twin_sessions _ _ Ht) as [Hc Hp].
      unfold ss_is_empty. rewrite (slot_same_empty _ _ Hc), (slot_same_empty _ _ Hp).
      destruct Ht. destruct (saturating_sub _ _) as [|[p|[]|]]; try (destruct (negb _ || _)); split; try done;
        intros rel; destruct rel; cbn; try done; apply same_slot_refl. }
    generalize dependent (shift_sessions m (st_current_index st)). intros m1 Hs.
    generalize dependent (shift_sessions n (st_current_index st)). intros n1 Hs. cbv zeta.
    assert (Hd : twin (if negb (need_prev (st_phase st)) || (st_current_index st =? 0)%N
               then mx_set_sessions m1 {| ss_current := ss_current (mx_sessions m1); ss_prev := SlDisabled |} else m1)
       (if negb (need_prev (st_phase st)) || (st_current_index st =? 0)%N
               then mx_set_sessions n1 {| ss_current := ss_current (mx_sessions n1); ss_prev := SlDisabled |} else n1)).
    { destruct (_ || _); [|done]. destruct (twin_sessions _ _ Hs) as [Hc Hp]. destruct Hs. split; try done. by intros []. }
    pose proof (twin_or _ _ (ev_or RESERVED_PEERS_CHANGED NEXT_AUTHORED_PACKET_DEADLINE_CHANGED) Hd) as [].
    by split.
  Qed.
  Lemma twin_mixnodes m n rel mixnodes r :
    twin m n -> rel_out (fun x y => twin x.1 y.1 /\ x.2 = y.2) (maybe_set_mixnodes pr m rel mixnodes r) (maybe_set_mixnodes pr n rel mixnodes r).
  Proof.
    intros Ht. unfold maybe_set_mixnodes. pose proof (tw_slot _ _ Ht rel) as Hs.
    rewrite <- (tw_status _ _ Ht), <- (tw_config _ _ Ht).
    assert (Hset : forall sl, twin (mx_set_sessions m (ss_set (mx_sessions m) rel sl)) (mx_set_sessions n (ss_set (mx_sessions n) rel sl))).
    { intros sl. apply (twin_set m n rel sl sl); [done|apply same_slot_refl]. }
    assert (Hput : forall s, twin (mx_put_session m rel s) (mx_put_session n rel s)).
    { intros s. by apply twin_put. }
    destruct (ss_get (mx_sessions m) rel) as [|k| |s], (ss_get (mx_sessions n) rel) as [|k'| |s']; try done; cbv zeta.
    - apply (rel_bind eq); [apply rel_eq|]. intros i _ <-. destruct mixnodes as [l|[]]; [|by split|split; [apply Hset|done]].
      destruct (kx_pair_gen pr r) as [k r1]. apply (rel_bind eq); [apply rel_eq|]. intros [t r2] _ <-.
      destruct (if tp_is_mixnode t then _ else _); [|split; [apply Hset|done]]. destruct (rf_new r2) as [f r3]. cbn. split; [|done]. by apply twin_or.
    - injection Hs as <-. apply (rel_bind eq); [apply rel_eq|]. intros i _ <-. destruct mixnodes as [l|[]]; [|by split|split; [apply Hset|done]].
      apply (rel_bind eq); [apply rel_eq|]. intros [t r2] _ <-.
      destruct (if tp_is_mixnode t then _ else _); [|split; [apply Hset|done]]. destruct (rf_new r2) as [f r3]. cbn. split; [|done]. by apply twin_or.
  Qed.

  (** Incoming packets. *)
  Lemma header_parts p p' : take 188 p = take 188 p' -> p_kx p = p_kx p' /\ p_mac p = p_mac p' /\ p_actions p = p_actions p'.
  Proof.
    intros H. unfold p_kx, p_mac, p_actions.
    assert (E : forall a b, a + b ≤ 188 -> take b (drop a p) = take b (drop a p')).
    { intros a b Hab. replace b with (Nat.min b (188 - a)) by lia. rewrite <- !take_take, <- !skipn_firstn_comm. by rewrite H. }
    split_and!.
    - pose proof (E 0 32 ltac:(lia)) as E0. by rewrite !drop_0 in E0.
    - apply E. lia.
    - apply E. lia.
  Qed.
  Lemma reads_header ss p p' rel s : take 188 p = take 188 p' -> reads pr ss p rel s -> reads pr ss p' rel s.
  Proof.
    intros (E1 & E2 & E3)%header_parts.
    assert (Hsh : forall s0, (PHandle.seen pr s0 p <-> PHandle.seen pr s0 p') /\ (opens pr s0 p <-> opens pr s0 p')).
    { intros s0. unfold PHandle.seen, opens, tag_of, shared, good_mac. by rewrite E1, E2, E3. }
    intros [s0 E Hns Ho|s0 E Hc Hns Ho]; destruct (Hsh s0) as [H1 H2].
    - constructor; [done|by rewrite <- H1|by rewrite <- H2].
    - constructor; [done| |by rewrite <- H1|by rewrite <- H2]. intros c Ec. destruct (Hsh c) as [G1 G2].
      rewrite <- G1, <- G2. by apply Hc.
  Qed.
  (** What the session makes of two packets with the same header. *)
  Definition same_content (x y : content) : Prop :=
    match x, y with
    | CtForward t d next, CtForward t' d' next' => t = t' /\ d = d' /\ take 188 next = take 188 next'
    | CtRequest _, CtRequest _ => True
    | CtReply id _, CtReply id' _ => id = id'
    | _, _ => x = y
    end.
  Lemma contents_same s t p p' :
    length p = N.to_nat 2252 -> length p' = N.to_nat 2252 ->
    bare s = bare t -> take 188 p = take 188 p' -> (content_of pr s p = CtGarbage <-> content_of pr s p' = CtGarbage) ->
    same_content (content_of pr s p) (content_of pr t p').
  Proof.
    intros Hl Hl' Hb Hp. rewrite <- (content_bare pr s t p' Hb). pose proof (header_parts _ _ Hp) as (E1 & E2 & E3).
    unfold content_of, shared. cbv zeta. unfold action_code. rewrite <- E1, <- E3.
    set (k := derive_kx_shared_secret pr (p_kx p) _). set (rt := routing pr (p_actions p) k). set (code := from_le16 _).
    destruct (decide (code = 65281%N)).
    { destruct (decide _), (decide _); [done|..|done]; intros [H1 H2]; [by specialize (H2 eq_refl)|by specialize (H1 eq_refl)]. }
    intros _. destruct (decide _); [done|]. destruct (decide _); [done|]. destruct (decide _); [done|].
    assert (Hnext : forall off, off + 156 ≤ 190 -> take 188 (next_packet pr p k off) = take 188 (next_packet pr p' k off)).
    { intros off Ho. unfold next_packet. rewrite <- E1, <- E3. fold rt. rewrite !(app_assoc _ (slice rt off 156)).
      assert (length (blind_kx_public pr (p_kx p) k ++ slice rt off 156) = 188).
      { rewrite app_length, (blind_length pr Hok), slice_length; [done|]. unfold rt. rewrite routing_length, p_actions_length by done. lia. }
      by rewrite !header_take. }
    destruct (decide _); [cbn; split_and!; try done; apply Hnext; lia|].
    destruct (decide _); [cbn; split_and!; try done; apply Hnext; lia|]. done.
  Qed.
  Lemma noted_twin m n rel s t p p' :
    twin m n -> same_sess s t -> take 188 p = take 188 p' -> twin (noted pr m rel s p) (noted pr n rel t p').
  Proof.
    intros Ht [Hb Hq] (E1 & _)%header_parts. unfold noted. apply twin_put; [done|].
    destruct (bare_fields _ _ Hb) as (F1 & F2 & F3 & F4). split; [|done].
    destruct s, t. unfold bare, se_set_filter, se_set_authored, tag_of, shared in *. cbn in *. by rewrite E1, F1, F2, F3, F4.
  Qed.
  Lemma min_deadline_same l l' : map fwd_outside l = map fwd_outside l' -> min_deadline l = min_deadline l'.
  Proof.
    revert l'. induction l as [|f l IH]; intros [|f' l']; try done. cbn. intros H. injection H as H1 _ _ H2.
    by rewrite (IH _ H2), H1.
  Qed.
  Lemma enqueue_twin m n dl x y :
    twin m n -> outside x = outside y -> twin (enqueue m (ForwardPacket dl x)) (enqueue n (ForwardPacket dl y)).
  Proof.
    intros Ht Hx. unfold enqueue. cbv zeta.
    assert (Hq : map fwd_outside (fq_queue (mx_forward m) ++ [ForwardPacket dl x]) =
                 map fwd_outside (fq_queue (mx_forward n) ++ [ForwardPacket dl y])).
    { rewrite !map_app, (tw_forward _ _ Ht). cbn. unfold fwd_outside at 2 4. cbn. by rewrite Hx. }
    assert (Hm : fq_next_deadline (ForwardQueue (fq_capacity (mx_forward m)) (fq_queue (mx_forward m) ++ [ForwardPacket dl x])) =
                 fq_next_deadline (ForwardQueue (fq_capacity (mx_forward n)) (fq_queue (mx_forward n) ++ [ForwardPacket dl y]))).
    { unfold fq_next_deadline. cbn [fq_queue]. by apply min_deadline_same. }
    assert (Hm' : fq_next_deadline (mx_forward m) = fq_next_deadline (mx_forward n)).
    { unfold fq_next_deadline. apply min_deadline_same, Ht. }
    assert (Htw : twin (mx_set_forward m (ForwardQueue (fq_capacity (mx_forward m)) (fq_queue (mx_forward m) ++ [ForwardPacket dl x])))
                       (mx_set_forward n (ForwardQueue (fq_capacity (mx_forward n)) (fq_queue (mx_forward n) ++ [ForwardPacket dl y])))).
    { destruct Ht. split; try done. }
    destruct (decide (_ = fq_next_deadline (mx_forward m))), (decide (_ = fq_next_deadline (mx_forward n))); try congruence.
    by apply twin_or.
  Qed.
  Lemma room_twin m n : twin m n -> has_room m -> has_room n.
  Proof.
    intros Ht. unfold has_room. rewrite <- (tw_capacity _ _ Ht).
    by rewrite <- (map_length fwd_outside (fq_queue (mx_forward n))), <- (tw_forward _ _ Ht), map_length.
  Qed.
  (** Packets that panic in one node panic in the other. *)
  Lemma handle_panics cf m n p p' now :
    mx_ok pr cf m -> mx_ok pr cf n -> twin m n -> length p = N.to_nat 2252 -> length p' = N.to_nat 2252 ->
    take 188 p = take 188 p' ->
    (forall rel s, ss_get (mx_sessions m) rel = SlFull s -> (content_of pr s p = CtGarbage <-> content_of pr s p' = CtGarbage)) ->
    exec pr m (CallHandle p now) = Panic -> exec pr n (CallHandle p' now) = Panic.
  Proof.
    intros Hm Hn Ht Hl Hl' Hp Hg E.
    destruct (C32_handle pr Hok cf m p now Hm Hl E) as (rel & s & tg & d & next & (Hr & Hmix & Hroom) & Ec & Ed).
    destruct (reads_alike pr (mx_sessions m) (mx_sessions n) p rel s) as (t & Hr' & Hb); [intros; by apply twin_bare|done|].
    apply (reads_header _ _ p') in Hr'; [|done].
    pose proof (contents_same s t p p' Hl Hl' Hb Hp (Hg rel s (reads_get _ _ _ _ _ Hr))) as Hc. rewrite Ec in Hc, Hroom.
    destruct (content_of pr t p') as [tg' d' next'| | | |] eqn:Ec'; try done. destruct Hc as (<- & <- & _).
    destruct (bare_fields _ _ Hb) as (_ & Et & _).
    cbn [exec]. destruct (handle_packet_spec pr Hok n p' now Hl') as [[Hnr _]|(rel' & t' & Hr'' & ->)]; [by destruct (Hnr rel t)|].
    destruct (reads_unique _ _ _ _ _ _ _ Hr' Hr'') as [<- <-]. unfold effect. rewrite Ec'.
    rewrite decide_True; [|split; [unfold is_mixnode in *; by rewrite <- Et|by apply (room_twin m)]].
    cbn [exec] in E. destruct (handle_packet_spec pr Hok m p now Hl) as [[Hnr _]|(rel' & s' & Hrm & Em)]; [by destruct (Hnr rel s)|].
    destruct (reads_unique _ _ _ _ _ _ _ Hr Hrm) as [<- <-]. rewrite Em in E. unfold effect in E. rewrite Ec in E.
    rewrite decide_True in E by done. rewrite <- Et, <- (tw_config _ _ Ht).
    destruct (tp_target_to_peer_id _ _); [|done]. by rewrite Ed.
  Qed.
  Lemma handle_same cf m n p p' now :
    mx_ok pr cf m -> mx_ok pr cf n -> twin m n -> length p = N.to_nat 2252 -> length p' = N.to_nat 2252 ->
    take 188 p = take 188 p' ->
    (forall rel s, ss_get (mx_sessions m) rel = SlFull s -> (content_of pr s p = CtGarbage <-> content_of pr s p' = CtGarbage)) ->
    rel_out (fun x y => twin x.1 y.1 /\ same_look x.2 y.2) (exec pr m (CallHandle p now)) (exec pr n (CallHandle p' now)).
  Proof.
    intros Hm Hn Ht Hl Hl' Hp Hg.
    assert (Hg' : forall rel s, ss_get (mx_sessions n) rel = SlFull s -> (content_of pr s p' = CtGarbage <-> content_of pr s p = CtGarbage)).
    { intros rel t Et. destruct (twin_full _ _ rel t (twin_sym _ _ Ht) Et) as (s & Es & [Hb _]).
      rewrite (content_bare pr t s p Hb), (content_bare pr t s p' Hb). symmetry. by apply (Hg rel). }
    pose proof (handle_panics cf m n p p' now Hm Hn Ht Hl Hl' Hp Hg) as P1.
    pose proof (handle_panics cf n m p' p now Hn Hm (twin_sym _ _ Ht) Hl' Hl (eq_sym Hp) Hg') as P2.
    destruct (exec pr m (CallHandle p now)) as [[m' a]|] eqn:E, (exec pr n (CallHandle p' now)) as [[n' b]|] eqn:E';
      [|by specialize (P2 eq_refl)|by specialize (P1 eq_refl)|done]. clear P1 P2. cbn [rel_out fst snd].
    cbn [exec] in E, E'. apply out_bind_Val in E as ([m1 msg] & E & F). injection F as -> <-.
    apply out_bind_Val in E' as ([n1 msg'] & E' & F). injection F as -> <-. split; [|done].
    destruct (handle_packet_spec pr Hok m p now Hl) as [[Hnr F]|(rel & s & Hr & F)]; rewrite F in E; clear F.
    { injection E as <- _.
      destruct (handle_packet_spec pr Hok n p' now Hl') as [[_ F]|(rel & t & Hr & F)]; rewrite F in E'; clear F.
      { by injection E' as <- _. }
      apply (reads_header _ _ p) in Hr; [|done].
      destruct (reads_alike pr (mx_sessions n) (mx_sessions m) p rel t) as (s & Hr' & _); [intros; symmetry; by apply twin_bare|done|].
      by destruct (Hnr rel s). }
    destruct (reads_alike pr (mx_sessions m) (mx_sessions n) p rel s) as (t & Hr' & Hb); [intros; by apply twin_bare|done|].
    apply (reads_header _ _ p') in Hr'; [|done].
    destruct (handle_packet_spec pr Hok n p' now Hl') as [[Hnr F]|(rel' & t' & Hr'' & F)]; rewrite F in E'; clear F.
    { by destruct (Hnr rel t). }
    destruct (reads_unique _ _ _ _ _ _ _ Hr' Hr'') as [<- <-].
    pose proof (reads_get _ _ _ _ _ Hr) as Gs. pose proof (reads_get _ _ _ _ _ Hr') as Gt.
    assert (Hst : same_sess s t).
    { destruct (twin_full _ _ _ _ Ht Gs) as (t' & Gt' & Hst). by rewrite Gt in Gt'; injection Gt' as ->. }
    pose proof (contents_same s t p p' Hl Hl' Hb Hp (Hg rel s Gs)) as Hc.
    destruct (bare_fields _ _ Hb) as (E1 & E2 & E3 & E4).
    assert (Hmix : is_mixnode s <-> is_mixnode t) by (unfold is_mixnode; by rewrite E2).
    assert (Hroom : has_room m <-> has_room n) by (split; [by apply room_twin|by apply room_twin, twin_sym]).
    unfold effect in E, E'.
    destruct (content_of pr s p) as [tg d next|data|id pl|cid|], (content_of pr t p') as [tg' d' next'|data'|id' pl'|cid'|]; try done.
    - destruct Hc as (<- & <- & Hnx).
      destruct (decide (is_mixnode s /\ has_room m)) as [Hc|Hc], (decide (is_mixnode t /\ has_room n)) as [Hc'|Hc']; [|tauto..|].
      + rewrite <- E2, <- (tw_config _ _ Ht) in E'. destruct (tp_target_to_peer_id _ _).
        * apply out_bind_Val in E as (dur & Hd & E). rewrite Hd in E'. cbn [out_bind] in E'.
          injection E as <- _. injection E' as <- _. apply enqueue_twin; [by apply noted_twin|].
          unfold outside. cbn. by rewrite Hnx.
        * injection E as <- _. injection E' as <- _. by apply noted_twin.
      + injection E as <- _. injection E' as <- _. done.
    - destruct (decide (is_mixnode s)) as [Hc1|Hc1], (decide (is_mixnode t)) as [Hc2|Hc2]; [|tauto..|].
      + apply out_bind_Val in E as ([fa g] & _ & E). apply out_bind_Val in E' as ([fb g'] & _ & E'). cbv zeta in E, E'.
        assert (m' = mx_set_assembler (noted pr m rel s p) fa) as ->.
        { destruct g; [|by injection E as <- _]. apply out_bind_Val in E as (? & _ & E). by injection E as <- _. }
        assert (n' = mx_set_assembler (noted pr n rel t p') fb) as ->.
        { destruct g'; [|by injection E' as <- _]. apply out_bind_Val in E' as (? & _ & E'). by injection E' as <- _. }
        apply twin_assembler. by apply noted_twin.
      + injection E as <- _. injection E' as <- _. done.
    - cbn [same_content] in Hc. subst id'. pose proof (tw_keys _ _ Ht) as [Hcap Hk]. unfold sk_entry in E, E'.
      pose proof (keys_get _ _ id Hk) as Hkg.
      destruct (lhm_get (sk_surbs (mx_keystore m)) id) as [v|], (lhm_get (sk_surbs (mx_keystore n)) id) as [v'|]; try done.
      2:{ injection E as <- _. injection E' as <- _. done. }
      cbv zeta in E, E'.
      assert (Hrem : twin (mx_set_keystore m (sk_remove (mx_keystore m) id)) (mx_set_keystore n (sk_remove (mx_keystore n) id))).
      { apply twin_keystore; [done|]. split; [done|]. by apply keys_remove. }
      assert (m' = mx_set_keystore m (sk_remove (mx_keystore m) id) \/
              exists fa, m' = mx_set_assembler (mx_set_keystore m (sk_remove (mx_keystore m) id)) fa) as Hm'.
      { destruct (decrypt_reply_payload _ _ _) as [? [|]].
        - apply out_bind_Val in E as ([fa out] & _ & E). injection E as <- _. right. by eexists.
        - injection E as <- _. by left. }
      assert (n' = mx_set_keystore n (sk_remove (mx_keystore n) id) \/
              exists fa, n' = mx_set_assembler (mx_set_keystore n (sk_remove (mx_keystore n) id)) fa) as Hn'.
      { destruct (decrypt_reply_payload pr pl' _) as [? [|]].
        - apply out_bind_Val in E' as ([fa out] & _ & E'). injection E' as <- _. right. by eexists.
        - injection E' as <- _. by left. }
      destruct Hrem, Hm' as [->|[fa ->]], Hn' as [->|[fb ->]]; by split.
    - injection E as <- _. injection E' as <- _. done.
    - injection E as <- _. injection E' as <- _. done.
  Qed.

  (** Packets that go out. *)
  Lemma positions_same d : forall l l' i, map fwd_outside l = map fwd_outside l' -> deadline_positions i d l = deadline_positions i d l'.
  Proof.
    induction l as [|f l IH]; intros [|f' l'] i; try done. cbn. intros H. injection H as H1 _ _ H2. rewrite H1, (IH l' (S i) H2). done.
  Qed.
  Lemma delete_map {A B} (f : A -> B) l : forall i, map f (delete i l) = delete i (map f l).
  Proof. induction l as [|x l IH]; intros [|i]; try done. cbn. f_equal. apply IH. Qed.
  Lemma pop_forward_same m n tie :
    twin m n -> let x := pop_next_forward_packet m tie in let y := pop_next_forward_packet n tie in
    twin x.1 y.1 /\ outside <$> x.2 = outside <$> y.2.
  Proof.
    intros Ht0. cbv zeta. unfold pop_next_forward_packet. cbv zeta.
    pose proof (twin_or _ _ NEXT_FORWARD_PACKET_DEADLINE_CHANGED Ht0) as Ht. clear Ht0.
    set (m1 := mx_or_events m NEXT_FORWARD_PACKET_DEADLINE_CHANGED) in *.
    set (n1 := mx_or_events n NEXT_FORWARD_PACKET_DEADLINE_CHANGED) in *. clearbody m1 n1. clear m n.
    pose proof (tw_forward _ _ Ht) as Hf.
    unfold fq_pop. rewrite <- (min_deadline_same _ _ Hf). destruct (min_deadline _) as [d|].
    2:{ cbn [fst snd]. split; [|done]. destruct Ht; by split. }
    cbv zeta. rewrite <- (positions_same d _ _ 0 Hf). destruct (_ !! _) as [i|].
    2:{ cbn [fst snd]. split; [|done]. destruct Ht; by split. }
    cbn [fst snd]. split.
    - destruct Ht. split; try done. cbn [mx_set_forward mx_forward fq_queue]. by rewrite !delete_map, Hf.
    - assert (Hi : fwd_outside <$> (fq_queue (mx_forward m1) !! i) = fwd_outside <$> (fq_queue (mx_forward n1) !! i)).
      { rewrite <- !list_lookup_fmap. change (fmap fwd_outside) with (map fwd_outside). by rewrite Hf. }
      destruct (fq_queue (mx_forward m1) !! i) as [f|], (fq_queue (mx_forward n1) !! i) as [f'|]; try done. cbn in Hi |- *.
      injection Hi as _ H1 H2. unfold outside. by rewrite H1, H2.
  Qed.
  Lemma pick_same m n r :
    twin m n -> rel_out (fun x y => x.2 = y.2 /\
      match x.1, y.1 with
      | Some (rel, s), Some (rel', t) => rel = rel' /\ same_sess s t
      | None, None => True
      | _, _ => False
      end) (pick_session m r) (pick_session n r).
  Proof.
    intros Ht. destruct (twin_sessions _ _ Ht) as [Hc Hp]. unfold pick_session, ss_enumerate.
    destruct (ss_current (mx_sessions m)) as [| | |s0], (ss_current (mx_sessions n)) as [| | |t0]; try done;
      destruct (ss_prev (mx_sessions m)) as [| | |s1], (ss_prev (mx_sessions n)) as [| | |t1]; try done;
      cbn [omap list_omap slot_as_option fmap option_fmap option_map snd]; try done.
    destruct (bare_fields _ _ (proj1 Hc)) as (_ & _ & -> & _), (bare_fields _ _ (proj1 Hp)) as (_ & _ & -> & _).
    apply (rel_bind eq); [apply rel_eq|]. intros [b r1] _ <-. split; [done|]. by destruct b.
  Qed.
  Lemma pop_same m n ns r :
    twin m n -> rel_out (fun x y => twin x.1 y.1 /\ outside <$> x.2 = outside <$> y.2)
      (pop_next_authored_packet pr m ns r) (pop_next_authored_packet pr n ns r).
  Proof.
    intros Ht. unfold pop_next_authored_packet. eapply rel_bind; [by apply pick_same|].
    intros [x r1] [y r1'] [E H]. cbn [fst snd] in E, H. subst r1'. destruct x as [[rel s]|], y as [[rel' t]|]; try done.
    destruct H as [<- Hst]. cbv zeta. pose proof (twin_or _ _ NEXT_AUTHORED_PACKET_DEADLINE_CHANGED Ht) as Ht1.
    generalize dependent (mx_or_events m NEXT_AUTHORED_PACKET_DEADLINE_CHANGED). intros m1 Ht1.
    generalize dependent (mx_or_events n NEXT_AUTHORED_PACKET_DEADLINE_CHANGED). intros n1 Ht1.
    rewrite <- (tw_config _ _ Ht1), <- (tw_status _ _ Ht1). apply (rel_bind eq); [apply rel_eq|]. intros [loop r2] _ <-.
    pose proof Hst as [Hb Hq]. destruct (bare_fields _ _ Hb) as (_ & Et & _).
    assert (Hcover : forall k l, twin k l -> rel_out (fun x y => twin x.1 y.1 /\ outside <$> x.2 = outside <$> y.2)
      (if negb (cf_gen_cover_packets (mx_config k)) then Val (k, None)
       else res ← gen_cover_packet pr (se_topology s) ns (if loop then CkLoop else CkDrop) (cf_num_hops (mx_config k)) r2;
            match res with Ok p => Val (k, Some p) | Err _ => Val (k, None) end)
      (if negb (cf_gen_cover_packets (mx_config l)) then Val (l, None)
       else res ← gen_cover_packet pr (se_topology t) ns (if loop then CkLoop else CkDrop) (cf_num_hops (mx_config l)) r2;
            match res with Ok p => Val (l, Some p) | Err _ => Val (l, None) end)).
    { intros k l Hkl. rewrite <- (tw_config _ _ Hkl), <- Et. destruct (negb _); [done|].
      apply (rel_bind eq); [apply rel_eq|]. intros [p|e] _ <-; done. }
    destruct (negb loop && _); [|by apply Hcover].
    unfold aq_pop. destruct Hq as [Hqc Hq].
    destruct (aq_queue (se_authored s)) as [|p q], (aq_queue (se_authored t)) as [|p' q']; try done.
    - apply Hcover. apply twin_put; [done|]. apply twin_queue; [done|apply Hst].
    - cbn in Hq. injection Hq as Hp1 Hp2 Hq.
      assert (Hsp : bool_decide (q = []) = bool_decide (q' = [])) by (destruct q, q'; done).
      rewrite <- Hqc, Hsp.
      assert (Htp : twin (mx_put_session m1 rel (se_set_authored s (AuthoredQueue (aq_config (se_authored s)) q)))
                         (mx_put_session n1 rel (se_set_authored t (AuthoredQueue (aq_config (se_authored s)) q')))).
      { apply twin_put; [done|]. by apply twin_queue. }
      assert (Ho : outside p = outside p') by (unfold outside; by rewrite Hp1, Hp2).
      destruct (_ || _); cbn; (split; [|by rewrite Ho]); [by apply twin_or|done].
  Qed.

  Lemma exec_same cf m n c c' :
    mx_ok pr cf m -> mx_ok pr cf n -> twin m n -> call_ok c -> call_ok c' -> same_shape pr m c c' ->
    rel_out (fun x y => twin x.1 y.1 /\ same_look x.2 y.2) (exec pr m c) (exec pr n c').
  Proof.
    intros Hm Hn Ht Hc Hc' Hs.
    destruct c as [st|rel mixnodes r|r|p now|tie|ns r|index dest id data k ns r|surbs index id data|];
      destruct c' as [st'|rel' mixnodes' r'|r'|p' now'|tie'|ns' r'|index' dest' id' data' k' ns' r'|surbs' index' id' data'|];
      cbn [same_shape] in Hs; try done.
    - injection Hs as <-. cbn. split; [|done]. by apply twin_status.
    - injection Hs as <- <- <-. cbn [exec]. eapply rel_bind; [by apply twin_mixnodes|]. intros [m1 b] [n1 b'] [H1 H2].
      cbn in H1, H2 |- *. by subst.
    - injection Hs as <-. cbn [exec]. unfold next_kx_public. rewrite <- (tw_kx _ _ Ht).
      destruct (mx_next_kx_pair m) as [kp|]; [done|]. destruct (kx_pair_gen pr r) as [kp r1]. cbn. split; [|done].
      destruct Ht; by split.
    - destruct Hs as (<- & Hp & Hg). by apply (handle_same cf).
    - injection Hs as <-. cbn [exec]. pose proof (pop_forward_same m n tie Ht) as H. cbv zeta in H.
      by destruct (pop_next_forward_packet m tie), (pop_next_forward_packet n tie).
    - injection Hs as <- <-. cbn [exec]. eapply rel_bind; [by apply pop_same|]. by intros [] [].
    - destruct Hs as (<- & <- & <- & <- & <- & j & Hj & Hj'). destruct Hc as (Ha & _), Hc' as (Ha' & _).
      cbn [exec]. eapply rel_bind; [by eapply post_request_same|]. intros [[m1 d] res] [[n1 d'] res'] (H1 & H2 & H3).
      cbn in H1, H2, H3 |- *. by subst.
    - destruct Hs as (<- & <- & j & Hj & Hj'). destruct Hc as (Ha & Hsu), Hc' as (Ha' & _).
      cbn [exec]. eapply rel_bind; [by eapply post_reply_same|]. intros [[m1 d] res] [[n1 d'] res'] (H1 & H2 & H3).
      cbn in H1, H2, H3 |- *. by subst.
    - cbn. rewrite (tw_events _ _ Ht). split; [|done]. destruct Ht; by split.
  Qed.
  Lemma twin_view m n : twin m n -> same_view m n.
  Proof.
    intros Ht. destruct (twin_sessions _ _ Ht) as [Hc Hp].
    assert (Hi : Forall2 (fun s t => bare s = bare t) (ss_iter (mx_sessions m)) (ss_iter (mx_sessions n))).
    { unfold ss_iter. destruct (ss_current (mx_sessions m)), (ss_current (mx_sessions n)); try done;
        destruct (ss_prev (mx_sessions m)), (ss_prev (mx_sessions n)); try done; cbn [omap list_omap slot_as_option];
        repeat constructor; first [apply Hc|apply Hp]. }
    split_and!.
    - apply (tw_status _ _ Ht).
    - apply reserved_peers_topologies. induction Hi as [|s t l l' (_ & E & _)%bare_fields _ IH]; [done|]. cbn. by rewrite E, IH.
    - unfold next_forward_packet_deadline, fq_next_deadline. apply min_deadline_same, Ht.
    - intros e. apply mean_period_same; [apply (tw_status _ _ Ht)|].
      induction Hi as [|s t l l' (_ & _ & E & _)%bare_fields _ IH]; [done|]. cbn. by rewrite E, IH.
  Qed.

  Lemma pair_twin cf m n h h' m' n' :
    config_ok cf -> mx_ok pr cf m -> mx_ok pr cf n -> twin m n -> pair_run pr m n h h' m' n' ->
    mx_ok pr cf m' /\ mx_ok pr cf n' /\ twin m' n' /\ Forall2 (fun x y => same_look x.2 y.2) h h'.
  Proof.
    intros Hcf Hm Hn Ht Hr. induction Hr as [|m n c c' a a' m1 n1 h h' m2 n2 Hc Hc' Hs E E' _ IH]; [done|].
    pose proof (exec_same cf m n c c' Hm Hn Ht Hc Hc' Hs) as H. rewrite E, E' in H. destruct H as [Ht1 Hl].
    destruct IH as (? & ? & ? & ?).
    - eapply step_inv; [done|done|exact Hm|exact Hc|]. by eapply exec_step.
    - eapply step_inv; [done|done|exact Hn|exact Hc'|]. by eapply exec_step.
    - exact Ht1.
    - split_and!; try done. by constructor.
  Qed.

  (** ** Theorems *)

  (** Two histories of a node that differ in payloads only look the same: the packets that are sent, in
      what calls and where, with their headers; the results of posting, with the estimated round-trip
      times; the public keys, the events, and all that the reading functions show. *)
  Theorem C72_contents cf hist m h h' m1 m2 :
    reachable pr cf hist m -> pair_run pr m m h h' m1 m2 ->
    Forall2 (fun x y => same_look x.2 y.2) h h' /\ same_view m1 m2.
  Proof.
    intros Hr Hp. pose proof (reachable_ok pr Hok cf hist m Hr) as Hm. destruct Hr as [Hcf _].
    destruct (pair_twin cf m m h h' m1 m2 Hcf Hm Hm (twin_refl m) Hp) as (_ & _ & Ht & HF). split; [done|]. by apply twin_view.
  Qed.
  (** Nor do contents decide whether a call panics. *)
  Theorem C72_panics cf hist m h h' m1 m2 c c' :
    reachable pr cf hist m -> pair_run pr m m h h' m1 m2 -> call_ok c -> call_ok c' -> same_shape pr m1 c c' ->
    (exec pr m1 c = Panic <-> exec pr m2 c' = Panic).
  Proof.
    intros Hr Hp Hc Hc' Hs. pose proof (reachable_ok pr Hok cf hist m Hr) as Hm. destruct Hr as [Hcf _].
    destruct (pair_twin cf m m h h' m1 m2 Hcf Hm Hm (twin_refl m) Hp) as (Hm1 & Hm2 & Ht & _).
    pose proof (exec_same cf m1 m2 c c' Hm1 Hm2 Ht Hc Hc' Hs) as H.
    by destruct (exec pr m1 c), (exec pr m2 c').
  Qed.
End veil.
