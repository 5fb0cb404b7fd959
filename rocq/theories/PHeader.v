(** The structure of the headers made by [build_header]: what each hop finds when it decrypts the
    routing actions. Used for C08-C11 and C15. *)
From Verif Require Export PKx PPeel.

(** ** Specification *)

(** The bytes of a routing action, without the MAC for the next hop. *)
Definition fwd_block (t : target) : bytes :=
  match t with
  | TMixnodeIndex i => to_le16 i
  | TPeerId p => to_le16 65280 ++ p
  end.
Definition fin_block (k : packet_kind) : bytes :=
  match k with
  | KRequest => to_le16 65281
  | KReply id => to_le16 65282 ++ id
  | KCover None => to_le16 65283
  | KCover (Some id) => to_le16 65284 ++ id
  end.
Definition target_ok (t : target) : Prop :=
  match t with TMixnodeIndex i => (i ≤ 65279)%N | TPeerId p => length p = 32 end.
Definition kind_ok (k : packet_kind) : Prop :=
  match k with KReply id | KCover (Some id) => length id = 16 | _ => True end.

(** Room taken by the routing actions; the header has 140 bytes of them. *)
Definition room (ts : list target) (k : packet_kind) : nat :=
  foldr (fun t n => length (fwd_block t) + 16 + n) (length (fin_block k)) ts.

Definition mac_of (pr : prims) (s actions : bytes) : bytes :=
  pr_blake2b pr 16 (take 16 (small_derived_secrets pr s)) [] [] actions.

(** [seen pr ts ss k mac actions]: a header with this MAC and these routing actions is accepted in
    turn by hops with shared secrets [ss], which find the targets [ts] and finally [k]; every hop
    finds a complete header (MAC and 140 bytes of routing actions) for the next. *)
Fixpoint seen (pr : prims) (ts : list target) (ss : list bytes) (k : packet_kind)
    (mac actions : bytes) : Prop :=
  match ts, ss with
  | [], [s] =>
      length actions = 140 /\ mac = mac_of pr s actions /\
      exists rest, routing pr actions s = fin_block k ++ rest
  | t :: ts', s :: ss' =>
      length actions = 140 /\ mac = mac_of pr s actions /\
      exists mac' actions' rest,
        routing pr actions s = fwd_block t ++ mac' ++ actions' ++ rest /\
        seen pr ts' ss' k mac' actions'
  | _, _ => False
  end.

(** What the last hop finds behind the action for it in such a header *)
Fixpoint behind_last (pr : prims) (ts : list target) (ss : list bytes) (k : packet_kind)
    (actions : bytes) : bytes :=
  match ts, ss with
  | [], s :: _ => drop (length (fin_block k)) (routing pr actions s)
  | t :: ts', s :: ss' =>
      behind_last pr ts' ss' k (take 140 (drop (length (fwd_block t) + 16) (routing pr actions s)))
  | _, _ => []
  end.

(** ** Proof *)
Section proof.
  Context (pr : prims) (Hok : prims_ok pr).

  Lemma seen_length ts ss k mac actions :
    seen pr ts ss k mac actions -> length mac = 16 /\ length actions = 140.
  Proof.
    destruct ts, ss as [|? [|]]; simpl; try done.
    all: intros (?&->&_); split; [|done]; apply (blake2b_length _ Hok).
  Qed.

  (** Writing the action number and its data. *)
  Lemma write_block (buf : bytes) (off : nat) (blk : bytes) (t : target) :
    blk = fwd_block t -> target_ok t -> 16 + off + length blk ≤ length buf ->
    exists z,
      (match t with
       | TMixnodeIndex mixnode_index => Val (buf, off + RAW_ACTION_SIZE, mixnode_index)
       | TPeerId peer_id =>
           buf ← write_actions buf (off + RAW_ACTION_SIZE) peer_id;
           Val (buf, off + RAW_ACTION_SIZE + PEER_ID_SIZE, RAW_ACTION_FORWARD_TO_PEER_ID)
       end : outcome (bytes * nat * N)) =
        Val (take (16 + off + 2) buf ++ drop 2 blk ++ z, off + length blk, from_le16 (take 2 blk)) /\
      write_actions (take (16 + off + 2) buf ++ drop 2 blk ++ z) off (to_le16 (from_le16 (take 2 blk)))
        = Val (take (16 + off) buf ++ blk ++ z) /\
      length (take (16 + off) buf ++ blk ++ z) = length buf.
  Proof.
    intros -> Ht Hlen.
    assert (Hw : forall (a y z : bytes) c, length a = 16 + off + 2 ->
      write_actions (a ++ y ++ z) off (to_le16 c) =
      Val (take (16 + off) a ++ (to_le16 c ++ y) ++ z)).
    { intros a y z c Ha. rewrite <- (take_drop (16 + off) a) at 1.
      unfold write_actions. rewrite <- !app_assoc.
      change (MAC_SIZE + off) with (16 + off).
      rewrite write_at_app; [done| |].
      - rewrite take_length. lia.
      - rewrite drop_length, length_to_le16. lia. }
    destruct t as [i|p]; cbn [fwd_block] in *.
    - rewrite length_to_le16 in Hlen. simpl in Ht.
      exists (drop (16 + off + 2) buf).
      change (drop 2 (to_le16 i)) with (@nil N). change (take 2 (to_le16 i)) with (to_le16 i).
      rewrite from_to_le16 by lia. rewrite length_to_le16. cbn [app].
      split; [by rewrite take_drop|]. split.
      + pose proof (Hw (take (16 + off + 2) buf) [] (drop (16 + off + 2) buf) i) as E.
        cbn [app] in E. rewrite E by (rewrite take_length; lia).
        rewrite take_take. replace (_ `min` _) with (16 + off) by lia. by rewrite app_nil_r.
      + rewrite !app_length, take_length, drop_length, length_to_le16. lia.
    - rewrite app_length, length_to_le16 in Hlen. cbn in Ht.
      change (drop 2 (to_le16 65280 ++ p)) with p.
      change (take 2 (to_le16 65280 ++ p)) with (to_le16 65280).
      rewrite from_to_le16 by lia.
      exists (drop (16 + off + 34) buf). split; [|split].
      + unfold write_actions.
        rewrite <- (take_drop (16 + off + 2) buf) at 1.
        rewrite <- (take_drop 32 (drop (16 + off + 2) buf)) at 1.
        rewrite write_at_app.
        * cbn [out_bind]. rewrite drop_drop, app_length, length_to_le16, Ht.
          replace (16 + off + 2 + 32) with (16 + off + 34) by lia.
          f_equal. f_equal. f_equal. szlia.
        * rewrite take_length. szlia.
        * rewrite take_length, drop_length. lia.
      + rewrite Hw by (rewrite take_length; lia).
        rewrite take_take. replace (_ `min` _) with (16 + off) by lia. done.
      + rewrite !app_length, take_length, drop_length, length_to_le16. lia.
  Qed.

  (** The same for the deliver action of the last hop. *)
  Lemma write_fin (buf : bytes) (off : nat) (k : packet_kind) :
    kind_ok k -> 16 + off + length (fin_block k) ≤ length buf ->
    exists (bf z : bytes) (c : N),
      (match k with
      | KRequest => Val (buf, off + RAW_ACTION_SIZE, RAW_ACTION_DELIVER_REQUEST)
      | KReply surb_id =>
          buf ← write_actions buf (off + RAW_ACTION_SIZE) surb_id;
          Val (buf, off + RAW_ACTION_SIZE + SURB_ID_SIZE, RAW_ACTION_DELIVER_REPLY)
      | KCover None => Val (buf, off + RAW_ACTION_SIZE, RAW_ACTION_DELIVER_COVER)
      | KCover (Some cover_id) =>
          buf ← write_actions buf (off + RAW_ACTION_SIZE) cover_id;
          Val (buf, off + RAW_ACTION_SIZE + COVER_ID_SIZE, RAW_ACTION_DELIVER_COVER_WITH_ID)
      end : outcome (bytes * nat * N)) = Val (bf, off + length (fin_block k), c) /\
      write_actions bf off (to_le16 c) = Val (take (16 + off) buf ++ fin_block k ++ z) /\
      length (take (16 + off) buf ++ fin_block k ++ z) = length buf.
  Proof.
    intros Hk Hlen.
    assert (Hshort : forall c, 16 + off + 2 ≤ length buf ->
      exists z, write_actions buf off (to_le16 c) = Val (take (16 + off) buf ++ to_le16 c ++ z) /\
        length (take (16 + off) buf ++ to_le16 c ++ z) = length buf).
    { intros c Hl. exists (drop 2 (drop (16 + off) buf)). split.
      - unfold write_actions. rewrite <- (take_drop (16 + off) buf) at 1.
        rewrite <- (take_drop 2 (drop (16 + off) buf)) at 1.
        rewrite write_at_app; [done| |].
        + rewrite take_length. szlia.
        + rewrite take_length, drop_length, length_to_le16. lia.
      - rewrite !app_length, take_length, !drop_length, length_to_le16. lia. }
    assert (Hlong : forall c (id : bytes), length id = 16 -> 16 + off + 18 ≤ length buf ->
      exists bf z, write_actions buf (off + RAW_ACTION_SIZE) id = Val bf /\
        write_actions bf off (to_le16 c) = Val (take (16 + off) buf ++ (to_le16 c ++ id) ++ z) /\
        length (take (16 + off) buf ++ (to_le16 c ++ id) ++ z) = length buf).
    { intros c id Hid Hl.
      set (x := take (16 + off) buf). set (y := take 2 (drop (16 + off) buf)).
      set (w := take 16 (drop 2 (drop (16 + off) buf))).
      set (z := drop 16 (drop 2 (drop (16 + off) buf))).
      assert (Eb : buf = (x ++ y) ++ w ++ z).
      { unfold w, z. rewrite take_drop. unfold y. rewrite <- app_assoc, take_drop.
        unfold x. by rewrite take_drop. }
      assert (length x = 16 + off) by (unfold x; rewrite take_length; lia).
      assert (length y = 2) by (unfold y; rewrite take_length, drop_length; lia).
      assert (length w = 16) by (unfold w; rewrite take_length, !drop_length; lia).
      exists ((x ++ y) ++ id ++ z), z. split; [|split].
      - rewrite Eb. apply write_at_app; [rewrite app_length; szlia|lia].
      - unfold write_actions. rewrite <- !app_assoc. rewrite write_at_app; [done|szlia|done].
      - rewrite Eb, !app_length, length_to_le16. lia. }
    destruct k as [|id|[id|]]; cbn [fin_block] in *;
      rewrite ?app_length, ?length_to_le16 in *; cbn in Hk; rewrite ?Hk in *.
    - destruct (Hshort 65281%N) as (z&?&?); [lia|]. by exists buf, z, 65281%N.
    - destruct (Hlong 65282%N id) as (bf&z&E&?&?); [done|lia|]. rewrite E. cbn [out_bind].
      exists bf, z, 65282%N. split; [f_equal; f_equal; f_equal; szlia|]. split; [done|].
      by rewrite !app_length in *.
    - destruct (Hlong 65284%N id) as (bf&z&E&?&?); [done|lia|]. rewrite E. cbn [out_bind].
      exists bf, z, 65284%N. split; [f_equal; f_equal; f_equal; szlia|]. split; [done|].
      by rewrite !app_length in *.
    - destruct (Hshort 65283%N) as (z&?&?); [lia|]. by exists buf, z, 65283%N.
  Qed.

  Lemma routing_alt actions s :
    routing pr actions s =
      apply_keystream (actions ++ replicate 50 0%N)
        (actions_keystream pr (sds_actions_encryption_key (small_derived_secrets pr s)) 190).
  Proof. done. Qed.

  Lemma room_fin ts k : length (fin_block k) ≤ room ts k.
  Proof. induction ts as [|t ts IH]; simpl; lia. Qed.
  Lemma fin_block_pos k : 2 ≤ length (fin_block k).
  Proof. destruct k as [|?|[]]; cbn; lia. Qed.

  Definition build_inv (st : build_state) (P : bytes) : Prop :=
    length (bs_buf st) = 156 /\ length P = bs_offset st /\
    bs_pad st = P ++ replicate (138 - bs_offset st) 0%N.

  Lemma rng_fill_bytes n r : Forall (fun b => (b < 256)%N) (rng_fill n r).1.
  Proof. cbn. apply Forall_map, Forall_true. intros i. apply N.mod_lt. lia. Qed.

  (** The last hop. *)
  Lemma last_hop_spec st P (all : list bytes) s k r :
    build_inv st P -> list.last all = Some s -> kind_ok k ->
    bs_offset st + length (fin_block k) ≤ 140 ->
    exists M E r',
      last_hop pr st all k r = Val (take (bs_offset st) (bs_buf st) ++ M ++ E, r') /\
      length M = 16 /\ seen pr [] [s] k M (E ++ P) /\
      let n := 140 - bs_offset st - length (fin_block k) in
      rng_fill n r = (take n (behind_last pr [] [s] k (E ++ P)), r') /\
      take (bs_offset st) (drop n (behind_last pr [] [s] k (E ++ P))) =
        apply_keystream P (drop (140 - bs_offset st)
          (actions_keystream pr (sds_actions_encryption_key (small_derived_secrets pr s)) 190)).
  Proof.
    intros (Hbuf & HP & Hpad) Hlast Hk Hroom. set (off := bs_offset st) in *.
    destruct (write_fin (bs_buf st) off k) as (bf&z&c&E1&E2&E3); [done|lia|].
    unfold last_hop. fold off. cbv zeta.
    match goal with |- context [out_bind ?m _] => replace m with (Val (A := bytes * nat * N)
      (bf, off + length (fin_block k), c)) by (symmetry; exact E1) end.
    cbn [out_bind]. rewrite E2. cbn [out_bind].
    set (b0 := take (16 + off) (bs_buf st)) in *. set (fin := fin_block k) in *.
    assert (Hb0 : length b0 = 16 + off) by (unfold b0; rewrite take_length; lia).
    assert (Hz : length z = 140 - off - length fin).
    { rewrite !app_length in E3. lia. }
    destruct (decide _) as [_|Hn]; [|destruct Hn; rewrite E3; szlia].
    rewrite E3.
    set (n := length (bs_buf st) - _).
    destruct (rng_fill n r) as [rnd r'] eqn:Er.
    assert (Hrnd : length rnd = n).
    { pose proof (rng_fill_length n r) as H. by rewrite Er in H. }
    cbn [out_bind].
    replace (take _ (b0 ++ fin ++ z) ++ rnd) with (b0 ++ fin ++ rnd).
    2:{ rewrite (app_assoc b0 fin z). rewrite take_app_alt by (rewrite app_length; szlia).
        by rewrite <- app_assoc. }
    rewrite Hlast. cbn [expect out_bind].
    rewrite modify_from_app by szlia. cbn [out_bind].
    rewrite slice_from_app by szlia. cbn [out_bind].
    rewrite Hpad, slice_to_app by done. cbn [out_bind].
    set (E := apply_actions_encryption_keystream pr (fin ++ rnd) _).
    assert (HE : length E = 140 - off).
    { unfold E. rewrite apply_actions_length, app_length. subst n. szlia. }
    set (M := compute_mac pr E P _).
    assert (HM : length M = 16) by apply (blake2b_length _ Hok).
    exists M, E, r'. split; [|split; [done|]].
    - assert (Hb0' : b0 = take off (bs_buf st) ++ drop off b0).
      { unfold b0. rewrite <- (take_drop off (take _ _)) at 1. f_equal.
        rewrite take_take. f_equal. lia. }
      rewrite Hb0', <- app_assoc.
      rewrite write_at_app; [done| |].
      + rewrite take_length. lia.
      + rewrite drop_length. lia.
    - set (ks := actions_keystream pr _ 190).
      assert (EE : apply_keystream E ks = fin ++ rnd).
      { unfold E. rewrite (apply_actions_alt _ _ _ 190).
        - apply apply_keystream_invol.
        - unfold E in HE. rewrite apply_actions_length in HE. lia. }
      split.
      { cbn [seen]. split; [rewrite app_length; lia|]. split; [done|].
        rewrite routing_alt. rewrite <- app_assoc, apply_keystream_app. fold ks.
        rewrite EE. eexists. by rewrite <- app_assoc. }
      assert (En : n = 140 - off - length fin) by (unfold n; szlia).
      cbn [behind_last]. fold fin off. rewrite <- En.
      rewrite routing_alt. fold ks. rewrite <- app_assoc, apply_keystream_app, EE, <- app_assoc.
      rewrite drop_app_alt by done. rewrite take_app_alt by done. split; [done|].
      rewrite drop_app_alt by done. rewrite HE, apply_keystream_app. by rewrite take_app_alt by (by rewrite apply_keystream_length).
  Qed.

  (** The remaining hops, starting from a state reached by the forward loop. *)
  Lemma build_loops all k r ts : forall ss st P,
    build_inv st P -> length ss = S (length ts) -> list.last ss = list.last all ->
    Forall target_ok ts -> kind_ok k ->
    bs_offset st + room ts k ≤ 140 -> length (bs_hops st) + length ts ≤ MAX_HOPS - 1 ->
    exists st' hs bufl r' M E pad',
      forward_loop pr st ts ss = Val st' /\
      bs_hops st' = bs_hops st ++ hs /\
      bs_total_delay st' = foldl delay_add (bs_total_delay st) (map (hop_delay pr) (take (length ts) ss)) /\
      last_hop pr st' all k r = Val (bufl, r') /\
      backward_loop pr bufl (bs_pad st') (reverse hs) =
        Val (take (bs_offset st) (bs_buf st) ++ M ++ E, P ++ pad') /\
      length (P ++ pad') = 138 /\ length M = 16 /\
      seen pr ts ss k M (E ++ P) /\
      let n := 140 - bs_offset st - room ts k in
      rng_fill n r = (take n (behind_last pr ts ss k (E ++ P)), r') /\
      (Forall (fun b => (b < 256)%N) P ->
       Forall (fun b => (b < 256)%N) (take (140 - length (fin_block k)) (behind_last pr ts ss k (E ++ P)))).
  Proof.
    induction ts as [|t ts IH]; intros ss st P Hinv Hss Hlast Hts Hk Hroom Hhops.
    { destruct ss as [|s [|]]; try done. cbn [room foldr] in Hroom.
      destruct (last_hop_spec st P all s k r Hinv (eq_sym Hlast) Hk Hroom) as (M&E&r'&EL&HM&Hseen&Hfill&Hpadb).
      exists st, [], (take (bs_offset st) (bs_buf st) ++ M ++ E), r', M, E, (replicate (138 - bs_offset st) 0%N).
      split; [done|]. rewrite app_nil_r. split; [done|]. split; [done|]. split; [done|].
      destruct Hinv as (Hbuf&HP&Hpad). split; [by rewrite Hpad|]. split.
      { rewrite app_length, replicate_length. pose proof (fin_block_pos k). lia. }
      split; [done|]. split; [done|]. split; [exact Hfill|]. intros HPb.
      set (off := bs_offset st) in *. set (rest := behind_last _ _ _ _ _) in *. cbn [room foldr] in *.
      replace (140 - length (fin_block k)) with ((140 - off - length (fin_block k)) + off) by lia.
      rewrite <- take_take_drop.
      apply Forall_app. split.
      - pose proof (rng_fill_bytes (140 - off - length (fin_block k)) r) as Hb. by rewrite Hfill in Hb.
      - rewrite Hpadb. apply apply_keystream_bytes; [done|]. apply Forall_drop.
        apply Forall_map, Forall_true. intros i. apply N.mod_lt. lia. }
    destruct ss as [|s ss]; [done|]. injection Hss as Hss.
    apply Forall_cons in Hts as [Ht Hts]. cbn [room foldr] in Hroom. fold (room ts k) in Hroom.
    pose proof (room_fin ts k). pose proof (fin_block_pos k).
    destruct Hinv as (Hbuf & HP & Hpad).
    set (off := bs_offset st) in *. set (blk := fwd_block t) in *.
    destruct (write_block (bs_buf st) off blk t eq_refl Ht) as (z&E1&E2&E3); [lia|].
    cbn [forward_loop]. unfold forward_step. fold off. cbv zeta.
    match goal with |- context [out_bind (match t with _ => _ end) ?f] =>
      change (match t with
       | TMixnodeIndex mixnode_index => Val (bs_buf st, off + RAW_ACTION_SIZE, mixnode_index)
       | TPeerId peer_id =>
           buf ← write_actions (bs_buf st) (off + RAW_ACTION_SIZE) peer_id;
           Val (buf, off + RAW_ACTION_SIZE + PEER_ID_SIZE, RAW_ACTION_FORWARD_TO_PEER_ID)
       end) with (match t with
       | TMixnodeIndex mixnode_index => Val (bs_buf st, off + RAW_ACTION_SIZE, mixnode_index)
       | TPeerId peer_id =>
           buf ← write_actions (bs_buf st) (off + RAW_ACTION_SIZE) peer_id;
           Val (buf, off + RAW_ACTION_SIZE + PEER_ID_SIZE, RAW_ACTION_FORWARD_TO_PEER_ID)
       end : outcome (bytes * nat * N)) end.
    rewrite E1. cbn [out_bind]. rewrite E2. cbn [out_bind].
    set (b0 := take (16 + off) (bs_buf st)) in *.
    assert (Hb0 : length b0 = 16 + off) by (unfold b0; rewrite take_length; lia).
    rewrite apply_actions_zeros. change (ACTIONS_SIZE + MAX_ACTIONS_PAD_SIZE) with 190.
    set (ks := actions_keystream pr _ 190).
    assert (Hks : length ks = 190) by apply actions_keystream_length.
    unfold av_push. cbn [length] in Hhops.
    destruct (decide _) as [_|Hn]; [|lia]. cbn [out_bind].
    change (ACTIONS_SIZE - off) with (140 - off).
    destruct (decide (off ≤ ACTIONS_SIZE)) as [_|Hn]; [|szlia].
    unfold slice_from at 1. destruct (decide (140 - off ≤ length ks)) as [_|Hn]; [|lia].
    cbn [out_bind]. set (kt := drop (140 - off) ks).
    set (a := length blk + 16) in *.
    set (off' := off + length blk + MAC_SIZE).
    assert (Hoff' : off' = off + a) by (unfold off', a; szlia).
    set (P1 := apply_keystream (P ++ replicate a 0%N) kt).
    assert (HP1 : length P1 = off').
    { unfold P1. rewrite apply_keystream_length, app_length, replicate_length. lia. }
    replace (bs_pad st) with ((P ++ replicate a 0%N) ++ replicate (138 - off') 0%N).
    2:{ rewrite Hpad, <- app_assoc, <- replicate_add. f_equal. f_equal. lia. }
    rewrite modify_to_app by (rewrite app_length, replicate_length; lia).
    cbn [out_bind]. fold P1.
    set (h := {| hop_mac_key := _; hop_keystream := ks; hop_start_offset := off |}).
    set (st1 := {| bs_buf := _; bs_offset := _; bs_total_delay := _; bs_hops := _; bs_pad := _ |}).
    destruct (IH ss st1 P1) as (st'&hs&bufl&r'&M'&E'&pad'&F1&F2&F3&F4&F5&F6&F7&F8&F9&F10).
    { split; [by rewrite <- Hbuf|]. split; [done|]. done. }
    { done. }
    { by rewrite <- Hlast; destruct ss. }
    { done. } { done. }
    { cbn [st1 bs_offset]. lia. }
    { cbn [st1 bs_hops]. rewrite app_length. cbn [length]. lia. }
    rewrite F1. cbn [st1 bs_hops] in F2.
    set (E := apply_keystream (blk ++ M' ++ E') ks).
    set (M := compute_mac pr E P (hop_mac_key h)).
    assert (HM : length M = 16) by apply (blake2b_length _ Hok).
    apply seen_length in F8 as HF8. destruct HF8 as [_ HEP].
    assert (HE' : length E' = 140 - off') by (rewrite app_length in HEP; lia).
    assert (HE : length E = 140 - off).
    { unfold E. rewrite apply_keystream_length, !app_length. lia. }
    assert (HtP1 : take off P1 = apply_keystream P kt).
    { unfold P1. rewrite apply_keystream_take. f_equal. rewrite take_app_alt; done. }
    exists st', (h :: hs), bufl, r', M, E, (drop off P1 ++ pad').
    split; [done|]. split; [by rewrite F2, <- app_assoc|].
    split; [exact F3|]. split; [done|].
    rewrite reverse_cons.
    assert (Ha50 : a ≤ 50).
    { unfold a, blk. destruct t; cbn [fwd_block]; rewrite ?app_length, length_to_le16;
        cbn in Ht; lia. }
    assert (Hrout : routing pr (E ++ P) s = blk ++ M' ++ (E' ++ P1) ++
      apply_keystream (replicate (50 - a) 0%N) (drop (140 + a) ks)).
    { rewrite routing_alt.
      fold ks.
      replace (replicate 50 0%N) with (replicate a 0%N ++ replicate (50 - a) 0%N)
        by (rewrite <- replicate_add; f_equal; lia).
      rewrite !app_assoc. rewrite apply_keystream_app.
      rewrite <- (app_assoc E P). rewrite apply_keystream_app.
      unfold E at 1. rewrite apply_keystream_invol.
      rewrite HE. fold kt. fold P1.
      rewrite !app_length, replicate_length. rewrite <- !app_assoc.
      do 4 f_equal. f_equal. f_equal. lia. }
    split; [|split; [|split; [done|]]].
    - assert (Happ : forall l1 l2 b p b' p', backward_loop pr b p l1 = Val (b', p') ->
        backward_loop pr b p (l1 ++ l2) = backward_loop pr b' p' l2).
      { induction l1 as [|x l1 IHl]; intros l2 b p b' p'; cbn [backward_loop app].
        - by intros [= -> ->].
        - destruct (backward_step pr b p x) as [[]|]; cbn [out_bind]; [|done]. apply IHl. }
      rewrite (Happ _ _ _ _ _ _ F5). cbn [backward_loop].
      cbn [st1 bs_offset bs_buf].
      replace (take off' (b0 ++ blk ++ z) ++ M' ++ E') with (b0 ++ blk ++ M' ++ E').
      2:{ rewrite (app_assoc b0 blk z). rewrite take_app_alt by (rewrite app_length; unfold off'; szlia).
          by rewrite <- app_assoc. }
      unfold backward_step. cbn [h hop_start_offset hop_keystream].
      change (MAC_SIZE + off) with (16 + off).
      rewrite modify_from_app by done. cbn [out_bind]. fold E.
      destruct (decide (off ≤ ACTIONS_SIZE)) as [_|Hn]; [|szlia].
      change (ACTIONS_SIZE - off) with (140 - off).
      unfold slice_from at 1. destruct (decide (140 - off ≤ length ks)) as [_|Hn]; [|lia].
      cbn [out_bind]. fold kt.
      rewrite <- (take_drop off P1) at 1. rewrite <- app_assoc.
      rewrite modify_to_app by (rewrite take_length; lia). cbn [out_bind].
      rewrite HtP1, apply_keystream_invol.
      rewrite slice_from_app by done. cbn [out_bind].
      rewrite slice_to_app by done. cbn [out_bind].
      assert (Hb0' : b0 = take off (bs_buf st) ++ drop off b0).
      { unfold b0. rewrite <- (take_drop off (take _ _)) at 1. f_equal.
        rewrite take_take. f_equal. lia. }
      fold M. rewrite Hb0', <- app_assoc.
      rewrite write_at_app; [done| |].
      + rewrite take_length. lia.
      + rewrite drop_length. lia.
    - rewrite !app_length, drop_length. rewrite app_length in F6. lia.
    - cbn [seen]. split.
      { split; [rewrite app_length; lia|]. split; [done|]. exists M', (E' ++ P1), (apply_keystream (replicate (50 - a) 0%N) (drop (140 + a) ks)).
        split; [exact Hrout|done]. }
      cbn [behind_last]. fold blk a. rewrite Hrout.
      rewrite (app_assoc blk M'), drop_app_alt by (rewrite app_length; unfold a; lia).
      rewrite take_app_alt by done.
      cbn [st1 bs_offset] in F9. cbn zeta in F9 |- *. fold off' in F9.
      cbn [room foldr]. fold (room ts k). fold off blk.
      replace (140 - off - (length blk + 16 + room ts k)) with (140 - off' - room ts k)
        by (unfold off'; szlia).
      split; [exact F9|]. intros HPb. apply F10. unfold P1. apply apply_keystream_bytes.
      + apply Forall_app. split; [done|]. apply Forall_replicate. lia.
      + apply Forall_drop. apply Forall_map, Forall_true. intros i. apply N.mod_lt. lia.
  Qed.

  (** ** The whole header *)
  Lemma seen_build (header : bytes) (ts : list target) (sks : list bytes) (k : packet_kind) (r : rng) :
    length header = HEADER_SIZE -> length sks = S (length ts) -> length sks ≤ MAX_HOPS ->
    Forall target_ok ts -> kind_ok k -> room ts k ≤ 140 ->
    exists pub mac actions r',
      let ss := hop_secrets pr pub sks in
      build_header pr header ts (map (derive_kx_public pr) sks) k r =
        Val (pub ++ mac ++ actions, ss,
             foldl delay_add delay_zero (map (hop_delay pr) (take (length ts) ss)), r') /\
      length pub = 32 /\ seen pr ts ss k mac actions.
  Proof.
    intros Hh Hlen Hmax Hts Hk Hroom. unfold build_header.
    rewrite map_length.
    rewrite bool_decide_eq_true_2 by lia. cbn [assert_or_panic out_bind].
    rewrite bool_decide_eq_true_2 by lia. cbn [assert_or_panic out_bind].
    destruct (C14_key_agreement pr Hok sks r Hmax) as (pub&r1&E1&Hpub&_).
    rewrite E1. cbn [out_bind]. set (ss := hop_secrets pr pub sks).
    set (st := {| bs_buf := _; bs_offset := _; bs_total_delay := _; bs_hops := _; bs_pad := _ |}).
    destruct (build_loops ss k r1 ts ss st []) as (st'&hs&bufl&r'&M&E&pad'&F1&F2&F3&F4&F5&F6&F7&F8&_).
    { split; [cbn; rewrite drop_length; szlia|]. done. }
    { unfold ss. rewrite hop_secrets_length. done. }
    { done. } { done. } { done. } { done. }
    { cbn. szlia. }
    rewrite F1. cbn [out_bind]. rewrite F4. cbn [out_bind].
    cbn [st bs_hops app] in F2. rewrite F2, F5. cbn [out_bind].
    exists pub, M, E, r'. rewrite app_nil_r in F8. split; [|split; [|done]].
    - cbn [st bs_offset bs_buf take app]. by rewrite F3.
    - rewrite Hpub. apply (mont_mul_length _ Hok).
  Qed.

  Lemma write_actions_length (b : bytes) o (v b' : bytes) :
    write_actions b o v = Val b' -> length b' = length b.
  Proof.
    unfold write_actions, write_at. destruct (decide (MAC_SIZE + o + length v ≤ length b)); [|done].
    intros Hb. injection Hb as <-. rewrite put_length; [done|]. szlia.
  Qed.

  (** Conversely, the header is only built when the actions fit (any initial buffer of the right
      size, any keys). *)
  Lemma forward_loop_room ts : forall ss st st',
    Forall target_ok ts -> length ts ≤ length ss ->
    forward_loop pr st ts ss = Val st' ->
    bs_offset st' = bs_offset st + foldr (fun t n => length (fwd_block t) + 16 + n) 0 ts /\
    (ts ≠ [] -> bs_offset st' ≤ length (bs_pad st)) /\
    (length (bs_pad st') = length (bs_pad st)) /\
    (length (bs_buf st') = length (bs_buf st)).
  Proof.
    induction ts as [|t ts IH]; intros ss st st' Hts Hss HF.
    { destruct ss; simpl in HF; injection HF as <-; simpl; (split; [lia|done]). }
    destruct ss as [|s ss]; [simpl in Hss; lia|]. apply Forall_cons in Hts as [Ht Hts].
    cbn [forward_loop] in HF. apply out_bind_Val in HF as (st1 & H1 & HF).
    unfold forward_step in H1. cbv zeta in H1.
    apply out_bind_Val in H1 as ([[buf off] c] & HA & H1).
    apply out_bind_Val in H1 as (buf' & HB & H1).
    apply out_bind_Val in H1 as (hops & HC & H1).
    apply out_bind_Val in H1 as (kt & HD & H1).
    apply out_bind_Val in H1 as (pad & HE & H1). injection H1 as <-.
    apply IH in HF as (HF1 & HF2 & HF3 & HF4); [|done|simpl in Hss; lia].
    cbn [bs_offset bs_pad bs_buf] in *.
    pose proof write_actions_length as Hw.
    assert (Hoff : off = bs_offset st + length (fwd_block t) /\ length buf = length (bs_buf st)).
    { destruct t as [i|p]; cbn [fwd_block]; rewrite ?app_length, ?length_to_le16.
      - injection HA as <- <- <-. split; [szlia|done].
      - apply out_bind_Val in HA as (b & HA & HA'). injection HA' as <- <- <-.
        cbn in Ht. split; [szlia|by apply Hw in HA]. }
    destruct Hoff as [-> Hb]. apply Hw in HB.
    unfold modify_to in HE. revert HE.
    destruct (decide (bs_offset st + length (fwd_block t) + MAC_SIZE ≤ length (bs_pad st)))
      as [Hle|]; [|done].
    intros HE. injection HE as <-.
    assert (Hpl : forall x ks, length (apply_keystream (take x (bs_pad st)) ks ++ drop x (bs_pad st)) =
      length (bs_pad st)).
    { intros x ks. rewrite app_length, apply_keystream_length, take_length, drop_length. lia. }
    rewrite Hpl in *. cbn [foldr]. sizes. split; [lia|].
    destruct ts as [|t' ts]; [cbn [foldr] in *; repeat split; lia|].
    specialize (HF2 ltac:(done)). repeat split; lia.
  Qed.
  Lemma room_alt ts k :
    room ts k = foldr (fun t n => length (fwd_block t) + 16 + n) 0 ts + length (fin_block k).
  Proof. induction ts as [|t ts IH]; simpl; [done|]. rewrite IH. lia. Qed.

  Lemma build_header_room header ts pubs k r x :
    length header = HEADER_SIZE -> Forall target_ok ts -> kind_ok k ->
    build_header pr header ts pubs k r = Val x ->
    length pubs = S (length ts) /\ length pubs ≤ MAX_HOPS /\ room ts k ≤ 140.
  Proof.
    intros Hh Hts Hk HB. unfold build_header in HB.
    destruct (bool_decide (length ts + 1 = length pubs)) eqn:E1; [|done].
    destruct (bool_decide (length pubs ≤ MAX_HOPS)) eqn:E2; [|done].
    apply bool_decide_eq_true in E1, E2. cbn [assert_or_panic out_bind] in HB.
    split; [lia|]. split; [done|].
    apply out_bind_Val in HB as ([[pub secrets] r1] & HG & HB).
    apply out_bind_Val in HB as (st & HF & HB).
    assert (Hs : length secrets = length pubs).
    { unfold gen_kx_public_and_shared_secrets in HG. destruct (gen_kx_secret r) as [sk r'].
      apply out_bind_Val in HG as (ss & HG & HG'). injection HG' as <- <- <-.
      assert (Hgen : forall pubs i kp n ss0 ss, gen_kx_loop pr i kp n ss0 pubs = Val ss ->
        length ss = length ss0 + length pubs).
      { clear. induction pubs as [|p pubs IH]; intros i kp n ss0 ss; cbn [gen_kx_loop].
        - intros [= <-]. cbn. lia.
        - intros H. apply out_bind_Val in H as ([kp' n'] & _ & H).
          apply out_bind_Val in H as (ss1 & Hp & H). apply IH in H.
          unfold av_push in Hp. destruct (decide _); [|done]. injection Hp as <-.
          rewrite app_length in H. cbn [length] in *. lia. }
      apply Hgen in HG. cbn in HG. lia. }
    apply forward_loop_room in HF as (HF1&_&_&HF4); [|done|lia].
    cbn [bs_offset bs_buf] in *.
    apply out_bind_Val in HB as ([buf r2] & HL & HB).
    rewrite room_alt.
    unfold last_hop in HL. cbv zeta in HL.
    apply out_bind_Val in HL as ([[bl ol] c] & HA & HL).
    apply out_bind_Val in HL as (bl2 & HA2 & HL).
    apply out_bind_Val in HL as ([bl3 r3] & HA3 & HL).
    destruct (decide (MAC_SIZE + ol ≤ length bl2)) as [Hle|]; [|done].
    pose proof write_actions_length as Hw.
    apply Hw in HA2. rewrite drop_length in HF4.
    destruct k as [|id|[id|]]; cbn [fin_block] in *; rewrite ?app_length, ?length_to_le16;
      cbn in Hk.
    - injection HA as <- <- <-. szlia.
    - apply out_bind_Val in HA as (b & HA & HA'). injection HA' as <- <- <-. apply Hw in HA. szlia.
    - apply out_bind_Val in HA as (b & HA & HA'). injection HA' as <- <- <-. apply Hw in HA. szlia.
    - injection HA as <- <- <-. szlia.
  Qed.
End proof.
