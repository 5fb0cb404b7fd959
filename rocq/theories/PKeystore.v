(** C20: the SURB keystore. *)
From Verif Require Export MSurbKeystore LBase LSphinx.

(** ** Specification

    What a keystore remembers, oldest first: pairs of SURB id and message id. *)
Definition ks_view (ks : surb_keystore) : list (bytes * bytes) :=
  map (fun kv => (kv.1, sv_message_id kv.2)) (sk_surbs ks).
(** Bounded, with unique ids. *)
Definition ks_ok (ks : surb_keystore) : Prop :=
  (0 < sk_capacity ks)%N /\ (N.of_nat (length (ks_view ks)) <= sk_capacity ks)%N /\
  NoDup (ks_view ks).*1.
(** What remains of a list of at most [n] when one more is to be stored. *)
Definition make_room {A} (n : N) (l : list A) : list A :=
  if decide (N.of_nat (length l) = n) then tail l else l.

(** The histories of a keystore: [created] lists every SURB created so far, oldest first. *)
Inductive ks_history (capacity : N) : list (bytes * bytes) -> surb_keystore -> Prop :=
| KhNew ks : sk_new capacity = Val ks -> ks_history capacity [] ks
| KhInsert created ks message_id r id ks' r' :
    ks_history capacity created ks ->
    sk_insert ks message_id r = Val (ks', id, r') ->
    ks_history capacity (created ++ [(id, message_id)]) ks'
| KhSetKeys created ks id keys :
    ks_history capacity created ks -> ks_history capacity created (sk_set_keys ks id keys)
| KhRemove created ks id :
    ks_history capacity created ks -> ks_history capacity created (sk_remove ks id).

(** ** Proof *)
Lemma ks_view_fst ks : (ks_view ks).*1 = lhm_keys (sk_surbs ks).
Proof. unfold ks_view, lhm_keys. induction (sk_surbs ks) as [|kv l IH]; [done|]. cbn. f_equal. exact IH. Qed.
Lemma ks_view_length ks : length (ks_view ks) = length (sk_surbs ks).
Proof. apply map_length. Qed.

(** ** Theorems *)

(** A new keystore is empty; it panics exactly for capacity 0 (a debug assertion). *)
Theorem C20_new (capacity : N) :
  (0 < capacity)%N -> exists ks, sk_new capacity = Val ks /\ ks_ok ks /\ ks_view ks = [] /\ sk_capacity ks = capacity.
Proof.
  intros H. unfold sk_new. destruct (N.eqb_spec capacity 0); [lia|]. cbn.
  eexists. split; [done|]. split_and!; [|done|done]. split_and!; cbn; [done|lia|constructor].
Qed.
(** Creating a SURB discards the oldest entry exactly if the keystore is full and appends the new
    one, whose id is the next 16 random bytes. The only way to fail is a clash of random ids. *)
Theorem C20_insert (ks : surb_keystore) (message_id : bytes) (r : rng) :
  ks_ok ks ->
  let id := (rng_fill 16 r).1 in
  let kept := make_room (sk_capacity ks) (ks_view ks) in
  (id ∉ kept.*1 ->
   exists ks', sk_insert ks message_id r = Val (ks', id, (rng_fill 16 r).2) /\
     ks_ok ks' /\ sk_capacity ks' = sk_capacity ks /\ ks_view ks' = kept ++ [(id, message_id)]) /\
  (id ∈ kept.*1 -> sk_insert ks message_id r = Panic).
Proof.
  intros (Hc & Hl & Hn) id kept. unfold sk_insert.
  assert (Hl' := Hl). rewrite ks_view_length in Hl'.
  replace (N.of_nat (length (sk_surbs ks)) <=? sk_capacity ks)%N with true
    by (symmetry; by apply N.leb_le). cbn [assert_or_panic out_bind].
  change SURB_ID_SIZE with 16. rewrite (surjective_pairing (rng_fill 16 r)). fold id.
  set (surbs := if (_ =? _)%N then _ else _).
  assert (Ek : kept = map (fun kv => (kv.1, sv_message_id kv.2)) surbs).
  { unfold kept, make_room, surbs. rewrite ks_view_length. unfold ks_view.
    destruct (decide _) as [E|E].
    - rewrite E, N.eqb_refl. by destruct (sk_surbs ks).
    - apply N.eqb_neq in E. by rewrite E. }
  assert (Ek1 : kept.*1 = lhm_keys surbs).
  { rewrite Ek. unfold lhm_keys. generalize surbs. intros l. induction l as [|kv l IH]; [done|]. cbn. f_equal. exact IH. }
  assert (Hlen : (N.of_nat (length kept) < sk_capacity ks)%N /\ NoDup kept.*1).
  { unfold kept, make_room. destruct (decide _) as [E|E]; [|split; [lia|done]].
    destruct (ks_view ks) as [|x l]; [cbn in *; lia|]. cbn in *. split; [lia|].
    by apply NoDup_cons in Hn as [_ ?]. }
  rewrite Ek1. split.
  - intros Hid. apply lhm_get_None in Hid as Hg. rewrite Hg. eexists. split; [done|].
    assert (Ev : ks_view {| sk_capacity := sk_capacity ks;
      sk_surbs := lhm_push_back surbs id {| sv_keys := []; sv_message_id := message_id |} |}
      = kept ++ [(id, message_id)]).
    { unfold ks_view, lhm_push_back. cbn. rewrite map_app, Ek. done. }
    split_and!; [|done|exact Ev]. split_and!.
    + done.
    + rewrite Ev, app_length. cbn. lia.
    + rewrite Ev, fmap_app. cbn. apply NoDup_app. split_and!.
      * apply Hlen.
      * intros x Hx. rewrite elem_of_list_singleton. intros ->. by rewrite Ek1 in Hx.
      * apply NoDup_singleton.
  - intros Hid. destruct (lhm_get surbs id) eqn:Eg; [done|].
    apply lhm_get_None in Eg. done.
Qed.
(** Filling in the keys and removing an entry. *)
Theorem C20_set_keys (ks : surb_keystore) (id : bytes) (keys : list bytes) :
  ks_ok ks ->
  ks_ok (sk_set_keys ks id keys) /\ ks_view (sk_set_keys ks id keys) = ks_view ks /\
  sk_capacity (sk_set_keys ks id keys) = sk_capacity ks /\
  forall id', sk_entry (sk_set_keys ks id keys) id' =
    if decide (id' = id)
    then (fun v => SurbValue keys (sv_message_id v)) <$> sk_entry ks id
    else sk_entry ks id'.
Proof.
  intros Hok. unfold sk_entry, sk_set_keys. destruct (lhm_get (sk_surbs ks) id) as [v|] eqn:E.
  2:{ split_and!; [done..|]. intros id'. destruct (decide (id' = id)) as [->|]; by rewrite ?E. }
  assert (Ev : ks_view {| sk_capacity := sk_capacity ks;
      sk_surbs := lhm_set (sk_surbs ks) id {| sv_keys := keys; sv_message_id := sv_message_id v |} |}
      = ks_view ks).
  { unfold ks_view. cbn [sk_surbs]. revert E. induction (sk_surbs ks) as [|[k v'] l IH]; cbn; [done|].
    destruct (decide (k = id)) as [->|]; intros E; cbn.
    - injection E as ->. done.
    - f_equal. by apply IH. }
  split_and!; [|done|done|].
  - unfold ks_ok in *. rewrite Ev. done.
  - intros id'. cbn [sk_surbs]. rewrite lhm_get_set.
    destruct (decide (id = id')) as [->|Hne]; [rewrite E, decide_True by done; done|].
    by rewrite decide_False by congruence.
Qed.
Theorem C20_remove (ks : surb_keystore) (id : bytes) :
  ks_ok ks ->
  ks_ok (sk_remove ks id) /\ sk_capacity (sk_remove ks id) = sk_capacity ks /\
  ks_view (sk_remove ks id) = filter (fun kv => kv.1 ≠ id) (ks_view ks) /\
  (forall id', sk_entry (sk_remove ks id) id' = if decide (id' = id) then None else sk_entry ks id').
Proof.
  intros (Hc & Hl & Hn).
  assert (Ev : ks_view (sk_remove ks id) = filter (fun kv => kv.1 ≠ id) (ks_view ks)).
  { clear Hl. unfold ks_view, sk_remove in *. cbn [sk_surbs].
    induction (sk_surbs ks) as [|[k v'] l IH]; [done|]. cbn [map lhm_remove fst snd] in *.
    rewrite fmap_cons in Hn. apply NoDup_cons in Hn as [Hni Hn]. rewrite filter_cons. cbn [fst].
    destruct (decide (k = id)) as [->|Hne].
    - rewrite decide_False by (intros H; by apply H). symmetry.
      assert (Ha : forall x, x ∈ map (fun kv => (kv.1, sv_message_id kv.2)) l -> x.1 ≠ id).
      { intros x Hx <-. apply Hni. apply elem_of_list_fmap. by exists x. }
      clear -Ha. induction (map _ l) as [|x l' IH]; [done|]. rewrite filter_cons, decide_True.
      + f_equal. apply IH. intros y Hy. apply Ha. by right.
      + apply Ha. left.
    - rewrite decide_True by done. cbn [map fst snd]. f_equal. by apply IH. }
  assert (Hn' := Hn). rewrite ks_view_fst in Hn'.
  split_and!; [|done|done|].
  - split_and!; [done| |].
    + rewrite Ev. cbn [sk_remove sk_capacity]. pose proof (filter_length (fun kv : bytes * bytes => kv.1 ≠ id) (ks_view ks)). lia.
    + rewrite ks_view_fst. cbn. by apply lhm_remove_keys_NoDup.
  - intros id'. unfold sk_entry, sk_remove. cbn [sk_surbs].
    destruct (decide (id' = id)) as [->|Hne].
    + rewrite lhm_get_remove by done. by rewrite decide_True.
    + rewrite lhm_get_remove by done. by rewrite decide_False by congruence.
Qed.
(** In every history the keystore is bounded, has unique ids, and holds entries in the order of
    their creation. *)
Theorem C20_history (capacity : N) (created : list (bytes * bytes)) (ks : surb_keystore) :
  ks_history capacity created ks ->
  ks_ok ks /\ sk_capacity ks = capacity /\ ks_view ks `sublist_of` created.
Proof.
  induction 1 as [ks H|created ks mid r id ks' r' _ (Hok & Hcap & Hsub) H|
                  created ks id keys _ (Hok & Hcap & Hsub)|created ks id _ (Hok & Hcap & Hsub)].
  - unfold sk_new in H. destruct (N.eqb_spec capacity 0); [done|]. cbn in H. injection H as <-.
    unfold ks_ok. split_and!; cbn; try lia; constructor.
  - destruct (C20_insert ks mid r Hok) as [Ha Hb].
    destruct (decide ((rng_fill 16 r).1 ∈ (make_room (sk_capacity ks) (ks_view ks)).*1)) as [Hd|Hd].
    { rewrite (Hb Hd) in H. done. }
    destruct (Ha Hd) as (ks2 & E & Hok' & Hcap' & Hv). rewrite E in H. injection H as <- <- <-.
    split_and!; [done|congruence|]. rewrite Hv. apply sublist_app; [|done].
    etrans; [|exact Hsub]. unfold make_room. destruct (decide _); [|done].
    destruct (ks_view ks); [done|]. by apply sublist_cons.
  - destruct (C20_set_keys ks id keys Hok) as (?&Ev&?&_). rewrite Ev. split_and!; [done|congruence|done].
  - destruct (C20_remove ks id Hok) as (?&?&Ev&_). rewrite Ev. split_and!; [done|congruence|].
    etrans; [|exact Hsub]. clear.
    induction (ks_view ks) as [|x l IH]; [done|]. rewrite filter_cons. destruct (decide _).
    + by constructor.
    + by constructor.
Qed.

(** ** Example: capacity 2, three SURBs created: the first is evicted. *)
Definition ex_ks_rng (k : N) : rng := Rng (fun _ => k) 0.
Example ex_keystore :
  exists ks1 ks2 ks3 ks4 r1 r2 r3,
    sk_new 2 = Val ks1 /\
    sk_insert ks1 [7%N] (ex_ks_rng 1) = Val (ks2, replicate 16 1%N, r1) /\
    sk_insert ks2 [8%N] (ex_ks_rng 2) = Val (ks3, replicate 16 2%N, r2) /\
    sk_insert ks3 [9%N] (ex_ks_rng 3) = Val (ks4, replicate 16 3%N, r3) /\
    ks_view ks4 = [(replicate 16 2%N, [8%N]); (replicate 16 3%N, [9%N])] /\
    sk_insert ks3 [9%N] (ex_ks_rng 2) = Panic.
Proof. repeat eexists. Qed.

Print Assumptions C20_new.
Print Assumptions C20_insert.
Print Assumptions C20_set_keys.
Print Assumptions C20_remove.
Print Assumptions C20_history.
