(** The wire format of fragments: specification, and correspondence with the accessors and writers
    of the model. *)
From Verif Require Import LBase PScattered.
From Verif Require Export PFragPlan.

(** ** Specification of the format (offsets written out)

    16-byte message ID, last index, index and data size (16-bit little endian), number of SURBs
    (1 byte), then 2025 bytes of payload: data at the front, SURBs (222 bytes each) packed from the
    back. *)
Definition sp_id (f : bytes) : bytes := take 16 f.
Definition sp_count (f : bytes) : N := (from_le (slice f 16 2) + 1)%N.
Definition sp_index (f : bytes) : N := from_le (slice f 18 2).
Definition sp_dsize (f : bytes) : N := from_le (slice f 20 2).
Definition sp_nsurbs (f : bytes) : N := from_le (slice f 22 1).
Definition sp_data (f : bytes) : bytes := slice f 23 (N.to_nat (sp_dsize f)).
Definition sp_surbs (f : bytes) : list bytes :=
  map (fun j => slice f (N.to_nat 2048 - (j + 1) * 222) 222) (seq 0 (N.to_nat (sp_nsurbs f))).
Definition sp_valid (f : bytes) : Prop :=
  (sp_index f < sp_count f)%N /\ (sp_dsize f + 222 * sp_nsurbs f <= 2025)%N.
Global Instance sp_valid_dec f : Decision (sp_valid f).
Proof. unfold sp_valid. apply _. Defined.

(** A fragment carrying given fields, data and SURBs, with [pad] in the unused space *)
Definition frag_bytes (id : bytes) (last idx : N) (data pad : bytes) (surbs : list bytes) : bytes :=
  id ++ to_le16 last ++ to_le16 idx ++ to_le16 (N.of_nat (length data)) ++
  [N.of_nat (length surbs)] ++ data ++ pad ++ concat (reverse surbs).

Lemma concat_length_const (ls : list bytes) n :
  Forall (fun s => length s = n) ls -> length (concat ls) = n * length ls.
Proof. induction 1 as [|l ls Hl Hls IH]; simpl; [lia|]. rewrite app_length, IH. lia. Qed.

Lemma slice_surb (x : bytes) (surbs : list bytes) (total j : nat) (s : bytes) :
  Forall (fun s => length s = 222) surbs ->
  total = length x + 222 * length surbs ->
  surbs !! j = Some s ->
  slice (x ++ concat (reverse surbs)) (total - (j + 1) * 222) 222 = s.
Proof.
  intros Hs Ht Hj. destruct (elem_of_list_split_length surbs j s Hj) as (s1 & s2 & E & Hlen).
  subst surbs. apply Forall_app in Hs as [H1 H2]. apply Forall_cons in H2 as [H2 H3].
  rewrite reverse_app, reverse_cons, !concat_app. simpl. rewrite !app_nil_r, <- !app_assoc.
  rewrite (app_assoc x). apply slice_at; [|done].
  rewrite app_length, (concat_length_const (reverse s2) 222) by (by apply Forall_reverse).
  rewrite reverse_length. rewrite app_length in Ht. cbn [length] in Ht. lia.
Qed.

Lemma from_le_2 b : length b = 2 -> from_le b = from_le16 b.
Proof. destruct b as [|x [|y [|]]]; try done. intros _. cbn [from_le from_le16]. lia. Qed.

Section frag_bytes.
  Context (id : bytes) (last idx : N) (data pad : bytes) (surbs : list bytes).
  Hypothesis Hid : length id = 16.
  Hypothesis Hlast : (last < 65536)%N.
  Hypothesis Hidx : (idx < 65536)%N.
  Hypothesis Hsurbs : Forall (fun s => length s = 222) surbs.
  Hypothesis Hfit : length data + length pad + 222 * length surbs = N.to_nat 2025.

  Local Notation f := (frag_bytes id last idx data pad surbs).

  Lemma frag_bytes_length : length f = N.to_nat 2048.
  Proof.
    unfold frag_bytes. rewrite !app_length, !length_to_le16, Hid.
    rewrite (concat_length_const (reverse surbs) 222) by (by apply Forall_reverse).
    rewrite reverse_length. cbn [length]. lia.
  Qed.

  Lemma frag_bytes_id : sp_id f = id.
  Proof. unfold sp_id, frag_bytes. by rewrite <- Hid, take_app. Qed.
  Lemma frag_bytes_count : sp_count f = (last + 1)%N.
  Proof.
    unfold sp_count, frag_bytes. rewrite slice_at; [|done|done].
    by rewrite from_le_2, from_to_le16.
  Qed.
  Lemma frag_bytes_index : sp_index f = idx.
  Proof.
    unfold sp_index, frag_bytes. rewrite (app_assoc id), slice_at; [|by rewrite app_length, Hid|done].
    by rewrite from_le_2, from_to_le16.
  Qed.
  Lemma frag_bytes_dsize : sp_dsize f = N.of_nat (length data).
  Proof.
    unfold sp_dsize, frag_bytes. rewrite (app_assoc id), (app_assoc (id ++ _)), slice_at;
      [|by rewrite !app_length, Hid|done].
    rewrite from_le_2, from_to_le16; [done|lia|done].
  Qed.
  Lemma frag_bytes_nsurbs : sp_nsurbs f = N.of_nat (length surbs).
  Proof.
    unfold sp_nsurbs, frag_bytes.
    rewrite (app_assoc id), (app_assoc (id ++ _)), (app_assoc ((id ++ _) ++ _)), slice_at;
      [|by rewrite !app_length, Hid|done]. cbn [from_le]. lia.
  Qed.
  Lemma frag_bytes_data : sp_data f = data.
  Proof.
    unfold sp_data. rewrite frag_bytes_dsize, Nat2N.id. unfold frag_bytes.
    rewrite (app_assoc id), (app_assoc (id ++ _)), (app_assoc ((id ++ _) ++ _)),
      (app_assoc (((id ++ _) ++ _) ++ _)), slice_at; [done|by rewrite !app_length, Hid|done].
  Qed.
  Lemma frag_bytes_surbs : sp_surbs f = surbs.
  Proof.
    unfold sp_surbs. rewrite frag_bytes_nsurbs, Nat2N.id.
    apply list_eq. intros j. rewrite list_lookup_fmap.
    destruct (decide (j < length surbs)) as [Hj|Hj].
    - rewrite lookup_seq_lt by done. simpl. destruct (lookup_lt_is_Some_2 surbs j Hj) as [s Hs].
      rewrite Hs. f_equal. unfold frag_bytes. rewrite !app_assoc. apply slice_surb; [done| |done].
      rewrite !app_length, Hid, !length_to_le16. cbn [length]. lia.
    - rewrite lookup_seq_ge by lia. simpl. symmetry. apply lookup_ge_None. lia.
  Qed.
  Lemma frag_bytes_valid : (idx <= last)%N -> sp_valid f.
  Proof.
    intros. unfold sp_valid. rewrite frag_bytes_count, frag_bytes_index, frag_bytes_dsize,
      frag_bytes_nsurbs. lia.
  Qed.
End frag_bytes.

(** ** The model's accessors agree with the specification on fragments of the right size *)
Section accessors.
  Context (f : bytes) (Hf : length f = N.to_nat 2048).

  Lemma message_id_sp : message_id f = sp_id f.
  Proof. done. Qed.
  Lemma num_fragments_sp : num_fragments f = sp_count f.
  Proof. unfold num_fragments, sp_count. rewrite from_le_2; [done|]. apply slice_length. lia. Qed.
  Lemma fragment_index_sp : fragment_index f = sp_index f.
  Proof. unfold fragment_index, sp_index. rewrite from_le_2; [done|]. apply slice_length. lia. Qed.
  Lemma fragment_data_size_sp : fragment_data_size f = sp_dsize f.
  Proof. unfold fragment_data_size, sp_dsize. rewrite from_le_2; [done|]. apply slice_length. lia. Qed.
  Lemma fragment_num_surbs_sp : fragment_num_surbs f = sp_nsurbs f.
  Proof. done. Qed.
  Lemma fragment_payload_length : length (fragment_payload f) = FRAGMENT_PAYLOAD_SIZE.
  Proof.
    unfold fragment_payload. apply slice_length. rewrite fragment_header_size, Hf.
    pose proof fragment_payload_size. lia.
  Qed.
  Lemma fragment_payload_drop : fragment_payload f = drop 23 f.
  Proof.
    unfold fragment_payload, slice. rewrite fragment_header_size. apply take_ge.
    rewrite drop_length, Hf. pose proof fragment_payload_size. lia.
  Qed.
  Lemma check_fragment_sp : check_fragment_is_ok f = bool_decide (sp_valid f).
  Proof.
    unfold check_fragment_is_ok, check_fragment, sp_valid.
    rewrite num_fragments_sp, fragment_index_sp, fragment_data_size_sp, fragment_num_surbs_sp.
    rewrite surb_size, fragment_payload_size.
    destruct (N.leb_spec (sp_count f) (sp_index f)).
    - symmetry. apply bool_decide_eq_false. lia.
    - destruct (N.ltb_spec 2025 (sp_dsize f + sp_nsurbs f * 222)); symmetry.
      + apply bool_decide_eq_false. lia.
      + apply bool_decide_eq_true. lia.
  Qed.
  Lemma slice_to_data :
    sp_valid f -> slice_to (fragment_payload f) (N.to_nat (fragment_data_size f)) = Val (sp_data f).
  Proof.
    intros [_ Hv]. unfold slice_to. rewrite fragment_payload_length, fragment_data_size_sp.
    pose proof fragment_payload_size. rewrite decide_True by lia.
    by rewrite fragment_payload_drop.
  Qed.
  Lemma take_rchunks_surbs :
    sp_valid f ->
    take (N.to_nat (fragment_num_surbs f)) (rchunks_exact SURB_SIZE (fragment_payload f)) = sp_surbs f.
  Proof.
    intros [_ Hv]. rewrite fragment_num_surbs_sp. unfold rchunks_exact, sp_surbs.
    rewrite fragment_payload_length. rewrite <- fmap_take.
    pose proof surb_size as E1. pose proof fragment_payload_size as E2.
    assert (SURB_SIZE = 222) as -> by lia.
    assert (FRAGMENT_PAYLOAD_SIZE = N.to_nat 2025) as -> by lia.
    assert (N.to_nat (sp_nsurbs f) ≤ N.to_nat 2025 / 222) as Hk.
    { assert (N.to_nat 2025 / 222 = 9) as -> by (vm_compute; done). lia. }
    assert (take (N.to_nat (sp_nsurbs f)) (seq 0 (N.to_nat 2025 / 222)) =
            seq 0 (N.to_nat (sp_nsurbs f))) as ->.
    { apply list_eq. intros j. destruct (decide (j < N.to_nat (sp_nsurbs f))).
      - rewrite lookup_take, !lookup_seq_lt by lia. done.
      - rewrite lookup_take_ge, lookup_seq_ge by lia. done. }
    apply list_fmap_ext. intros j x Hx. apply lookup_seq in Hx as [-> Hx].
    rewrite fragment_payload_drop. unfold slice. rewrite drop_drop. f_equal. f_equal. lia.
  Qed.
End accessors.

(** ** Writing a fragment

    [fill b buf surbs]: what ends up in a fragment buffer holding [buf] when the blueprint is written
    to it ([write_except_surbs]) and then [surbs] are written, in order, to the SURB slots handed out
    by the blueprint. *)
Fixpoint put_surbs (f : bytes) (offsets : list nat) (surbs : list bytes) : bytes :=
  match offsets, surbs with
  | off :: offsets', s :: surbs' => put_surbs (put f off s) offsets' surbs'
  | _, _ => f
  end.
Definition fill (b : fragment_blueprint) (buf : bytes) (surbs : list bytes) : outcome bytes :=
  f ← fb_write_except_surbs b buf; Val (put_surbs f (fb_surb_offsets b) surbs).

Lemma put_surbs_spec (h p : bytes) (done_ surbs : list bytes) :
  length h = 23 ->
  length p + 222 * length done_ = N.to_nat 2025 ->
  222 * length surbs ≤ length p ->
  Forall (fun s => length s = 222) surbs ->
  put_surbs (h ++ p ++ concat (reverse done_))
    (map (fun j => 23 + (N.to_nat 2025 - (j + 1) * 222)) (seq (length done_) (length surbs))) surbs =
  h ++ take (length p - 222 * length surbs) p ++ concat (reverse (done_ ++ surbs)).
Proof.
  intros Hh. revert p done_. induction surbs as [|s surbs IH]; intros p done_ Hp Hle Hs.
  - simpl. rewrite app_nil_r, take_ge by lia. done.
  - apply Forall_cons in Hs as [Hs Hss]. cbn [length seq map put_surbs].
    cbn [length] in Hle.
    set (p1 := take (length p - 222) p). set (p2 := drop (length p - 222) p).
    assert (p = p1 ++ p2) as Ep by (by rewrite <- (take_drop (length p - 222) p)).
    assert (length p1 = length p - 222) as Hp1 by (unfold p1; rewrite take_length; lia).
    assert (length p2 = 222) as Hp2 by (unfold p2; rewrite drop_length; lia).
    assert (put (h ++ p ++ concat (reverse done_))
              (23 + (N.to_nat 2025 - (length done_ + 1) * 222)) s =
            h ++ p1 ++ concat (reverse (done_ ++ [s]))) as ->.
    { rewrite Ep. rewrite <- app_assoc, (app_assoc h). rewrite put_at.
      - rewrite reverse_app. simpl. by rewrite <- app_assoc.
      - rewrite app_length. lia.
      - lia. }
    specialize (IH p1 (done_ ++ [s])). rewrite app_length in IH. cbn [length] in IH.
    rewrite Nat.add_1_r in IH. rewrite IH by (done || lia).
    f_equal. f_equal.
    + rewrite Hp1. unfold p1. rewrite take_take. f_equal. lia.
    + by rewrite <- app_assoc.
Qed.

Lemma fb_surb_offsets_spec b :
  (fb_num_surbs b <= 9)%N ->
  fb_surb_offsets b =
    map (fun j => 23 + (N.to_nat 2025 - (j + 1) * 222)) (seq 0 (N.to_nat (fb_num_surbs b))).
Proof.
  intros Hn. unfold fb_surb_offsets.
  pose proof surb_size as E1. pose proof fragment_payload_size as E2.
  assert (SURB_SIZE = 222) as -> by lia.
  assert (FRAGMENT_PAYLOAD_SIZE = N.to_nat 2025) as -> by lia.
  rewrite fragment_header_size, <- fmap_take. f_equal.
  assert (N.to_nat 2025 / 222 = 9) as -> by (vm_compute; done).
  apply list_eq. intros j. destruct (decide (j < N.to_nat (fb_num_surbs b))).
  - rewrite lookup_take, !lookup_seq_lt by lia. done.
  - rewrite lookup_take_ge, lookup_seq_ge by lia. done.
Qed.

(** Writing never panics and produces a fragment carrying the fields, data and SURBs; the unused
    space keeps what the buffer held. *)
Lemma write_except_surbs_spec b buf :
  length buf = N.to_nat 2048 -> sc_wf (fb_data b) ->
  (N.of_nat (length (sc_contents (fb_data b))) <= 2025)%N ->
  fb_write_except_surbs b buf =
    Val ((fb_message_id b ++ to_le16 (fb_last_index b) ++ to_le16 (fb_index b) ++
          to_le16 (N.of_nat (length (sc_contents (fb_data b)))) ++ [fb_num_surbs b]) ++
         sc_contents (fb_data b) ++ drop (23 + length (sc_contents (fb_data b))) buf).
Proof.
  intros Hbuf Hwf Hlen. unfold fb_write_except_surbs. cbv zeta. unfold sc_wf in Hwf. rewrite !Hwf.
  pose proof fragment_payload_size as E2. unfold slice_to.
  rewrite fragment_payload_length by done. rewrite decide_True by lia. cbn [out_bind].
  rewrite C07_copy_to_slice. rewrite take_length, fragment_payload_length by done.
  rewrite decide_True by lia. cbn [out_bind].
  rewrite (N.mod_small _ 65536) by lia. rewrite fragment_payload_drop by done. rewrite drop_drop.
  by rewrite <- !app_assoc.
Qed.

Lemma fill_spec b (buf : bytes) (surbs : list bytes) :
  length buf = N.to_nat 2048 -> sc_wf (fb_data b) -> length (fb_message_id b) = 16 ->
  N.of_nat (length surbs) = fb_num_surbs b ->
  (N.of_nat (length (sc_contents (fb_data b))) + 222 * fb_num_surbs b <= 2025)%N ->
  Forall (fun s => length s = 222) surbs ->
  exists pad, length (sc_contents (fb_data b)) + length pad + 222 * length surbs = N.to_nat 2025 /\
    fill b buf surbs =
      Val (frag_bytes (fb_message_id b) (fb_last_index b) (fb_index b)
             (sc_contents (fb_data b)) pad surbs).
Proof.
  intros Hbuf Hwf Hid Hn Hfit Hs. unfold fill. rewrite write_except_surbs_spec by (done || lia).
  cbn [out_bind]. rewrite fb_surb_offsets_spec by lia. rewrite <- Hn, Nat2N.id.
  set (d := sc_contents (fb_data b)) in *.
  pose proof (put_surbs_spec
    (fb_message_id b ++ to_le16 (fb_last_index b) ++ to_le16 (fb_index b) ++
          to_le16 (N.of_nat (length d)) ++ [N.of_nat (length surbs)])
    (d ++ drop (23 + length d) buf) [] surbs) as H.
  assert (length (drop (23 + length d) buf) = N.to_nat 2025 - length d) as Hdl
    by (rewrite drop_length; lia).
  cbn [length] in H. rewrite app_nil_l in H. change (concat (reverse [])) with ([] : bytes) in H.
  rewrite app_nil_r in H.
  rewrite H; clear H.
  - exists (take (N.to_nat 2025 - length d - 222 * length surbs) (drop (23 + length d) buf)).
    split; [rewrite take_length; lia|]. f_equal. unfold frag_bytes.
    rewrite <- !app_assoc. do 5 f_equal. rewrite take_app_ge; [|rewrite app_length, Hdl; lia].
    rewrite app_length, Hdl. rewrite <- app_assoc. do 3 f_equal. lia.
  - rewrite !app_length, Hid. done.
  - rewrite app_length, Hdl. lia.
  - rewrite app_length, Hdl. lia.
  - done.
Qed.
