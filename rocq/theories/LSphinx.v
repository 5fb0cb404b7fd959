(** Lemmas on the packet layout and the stream cipher, used by the Sphinx proofs. *)
From Verif Require Export LBase MPeel.

(** Replaces the format constants by their values, then decides. *)
Lemma PAYLOAD_SIZE_eq : PAYLOAD_SIZE = N.to_nat 2064.
Proof. unfold PAYLOAD_SIZE, PAYLOAD_DATA_SIZE, PAYLOAD_TAG_SIZE. lia. Qed.
Lemma PACKET_SIZE_eq : PACKET_SIZE = N.to_nat 2252.
Proof.
  unfold PACKET_SIZE. rewrite PAYLOAD_SIZE_eq. change HEADER_SIZE with 188. lia.
Qed.
Ltac sizes :=
  change KX_PUBLIC_SIZE with 32 in *; change MAC_SIZE with 16 in *; change MAX_HOPS with 6 in *;
  change RAW_ACTION_SIZE with 2 in *; change RAW_MIXNODE_INDEX_SIZE with 2 in *;
  change PEER_ID_SIZE with 32 in *; change MAX_ACTIONS_PAD_SIZE with 50 in *;
  change SURB_ID_SIZE with 16 in *; change COVER_ID_SIZE with 16 in *;
  change SURB_COVER_ID_SIZE with 16 in *; change ACTIONS_SIZE with 140 in *;
  change HEADER_SIZE with 188 in *; change PAYLOAD_TAG_SIZE with 16 in *;
  change SHARED_SECRET_SIZE with 32 in *;
  change PAYLOAD_DATA_SIZE with (N.to_nat 2048) in *;
  rewrite ?PAYLOAD_SIZE_eq, ?PACKET_SIZE_eq in *.
Ltac szlia := sizes; lia.

Section keystream.
  Implicit Types d ks a b : bytes.

  Lemma apply_keystream_length d ks : length (apply_keystream d ks) = length d.
  Proof.
    revert ks. induction d as [|x d IH]; intros [|k ks]; simpl; [done..|]. by rewrite IH.
  Qed.
  Lemma apply_keystream_nil_r d : apply_keystream d [] = d.
  Proof. by destruct d. Qed.
  Lemma apply_keystream_app a b ks :
    apply_keystream (a ++ b) ks = apply_keystream a ks ++ apply_keystream b (drop (length a) ks).
  Proof.
    revert ks. induction a as [|x a IH]; intros ks; [done|].
    destruct ks as [|k ks]; simpl; [by rewrite apply_keystream_nil_r|].
    by rewrite IH.
  Qed.
  Lemma apply_keystream_invol d ks : apply_keystream (apply_keystream d ks) ks = d.
  Proof.
    revert ks. induction d as [|x d IH]; intros [|k ks]; simpl; [done..|].
    rewrite IH. f_equal. rewrite N.lxor_assoc, N.lxor_nilpotent. apply N.lxor_0_r.
  Qed.
  (** only the first [length d] bytes of the keystream matter *)
  Lemma apply_keystream_prefix d ks ks' :
    take (length d) ks = take (length d) ks' -> apply_keystream d ks = apply_keystream d ks'.
  Proof.
    revert ks ks'. induction d as [|x d IH]; intros ks ks'; [done|].
    destruct ks as [|k ks], ks' as [|k' ks']; simpl; intros Hk; simplify_eq; [done|].
    f_equal. by apply IH.
  Qed.
  Lemma apply_keystream_take n d ks : take n (apply_keystream d ks) = apply_keystream (take n d) ks.
  Proof.
    revert d ks. induction n as [|n IH]; intros [|x d] [|k ks]; simpl; try done.
    by rewrite IH.
  Qed.
  Lemma apply_keystream_zeros n ks :
    n ≤ length ks -> apply_keystream (replicate n 0%N) ks = take n ks.
  Proof.
    revert ks. induction n as [|n IH]; intros ks Hn; [done|].
    destruct ks as [|k ks]; simpl in *; [lia|]. by rewrite IH by lia.
  Qed.
End keystream.

Section actions_keystream.
  Context (pr : prims).
  Lemma actions_keystream_length key n : length (actions_keystream pr key n) = n.
  Proof. unfold actions_keystream. by rewrite map_length, seq_length. Qed.
  Lemma actions_keystream_take key m n :
    m ≤ n -> take m (actions_keystream pr key n) = actions_keystream pr key m.
  Proof.
    intros Hm. unfold actions_keystream. rewrite <- fmap_take.
    replace n with (m + (n - m)) by lia. rewrite seq_app.
    rewrite take_app_alt; [done|]. by rewrite seq_length.
  Qed.
  Lemma apply_actions_alt d key n :
    length d ≤ n ->
    apply_actions_encryption_keystream pr d key = apply_keystream d (actions_keystream pr key n).
  Proof.
    intros Hn. unfold apply_actions_encryption_keystream. apply apply_keystream_prefix.
    rewrite !actions_keystream_take by lia. done.
  Qed.
  Lemma apply_actions_zeros n key :
    apply_actions_encryption_keystream pr (replicate n 0%N) key = actions_keystream pr key n.
  Proof.
    rewrite (apply_actions_alt _ _ n) by (rewrite replicate_length; lia).
    rewrite apply_keystream_zeros by (rewrite actions_keystream_length; lia).
    by apply actions_keystream_take.
  Qed.
  Lemma apply_actions_length d key :
    length (apply_actions_encryption_keystream pr d key) = length d.
  Proof. apply apply_keystream_length. Qed.
  Lemma derive_secret_length n s p :
    prims_ok pr -> length (derive_secret pr n s p) = 64 * n.
  Proof.
    intros Hok. unfold derive_secret.
    assert (Hk : forall k, length (concat (map (fun i => pr_blake2b pr 64 s (to_le 8 (N.of_nat i)) p [])
                                          (seq k n))) = 64 * n); [|apply Hk].
    induction n as [|n IH]; intros k; [done|]. cbn [seq map concat].
    rewrite app_length, (blake2b_length _ Hok), IH. lia.
  Qed.
End actions_keystream.

Lemma rng_fill_length n r : length (rng_fill n r).1 = n.
Proof. simpl. by rewrite map_length, seq_length. Qed.

(** [write_at], [modify_from], [modify_to], [slice_from], [slice_to] on a split buffer *)
Section ranges.
  Implicit Types a b c v : bytes.
  Lemma write_at_app a b c v off :
    length a = off -> length b = length v -> write_at (a ++ b ++ c) off v = Val (a ++ v ++ c).
  Proof.
    intros Ha Hb. unfold write_at.
    destruct (decide _) as [_|H]; [by rewrite put_at|].
    destruct H. rewrite !app_length. lia.
  Qed.
  Lemma slice_from_app {A} (a b : list A) n : length a = n -> slice_from (a ++ b) n = Val b.
  Proof.
    intros <-. unfold slice_from. destruct (decide _) as [_|H]; [by rewrite drop_app|].
    destruct H. rewrite app_length. lia.
  Qed.
  Lemma slice_to_app {A} (a b : list A) n : length a = n -> slice_to (a ++ b) n = Val a.
  Proof.
    intros <-. unfold slice_to. destruct (decide _) as [_|H]; [by rewrite take_app|].
    destruct H. rewrite app_length. lia.
  Qed.
  Lemma modify_from_app a b n f : length a = n -> modify_from (a ++ b) n f = Val (a ++ f b).
  Proof.
    intros <-. unfold modify_from. destruct (decide _) as [_|H].
    - by rewrite take_app, drop_app.
    - destruct H. rewrite app_length. lia.
  Qed.
  Lemma modify_to_app a b n f : length a = n -> modify_to (a ++ b) n f = Val (f a ++ b).
  Proof.
    intros <-. unfold modify_to. destruct (decide _) as [_|H].
    - by rewrite take_app, drop_app.
    - destruct H. rewrite app_length. lia.
  Qed.
End ranges.
