(** General lemmas on the definitions of [Base.v]. *)
From Verif Require Export Base.

Lemma out_bind_Val {A B} (m : outcome A) (f : A -> outcome B) b :
  out_bind m f = Val b <-> exists a, m = Val a /\ f a = Val b.
Proof. destruct m; simpl; naive_solver. Qed.

Ltac inv_val :=
  repeat match goal with
  | H : out_bind _ _ = Val _ |- _ => apply out_bind_Val in H as (? & ? & H)
  | H : Val _ = Val _ |- _ => injection H as H; simplify_eq
  | H : Panic = Val _ |- _ => discriminate H
  | p : (_ * _)%type |- _ => destruct p
  end.

Lemma assert_or_panic_true : assert_or_panic true = Val tt.
Proof. done. Qed.

Lemma from_to_le16 v : (v < 65536)%N -> from_le16 (to_le16 v) = v.
Proof.
  intros Hv. unfold to_le16, from_le16.
  rewrite (N.mod_small (v / 256)) by (apply N.div_lt_upper_bound; lia).
  pose proof (N.div_mod v 256 ltac:(lia)). lia.
Qed.
Lemma length_to_le16 v : length (to_le16 v) = 2.
Proof. done. Qed.

Lemma from_le_app a b : from_le (a ++ b) = (from_le a + 256 ^ N.of_nat (length a) * from_le b)%N.
Proof.
  induction a as [|x a IH]; [change (from_le b = 0 + 1 * from_le b)%N; lia|].
  cbn [app from_le length]. rewrite IH.
  replace (N.of_nat (S (length a))) with (N.succ (N.of_nat (length a))) by lia.
  rewrite N.pow_succ_r'. ring.
Qed.
Lemma to_le_length n v : length (to_le n v) = n.
Proof. revert v; induction n as [|n IH]; intros v; simpl; [done|by rewrite IH]. Qed.
Lemma from_le_to_le n v : from_le (to_le n v) = (v mod 256 ^ N.of_nat n)%N.
Proof.
  revert v. induction n as [|n IH]; intros v; cbn [to_le from_le].
  { by rewrite N.mod_1_r. }
  rewrite IH. replace (N.of_nat (S n)) with (N.succ (N.of_nat n)) by lia.
  rewrite N.pow_succ_r'.
  rewrite (N.mod_mul_r v 256 (256 ^ N.of_nat n)); [lia|lia|].
  apply N.pow_nonzero. lia.
Qed.
Lemma to_le_lt n v : Forall (fun b => b < 256)%N (to_le n v).
Proof.
  revert v. induction n as [|n IH]; intros v; simpl; constructor; [|done].
  apply N.mod_lt. lia.
Qed.

(** ** Slices *)
Section slices.
  Context {A : Type}.
  Implicit Types a b c l v : list A.

  Lemma slice_length l off len : off + len ≤ length l -> length (slice l off len) = len.
  Proof. intros. unfold slice. rewrite take_length, drop_length. lia. Qed.
  Lemma slice_app_r a l off len :
    length a ≤ off -> slice (a ++ l) off len = slice l (off - length a) len.
  Proof. intros. unfold slice. by rewrite drop_app_ge. Qed.
  Lemma slice_app_l a l off len :
    off + len ≤ length a -> slice (a ++ l) off len = slice a off len.
  Proof.
    intros. unfold slice. rewrite drop_app_le by lia. rewrite take_app_le; [done|].
    rewrite drop_length. lia.
  Qed.
  Lemma slice_0 a l len : length a = len -> slice (a ++ l) 0 len = a.
  Proof. intros <-. unfold slice. rewrite drop_0. by rewrite take_app. Qed.
  Lemma slice_at a b c off len :
    length a = off -> length b = len -> slice (a ++ b ++ c) off len = b.
  Proof. intros <- <-. unfold slice. rewrite drop_app. by rewrite take_app. Qed.
  Lemma slice_all l len : length l = len -> slice l 0 len = l.
  Proof. intros <-. unfold slice. rewrite drop_0. by apply take_ge. Qed.

  Lemma put_length l off v : off + length v ≤ length l -> length (put l off v) = length l.
  Proof.
    intros. unfold put. rewrite !app_length, take_length, drop_length. lia.
  Qed.
  Lemma put_at a b c v off :
    length a = off -> length b = length v -> put (a ++ b ++ c) off v = a ++ v ++ c.
  Proof.
    intros <- Hb. unfold put. rewrite take_app. f_equal. f_equal.
    rewrite <- Hb, drop_add_app by done. by rewrite drop_app.
  Qed.
  Lemma slice_put_same l off v :
    off + length v ≤ length l -> slice (put l off v) off (length v) = v.
  Proof. intros. unfold put. apply slice_at; [rewrite take_length; lia|done]. Qed.
  Lemma split3 l off len :
    off + len ≤ length l ->
    l = take off l ++ slice l off len ++ drop (off + len) l.
  Proof.
    intros. unfold slice. rewrite <- drop_drop.
    rewrite (take_drop len). by rewrite take_drop.
  Qed.
End slices.

(** ** Linked hash maps *)
Section lhm.
  Context {K V : Type} `{EqDecision K}.
  Implicit Types (m : lhm K V) (k : K) (v : V).

  Definition lhm_keys m : list K := map fst m.

  Lemma lhm_get_None m k : lhm_get m k = None <-> k ∉ lhm_keys m.
  Proof.
    induction m as [|[k' v] m IH]; simpl; [split; [|done]; intros _; apply not_elem_of_nil|].
    rewrite not_elem_of_cons. case_decide; subst; [naive_solver|]. rewrite IH. naive_solver.
  Qed.
  Lemma lhm_get_Some_elem m k v : lhm_get m k = Some v -> (k, v) ∈ m.
  Proof.
    induction m as [|[k' v'] m IH]; simpl; [done|]. case_decide; intros Hg.
    - simplify_eq. left.
    - right. by apply IH.
  Qed.
  Lemma lhm_get_Some m k v : NoDup (lhm_keys m) -> lhm_get m k = Some v <-> (k, v) ∈ m.
  Proof.
    induction m as [|[k' v'] m IH]; simpl; [intros _; split; [done|]; by intros ?%elem_of_nil|].
    intros [Hk Hn]%NoDup_cons. rewrite elem_of_cons. case_decide; subst.
    - split; [intros; simplify_eq; by left|]. intros [?|Hin]; [by simplify_eq|].
      exfalso. apply Hk. apply elem_of_list_fmap. by exists (k, v).
    - rewrite IH by done. naive_solver.
  Qed.
  Lemma lhm_remove_split m k v :
    lhm_get m k = Some v ->
    exists m1 m2, m = m1 ++ (k, v) :: m2 /\ lhm_remove m k = m1 ++ m2 /\ k ∉ lhm_keys m1.
  Proof.
    induction m as [|[k' v'] m IH]; simpl; [done|]. case_decide; intros; simplify_eq.
    - exists [], m. split; [done|]. split; [done|]. apply not_elem_of_nil.
    - destruct IH as (m1&m2&->&->&?); [done|]. exists ((k', v') :: m1), m2.
      split; [done|]. split; [done|]. simpl. by rewrite not_elem_of_cons.
  Qed.
  Lemma lhm_set_split m k v v' :
    lhm_get m k = Some v ->
    exists m1 m2, m = m1 ++ (k, v) :: m2 /\ lhm_set m k v' = m1 ++ (k, v') :: m2 /\
                  k ∉ lhm_keys m1.
  Proof.
    induction m as [|[k' w'] m IH]; simpl; [done|]. case_decide; intros; simplify_eq.
    - exists [], m. split; [done|]. split; [done|]. apply not_elem_of_nil.
    - destruct IH as (m1&m2&->&->&?); [done|]. exists ((k', w') :: m1), m2.
      split; [done|]. split; [done|]. simpl. by rewrite not_elem_of_cons.
  Qed.
  Lemma lhm_get_app m1 m2 k :
    lhm_get (m1 ++ m2) k = match lhm_get m1 k with Some v => Some v | None => lhm_get m2 k end.
  Proof.
    induction m1 as [|[k' v'] m1 IH]; simpl; [done|]. by case_decide.
  Qed.
  Lemma lhm_remove_None m k : lhm_get m k = None -> lhm_remove m k = m.
  Proof.
    induction m as [|[k' v'] m IH]; simpl; [done|]. case_decide; [done|].
    intros. by rewrite IH.
  Qed.
  Lemma lhm_get_set m k v k' :
    lhm_get (lhm_set m k v) k' =
      if decide (k = k') then (fun _ => v) <$> lhm_get m k' else lhm_get m k'.
  Proof.
    induction m as [|[k0 v0] m IH]; simpl; [by case_decide|].
    repeat (case_decide; simpl); simplify_eq; try done; try congruence;
      rewrite IH; case_decide; congruence || done.
  Qed.
  Lemma lhm_set_keys m k v : lhm_keys (lhm_set m k v) = lhm_keys m.
  Proof.
    induction m as [|[k' v'] m IH]; simpl; [done|]. case_decide; simpl; [done|by rewrite IH].
  Qed.
  Lemma lhm_get_remove m k k' :
    NoDup (lhm_keys m) ->
    lhm_get (lhm_remove m k) k' = if decide (k = k') then None else lhm_get m k'.
  Proof.
    induction m as [|[k0 v0] m IH]; simpl; [by case_decide|].
    intros [Hk Hn]%NoDup_cons. destruct (decide (k0 = k)) as [->|Hne]; simpl.
    - case_decide; [|done]. subst. by apply lhm_get_None.
    - rewrite IH by done. repeat case_decide; congruence || done.
  Qed.
  Lemma lhm_remove_keys_NoDup m k : NoDup (lhm_keys m) -> NoDup (lhm_keys (lhm_remove m k)).
  Proof.
    intros Hn. destruct (lhm_get m k) as [v|] eqn:E.
    - destruct (lhm_remove_split m k v E) as (m1&m2&Em&->&_). subst m.
      unfold lhm_keys in *. rewrite map_app in *. simpl in Hn.
      apply NoDup_app in Hn as (H1&H2&H3). apply NoDup_cons in H3 as [H3 H4].
      apply NoDup_app. split; [done|]. split; [|done].
      intros x Hx Hx2. apply (H2 x Hx). by right.
    - by rewrite lhm_remove_None.
  Qed.
  Lemma lhm_remove_length m k v : lhm_get m k = Some v -> length m = S (length (lhm_remove m k)).
  Proof.
    intros (m1&m2&->&->&_)%lhm_remove_split. rewrite !app_length. simpl. lia.
  Qed.
  Lemma lhm_set_length m k v : length (lhm_set m k v) = length m.
  Proof.
    pose proof (lhm_set_keys m k v) as H%(f_equal length). unfold lhm_keys in H.
    by rewrite !map_length in H.
  Qed.
End lhm.
