(** C17: the replay filter. *)
From Verif Require Export MReplayFilter.
Local Open Scope N_scope.

(** ** Specification

    The filter is a set of 2^26 bits. A tag stands for eight of them: [base + k * inc] for
    [k = 0..7], computed modulo 2^32 and then reduced modulo 2^26. *)
Definition tag_ok (t : replay_tag) : Prop := rt_base t < 2 ^ 32 /\ rt_inc t < 2 ^ 32.
Definition tag_bits (t : replay_tag) : list N :=
  map (fun k => ((rt_base t + k * rt_inc t) mod 2 ^ 32) mod 2 ^ 26) [0; 1; 2; 3; 4; 5; 6; 7].
Definition bit_set (rf : replay_filter) (p : N) : Prop :=
  match rf_words rf with
  | None => False
  | Some words => N.testbit (words (p / 64)) (p mod 64) = true
  end.

(** ** Proof *)
Fixpoint bits_from (n : nat) (i inc : N) : list N :=
  match n with
  | O => []
  | S n' => i mod 2 ^ 26 :: bits_from n' ((i + inc) mod 2 ^ 32) inc
  end.
Lemma tag_bits_eq t : tag_ok t -> tag_bits t = bits_from NUM_TAG_BITS (rt_base t) (rt_inc t).
Proof.
  intros [Hb Hi]. unfold tag_bits, NUM_TAG_BITS. cbn [map bits_from].
  set (b := rt_base t) in *. set (c := rt_inc t) in *.
  assert (E : forall x, (x mod 2 ^ 32 + c) mod 2 ^ 32 = (x + c) mod 2 ^ 32).
  { intros x. rewrite N.add_mod_idemp_l by done. done. }
  rewrite !E. rewrite N.mul_0_l, N.add_0_r, (N.mod_small b (2 ^ 32)) by done.
  replace (b + 1 * c) with (b + c) by lia. replace (b + 2 * c) with (b + c + c) by lia.
  replace (b + 3 * c) with (b + c + c + c) by lia.
  replace (b + 4 * c) with (b + c + c + c + c) by lia.
  replace (b + 5 * c) with (b + c + c + c + c + c) by lia.
  replace (b + 6 * c) with (b + c + c + c + c + c + c) by lia.
  replace (b + 7 * c) with (b + c + c + c + c + c + c + c) by lia. done.
Qed.

Lemma word_index_eq i : word_index i = i mod 2 ^ 26 / 64.
Proof.
  unfold word_index. rewrite N.shiftr_div_pow2.
  change (2 ^ 6) with 64. change NUM_WORDS with (2 ^ 20).
  change (2 ^ 26) with (64 * 2 ^ 20).
  rewrite N.mod_mul_r by done.
  rewrite (N.add_comm (i mod 64)), N.mul_comm, N.div_add_l by done.
  rewrite (N.div_small (i mod 64)) by (apply N.mod_lt; done). lia.
Qed.
Lemma word_bit_eq i : word_bit i = 2 ^ (i mod 2 ^ 26 mod 64).
Proof.
  unfold word_bit. rewrite N.shiftl_1_l. f_equal.
  change 63 with (N.ones 6). rewrite N.land_ones. change (2 ^ 6) with 64.
  change (2 ^ 26) with (64 * 2 ^ 20). rewrite N.mod_mul_r by done.
  rewrite N.mul_comm, N.mod_add by done. by rewrite N.mod_mod.
Qed.

Definition wset (words : N -> N) (p : N) : bool := N.testbit (words (p / 64)) (p mod 64).
Lemma wset_set_word words i p :
  wset (set_word words (word_index i) (N.lor (words (word_index i)) (word_bit i))) p =
    wset words p || (p =? i mod 2 ^ 26).
Proof.
  unfold wset, set_word. rewrite word_bit_eq, word_index_eq.
  set (q := i mod 2 ^ 26).
  pose proof (N.div_mod p 64). pose proof (N.div_mod q 64).
  destruct (N.eqb_spec (p / 64) (q / 64)) as [E|E].
  - rewrite E, N.lor_spec. f_equal. rewrite N.pow2_bits_eqb.
    destruct (N.eqb_spec p q); destruct (N.eqb_spec (q mod 64) (p mod 64)); try done; try congruence.
    lia.
  - destruct (N.eqb_spec p q) as [->|]; [done|]. by rewrite orb_false_r.
Qed.
Lemma wset_insert_loop n i inc words p :
  wset (rf_insert_loop n i inc words) p = true <-> wset words p = true \/ p ∈ bits_from n i inc.
Proof.
  revert i words. induction n as [|n IH]; intros i words; cbn [rf_insert_loop bits_from].
  { rewrite elem_of_nil. tauto. }
  rewrite IH, wset_set_word, elem_of_cons, orb_true_iff, N.eqb_eq. tauto.
Qed.
Lemma contains_loop n i inc words :
  rf_contains_loop n i inc words = true <-> Forall (fun p => wset words p = true) (bits_from n i inc).
Proof.
  revert i. induction n as [|n IH]; intros i; cbn [rf_contains_loop bits_from].
  { split; [constructor|done]. }
  rewrite Forall_cons, <- IH.
  assert (E : (N.land (words (word_index i)) (word_bit i) =? 0) = negb (wset words (i mod 2 ^ 26))).
  { unfold wset. rewrite word_index_eq, word_bit_eq.
    set (w := words _). set (k := _ mod 64).
    destruct (N.testbit w k) eqn:Et; cbn [negb].
    - apply N.eqb_neq. intros Hz. assert (Hb : N.testbit (N.land w (2 ^ k)) k = true).
      { by rewrite N.land_spec, Et, N.pow2_bits_true. }
      by rewrite Hz in Hb.
    - apply N.eqb_eq. apply N.bits_inj. intros j. rewrite N.land_spec, N.bits_0, N.pow2_bits_eqb.
      destruct (N.eqb_spec k j) as [<-|]; [by rewrite Et|by rewrite andb_false_r]. }
  rewrite E. destruct (wset words (i mod 2 ^ 26)); simpl; naive_solver.
Qed.

(** ** Theorems *)

(** Inserting a tag sets exactly its bits, in addition to those set before. *)
Theorem C17_insert (rf : replay_filter) (t : replay_tag) (p : N) :
  tag_ok t -> bit_set (rf_insert rf t) p <-> bit_set rf p \/ p ∈ tag_bits t.
Proof.
  intros Ht. rewrite tag_bits_eq by done. unfold bit_set, rf_insert. cbn [rf_words].
  fold (wset (rf_insert_loop NUM_TAG_BITS (rt_base t) (rt_inc t) (default (fun _ => 0) (rf_words rf))) p).
  rewrite wset_insert_loop. destruct (rf_words rf) as [w|]; cbn [default id]; [done|].
  unfold wset. rewrite N.bits_0. naive_solver.
Qed.
(** A tag is reported exactly when all its bits are set. *)
Theorem C17_contains (rf : replay_filter) (t : replay_tag) :
  tag_ok t -> rf_contains rf t = true <-> Forall (bit_set rf) (tag_bits t).
Proof.
  intros Ht. rewrite tag_bits_eq by done. unfold rf_contains, bit_set.
  destruct (rf_words rf) as [w|].
  - rewrite contains_loop. done.
  - split; [done|]. unfold NUM_TAG_BITS. cbn [bits_from]. by intros [? _]%Forall_cons.
Qed.
(** Hence, after any sequence of insertions into a new filter, a tag is reported if and only if each
    of its bits belongs to one of the inserted tags; an unused filter reports nothing. *)
Theorem C17_history (r : rng) (ts : list replay_tag) (t : replay_tag) :
  Forall tag_ok ts -> tag_ok t ->
  rf_contains (foldl rf_insert (rf_new r).1 ts) t = true <->
  forall p, p ∈ tag_bits t -> exists t', t' ∈ ts /\ p ∈ tag_bits t'.
Proof.
  intros Hts Ht. rewrite C17_contains by done. rewrite Forall_forall.
  assert (H : forall p, bit_set (foldl rf_insert (rf_new r).1 ts) p <->
                        exists t', t' ∈ ts /\ p ∈ tag_bits t').
  { intros p. induction ts as [|t' ts IH] using rev_ind.
    - cbn. split; [done|]. intros (?&?%elem_of_nil&_). done.
    - apply Forall_app in Hts as [Hts [Ht' _]%Forall_cons].
      rewrite foldl_app. cbn [foldl]. rewrite C17_insert, IH by done.
      setoid_rewrite elem_of_app. setoid_rewrite elem_of_list_singleton. naive_solver. }
  by setoid_rewrite H.
Qed.
(** In particular there are no false negatives, whatever is inserted before and after. *)
Theorem C17_no_false_negative (rf : replay_filter) (t : replay_tag) (ts : list replay_tag) :
  tag_ok t -> Forall tag_ok ts -> rf_contains (foldl rf_insert (rf_insert rf t) ts) t = true.
Proof.
  intros Ht Hts. apply C17_contains; [done|].
  assert (H : Forall (bit_set (rf_insert rf t)) (tag_bits t)).
  { rewrite Forall_forall. intros p Hp. rewrite C17_insert by done. by right. }
  revert H. generalize (rf_insert rf t). induction Hts as [|t' ts Ht' Hts IH]; intros rf' H; [done|].
  cbn [foldl]. apply IH. eapply Forall_impl; [exact H|]. intros p Hp.
  rewrite C17_insert by done. by left.
Qed.
(** Every tag the filter computes is a pair of 32-bit numbers. *)
Theorem C17_tag_ok (pr : prims) (rf : replay_filter) (s : bytes) : tag_ok (rf_tag pr rf s).
Proof. split; cbn [rf_tag rt_base rt_inc]; by apply N.mod_lt. Qed.

(** ** Examples: a tag whose bits wrap around, one with increment zero; a tag sharing no bit with
    them is not reported, one all of whose bits are theirs is (a false positive). *)
Example ex_filter :
  let rf := foldl rf_insert (rf_new (Rng (fun _ => 5) 0)).1
              [ReplayTag (2 ^ 32 - 3) 2; ReplayTag 1000 0] in
  rf_contains rf (ReplayTag (2 ^ 32 - 3) 2) = true /\
  rf_contains rf (ReplayTag 1000 0) = true /\
  rf_contains rf (ReplayTag 1001 0) = false /\
  rf_contains rf (ReplayTag 11 (2 ^ 32 - 2)) = true.
Proof. vm_compute. done. Qed.

Print Assumptions C17_insert.
Print Assumptions C17_contains.
Print Assumptions C17_history.
Print Assumptions C17_no_false_negative.
Print Assumptions C17_tag_ok.
