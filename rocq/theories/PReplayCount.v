(** C60: how many tags a replay filter can report by mistake. *)
From Verif Require Import PReplayFilter.
Local Open Scope N_scope.

(** ** Proof

    There are 2^64 tags. The first two bits of a tag, before reduction modulo 2^26, are any two
    numbers below 2^32, and determine the tag; each of them must lead to a bit that is set. *)
Definition numbers_of (p : N) : list N := map (fun k => p + N.of_nat k * 2 ^ 26) (seq 0 64).
Definition numbers (ts : list replay_tag) : list N := mbind (fun t => mbind numbers_of (tag_bits t)) ts.
Definition first_two (t : replay_tag) : N * N := (rt_base t, (rt_base t + rt_inc t) mod 2 ^ 32).

Lemma first_two_inj t t' : tag_ok t -> tag_ok t' -> first_two t = first_two t' -> t = t'.
Proof.
  destruct t as [b i], t' as [b' i']. intros [H1 H2] [H3 H4] [= <- H]. cbn in *. f_equal.
  change (2 ^ 32) with 4294967296 in *.
  assert (E : forall x, x < 4294967296 ->
    (b + x) mod 4294967296 = if b + x <? 4294967296 then b + x else b + x - 4294967296).
  { intros x Hx. destruct (N.ltb_spec (b + x) 4294967296); [by apply N.mod_small|].
    symmetry. apply (N.mod_unique _ _ 1); lia. }
  rewrite !E in H by done. destruct (N.ltb_spec (b + i) 4294967296), (N.ltb_spec (b + i') 4294967296); lia.
Qed.
Lemma numbers_of_spec i : i < 2 ^ 32 -> i ∈ numbers_of (i mod 2 ^ 26).
Proof.
  intros Hi. apply elem_of_list_fmap. exists (N.to_nat (i / 2 ^ 26)). rewrite N2Nat.id. split.
  - rewrite (N.div_mod i (2 ^ 26)) at 1 by done. rewrite N.add_comm. f_equal. apply N.mul_comm.
  - apply elem_of_seq. assert (Hd : i / 2 ^ 26 < 64); [|revert Hd; generalize (i / 2 ^ 26); intros x Hx; lia]. apply N.div_lt_upper_bound; done.
Qed.
Lemma numbers_length ts : length (numbers ts) = (512 * length ts)%nat.
Proof.
  unfold numbers. induction ts as [|t ts IH]; [done|]. rewrite bind_cons, app_length, IH.
  assert (E : length (mbind numbers_of (tag_bits t)) = 512%nat).
  { unfold tag_bits. cbn [map]. rewrite !bind_cons, !app_length. unfold numbers_of. rewrite !map_length, !seq_length. done. }
  rewrite E. cbn [length]. lia.
Qed.

(** ** Theorem

    Whatever [n] tags are inserted, at most [(512 * n) ^ 2] of the 2^64 tags are reported. So a
    session that has handled a million packets takes at most 1 of 64 new ones for a replay, if tags
    are evenly distributed, even if an adversary chose the tags in the filter. *)
Theorem C60_false_positives (r : rng) (ts reported : list replay_tag) :
  Forall tag_ok ts -> NoDup reported ->
  (forall t, t ∈ reported -> tag_ok t /\ rf_contains (foldl rf_insert (rf_new r).1 ts) t = true) ->
  (length reported <= (512 * length ts) * (512 * length ts))%nat.
Proof.
  intros Hts Hnd Hrep. rewrite <-(numbers_length ts), <-prod_length, <-(map_length first_two reported).
  apply submseteq_length, NoDup_submseteq.
  - apply NoDup_fmap_2_strong; [|done]. intros t t' Ht Ht'. by apply first_two_inj; apply Hrep.
  - intros x Hx. apply elem_of_list_fmap in Hx as (t & -> & Ht). destruct (Hrep t Ht) as [[Hb Hi] Hc].
    pose proof (proj1 (C17_history r ts t Hts (conj Hb Hi)) Hc) as Hc'. clear Hc. rename Hc' into Hc.
    assert (Hin : forall i, i < 2 ^ 32 -> i mod 2 ^ 26 ∈ tag_bits t -> i ∈ numbers ts).
    { intros i Hi' Hp. destruct (Hc _ Hp) as (t' & Ht' & Hp'). unfold numbers. apply elem_of_list_bind. exists t'. split; [|done].
      apply elem_of_list_bind. exists (i mod 2 ^ 26). split; [|done]. by apply numbers_of_spec. }
    apply elem_of_list_In, in_prod; apply elem_of_list_In, Hin; try done.
    + apply elem_of_list_fmap. exists 0. split; [|by left]. by rewrite N.mul_0_l, N.add_0_r, (N.mod_small (rt_base t) (2 ^ 32)).
    + by apply N.mod_lt.
    + apply elem_of_list_fmap. exists 1. split; [|right; by left]. by rewrite N.mul_1_l.
Qed.

(** With a million packets: at most 2^58. *)
Corollary C60_million (r : rng) (ts reported : list replay_tag) :
  N.of_nat (length ts) <= 2 ^ 20 -> Forall tag_ok ts -> NoDup reported ->
  (forall t, t ∈ reported -> tag_ok t /\ rf_contains (foldl rf_insert (rf_new r).1 ts) t = true) ->
  64 * N.of_nat (length reported) <= 2 ^ 64.
Proof.
  intros Hn Hts Hnd Hrep. pose proof (C60_false_positives r ts reported Hts Hnd Hrep) as H.
  assert (H' : N.of_nat (length reported) <= (512 * N.of_nat (length ts)) * (512 * N.of_nat (length ts))) by lia.
  assert (H2 : (512 * N.of_nat (length ts)) * (512 * N.of_nat (length ts)) <= (512 * 2 ^ 20) * (512 * 2 ^ 20)).
  { apply N.mul_le_mono; lia. }
  change (2 ^ 64) with (64 * ((512 * 2 ^ 20) * (512 * 2 ^ 20))). lia.
Qed.

(** ** Examples: 64 tags other than the inserted one are reported, as they have the same bits. *)
Example C60_example :
  let t := ReplayTag 5 3 in
  let others := map (fun k => ReplayTag (5 + N.of_nat k * 2 ^ 26) 3) (seq 0 64) in
  tag_ok t /\ NoDup others /\ length others = 64%nat /\
  (forall t', t' ∈ others -> tag_ok t' /\ rf_contains (foldl rf_insert (rf_new (Rng (fun _ => 5) 0)).1 [t]) t' = true).
Proof.
  intros t others. split; [done|]. split; [|split; [done|]].
  - apply NoDup_fmap_2; [|apply NoDup_seq]. intros x y [= H].
    assert (5 + N.of_nat x * 2 ^ 26 = 5 + N.of_nat y * 2 ^ 26) by exact H. lia.
  - assert (E : forallb (fun t' => (rt_base t' <? 2 ^ 32) && (rt_inc t' <? 2 ^ 32) &&
        rf_contains (foldl rf_insert (rf_new (Rng (fun _ => 5) 0)).1 [t]) t') others = true) by (by vm_compute).
    intros t' Ht'. apply elem_of_list_In in Ht'. apply (proj1 (forallb_forall _ _) E) in Ht'.
    apply andb_true_iff in Ht' as [H1 H2]. apply andb_true_iff in H1 as [H0 H1]. split; [|exact H2].
    split; by apply N.ltb_lt.
Qed.

Print Assumptions C60_false_positives.
Print Assumptions C60_million.
