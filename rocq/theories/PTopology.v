(** C27, C28: choice of mixnodes, gateways and reserved peers. *)
From stdpp Require Import sorting.
From Verif Require Export MTopology LBase.

(** ** Specification *)

(** A usable topology: at most 65280 mixnodes; the local node is one of them, with the local public
    key, or it has distinct gateways among them. *)
Definition topo_ok (t : topology) : Prop :=
  length (tp_mixnodes t) ≤ N.to_nat 65280 /\
  match tp_local_node t with
  | LMixnode i => exists m, tp_mixnodes t !! N.to_nat i = Some m /\ mn_kx_public m = tp_local_kx_public t
  | LNonMixnode gs => NoDup gs /\ Forall (fun g => N.to_nat g < length (tp_mixnodes t)) gs
  end.
(** Strictly increasing lists of indices *)
Definition increasing : list N -> Prop := StronglySorted N.lt.
(** Indices of mixnodes *)
Definition valid_index (t : topology) (i : mixnode_index) : Prop := N.to_nat i < length (tp_mixnodes t).

(** ** Choosing an index that is not excluded *)
Definition below (y : N) (l : list N) : nat := length (filter (fun e => (e < y)%N) l).
Lemma below_cons y e l : below y (e :: l) = (if decide (e < y)%N then 1 else 0) + below y l.
Proof. unfold below. rewrite filter_cons. by destruct (decide (e < y)%N). Qed.
Lemma below_bound y lo l :
  increasing l -> Forall (fun e => (lo <= e)%N) l -> (N.of_nat (below y l) <= y - lo)%N.
Proof.
  intros Hs. revert lo. induction Hs as [|e l Hs IH Hf]; intros lo Hlo; [cbn; lia|].
  rewrite below_cons. apply Forall_cons in Hlo as [He Hlo].
  assert (Hi : (N.of_nat (below y l) <= y - (e + 1))%N).
  { apply IH. eapply Forall_impl; [exact Hf|]. cbn. intros. lia. }
  destruct (decide (e < y)%N); lia.
Qed.
Lemma below_length y l : below y l ≤ length l.
Proof. apply filter_length. Qed.
Lemma below_all y l : Forall (fun e => (e < y)%N) l -> below y l = length l.
Proof.
  induction 1 as [|e l He Hl IH]; [done|]. rewrite below_cons, decide_True by done. cbn. by rewrite IH.
Qed.

Lemma skip_small c l : Forall (fun e => (c < e)%N) l -> skip_excluded c l = c.
Proof.
  induction 1 as [|e l He Hl IH]; [done|]. cbn. destruct (N.leb_spec e c); [lia|done].
Qed.
Lemma skip_spec c l :
  increasing l -> skip_excluded c l ∉ l /\
    skip_excluded c l = (c + N.of_nat (below (skip_excluded c l) l))%N.
Proof.
  intros Hs. revert c. induction Hs as [|e l Hs IH Hf]; intros c; [cbn; split; [apply not_elem_of_nil|lia]|].
  cbn [skip_excluded]. rewrite below_cons. destruct (N.leb_spec e c).
  - destruct (IH (c + 1)%N) as [H1 H2]. set (y := skip_excluded (c + 1) l) in *.
    rewrite decide_True by lia. split; [|lia]. rewrite not_elem_of_cons. split; [lia|done].
  - assert (Hc : Forall (fun e => (c < e)%N) l).
    { eapply Forall_impl; [exact Hf|]. cbn. intros. lia. }
    rewrite (skip_small c l Hc). rewrite decide_False by lia.
    split.
    + rewrite not_elem_of_cons. split; [lia|]. intros Hin. rewrite Forall_forall in Hc.
      specialize (Hc c Hin). lia.
    + destruct (IH c) as [_ H2]. rewrite skip_small in H2 by done. lia.
Qed.
Lemma skip_surj y l :
  increasing l -> y ∉ l -> skip_excluded (y - N.of_nat (below y l)) l = y.
Proof.
  intros Hs. induction Hs as [|e l Hs IH Hf]; intros Hy; [cbn; lia|].
  apply not_elem_of_cons in Hy as [Hne Hy]. rewrite below_cons. cbn [skip_excluded].
  assert (Hb : (N.of_nat (below y l) <= y - (e + 1))%N).
  { apply below_bound; [done|]. eapply Forall_impl; [exact Hf|]. cbn. intros. lia. }
  destruct (decide (e < y)%N) as [He|He].
  - destruct (N.leb_spec e (y - N.of_nat (1 + below y l))); [|lia].
    replace (y - N.of_nat (1 + below y l) + 1)%N with (y - N.of_nat (below y l))%N by lia.
    by apply IH.
  - assert (Hz : below y l = 0) by lia. cbn [Nat.add]. rewrite Hz in *.
    destruct (N.leb_spec e (y - N.of_nat 0)); [lia|]. by apply IH.
Qed.
Lemma increasing_nodup l : increasing l -> NoDup l.
Proof.
  induction 1 as [|e l Hs IH Hf]; constructor; [|done]. intros Hin.
  rewrite Forall_forall in Hf. specialize (Hf e Hin). lia.
Qed.
Lemma increasing_length l n :
  increasing l -> Forall (fun e => (e < N.of_nat n)%N) l -> length l ≤ n.
Proof.
  intros Hs Hn. pose proof (below_bound (N.of_nat n) 0 l Hs) as Hb. rewrite below_all in Hb by done.
  assert (N.of_nat (length l) <= N.of_nat n - 0)%N; [|lia]. apply Hb.
  eapply Forall_impl; [exact Hn|]. cbn. intros. lia.
Qed.

(** With [k] indices allowed, the draws [0..k] choose each of them exactly once. *)
Theorem C27_choose (g : route_generator) (exclude : list N) :
  let n := length (tp_mixnodes (rg_topology g)) in
  let k := N.of_nat (n - length exclude) in
  n ≤ N.to_nat 65280 -> increasing exclude -> Forall (fun e => (e < N.of_nat n)%N) exclude ->
  (* fails exactly when nothing is allowed *)
  ((forall y, (y < N.of_nat n)%N -> y ∈ exclude) ->
   forall r, choose_mixnode_index g exclude r = Val (Err TeTooFewMixnodes)) /\
  (forall y, (y < N.of_nat n)%N -> y ∉ exclude ->
   exists choice : N -> N,
    (forall r, choose_mixnode_index g exclude r =
       Val (Ok (choice ((rng_draw r).1 mod k)%N, (rng_draw r).2))) /\
    (forall c, (c < k)%N -> (choice c < N.of_nat n)%N /\ choice c ∉ exclude) /\
    (forall c c', (c < k)%N -> (c' < k)%N -> choice c = choice c' -> c = c') /\
    (forall y, (y < N.of_nat n)%N -> y ∉ exclude -> exists c, (c < k)%N /\ choice c = y)).
Proof.
  intros n k Hn Hs Hf.
  assert (Hle : length exclude ≤ n) by by apply increasing_length.
  assert (Hk : (k < 65536)%N) by (subst k; lia).
  assert (Hcs : checked_sub (N.of_nat n) (N.of_nat (length exclude)) = Some k).
  { unfold checked_sub. destruct (N.leb_spec (N.of_nat (length exclude)) (N.of_nat n)); [|lia].
    f_equal. subst k. lia. }
  assert (Hrange : forall c, (c < k)%N -> (skip_excluded c exclude < N.of_nat n)%N).
  { intros c Hc. destruct (skip_spec c exclude Hs) as [H1 H2].
    destruct (N.lt_ge_cases (skip_excluded c exclude) (N.of_nat n)) as [|Hge]; [done|].
    pose proof (below_length (skip_excluded c exclude) exclude). subst k. lia. }
  assert (Hsurj : forall y, (y < N.of_nat n)%N -> y ∉ exclude ->
                  exists c, (c < k)%N /\ skip_excluded c exclude = y).
  { intros y Hy Hny. exists (y - N.of_nat (below y exclude))%N. split; [|by apply skip_surj].
    (* those above [y] are at most [n - 1 - y] *)
    assert (Hab : forall lo l, increasing l -> Forall (fun e => (e < N.of_nat n)%N) l -> y ∉ l ->
              (lo <= y)%N -> Forall (fun e => (lo <= e)%N) l ->
              (N.of_nat (length l) - N.of_nat (below y l) <= N.of_nat n - 1 - y)%N).
    { clear -Hy. intros lo l Hs. revert lo. induction Hs as [|e l Hs IH Hf]; intros lo Hn Hny Hlo Hl; [cbn; lia|].
      apply Forall_cons in Hn as [Hen Hn]. apply not_elem_of_cons in Hny as [Hne Hny].
      rewrite below_cons. destruct (decide (e < y)%N).
      - cbn [length]. assert (N.of_nat (length l) - N.of_nat (below y l) <= N.of_nat n - 1 - y)%N; [|lia].
        apply (IH (e + 1)%N); [done|done|lia|]. eapply Forall_impl; [exact Hf|]. cbn. intros. lia.
      - (* all are above [y] *)
        assert (Hcount : forall l lo, increasing l -> Forall (fun e => (lo <= e)%N) l ->
                   Forall (fun e => (e < N.of_nat n)%N) l -> (N.of_nat (length l) <= N.of_nat n - lo)%N).
        { clear. intros l lo Hs Hlo Hn. pose proof (below_bound (N.of_nat n) lo l Hs Hlo) as Hb.
          by rewrite below_all in Hb by done. }
        assert (Hc : (N.of_nat (length l) <= N.of_nat n - (e + 1))%N).
        { apply Hcount; [done| |done]. eapply Forall_impl; [exact Hf|]. cbn. intros. lia. }
        cbn [length Nat.add]. lia. }
    specialize (Hab 0%N exclude Hs Hf Hny ltac:(lia)).
    assert (Hz : Forall (fun e => (0 <= e)%N) exclude).
    { apply Forall_forall. intros. lia. }
    specialize (Hab Hz).
    pose proof (below_bound y 0 exclude Hs Hz). subst k. lia. }
  unfold choose_mixnode_index. change mixnode_index with N. fold n. rewrite Hcs. cbn [expect out_bind].
  rewrite N.mod_small by done. split.
  - intros Hall r. destruct (N.eqb_spec k 0) as [|Hk0]; [done|]. exfalso.
    destruct (skip_spec 0 exclude Hs) as [H1 _]. apply H1, Hall, Hrange. lia.
  - intros y Hy Hny. destruct (Hsurj y Hy Hny) as (c0 & Hc0 & _).
    destruct (N.eqb_spec k 0) as [|Hk0]; [lia|].
    exists (fun c => skip_excluded c exclude). split_and!.
    + intros r. unfold rng_range. destruct (N.eqb_spec k 0) as [|_]; [lia|].
      rewrite (surjective_pairing (rng_draw r)). cbn [out_bind].
      pose proof (Hrange ((rng_draw r).1 mod k)%N (N.mod_lt _ _ Hk0)) as Hlt.
      apply N.ltb_lt in Hlt as Hb. rewrite Hb. cbn [assert_or_panic out_bind].
      unfold mixnode_index_try_from, MAX_MIXNODE_INDEX.
      match goal with |- context [(?a <=? ?b)%N] => destruct (N.leb_spec a b); [done|lia] end.
    + intros c Hc. split; [by apply Hrange|]. by apply skip_spec.
    + intros c c' _ _ Heq. destruct (skip_spec c exclude Hs) as [_ H1].
      destruct (skip_spec c' exclude Hs) as [_ H2]. rewrite Heq in H1. lia.
    + done.
Qed.

(** What the proofs about routes need of it. *)
Lemma choose_spec g (u : list N) r :
  length (tp_mixnodes (rg_topology g)) ≤ N.to_nat 65280 -> increasing u ->
  Forall (valid_index (rg_topology g)) u ->
  (length u = length (tp_mixnodes (rg_topology g)) ->
     choose_mixnode_index g u r = Val (Err TeTooFewMixnodes)) /\
  (length u < length (tp_mixnodes (rg_topology g)) ->
     exists y, choose_mixnode_index g u r = Val (Ok (y, (rng_draw r).2)) /\ y ∉ u /\
       valid_index (rg_topology g) y) /\
  length u ≤ length (tp_mixnodes (rg_topology g)).
Proof.
  intros Hn Hs Hv. set (n := length (tp_mixnodes (rg_topology g))) in *.
  assert (Hf : Forall (fun e => (e < N.of_nat n)%N) u).
  { eapply Forall_impl; [exact Hv|]. unfold valid_index. cbn. intros. lia. }
  destruct (C27_choose g u Hn Hs Hf) as [Ha Hb].
  assert (Hle : length u ≤ n) by by apply increasing_length.
  split_and!; [| |done].
  - intros Hl. apply Ha. intros y Hy.
    (* pigeonhole *)
    destruct (decide (y ∈ u)) as [|Hny]; [done|]. exfalso.
    assert (Hnd : NoDup (y :: u)) by (constructor; [done|by apply increasing_nodup]).
    assert (Hsub : (y :: u) ⊆+ map N.of_nat (seq 0 n)).
    { apply NoDup_submseteq; [done|]. intros x [->|Hx]%elem_of_cons.
      - apply elem_of_list_fmap. exists (N.to_nat y). rewrite elem_of_seq. split; lia.
      - apply elem_of_list_fmap. exists (N.to_nat x). rewrite elem_of_seq.
        rewrite Forall_forall in Hf. specialize (Hf x Hx). split; lia. }
    apply submseteq_length in Hsub. rewrite map_length, seq_length in Hsub. cbn in Hsub. lia.
  - intros Hl.
    assert (Hex : exists y, (y < N.of_nat n)%N /\ y ∉ u).
    { exists (skip_excluded 0 u). destruct (skip_spec 0 u Hs) as [H1 H2]. split; [|done].
      pose proof (below_length (skip_excluded 0 u) u). lia. }
    destruct Hex as (y & Hy & Hny). destruct (Hb y Hy Hny) as (ch & E & Hr & _ & _).
    eexists. split; [apply E|].
    destruct (Hr ((rng_draw r).1 mod N.of_nat (n - length u))%N) as [H1 H2].
    { apply N.mod_lt. lia. }
    split; [done|]. unfold valid_index. fold n. lia.
Qed.

(** ** Reserved peers *)

Lemma rng_pick_spec pool amount r :
  amount ≤ length pool -> NoDup pool ->
  length (rng_pick pool amount r).1 = amount /\ NoDup (rng_pick pool amount r).1 /\
  (forall x, x ∈ (rng_pick pool amount r).1 -> x ∈ pool).
Proof.
  revert pool r. induction amount as [|amount IH]; intros pool r Ha Hn.
  { cbn. split_and!; [done|constructor|]. intros x ?%elem_of_nil. done. }
  cbn [rng_pick]. rewrite (surjective_pairing (rng_draw r)). set (v := (rng_draw r).1).
  pose proof (N.mod_lt v (N.of_nat (length pool)) ltac:(lia)).
  destruct (lookup_lt_is_Some_2 pool (N.to_nat (v mod N.of_nat (length pool)))) as [x Hx]; [lia|].
  rewrite Hx. set (i := N.to_nat _) in *.
  assert (Hp : pool ≡ₚ x :: delete i pool) by by apply delete_Permutation.
  assert (Hn' := Hn). rewrite Hp in Hn'. apply NoDup_cons in Hn' as [Hx1 Hn'].
  destruct (IH (delete i pool) (rng_draw r).2) as (H1 & H2 & H3).
  { assert (length pool = S (length (delete i pool))) by (by rewrite Hp at 1). lia. }
  { done. }
  rewrite (surjective_pairing (rng_pick (delete i pool) amount (rng_draw r).2)). cbn [fst].
  split_and!.
  - cbn [length]. f_equal. exact H1.
  - constructor; [|done]. intros Hin. by apply Hx1, H3.
  - intros y [->|Hy]%elem_of_cons.
    + by eapply elem_of_list_lookup_2.
    + rewrite Hp. right. by apply H3.
Qed.
Lemma expect_indices_ok l :
  Forall (fun x => (x < 65280)%N) l -> expect_indices l = Val l.
Proof.
  induction 1 as [|x l Hx Hl IH]; [done|]. cbn. unfold mixnode_index_try_from, MAX_MIXNODE_INDEX.
  destruct (N.leb_spec x 65279); [|lia]. cbn. by rewrite IH.
Qed.
Lemma list_position_Some {A} (p : A -> bool) l i :
  list_position p l = Some i <->
  (exists x, l !! i = Some x /\ p x = true) /\ forall j y, j < i -> l !! j = Some y -> p y = false.
Proof.
  revert i. induction l as [|a l IH]; intros i; cbn.
  { split; [done|]. by intros [(x&?&_) _]. }
  destruct (p a) eqn:E.
  - split.
    + intros H. injection H as <-. split; [by exists a|]. intros j y Hj. lia.
    + intros [(x&Hx&Hpx) Hlt]. destruct i as [|i]; [done|].
      specialize (Hlt 0 a ltac:(lia) eq_refl). congruence.
  - destruct i as [|i].
    + split; [by destruct (list_position p l)|]. intros [(x&Hx&Hpx) _]. cbn in Hx. congruence.
    + transitivity (list_position p l = Some i).
      { destruct (list_position p l); cbn; split; congruence. }
      rewrite IH. cbn. split; intros [H1 H2]; (split; [done|]).
      * intros [|j] y Hj Hy; [cbn in Hy; congruence|]. apply (H2 j); [lia|done].
      * intros j y Hj Hy. apply (H2 (S j)); [lia|done].
Qed.
Lemma list_position_None {A} (p : A -> bool) l :
  list_position p l = None <-> forall x, x ∈ l -> p x = false.
Proof.
  induction l as [|a l IH]; cbn.
  { split; [|done]. intros _ x ?%elem_of_nil. done. }
  destruct (p a) eqn:E.
  - split; [done|]. intros H. specialize (H a ltac:(left)). congruence.
  - transitivity (list_position p l = None). { by destruct (list_position p l). }
    rewrite IH. split; intros H x; [intros [->|?]%elem_of_cons; auto|]. intros Hx. apply H. by right.
Qed.
Lemma mixnodes_at_spec t is ms :
  Forall2 (fun i m => tp_mixnodes t !! N.to_nat i = Some m) is ms -> tp_mixnodes_at t is = Val ms.
Proof.
  induction 1 as [|i m is ms Hi Hf IH]; [done|]. cbn. unfold tp_mixnode_at. rewrite Hi. cbn.
  by rewrite IH.
Qed.
Lemma n_range_lookups {A} (l : list A) a b :
  (a <= b)%N -> (N.to_nat b <= length l) ->
  Forall2 (fun i m => l !! N.to_nat i = Some m) (n_range a b) (take (N.to_nat (b - a)) (drop (N.to_nat a) l)).
Proof.
  intros Hab Hb. apply Forall2_same_length_lookup. unfold n_range. split.
  - rewrite map_length, seq_length, take_length, drop_length. lia.
  - intros i x y Hx Hy. rewrite list_lookup_fmap in Hx. apply fmap_Some in Hx as (k & Hk & ->).
    apply lookup_seq in Hk as [-> Hk]. cbn [Nat.add].
    rewrite lookup_take, lookup_drop in Hy by lia. rewrite <- Hy. f_equal. lia.
Qed.

(** The topology of a session: the local node is a mixnode exactly if its public key is in the list
    (the first occurrence counts); otherwise it gets the configured number of distinct gateways, or
    all mixnodes if there are fewer. Never panics with at most 65280 mixnodes. *)
Theorem C28_new (mixnodes : list mixnode) (local : bytes) (gateways : N) (r : rng) :
  length mixnodes ≤ N.to_nat 65280 ->
  exists t r', tp_new mixnodes local gateways r = Val (t, r') /\ topo_ok t /\
    tp_mixnodes t = mixnodes /\ tp_local_kx_public t = local /\
    match tp_local_node t with
    | LMixnode i => exists m, mixnodes !! N.to_nat i = Some m /\ mn_kx_public m = local /\
        forall j m', j < N.to_nat i -> mixnodes !! j = Some m' -> mn_kx_public m' <> local
    | LNonMixnode gs => local ∉ map mn_kx_public mixnodes /\
        N.of_nat (length gs) = N.min gateways (N.of_nat (length mixnodes))
    end.
Proof.
  intros Hn. unfold tp_new.
  match goal with |- context [assert_or_panic ?b] => replace b with true end.
  2:{ symmetry. apply N.leb_le. unfold MAX_MIXNODE_INDEX. lia. }
  cbn [assert_or_panic out_bind].
  destruct (list_position _ mixnodes) as [i|] eqn:E.
  - apply list_position_Some in E as [(m & Hm & Hk) Hlt]. apply bool_decide_eq_true in Hk.
    assert (Hi := Hm). apply lookup_lt_Some in Hi.
    unfold mixnode_index_try_from, MAX_MIXNODE_INDEX.
    destruct (N.leb_spec (N.of_nat i) 65279); [|lia]. cbn [expect out_bind].
    do 2 eexists. split; [done|]. unfold topo_ok. cbn. rewrite Nat2N.id. split_and!; [done|by exists m|done|done|].
    exists m. split_and!; [done|done|]. intros j m' Hj Hm'. specialize (Hlt j m' Hj Hm').
    by apply bool_decide_eq_false in Hlt.
  - pose proof (proj1 (list_position_None _ _) E) as E'. clear E. unfold rng_sample.
    set (len := N.of_nat (length mixnodes)).
    destruct (N.ltb_spec len (N.min gateways len)); [lia|]. cbn [out_bind].
    set (pool := map N.of_nat (seq 0 (N.to_nat len))). set (amount := N.to_nat (N.min gateways len)).
    destruct (rng_pick_spec pool amount r) as (H1 & H2 & H3).
    { unfold pool, amount. rewrite map_length, seq_length. lia. }
    { unfold pool. apply NoDup_fmap_2; [intros ???; lia|apply NoDup_seq]. }
    rewrite (surjective_pairing (rng_pick pool amount r)).
    assert (Hin : forall x, x ∈ (rng_pick pool amount r).1 -> (x < len)%N).
    { intros x Hx%H3. apply elem_of_list_fmap in Hx as (k & -> & Hk). apply elem_of_seq in Hk. lia. }
    rewrite expect_indices_ok.
    2:{ apply Forall_forall. intros x Hx%Hin. lia. }
    cbn [out_bind]. do 2 eexists. split; [done|]. unfold topo_ok. cbn. split_and!; try done.
    + apply Forall_forall. intros x Hx%Hin. lia.
    + intros Hx. apply elem_of_list_fmap in Hx as (m & -> & Hm). specialize (E' m Hm).
      by apply bool_decide_eq_false in E'.
    + transitivity (N.of_nat amount); [f_equal; exact H1|]. unfold amount. lia.
Qed.

(** The reserved peers of a mixnode are all the others, in order; those of any other node are its
    gateways, which are distinct mixnodes. *)
Theorem C28_reserved_peers (t : topology) :
  topo_ok t ->
  match tp_local_node t with
  | LMixnode i => tp_reserved_peers t = Val (delete (N.to_nat i) (tp_mixnodes t))
  | LNonMixnode gs => exists ps, tp_reserved_peers t = Val ps /\
      Forall2 (fun g m => tp_mixnodes t !! N.to_nat g = Some m) gs ps /\ NoDup gs
  end.
Proof.
  intros [Hn Hl]. unfold tp_reserved_peers. destruct (tp_local_node t) as [i|gs].
  - destruct Hl as (m & Hm & _). apply lookup_lt_Some in Hm as Hi.
    rewrite N.mod_small by lia. rewrite delete_take_drop.
    apply mixnodes_at_spec. apply Forall2_app.
    + pose proof (n_range_lookups (tp_mixnodes t) 0 i ltac:(lia) ltac:(lia)) as H.
      by rewrite N.sub_0_r, drop_0 in H.
    + pose proof (n_range_lookups (tp_mixnodes t) (i + 1) (N.of_nat (length (tp_mixnodes t))) ltac:(lia) ltac:(lia)) as H.
      rewrite take_ge in H by (rewrite drop_length; lia).
      by replace (S (N.to_nat i)) with (N.to_nat (i + 1)) by lia.
  - destruct Hl as [Hnd Hf].
    assert (Hex : exists ps, Forall2 (fun g m => tp_mixnodes t !! N.to_nat g = Some m) gs ps).
    { clear Hnd. induction Hf as [|g gs Hg Hf [ps IH]]; [by exists []|].
      apply lookup_lt_is_Some_2 in Hg as [m Hm]. exists (m :: ps). by constructor. }
    destruct Hex as [ps Hps]. exists ps. split_and!; [by apply mixnodes_at_spec|done|done].
Qed.

(** ** Examples *)
Definition ex_nodes : list mixnode :=
  map (fun i => Mixnode [N.of_nat i] [100 + N.of_nat i]%N 0) (seq 0 7).
Definition ex_tape (l : list N) : rng := Rng (fun i => default 0%N (l !! i)) 0.
Example ex_tp_mixnode :
  exists t r, tp_new ex_nodes [2%N] 3 (ex_tape []) = Val (t, r) /\ tp_local_node t = LMixnode 2%N /\
    exists ps, tp_reserved_peers t = Val ps /\ map mn_kx_public ps = [[0]; [1]; [3]; [4]; [5]; [6]]%N.
Proof. repeat eexists. Qed.
Example ex_tp_non_mixnode :
  exists t r, tp_new ex_nodes [99%N] 3 (ex_tape [10; 2; 4]%N) = Val (t, r) /\
    tp_local_node t = LNonMixnode [3; 2; 6]%N.
Proof. repeat eexists. Qed.
Example ex_choose :
  let g := RouteGenerator (Topology ex_nodes [2%N] (LMixnode 2%N)) [] [] in
  map (fun d => match choose_mixnode_index g [0; 2; 5]%N (ex_tape [d]) with Val (Ok (i, _)) => Some i | _ => None end)
    [0; 1; 2; 3]%N = [Some 1; Some 3; Some 4; Some 6]%N.
Proof. vm_compute. done. Qed.

Print Assumptions C27_choose.
Print Assumptions C28_new.
Print Assumptions C28_reserved_peers.
