(** C62, gateways: a node that is not a mixnode takes every selection of gateways with the same chance. *)
From Verif Require Export PUniform.

(** ** Specification *)

(** A selection of [n] different mixnodes out of [total] *)
Definition selection (total n : N) (gs : list N) : Prop :=
  NoDup gs /\ Forall (fun x => (x < total)%N) gs /\ N.of_nat (length gs) = n.

(** The topology of a node that is not a mixnode with such gateways *)
Definition outside_with (mixnodes : list mixnode) (local : bytes) (n : N) (t : topology) : Prop :=
  tp_mixnodes t = mixnodes /\ tp_local_kx_public t = local /\
  exists gs, tp_local_node t = LNonMixnode gs /\ selection (N.of_nat (length mixnodes)) n gs.

(** Creating the topology, as an operation that draws random numbers *)
Definition new_topology (mixnodes : list mixnode) (local : bytes) (gateways : N) (r : rng) :
    route_result topology :=
  '(t, r) ← tp_new mixnodes local gateways r; Val (Ok (t, r)).

(** ** Proof *)
Lemma uniform_map {A B} (m : rng -> route_result A) (m' : rng -> route_result B) (f : A -> B) ks (P : A -> Prop) (Q : B -> Prop) :
  (forall r a r', P a -> m r = Val (Ok (a, r')) -> m' r = Val (Ok (f a, r'))) ->
  (forall a, P a -> Q (f a)) -> (forall b, Q b -> exists a, P a /\ b = f a) ->
  (forall a a', P a -> P a' -> f a = f a' -> a = a') ->
  uniform m ks P -> uniform m' ks Q.
Proof.
  intros Hm HQ HP Hinj (H1 & H2 & H3). split_and!; [done| |].
  - intros r. destruct (H2 r) as (a & E & Ha). exists (f a). split; [by apply Hm|by apply HQ].
  - intros b Hb. destruct (HP b Hb) as (a & Ha & ->). destruct (H3 a Ha) as (vs & Hvs & Hr).
    exists vs. split; [done|]. intros r. rewrite <- Hr. split.
    + intros [r' E]. destruct (H2 r) as (a' & E' & Ha'). rewrite (Hm _ _ _ Ha' E') in E.
      assert (f a' = f a) as Hf%Hinj by congruence; [|done|done]. subst. eauto.
    + intros [r' E]. exists r'. by apply Hm.
Qed.

(** Bounds of the draws for [n] out of [len] elements *)
Fixpoint falling (len n : nat) : list N :=
  match n with O => [] | S n => N.of_nat len :: falling (len - 1) n end.

Lemma uniform_one {A} (l : list A) :
  l <> [] -> NoDup l ->
  uniform (fun r => Val (Ok (l !! N.to_nat ((rng_draw r).1 mod N.of_nat (length l)), (rng_draw r).2)))
    [N.of_nat (length l)] (fun o => exists x, o = Some x /\ x ∈ l).
Proof.
  intros Hl Hnd. destruct l as [|y l']; [done|]. set (l := y :: l') in *.
  assert (Hpos : (0 < N.of_nat (length l))%N) by (unfold l; cbn; lia).
  split_and!; [by repeat constructor| |].
  - intros r. destruct (lookup_lt_is_Some_2 l (N.to_nat ((rng_draw r).1 mod N.of_nat (length l)))) as [x Hx].
    { pose proof (N.mod_lt (rng_draw r).1 (N.of_nat (length l))). lia. }
    exists (Some x). rewrite Hx. cbn [length]. rewrite draw_after. split; [done|]. exists x. split; [done|].
    by eapply elem_of_list_lookup_2.
  - intros o (x & -> & Hx). apply elem_of_list_lookup in Hx as [i Hi].
    exists [N.of_nat i]. split.
    { constructor; [|constructor]. apply lookup_lt_Some in Hi. lia. }
    intros r. cbn [draws]. set (v := ((rng_draw r).1 mod N.of_nat (length l))%N). split.
    + intros [r' E]. assert (E' : l !! N.to_nat v = Some x) by congruence.
      f_equal. rewrite <- (NoDup_lookup _ _ _ _ Hnd E' Hi). lia.
    + intros E. assert (v = N.of_nat i) as -> by congruence. rewrite Nat2N.id, Hi. eauto.
Qed.

Lemma NoDup_delete {A} (l : list A) i x :
  NoDup l -> l !! i = Some x -> NoDup (delete i l) /\ (forall y, y ∈ delete i l <-> y ∈ l /\ y <> x).
Proof.
  intros Hnd Hi. pose proof (delete_Permutation l i x Hi) as Hp.
  rewrite Hp in Hnd. apply NoDup_cons in Hnd as [Hx Hnd]. split; [done|].
  intros y. assert (Hy : y ∈ l <-> y ∈ x :: delete i l) by (by rewrite <- Hp).
  rewrite Hy, elem_of_cons. clear Hy Hp. split; [|tauto]. intros Hy. split; [by right|]. intros ->. done.
Qed.

Lemma uniform_pick (n : nat) : forall pool,
  n ≤ length pool -> NoDup pool ->
  uniform (fun r => Val (Ok (rng_pick pool n r))) (falling (length pool) n)
    (fun xs => NoDup xs /\ (forall x, x ∈ xs -> x ∈ pool) /\ length xs = n).
Proof.
  induction n as [|n IH]; intros pool Hn Hnd.
  - eapply uniform_ext; [|intros a|exact (uniform_ret [])].
    + done.
    + split; [intros ->; split_and!; [constructor|by intros x Hx%elem_of_nil|done]|].
      intros (_ & _ & Hl). by apply nil_length_inv.
  - assert (Hp : pool <> []) by (intros ->; cbn in Hn; lia).
    pose proof (uniform_one (seq 0 (length pool))) as U. rewrite seq_length in U.
    specialize (U ltac:(destruct pool; [done|by cbn]) (NoDup_seq _ _)).
    cbn [falling].
    change (N.of_nat (length pool) :: falling (length pool - 1) n)
      with ([N.of_nat (length pool)] ++ falling (length pool - 1) n).
    eapply uniform_ext; [| |eapply (uniform_bind _ (fun o r => match o with
        | Some i => match pool !! i with
                    | Some x => let '(xs, r2) := rng_pick (delete i pool) n r in Val (Ok (x :: xs, r2))
                    | None => Panic end
        | None => Panic end) _ _ _
        (fun o ys => exists i x xs, o = Some i /\ pool !! i = Some x /\ ys = x :: xs /\
           NoDup xs /\ (forall z, z ∈ xs -> z ∈ delete i pool) /\ length xs = n) U)].
    + intros r. cbn [try_bind rng_pick].
      assert (Hlt : N.to_nat ((rng_draw r).1 mod N.of_nat (length pool)) < length pool).
      { destruct pool; [done|]. pose proof (N.mod_lt (rng_draw r).1 (N.of_nat (length (n0 :: pool)))). cbn [length] in *. lia. }
      rewrite (lookup_seq_lt 0 _ _ Hlt). cbn [Nat.add].
      destruct (lookup_lt_is_Some_2 _ _ Hlt) as [x Hx]. rewrite Hx.
      destruct (rng_draw r) as [v r1]. cbn [fst snd] in *. rewrite Hx.
      by destruct (rng_pick _ _ _).
    + intros ys. split.
      * intros (o & _ & i & x & xs & _ & Hi & -> & Hxs & Hin & <-).
        destruct (NoDup_delete _ _ _ Hnd Hi) as [Hd He]. split_and!; [|intros z Hz|done].
        -- apply NoDup_cons. split; [|done]. intros Hx%Hin%He. by destruct Hx.
        -- apply elem_of_cons in Hz as [->|Hz]; [by eapply elem_of_list_lookup_2|]. by apply Hin, He in Hz as [].
      * intros (Hys & Hin & Hlen). destruct ys as [|x xs]; [done|].
        assert (Hx : x ∈ pool) by (apply Hin; left). apply elem_of_list_lookup in Hx as [i Hi].
        apply NoDup_cons in Hys as [Hx Hxs]. destruct (NoDup_delete _ _ _ Hnd Hi) as [Hd He].
        exists (Some i). split.
        { exists i. split; [done|]. apply elem_of_seq. apply lookup_lt_Some in Hi. lia. }
        exists i, x, xs. split_and!; [done|done|done|done| |by injection Hlen].
        intros z Hz. apply He. split; [apply Hin; by right|]. by intros ->.
    + intros o (i & -> & Hi). apply elem_of_seq in Hi as [_ Hi]. cbn in Hi.
      destruct (lookup_lt_is_Some_2 _ _ Hi) as [x Hx]. destruct (NoDup_delete _ _ _ Hnd Hx) as [Hd He].
      assert (Hl : length (delete i pool) = length pool - 1) by (rewrite length_delete; [done|by rewrite Hx]).
      pose proof (IH (delete i pool) ltac:(lia) Hd) as U'. rewrite Hl in U'.
      eapply (uniform_map _ _ (cons x)); [| | | |exact U'].
      * intros r a r' _ E. cbn beta in E |- *. rewrite Hx. injection E as E. by rewrite E.
      * intros xs (H1 & H2 & H3). exists i, x, xs. by split_and!.
      * intros ys (i' & x' & xs & E & Hx' & -> & H). injection E as <-. exists xs. split; [done|].
        f_equal. congruence.
      * intros a a' _ _ E. by injection E.
    + intros o o' ys _ _ (i & x & xs & -> & Hi & -> & _) (i' & x' & xs' & -> & Hi' & E & _).
      injection E as <- _. f_equal. by eapply NoDup_lookup.
    + destruct pool as [|x pool]; [done|]. exists (Some 0). exists 0. split; [done|]. cbn. left.
Qed.

(** ** Theorem *)

(** C62: creating the topology of a node that is not a mixnode draws a fixed number of times, and each
    selection of the prescribed number of gateways, in each order, is the result for exactly one choice
    of draws. *)
Theorem C62_gateways (mixnodes : list mixnode) (local : bytes) (gateways : N) :
  (N.of_nat (length mixnodes) <= 65280)%N -> local ∉ map mn_kx_public mixnodes ->
  exists ks, uniform (new_topology mixnodes local gateways) ks
    (outside_with mixnodes local (N.min gateways (N.of_nat (length mixnodes)))).
Proof.
  intros Hlen Hout. set (len := N.of_nat (length mixnodes)). set (amount := N.to_nat (N.min gateways len)).
  set (pool := map N.of_nat (seq 0 (N.to_nat len))).
  assert (Hpl : length pool = N.to_nat len) by (unfold pool; by rewrite map_length, seq_length).
  assert (Hnd : NoDup pool) by (apply NoDup_fmap_2; [intros ???; lia|apply NoDup_seq]).
  assert (Hin : forall x, x ∈ pool <-> (x < len)%N).
  { intros x. unfold pool. rewrite elem_of_list_fmap. split.
    - intros (k & -> & Hk%elem_of_seq). lia.
    - intros Hx. exists (N.to_nat x). split; [lia|]. apply elem_of_seq. lia. }
  exists (falling (length pool) amount).
  eapply (uniform_map _ _ (fun gs => {| tp_mixnodes := mixnodes; tp_local_kx_public := local;
                                         tp_local_node := LNonMixnode gs |}));
    [| | | |exact (uniform_pick amount pool ltac:(lia) Hnd)].
  - intros r gs r' (_ & Hgs & _) E. injection E as E. unfold new_topology, tp_new.
    match goal with |- context [assert_or_panic ?b] => replace b with true end.
    2:{ symmetry. apply N.leb_le. unfold MAX_MIXNODE_INDEX. lia. }
    cbn [assert_or_panic out_bind].
    replace (list_position _ mixnodes) with (@None nat).
    2:{ symmetry. apply list_position_None. intros m Hm. apply bool_decide_eq_false. intros <-. apply Hout.
        apply elem_of_list_fmap. by exists m. }
    cbn zeta. fold len. unfold rng_sample. fold pool amount.
    destruct (N.ltb_spec len (N.min gateways len)); [lia|]. rewrite E. cbn [out_bind].
    rewrite expect_indices_ok; [done|]. apply Forall_forall. intros x Hx%Hgs%Hin. lia.
  - intros gs (H1 & H2 & H3). split_and!; [done|done|]. exists gs. split; [done|]. split_and!; [done| |].
    + apply Forall_forall. intros x Hx. by apply Hin, H2.
    + fold len. lia.
  - intros [ms lk ln] (H1 & H2 & gs & H3 & H4 & H5 & H6). cbn in *. subst. exists gs. split; [|done].
    split_and!; [done| |fold len in H6; lia]. intros x Hx. apply Hin. rewrite Forall_forall in H5. by apply H5.
  - intros gs gs' _ _ E. by injection E.
Qed.

(** ** Example: two gateways out of four mixnodes; the twelve choices of draws below 4 and 3 give the
    twelve selections. *)
Definition ex_four : list mixnode :=
  map (fun k => {| mn_kx_public := [k]; mn_peer_id := [k]; mn_extra := 0 |}) [1; 2; 3; 4]%N.
Definition ex_selections : list (list N) :=
  mbind (fun a => map (fun b =>
    match new_topology ex_four [9]%N 2 (ex_tape [a; b]) with
    | Val (Ok (t, _)) => match tp_local_node t with LNonMixnode gs => gs | LMixnode _ => [] end
    | _ => []
    end) [0; 1; 2]%N) [0; 1; 2; 3]%N.
Example ex_gateways :
  (exists ks, uniform (new_topology ex_four [9]%N 2) ks (outside_with ex_four [9]%N 2)) /\
  ex_selections = [[0; 1]; [0; 2]; [0; 3]; [1; 0]; [1; 2]; [1; 3];
                   [2; 0]; [2; 1]; [2; 3]; [3; 0]; [3; 1]; [3; 2]]%N.
Proof.
  split; [|vm_compute; done]. apply (C62_gateways ex_four [9]%N 2).
  - vm_compute. done.
  - cbn. intros H. repeat (apply elem_of_cons in H as [H|H]; [done|]). by apply elem_of_nil in H.
Qed.

Print Assumptions C62_gateways.
