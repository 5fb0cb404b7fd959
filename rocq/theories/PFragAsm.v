(** The fragment assembler: invariant and case analysis of one insertion. *)
From Verif Require Import LBase PScattered.
From Verif Require Export PFragWire.

(** ** Specification *)

(** The message carried by a list of fragments in index order *)
Definition msg_of (fs : list bytes) : generic_message :=
  {| gm_id := sp_id (default [] (head fs));
     gm_data := concat (map sp_data fs);
     gm_surbs := concat (map sp_surbs fs) |}.

(** Number of fragments held in the slots of a message *)
Fixpoint held (l : list (option bytes)) : nat :=
  match l with
  | [] => 0
  | Some _ :: l' => S (held l')
  | None :: l' => held l'
  end.

Definition held_total (m : lhm bytes incomplete_message) : nat :=
  sum_list_with (fun '(_, im) => held (im_fragments im)) m.

(** [f] is a well-formed fragment of message [k], index [i] out of [n], satisfying [P] (used to say
    it was received) *)
Definition frag_in (P : bytes -> Prop) (k : bytes) (n i : nat) (f : bytes) : Prop :=
  length f = N.to_nat 2048 /\ sp_valid f /\ sp_id f = k /\ sp_count f = N.of_nat n /\
  sp_index f = N.of_nat i /\ P f.

Definition entry_ok (P : bytes -> Prop) (k : bytes) (im : incomplete_message) : Prop :=
  im_num_received im = N.of_nat (held (im_fragments im)) /\
  1 ≤ held (im_fragments im) < length (im_fragments im) /\
  forall i f, im_fragments im !! i = Some (Some f) ->
              frag_in P k (length (im_fragments im)) i f.

Record fa_inv (P : bytes -> Prop) (fa : fragment_assembler) : Prop := {
  inv_nodup : NoDup (lhm_keys (fa_incomplete fa));
  inv_count : fa_num_fragments fa = N.of_nat (held_total (fa_incomplete fa));
  inv_entries : Forall (fun '(k, im) => entry_ok P k im) (fa_incomplete fa);
  inv_max_messages : (N.of_nat (length (fa_incomplete fa)) <= fa_max_messages fa)%N;
  inv_max_fragments : (N.of_nat (held_total (fa_incomplete fa)) <= fa_max_fragments fa)%N
}.

(** Slots of the message of [f]: those held, or all empty *)
Definition slots_for (fa : fragment_assembler) (f : bytes) : list (option bytes) :=
  match lhm_get (fa_incomplete fa) (sp_id f) with
  | Some im => im_fragments im
  | None => replicate (N.to_nat (sp_count f)) None
  end.

(** A fragment to be ignored *)
Definition bad (fa : fragment_assembler) (f : bytes) : Prop :=
  ~ sp_valid f \/ (fa_max_per_message fa < sp_count f)%N \/
  (sp_count f <> 1%N /\
   exists im, lhm_get (fa_incomplete fa) (sp_id f) = Some im /\
     (N.of_nat (length (im_fragments im)) <> sp_count f \/
      exists g, im_fragments im !! N.to_nat (sp_index f) = Some (Some g))).

(** ** Lemmas *)
Lemma held_le l : held l ≤ length l.
Proof. induction l as [|[x|] l IH]; simpl; lia. Qed.
Lemma held_replicate n : held (replicate n None) = 0.
Proof. induction n; simpl; done. Qed.
Lemma held_insert l i (f : bytes) : l !! i = Some None -> held (<[i := Some f]> l) = S (held l).
Proof.
  revert i. induction l as [|[x|] l IH]; intros [|i] Hi; simpl in *; try done.
  - by rewrite IH.
  - by rewrite IH.
Qed.
Lemma held_full l : held l = length l -> exists fs, l = map Some fs.
Proof.
  induction l as [|[x|] l IH]; simpl; intros H.
  - by exists [].
  - destruct IH as [fs ->]; [lia|]. by exists (x :: fs).
  - pose proof (held_le l). lia.
Qed.
Lemma held_map_Some fs : held (map Some fs) = length fs.
Proof. induction fs; simpl; congruence. Qed.
Lemma expect_all_Some fs : expect_all (map Some fs) = Val fs.
Proof. induction fs as [|f fs IH]; simpl; [done|]. by rewrite IH. Qed.

Lemma held_total_app m1 m2 : held_total (m1 ++ m2) = held_total m1 + held_total m2.
Proof. unfold held_total. induction m1 as [|[k im] m1 IH]; simpl; [done|]. rewrite IH. lia. Qed.

Lemma from_fragments_loop_spec data surbs fs :
  Forall (fun f => length f = N.to_nat 2048 /\ sp_valid f) fs ->
  from_fragments_loop data surbs fs =
    Val (data ++ concat (map sp_data fs), surbs ++ concat (map sp_surbs fs)).
Proof.
  intros Hfs. revert data surbs. induction Hfs as [|f fs [Hl Hv] Hfs IH]; intros data surbs; simpl.
  - by rewrite !app_nil_r.
  - rewrite check_fragment_sp by done. rewrite bool_decide_eq_true_2 by done. simpl.
    rewrite slice_to_data by done. simpl. rewrite take_rchunks_surbs by done.
    rewrite IH. by rewrite <- !app_assoc.
Qed.
Lemma from_fragments_spec fs :
  fs <> [] -> Forall (fun f => length f = N.to_nat 2048 /\ sp_valid f) fs ->
  from_fragments fs = Val (msg_of fs).
Proof.
  intros Hne Hfs. unfold from_fragments. destruct fs as [|f fs]; [done|].
  rewrite from_fragments_loop_spec by done. done.
Qed.

Lemma im_insert_spec im (f : bytes) :
  length f = N.to_nat 2048 -> sp_valid f ->
  im_num_received im = N.of_nat (held (im_fragments im)) ->
  im_insert im f =
    if decide (N.of_nat (length (im_fragments im)) = sp_count f) then
      match im_fragments im !! N.to_nat (sp_index f) with
      | Some None =>
          Val (Ok {| im_fragments := <[N.to_nat (sp_index f) := Some f]> (im_fragments im);
                     im_num_received := N.of_nat (S (held (im_fragments im))) |})
      | _ => Val (Err AlreadyHave)
      end
    else Val (Err InconsistentNumFragments).
Proof.
  intros Hl Hv Hr. unfold im_insert. rewrite check_fragment_sp by done.
  rewrite bool_decide_eq_true_2 by done. simpl.
  rewrite num_fragments_sp, fragment_index_sp by done.
  case_decide as E.
  - rewrite <- E, N.eqb_refl. simpl.
    destruct Hv as [Hi _].
    destruct (lookup_lt_is_Some_2 (im_fragments im) (N.to_nat (sp_index f))) as [s Hs]; [lia|].
    rewrite Hs. simpl. destruct s as [g|]; [done|].
    rewrite Hr, insert_length.
    assert (S (held (im_fragments im)) ≤ length (im_fragments im)) as Hle.
    { rewrite <- (held_insert _ _ f Hs). etransitivity; [apply held_le|]. by rewrite insert_length. }
    destruct (N.leb_spec (N.of_nat (held (im_fragments im)) + 1) (N.of_nat (length (im_fragments im))));
      [|lia]. simpl. do 2 f_equal. f_equal. lia.
  - destruct (N.eqb_spec (sp_count f) (N.of_nat (length (im_fragments im)))); [congruence|done].
Qed.

Lemma maybe_evict_spec P fa im f m :
  Forall (fun '(k, im) => entry_ok P k im) (m ++ [(f, im)]) ->
  (N.of_nat (length m) <= fa_max_messages fa)%N ->
  (N.of_nat (held_total (m ++ [(f, im)])) <= fa_max_fragments fa + 1)%N ->
  let new := m ++ [(f, im)] in
  let over := (fa_max_messages fa < N.of_nat (length new))%N \/
              (fa_max_fragments fa < N.of_nat (held_total new))%N in
  fa_maybe_evict (fa_set fa new (N.of_nat (held_total new))) =
    Val (let new' := if decide over then tail new else new in
         fa_set fa new' (N.of_nat (held_total new'))).
Proof.
  intros He Hm Hf new over. unfold fa_maybe_evict, fa_need_eviction. simpl.
  assert ((fa_max_messages fa <? N.of_nat (length new))%N
          || (fa_max_fragments fa <? N.of_nat (held_total new))%N = bool_decide over) as ->.
  { unfold over. destruct (N.ltb_spec (fa_max_messages fa) (N.of_nat (length new)));
      destruct (N.ltb_spec (fa_max_fragments fa) (N.of_nat (held_total new))); simpl; symmetry;
      rewrite ?bool_decide_eq_true, ?bool_decide_eq_false; lia. }
  destruct (decide over) as [Ho|Ho].
  - rewrite bool_decide_eq_true_2 by done. destruct new as [|[k im0] rest] eqn:En.
    { subst new. by destruct m. }
    simpl. assert (entry_ok P k im0) as (Hr & [H1 _] & _).
    { fold new in He. rewrite En in He. by apply Forall_cons in He as [He _]. }
    rewrite Hr. unfold sub_or_panic. simpl.
    destruct (N.leb_spec (N.of_nat (held (im_fragments im0)))
                (N.of_nat (held (im_fragments im0) + held_total rest))); [|lia]. simpl.
    assert (length rest ≤ length m) as Hlr.
    { assert (length new = length m + 1) by (unfold new; by rewrite app_length).
      rewrite En in H0. simpl in H0. lia. }
    fold new in Hf. rewrite En in Hf. simpl in Hf.
    replace (N.of_nat (held (im_fragments im0) + held_total rest) - N.of_nat (held (im_fragments im0)))%N
      with (N.of_nat (held_total rest)) by lia.
    destruct (N.ltb_spec (fa_max_messages fa) (N.of_nat (length rest))); [lia|]. simpl.
    destruct (N.ltb_spec (fa_max_fragments fa) (N.of_nat (held_total rest))); [lia|]. done.
  - rewrite bool_decide_eq_false_2 by done. done.
Qed.

(** ** One insertion *)
Inductive insert_case (P : bytes -> Prop) (fa : fragment_assembler) (f : bytes)
  : fragment_assembler -> option generic_message -> Prop :=
| IcBad : bad fa f -> insert_case P fa f fa None
| IcSingle :
    ~ bad fa f -> sp_count f = 1%N -> insert_case P fa f fa (Some (msg_of [f]))
| IcComplete m1 im m2 fs :
    ~ bad fa f -> sp_count f <> 1%N ->
    lhm_get (fa_incomplete fa) (sp_id f) = Some im ->
    fa_incomplete fa = m1 ++ (sp_id f, im) :: m2 ->
    <[N.to_nat (sp_index f) := Some f]> (im_fragments im) = map Some fs ->
    N.of_nat (length fs) = sp_count f ->
    (forall i g, fs !! i = Some g -> frag_in P (sp_id f) (length fs) i g) ->
    insert_case P fa f (fa_set fa (m1 ++ m2) (N.of_nat (held_total (m1 ++ m2)))) (Some (msg_of fs))
| IcPartial rest im' :
    ~ bad fa f -> sp_count f <> 1%N ->
    rest = lhm_remove (fa_incomplete fa) (sp_id f) ->
    im_fragments im' = <[N.to_nat (sp_index f) := Some f]> (slots_for fa f) ->
    slots_for fa f !! N.to_nat (sp_index f) = Some None ->
    N.of_nat (length (slots_for fa f)) = sp_count f ->
    entry_ok P (sp_id f) im' ->
    let new := rest ++ [(sp_id f, im')] in
    let new' := if decide ((fa_max_messages fa < N.of_nat (length new))%N \/
                           (fa_max_fragments fa < N.of_nat (held_total new))%N)
                then tail new else new in
    insert_case P fa f (fa_set fa new' (N.of_nat (held_total new'))) None.

Lemma lhm_keys_app {K V} (m1 m2 : lhm K V) : lhm_keys (m1 ++ m2) = lhm_keys m1 ++ lhm_keys m2.
Proof. apply map_app. Qed.

Lemma frag_in_insert P k l (f : bytes) i g :
  (forall i f, l !! i = Some (Some f) -> frag_in P k (length l) i f) ->
  length f = N.to_nat 2048 -> sp_valid f -> sp_id f = k -> sp_count f = N.of_nat (length l) -> P f ->
  <[N.to_nat (sp_index f) := Some f]> l !! i = Some (Some g) ->
  frag_in P k (length l) i g.
Proof.
  intros Hl Hf Hv Hk Hc HP Hi.
  destruct (decide (i = N.to_nat (sp_index f))) as [->|Hne].
  - rewrite list_lookup_insert in Hi by (destruct Hv; lia). simplify_eq.
    unfold frag_in. split_and!; try done. lia.
  - rewrite list_lookup_insert_ne in Hi by done. by apply Hl.
Qed.

Lemma lhm_to_back_set {K V} `{EqDecision K} (m : lhm K V) k v v' :
  lhm_get m k = Some v -> lhm_to_back (lhm_set m k v') k = lhm_remove m k ++ [(k, v')].
Proof.
  intros Hg. unfold lhm_to_back. rewrite lhm_get_set, decide_True by done. rewrite Hg. simpl.
  f_equal.
  destruct (lhm_set_split m k v v' Hg) as (m1&m2&->&->&Hk).
  assert (forall w, lhm_remove (m1 ++ (k, w) :: m2) k = m1 ++ m2) as Hr; [|by rewrite !Hr].
  intros w. clear Hg. induction m1 as [|[k1 v1] m1 IH]; simpl; [by rewrite decide_True|].
  simpl in Hk. apply not_elem_of_cons in Hk as [Hk1 Hk2].
  rewrite decide_False by done. by rewrite IH.
Qed.
Lemma lhm_remove_set {K V} `{EqDecision K} (m : lhm K V) k v v' :
  lhm_get m k = Some v -> lhm_remove (lhm_set m k v') k = lhm_remove m k.
Proof.
  intros Hg. pose proof (lhm_to_back_set m k v v' Hg) as H. unfold lhm_to_back in H.
  rewrite lhm_get_set, decide_True, Hg in H by done. simpl in H. by apply app_inj_tail in H as [H _].
Qed.

Lemma fa_insert_case P fa (f : bytes) :
  fa_inv P fa -> length f = N.to_nat 2048 -> P f ->
  exists fa' out, fa_insert fa f = Val (fa', out) /\ insert_case P fa f fa' out.
Proof.
  intros [Hnd Hcnt Hent Hmm Hmf] Hl HP. unfold fa_insert.
  rewrite check_fragment_sp by done.
  destruct (decide (sp_valid f)) as [Hv|Hv].
  2:{ rewrite bool_decide_eq_false_2 by done. simpl. eexists _, _. split; [done|].
      apply IcBad. by left. }
  rewrite bool_decide_eq_true_2 by done. simpl.
  rewrite num_fragments_sp by done. rewrite message_id_sp.
  destruct (N.ltb_spec (fa_max_per_message fa) (sp_count f)) as [Hmax|Hmax].
  { eexists _, _. split; [done|]. apply IcBad. right. by left. }
  destruct (N.eqb_spec (sp_count f) 1) as [H1|H1].
  { rewrite from_fragments_spec by (done || by constructor; [|constructor]). simpl.
    eexists _, _. split; [done|]. apply IcSingle; [|done].
    intros [?|[?|[? _]]]; [done|lia|done]. }
  destruct (lhm_get (fa_incomplete fa) (sp_id f)) as [im|] eqn:Hg.
  - assert (entry_ok P (sp_id f) im) as (Hr & Hh & Hsl).
    { apply lhm_get_Some_elem in Hg. rewrite Forall_forall in Hent.
      apply (Hent (sp_id f, im)). done. }
    rewrite im_insert_spec by done.
    case_decide as Hlen.
    2:{ simpl. eexists _, _. split; [done|]. apply IcBad. right. right. split; [done|].
        exists im. split; [done|]. by left. }
    destruct (im_fragments im !! N.to_nat (sp_index f)) as [[g|]|] eqn:Hs; cbn [out_bind].
    + eexists _, _. split; [done|]. apply IcBad. right. right. split; [done|].
      exists im. split; [done|]. right. by exists g.
    + assert (~ bad fa f) as Hnb.
      { intros [?|[?|(_ & im2 & Hg2 & Hb)]]; [done|lia|].
        simplify_eq. destruct Hb as [?|[g Hb]]; [done|]. congruence. }
      set (im' := {| im_fragments := _; im_num_received := _ |}).
      assert (held (im_fragments im') = S (held (im_fragments im))) as Hh'
        by (by apply held_insert).
      assert (forall i g, im_fragments im' !! i = Some (Some g) ->
                frag_in P (sp_id f) (length (im_fragments im)) i g) as Hsl'.
      { intros i g Hi. eapply frag_in_insert; eauto. }
      destruct (lhm_remove_split _ _ _ Hg) as (m1 & m2 & Em & Er & Hk1).
      assert (held_total (fa_incomplete fa) = held (im_fragments im) + held_total (m1 ++ m2)) as Ht.
      { rewrite Em, !held_total_app. simpl. lia. }
      assert (im_num_received im' = N.of_nat (S (held (im_fragments im)))) as Hrec by done.
      assert (im_fragments im' = <[N.to_nat (sp_index f) := Some f]> (im_fragments im)) as Hfr by done.
      clearbody im'.
      assert (length (im_fragments im') = length (im_fragments im)) as Hlen'
        by (by rewrite Hfr, insert_length).
      unfold im_complete_fragments. rewrite Hrec, Hlen'.
      destruct (N.eqb_spec (N.of_nat (S (held (im_fragments im)))) (N.of_nat (length (im_fragments im))))
        as [Hfull|Hnot].
      * destruct (held_full (im_fragments im')) as [fs Hfs]; [lia|].
        rewrite Hfs, expect_all_Some. cbn [out_bind].
        assert (length fs = length (im_fragments im)) as Lfs.
        { rewrite <- Hlen', Hfs. by rewrite map_length. }
        assert (forall i g, fs !! i = Some g -> frag_in P (sp_id f) (length fs) i g) as Hfi.
        { intros i g Hi. rewrite Lfs. apply Hsl'. rewrite Hfs.
          rewrite (list_lookup_fmap Some). by rewrite Hi. }
        rewrite from_fragments_spec; cycle 1.
        { intros ->. simpl in Lfs. lia. }
        { apply Forall_lookup. intros i g Hi. by destruct (Hfi i g Hi) as (?&?&_). }
        cbn [out_bind]. unfold sub_or_panic. rewrite Hcnt, Ht.
        destruct (N.leb_spec (N.of_nat (S (held (im_fragments im))))
                    (N.of_nat (held (im_fragments im) + held_total (m1 ++ m2)) + 1)); [|lia].
        cbn [out_bind]. rewrite (lhm_remove_set _ _ im) by done. rewrite Er.
        replace (N.of_nat (held (im_fragments im) + held_total (m1 ++ m2)) + 1 -
                 N.of_nat (S (held (im_fragments im))))%N
          with (N.of_nat (held_total (m1 ++ m2))) by lia.
        eexists _, _. split; [done|]. eapply IcComplete; eauto; first [lia | by rewrite <- Hfr].
      * cbn [out_bind]. rewrite (lhm_to_back_set _ _ im) by done.
        assert (held_total (lhm_remove (fa_incomplete fa) (sp_id f) ++ [(sp_id f, im')]) =
                S (held_total (fa_incomplete fa))) as Ht'.
        { rewrite Er, held_total_app, Ht. simpl. rewrite Hh'. lia. }
        rewrite Hcnt.
        replace (N.of_nat (held_total (fa_incomplete fa)) + 1)%N with
          (N.of_nat (held_total (lhm_remove (fa_incomplete fa) (sp_id f) ++ [(sp_id f, im')])))
          by lia.
        assert (entry_ok P (sp_id f) im') as He'.
        { split; [|split].
          - by rewrite Hh'.
          - rewrite Hh', Hlen'. lia.
          - rewrite Hlen'. apply Hsl'. }
        rewrite (maybe_evict_spec P); cycle 1.
        { rewrite Er. rewrite Em in Hent. apply Forall_app in Hent as [He1 He2].
          apply Forall_cons in He2 as [_ He2].
          apply Forall_app. split; [by apply Forall_app|]. by constructor. }
        { pose proof (lhm_remove_length _ _ _ Hg). lia. }
        { lia. }
        cbn [out_bind]. eexists _, _. split; [done|].
        eapply (IcPartial P fa f); eauto; unfold slots_for; by rewrite Hg.
    + exfalso. apply lookup_ge_None in Hs. destruct Hv. lia.
  - assert (~ bad fa f) as Hnb.
    { intros [?|[?|(_ & im2 & Hg2 & Hb)]]; [done|lia|]. congruence. }
    rewrite im_insert_spec; [|done|done|simpl; by rewrite held_replicate].
    simpl. rewrite replicate_length. rewrite decide_True by lia.
    rewrite lookup_replicate_2 by (destruct Hv; lia). rewrite held_replicate. simpl.
    set (im' := {| im_fragments := _; im_num_received := _ |}).
    assert (held (im_fragments im') = 1) as Hh'.
    { simpl. rewrite held_insert; [by rewrite held_replicate|].
      apply lookup_replicate_2. destruct Hv; lia. }
    unfold lhm_push_back.
    assert (held_total (fa_incomplete fa ++ [(sp_id f, im')]) = S (held_total (fa_incomplete fa))) as Ht'.
    { rewrite held_total_app. simpl. simpl in Hh'. rewrite Hh'. lia. }
    rewrite Hcnt.
    replace (N.of_nat (held_total (fa_incomplete fa)) + 1)%N with
      (N.of_nat (held_total (fa_incomplete fa ++ [(sp_id f, im')]))) by lia.
    assert (entry_ok P (sp_id f) im') as He'.
    { split; [|split].
      - by rewrite Hh'.
      - rewrite Hh'. simpl. rewrite insert_length, replicate_length. destruct Hv. lia.
      - simpl. rewrite insert_length. intros i g Hi. eapply frag_in_insert; eauto.
        + intros i0 g0 H0. apply lookup_replicate in H0 as [? _]. done.
        + rewrite replicate_length. lia. }
    rewrite (maybe_evict_spec P); cycle 1.
    { apply Forall_app. split; [done|]. by constructor. }
    { lia. }
    { lia. }
    simpl. eexists _, _. split; [done|].
    rewrite <- (lhm_remove_None (fa_incomplete fa) (sp_id f)) by done.
    eapply (IcPartial P fa f); eauto; unfold slots_for; rewrite Hg; try done.
    + apply lookup_replicate_2. destruct Hv; lia.
    + rewrite replicate_length. lia.
Qed.

Lemma insert_case_limits P fa f fa' out :
  insert_case P fa f fa' out ->
  fa_max_messages fa' = fa_max_messages fa /\ fa_max_fragments fa' = fa_max_fragments fa /\
  fa_max_per_message fa' = fa_max_per_message fa.
Proof. by destruct 1. Qed.

Lemma Forall_tail {A} (Q : A -> Prop) l : Forall Q l -> Forall Q (tail l).
Proof. destruct 1; simpl; [constructor|done]. Qed.
Lemma NoDup_tail {A} (l : list A) : NoDup l -> NoDup (tail l).
Proof. destruct 1; simpl; [constructor|done]. Qed.

Lemma insert_case_inv P fa (f : bytes) fa' out :
  fa_inv P fa -> insert_case P fa f fa' out -> fa_inv P fa'.
Proof.
  intros Hinv Hc. destruct Hc as [| |m1 im m2 fs Hnb H1 Hg Em|rest im' Hnb H1 Er Hf Hs Hln He' new new'].
  - done.
  - done.
  - destruct Hinv as [Hnd Hcnt Hent Hmm Hmf].
    rewrite Em in *. unfold lhm_keys in Hnd. rewrite map_app in Hnd. simpl in Hnd.
    rewrite held_total_app in Hmf. simpl in Hmf. rewrite app_length in Hmm. simpl in Hmm.
    apply NoDup_app in Hnd as (N1 & N2 & N3). apply NoDup_cons in N3 as [N3 N4].
    apply Forall_app in Hent as [E1 E2]. apply Forall_cons in E2 as [_ E2].
    split; simpl.
    + unfold lhm_keys. rewrite map_app. apply NoDup_app. split; [done|]. split; [|done].
      intros x Hx Hx2. apply (N2 x Hx). by right.
    + done.
    + by apply Forall_app.
    + rewrite app_length. lia.
    + rewrite held_total_app. lia.
  - destruct Hinv as [Hnd Hcnt Hent Hmm Hmf].
    assert (Forall (fun '(k, im) => entry_ok P k im) rest) as Hrest.
    { subst rest. destruct (lhm_get (fa_incomplete fa) (sp_id f)) as [im|] eqn:Hg.
      - destruct (lhm_remove_split _ _ _ Hg) as (m1&m2&Em&->&_). rewrite Em in Hent.
        apply Forall_app in Hent as [E1 E2]. apply Forall_cons in E2 as [_ E2].
        by apply Forall_app.
      - by rewrite lhm_remove_None. }
    assert (Forall (fun '(k, im) => entry_ok P k im) new) as Hnew.
    { apply Forall_app. split; [done|]. by constructor. }
    assert (NoDup (lhm_keys new)) as Hndn.
    { unfold new. rewrite lhm_keys_app. apply NoDup_app. split; [|split].
      - subst rest. by apply lhm_remove_keys_NoDup.
      - intros x Hx. simpl. rewrite elem_of_list_singleton. intros ->.
        subst rest. revert Hx. apply lhm_get_None.
        rewrite lhm_get_remove by done. by rewrite decide_True.
      - simpl. apply NoDup_singleton. }
    assert (held_total new = S (held_total (fa_incomplete fa)) /\
            length rest ≤ length (fa_incomplete fa)) as [Htn Hlr].
    { unfold new. rewrite held_total_app. simpl. rewrite Hf.
      rewrite held_insert by done. subst rest. unfold slots_for in *.
      destruct (lhm_get (fa_incomplete fa) (sp_id f)) as [im|] eqn:Hg.
      - destruct (lhm_remove_split _ _ _ Hg) as (m1&m2&Em&->&_). rewrite Em, !held_total_app. simpl.
        rewrite !app_length. simpl. lia.
      - rewrite lhm_remove_None by done. rewrite held_replicate. lia. }
    assert (length new = S (length rest)) as Hln'.
    { unfold new. rewrite app_length. simpl. lia. }
    unfold new'. case_decide as Ho.
    + destruct new as [|[k0 im0] tl] eqn:En; [done|]. simpl.
      apply Forall_cons in Hnew as [(_&[Hh _]&_) Htl].
      simpl in *. apply NoDup_cons in Hndn as [_ Hndn].
      split; simpl; [done|done|done|lia|lia].
    + split; simpl; [done|done|done|lia|lia].
Qed.

Lemma fa_inv_mono (P Q : bytes -> Prop) fa :
  (forall f, P f -> Q f) -> fa_inv P fa -> fa_inv Q fa.
Proof.
  intros HPQ [? ? He ? ?]. split; try done.
  eapply Forall_impl; [exact He|]. intros [k im] (?&?&Hs). split; [done|]. split; [done|].
  intros i f Hi. destruct (Hs i f Hi) as (?&?&?&?&?&?). unfold frag_in. eauto 10.
Qed.
Lemma fa_new_inv P a b c : fa_inv P (fa_new a b c).
Proof. split; simpl; [constructor|done|constructor|lia|lia]. Qed.
