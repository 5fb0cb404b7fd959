(** C01, C03, C04, C05, C06: the fragment assembler. *)
From stdpp Require Import sorting.
From Verif Require Import LBase PScattered.
From Verif Require Export PFragAsm.

(** ** Histories of insertions *)
Fixpoint fa_inserts (fa : fragment_assembler) (fs : list bytes)
  : outcome (fragment_assembler * list (option generic_message)) :=
  match fs with
  | [] => Val (fa, [])
  | f :: fs' =>
      '(fa, out) ← fa_insert fa f;
      '(fa, outs) ← fa_inserts fa fs';
      Val (fa, out :: outs)
  end.

(** [fa] is the state of an assembler, created with some limits, that has received [hist] *)
Definition fa_reachable (hist : list bytes) (fa : fragment_assembler) : Prop :=
  exists a b c outs, fa_inserts (fa_new a b c) hist = Val (fa, outs).

Definition frag_sized (f : bytes) : Prop := length f = N.to_nat 2048.

Lemma fa_inserts_inv (P : bytes -> Prop) fa fs :
  fa_inv P fa -> Forall frag_sized fs -> (forall f, f ∈ fs -> P f) ->
  exists fa' outs, fa_inserts fa fs = Val (fa', outs) /\ fa_inv P fa' /\ length outs = length fs /\
    fa_max_messages fa' = fa_max_messages fa /\ fa_max_fragments fa' = fa_max_fragments fa /\
    fa_max_per_message fa' = fa_max_per_message fa.
Proof.
  intros Hi Hf HP. revert fa Hi. induction Hf as [|f fs Hs Hf IH]; intros fa Hi; simpl.
  { eexists _, _. split_and!; done. }
  destruct (fa_insert_case P fa f Hi Hs (HP f ltac:(left))) as (fa1 & out & E & Hc).
  rewrite E. simpl. pose proof (insert_case_inv _ _ _ _ _ Hi Hc) as Hi1.
  destruct (insert_case_limits _ _ _ _ _ Hc) as (L1 & L2 & L3).
  destruct (IH ltac:(intros; apply HP; by right) fa1 Hi1) as (fa2 & outs & E2 & Hi2 & Hl & ? & ? & ?).
  rewrite E2. simpl. eexists _, _. split; [done|]. split; [done|]. split; [simpl; lia|].
  split_and!; congruence.
Qed.

Lemma fa_inserts_app fa l1 l2 :
  fa_inserts fa (l1 ++ l2) =
    ('(fa1, o1) ← fa_inserts fa l1; '(fa2, o2) ← fa_inserts fa1 l2; Val (fa2, o1 ++ o2)).
Proof.
  revert fa. induction l1 as [|f l1 IH]; intros fa; simpl.
  { by destruct (fa_inserts fa l2) as [[? ?]|]. }
  destruct (fa_insert fa f) as [[fa1 o]|]; simpl; [|done]. rewrite IH.
  destruct (fa_inserts fa1 l1) as [[fa2 o1]|]; simpl; [|done].
  by destruct (fa_inserts fa2 l2) as [[? ?]|].
Qed.

Lemma reachable_inv hist fa :
  Forall frag_sized hist -> fa_reachable hist fa -> fa_inv (fun f => f ∈ hist) fa.
Proof.
  intros Hs (a & b & c & outs & E).
  destruct (fa_inserts_inv (fun f => f ∈ hist) (fa_new a b c) hist) as (fa' & outs' & E' & Hi & _).
  - apply fa_new_inv.
  - done.
  - done.
  - rewrite E in E'. by simplify_eq.
Qed.

(** ** C03 *)

Theorem C03_no_panic a b c hist :
  Forall frag_sized hist -> exists fa outs, fa_inserts (fa_new a b c) hist = Val (fa, outs).
Proof.
  intros Hs. destruct (fa_inserts_inv (fun _ => True) (fa_new a b c) hist) as (fa & outs & E & _).
  - apply fa_new_inv.
  - done.
  - done.
  - eauto.
Qed.

Theorem C03_bounds a b c hist fa outs :
  Forall frag_sized hist -> fa_inserts (fa_new a b c) hist = Val (fa, outs) ->
  (N.of_nat (length (fa_incomplete fa)) <= a)%N /\
  (N.of_nat (held_total (fa_incomplete fa)) <= b)%N /\
  fa_num_fragments fa = N.of_nat (held_total (fa_incomplete fa)) /\
  NoDup (map fst (fa_incomplete fa)) /\
  forall k im, (k, im) ∈ fa_incomplete fa ->
    1 ≤ held (im_fragments im) < length (im_fragments im) /\
    (N.of_nat (length (im_fragments im)) <= c)%N.
Proof.
  intros Hs E.
  destruct (fa_inserts_inv (fun f => f ∈ hist) (fa_new a b c) hist) as (fa' & outs' & E' & Hi & _ & L1 & L2 & L3).
  { apply fa_new_inv. }
  { done. }
  { done. }
  rewrite E in E'. simplify_eq. destruct Hi as [H1 H2 H3 H4 H5]. simpl in *.
  rewrite L1 in H4. rewrite L2 in H5. split_and!; try done.
  assert (forall k im, (k, im) ∈ fa_incomplete fa' ->
            (N.of_nat (length (im_fragments im)) <= c)%N) as Hper.
  { clear H1 H2 H3 H4 H5 L1 L2.
    assert (forall fa0 fs fa1 outs1,
      fa_inv (fun _ => True) fa0 -> Forall frag_sized fs -> fa_inserts fa0 fs = Val (fa1, outs1) ->
      (forall k im, (k, im) ∈ fa_incomplete fa0 ->
         (N.of_nat (length (im_fragments im)) <= fa_max_per_message fa0)%N) ->
      forall k im, (k, im) ∈ fa_incomplete fa1 ->
         (N.of_nat (length (im_fragments im)) <= fa_max_per_message fa0)%N) as Hgen.
    { clear. intros fa0 fs. revert fa0. induction fs as [|f fs IH]; intros fa0 fa1 outs1 Hi Hs E H0.
      { simpl in E. by simplify_eq. }
      apply Forall_cons in Hs as [Hf Hs]. simpl in E.
      destruct (fa_insert_case (fun _ => True) fa0 f Hi Hf I) as (fa2 & out & E2 & Hc).
      rewrite E2 in E. simpl in E. inv_val.
      destruct (insert_case_limits _ _ _ _ _ Hc) as (_ & _ & L3). rewrite <- L3.
      eapply IH; [by eapply insert_case_inv|done|done|]. rewrite L3.
      intros k im Hin. destruct Hc as [| |m1 im1 m2 fs1 Hnb H1 Hg Em|rest im' Hnb H1 Er Hfr Hsl Hln He' new new'];
        simpl in Hin; eauto.
      - apply (H0 k). rewrite Em. apply elem_of_app in Hin as [?|?]; apply elem_of_app; [by left|].
        right. by right.
      - assert ((k, im) ∈ new) as Hin'.
        { unfold new' in Hin. case_decide; [|done]. destruct new; [done|]. by right. }
        apply elem_of_app in Hin' as [Hin'|Hin'].
        + apply (H0 k). subst rest. destruct (lhm_get (fa_incomplete fa0) (sp_id f)) as [im0|] eqn:Hg.
          * destruct (lhm_remove_split _ _ _ Hg) as (m1&m2&Em&Er&_). rewrite Er in Hin'. rewrite Em.
            apply elem_of_app in Hin' as [?|?]; apply elem_of_app; [by left|]. right. by right.
          * by rewrite lhm_remove_None in Hin'.
        + apply elem_of_list_singleton in Hin'. simplify_eq. rewrite Hfr, insert_length, Hln.
          destruct (decide (sp_count f <= fa_max_per_message fa0)%N) as [|Hgt]; [done|].
          exfalso. apply Hnb. right. left. lia. }
    intros k im Hin. eapply (Hgen (fa_new a b c)); eauto.
    - apply fa_new_inv.
    - simpl. intros ? ? ?%elem_of_nil. done. }
  intros k im Hin. split; [|by eapply Hper].
  rewrite Forall_forall in H3. by destruct (H3 _ Hin) as (_ & ? & _).
Qed.

(** ** C04 *)
Theorem C04_bad_ignored hist fa f :
  Forall frag_sized hist -> fa_reachable hist fa -> frag_sized f ->
  bad fa f -> fa_insert fa f = Val (fa, None).
Proof.
  intros Hs Hr Hf Hb. pose proof (reachable_inv _ _ Hs Hr) as Hi.
  assert (fa_inv (fun _ => True) fa) as Hi' by (eapply fa_inv_mono; [|exact Hi]; done).
  destruct (fa_insert_case _ fa f Hi' Hf I) as (fa' & out & -> & Hc).
  by destruct Hc.
Qed.

(** Conversely, a fragment that is not bad is never ignored: either a message comes out, or it is now
    held, in its place, in the most recently touched message, unless that message was the only one
    and did not fit the limits, in which case nothing is held any more. *)
Theorem C04_good_not_ignored hist fa f :
  Forall frag_sized hist -> fa_reachable hist fa -> frag_sized f -> ~ bad fa f ->
  exists fa' out, fa_insert fa f = Val (fa', out) /\
    (out = None ->
     fa_incomplete fa' = [] /\ (forall k, k ∈ map fst (fa_incomplete fa) -> k = sp_id f) \/
     exists im, list.last (fa_incomplete fa') = Some (sp_id f, im) /\
       im_fragments im !! N.to_nat (sp_index f) = Some (Some f)).
Proof.
  intros Hs Hr Hf Hb. pose proof (reachable_inv _ _ Hs Hr) as Hi.
  assert (fa_inv (fun _ => True) fa) as Hi' by (eapply fa_inv_mono; [|exact Hi]; done).
  destruct (fa_insert_case _ fa f Hi' Hf I) as (fa' & out & E & Hc).
  exists fa', out. split; [done|]. intros ->.
  inversion Hc as [| | |rest im' Hnb H1 Er Hfr Hsl Hln He' new new' Efa Eout]; subst; [done|].
  assert (im_fragments im' !! N.to_nat (sp_index f) = Some (Some f)) as Hl.
  { rewrite Hfr. apply list_lookup_insert. by apply lookup_lt_Some in Hsl. }
  simpl. unfold new'. case_decide as Ho.
  - destruct (lhm_remove (fa_incomplete fa) (sp_id f)) as [|kv rest] eqn:Erest.
    + unfold new. simpl. left. split; [done|]. intros k Hk.
      destruct (decide (k = sp_id f)) as [|Hne]; [done|]. exfalso.
      assert (lhm_get (lhm_remove (fa_incomplete fa) (sp_id f)) k = None) as Hn by (by rewrite Erest).
      rewrite lhm_get_remove in Hn by (apply Hi). rewrite decide_False in Hn by done.
      by apply lhm_get_None in Hn.
    + right. exists im'. split; [|done]. unfold new. simpl. by rewrite last_snoc.
  - right. exists im'. split; [|done]. unfold new. by rewrite last_snoc.
Qed.

(** ** C05 *)

(** [fs] is a complete set of fragments of one message, all from [hist] *)
Definition complete_set (hist : list bytes) (fs : list bytes) : Prop :=
  fs <> [] /\
  forall i g, fs !! i = Some g ->
    g ∈ hist /\ sp_valid g /\ sp_id g = sp_id (default [] (head fs)) /\
    sp_count g = N.of_nat (length fs) /\ sp_index g = N.of_nat i.

Theorem C05_sound hist fa f fa' msg :
  Forall frag_sized hist -> fa_reachable hist fa -> frag_sized f ->
  fa_insert fa f = Val (fa', Some msg) ->
  exists fs, complete_set (hist ++ [f]) fs /\ fs !! N.to_nat (sp_index f) = Some f /\
    (sp_count f <= fa_max_per_message fa)%N /\
    gm_id msg = sp_id f /\
    gm_data msg = concat (map sp_data fs) /\
    gm_surbs msg = concat (map sp_surbs fs).
Proof.
  intros Hs Hr Hf E. pose proof (reachable_inv _ _ Hs Hr) as Hi.
  assert (fa_inv (fun g => g ∈ hist ++ [f]) fa) as Hi'.
  { eapply fa_inv_mono; [|exact Hi]. intros g Hg. apply elem_of_app. by left. }
  assert (f ∈ hist ++ [f]) as Hin by (apply elem_of_app; right; left).
  destruct (fa_insert_case _ fa f Hi' Hf Hin) as (fa2 & out & E2 & Hc).
  rewrite E in E2. simplify_eq.
  assert (~ bad fa f -> (sp_count f <= fa_max_per_message fa)%N) as Hmx.
  { intros Hnb. destruct (decide (sp_count f <= fa_max_per_message fa)%N) as [|Hgt]; [done|].
    exfalso. apply Hnb. right. left. lia. }
  inversion Hc as [|Hnb H1|m1 im m2 fs Hnb H1 Hg Em Hfs Hlen Hfi|]; subst.
  - assert (sp_valid f) as Hv.
    { destruct (decide (sp_valid f)); [done|]. exfalso. apply Hnb. by left. }
    assert (sp_index f = 0)%N as H0 by (destruct Hv; lia).
    exists [f]. split; [|split_and!].
    + split; [done|]. intros i g Hg. apply list_lookup_singleton_Some in Hg as [-> <-].
      simpl. split_and!; done.
    + by rewrite H0.
    + by apply Hmx.
    + done.
    + done.
    + done.
  - assert (sp_valid f) as Hv.
    { destruct (decide (sp_valid f)); [done|]. exfalso. apply Hnb. by left. }
    assert (fs !! N.to_nat (sp_index f) = Some f) as Hff.
    { assert (map Some fs !! N.to_nat (sp_index f) = Some (Some f)) as Hl.
      { rewrite <- Hfs. apply list_lookup_insert.
        apply (f_equal length) in Hfs. rewrite insert_length, map_length in Hfs.
        destruct Hv. lia. }
      rewrite (list_lookup_fmap Some) in Hl. destruct (fs !! _); simpl in Hl; by simplify_eq. }
    destruct fs as [|g0 fs0] eqn:Efs; [done|].
    assert (sp_id g0 = sp_id f) as Hg0 by (by destruct (Hfi 0 g0 eq_refl) as (_&_&?&_)).
    exists fs. rewrite Efs. split; [|split_and!].
    + split; [done|]. intros i g Hgi. destruct (Hfi i g Hgi) as (?&?&?&?&?&?). simpl.
      rewrite Hg0. split_and!; done.
    + done.
    + by apply Hmx.
    + done.
    + done.
    + done.
Qed.

(** ** C06 *)

(** Specification of the reassembly of one message: the slots held for it ([None]: nothing held). *)
Definition slots := option (list (option bytes)).
Fixpoint all_filled (l : list (option bytes)) : option (list bytes) :=
  match l with
  | [] => Some []
  | None :: _ => None
  | Some f :: l' => match all_filled l' with Some fs => Some (f :: fs) | None => None end
  end.
Definition one_step (max : N) (v : slots) (f : bytes) : slots * option generic_message :=
  if decide (~ sp_valid f \/ (max < sp_count f)%N) then (v, None)
  else if decide (sp_count f = 1%N) then (v, Some (msg_of [f]))
  else
    let l := default (replicate (N.to_nat (sp_count f)) None) v in
    if decide (N.of_nat (length l) = sp_count f) then
      match l !! N.to_nat (sp_index f) with
      | Some None =>
          let l' := <[N.to_nat (sp_index f) := Some f]> l in
          match all_filled l' with
          | Some fs => (None, Some (msg_of fs))
          | None => (Some l', None)
          end
      | _ => (v, None)
      end
    else (v, None).
Fixpoint one_run (max : N) (v : slots) (fs : list bytes) : slots * list (option generic_message) :=
  match fs with
  | [] => (v, [])
  | f :: fs' =>
      let '(v, o) := one_step max v f in
      let '(v, os) := one_run max v fs' in
      (v, o :: os)
  end.

(** What an assembler holds for message [k] *)
Definition view (fa : fragment_assembler) (k : bytes) : slots :=
  im_fragments <$> lhm_get (fa_incomplete fa) k.

Lemma all_filled_Some l fs : all_filled l = Some fs <-> l = map Some fs.
Proof.
  revert fs. induction l as [|[x|] l IH]; intros fs; simpl.
  - split; intros H; [by simplify_eq|]. destruct fs; [done|]. simpl in H. done.
  - destruct (all_filled l) as [fs0|].
    + destruct fs as [|y fs]; simpl; split; intros H; simplify_eq.
      * f_equal. by apply IH.
      * f_equal. f_equal. assert (Some fs0 = Some fs) as Heq by (by apply IH). congruence.
    + split; [done|]. intros H. destruct fs as [|y fs]; simplify_eq. simpl in H. simplify_eq.
      assert (None = Some fs) by (by apply IH). done.
  - split; [done|]. intros H. destruct fs; simpl in H; simplify_eq.
Qed.
Lemma all_filled_held l : all_filled l <> None -> held l = length l.
Proof.
  destruct (all_filled l) as [fs|] eqn:E; [|done]. intros _. apply all_filled_Some in E.
  subst. rewrite held_map_Some. by rewrite map_length.
Qed.

Lemma bad_spec fa f :
  bad fa f <->
  ~ sp_valid f \/ (fa_max_per_message fa < sp_count f)%N \/
  (sp_count f <> 1%N /\ exists l, view fa (sp_id f) = Some l /\
     (N.of_nat (length l) <> sp_count f \/ exists g, l !! N.to_nat (sp_index f) = Some (Some g))).
Proof.
  unfold bad, view. split.
  - intros [?|[?|(? & im & Hg & Hb)]]; [by left|right; by left|]. right. right. split; [done|].
    exists (im_fragments im). by rewrite Hg.
  - intros [?|[?|(? & l & Hg & Hb)]]; [by left|right; by left|]. right. right. split; [done|].
    destruct (lhm_get (fa_incomplete fa) (sp_id f)) as [im|] eqn:E; [|done]. simpl in Hg. simplify_eq.
    by exists im.
Qed.

Lemma lhm_get_tail {V} (m : lhm bytes V) k :
  NoDup (lhm_keys m) ->
  lhm_get (tail m) k = if decide (head (lhm_keys m) = Some k) then None else lhm_get m k.
Proof.
  destruct m as [|[k0 v0] m]; simpl; [done|]. intros [Hk Hn]%NoDup_cons.
  destruct (decide (k0 = k)) as [->|Hne].
  - rewrite decide_True by done. by apply lhm_get_None.
  - rewrite decide_False by congruence. done.
Qed.

(** Messages in order of last touch once [f] has been added: the message of [f] moves to the back. *)
Definition touched (fa : fragment_assembler) (f : bytes) : list bytes :=
  filter (fun k => k <> sp_id f) (map fst (fa_incomplete fa)) ++ [sp_id f].

(** Keeping one more fragment of the message of [f] needs more room than there is. *)
Definition lost_room (fa : fragment_assembler) (f : bytes) : Prop :=
  (fa_max_messages fa < N.of_nat (length (touched fa f)))%N \/
  (fa_max_fragments fa < N.of_nat (held_total (fa_incomplete fa)) + 1)%N.

(** Adding [f] leaves its message incomplete, and needs more room than there is. *)
Definition overflows (fa : fragment_assembler) (f : bytes) : Prop :=
  ~ bad fa f /\ snd (one_step (fa_max_per_message fa) (view fa (sp_id f)) f) = None /\
  lost_room fa f.

Lemma keys_remove_filter {V} (m : lhm bytes V) k :
  NoDup (lhm_keys m) -> lhm_keys (lhm_remove m k) = filter (fun k' => k' <> k) (lhm_keys m).
Proof.
  induction m as [|[k0 v0] m IH]; simpl; [done|]. intros [Hk Hn]%NoDup_cons.
  rewrite filter_cons. destruct (decide (k0 = k)) as [->|Hne].
  - rewrite decide_False by naive_solver.
    symmetry. clear -Hk. fold (lhm_keys m) in *. induction (lhm_keys m) as [|x l IH]; [done|].
    apply not_elem_of_cons in Hk as [H1 H2]. rewrite filter_cons_True by done. by rewrite IH.
  - rewrite decide_True by done. simpl. by rewrite IH.
Qed.

Lemma insert_views P fa (f : bytes) :
  fa_inv P fa -> frag_sized f -> P f ->
  let st := one_step (fa_max_per_message fa) (view fa (sp_id f)) f in
  exists fa' out, fa_insert fa f = Val (fa', out) /\ fa_inv P fa' /\
    out = snd st /\ fa_max_per_message fa' = fa_max_per_message fa /\
    (fa' = fa /\ fst st = view fa (sp_id f) /\ (bad fa f \/ sp_count f = 1%N)
     \/ out <> None /\ ~ bad fa f /\ sp_count f <> 1%N /\ fst st = None /\
       fa_incomplete fa' = lhm_remove (fa_incomplete fa) (sp_id f)
     \/ out = None /\ ~ bad fa f /\ sp_count f <> 1%N /\
       exists im', fst st = Some (im_fragments im') /\
         let new := lhm_remove (fa_incomplete fa) (sp_id f) ++ [(sp_id f, im')] in
         NoDup (lhm_keys new) /\ lhm_keys new = touched fa f /\
         fa_incomplete fa' = if decide (lost_room fa f) then tail new else new).
Proof.
  intros Hi Hf HP st.
  destruct (fa_insert_case P fa f Hi Hf HP) as (fa' & out & E & Hc).
  exists fa', out. split; [done|]. split; [by eapply insert_case_inv|].
  destruct (insert_case_limits _ _ _ _ _ Hc) as (_ & _ & L3).
  assert (~ bad fa f -> ~ (~ sp_valid f \/ (fa_max_per_message fa < sp_count f)%N)) as Hgood.
  { intros Hnb [?|?]; apply Hnb; [by left|right; by left]. }
  unfold st, one_step.
  destruct Hc as [Hb|Hnb H1|m1 im m2 fs Hnb H1 Hg Em Hfs Hlen Hfi
                 |rest im' Hnb H1 Er Hfr Hsl Hln He' new new'].
  - destruct (decide (~ sp_valid f \/ (fa_max_per_message fa < sp_count f)%N)) as [Hbad|Hok].
    { split; [done|]. split; [done|]. left. split; [done|]. split; [done|]. by left. }
    apply bad_spec in Hb as [?|[?|(H1 & l & Hv & Hb)]]; [naive_solver|naive_solver|].
    rewrite decide_False by done. rewrite Hv. simpl.
    assert (forall T (a : T) b c, (match l !! N.to_nat (sp_index f) with
       | Some None => a | _ => b end) = c -> (exists g, l !! N.to_nat (sp_index f) = Some (Some g)) -> b = c) as Hm.
    { intros T a b c Hx [g Hg]. by rewrite Hg in Hx. }
    destruct Hb as [Hb|[g Hb]].
    + rewrite decide_False by done. simpl. split; [done|]. split; [done|]. left.
      split; [done|]. split; [done|]. left. apply bad_spec. right. right. eauto.
    + rewrite Hb. case_decide; simpl.
      * split; [done|]. split; [done|]. left. split; [done|]. split; [done|]. left.
        apply bad_spec. right. right. eauto 10.
      * split; [done|]. split; [done|]. left. split; [done|]. split; [done|]. left.
        apply bad_spec. right. right. eauto 10.
  - rewrite decide_False by auto. rewrite decide_True by done. simpl.
    split; [done|]. split; [done|]. left. split; [done|]. split; [done|]. by right.
  - rewrite decide_False by auto. rewrite decide_False by done.
    assert (view fa (sp_id f) = Some (im_fragments im)) as Hv by (unfold view; by rewrite Hg).
    rewrite Hv. simpl.
    assert (length (im_fragments im) = length fs) as Hl2.
    { apply (f_equal length) in Hfs. by rewrite insert_length, map_length in Hfs. }
    rewrite decide_True by congruence.
    assert (im_fragments im !! N.to_nat (sp_index f) = Some None) as Hn.
    { destruct (im_fragments im !! N.to_nat (sp_index f)) as [[g|]|] eqn:El; [|done|].
      - exfalso. apply Hnb. right. right. split; [done|]. exists im. split; [done|]. right. eauto.
      - exfalso. apply lookup_ge_None in El.
        assert (sp_valid f) as [Hvf _].
        { destruct (decide (sp_valid f)); [done|]. exfalso. apply Hnb. by left. }
        lia. }
    rewrite Hn. apply all_filled_Some in Hfs as Hfs2. rewrite Hfs2. simpl.
    split; [done|]. split; [done|]. right. left. split; [done|]. split; [done|]. split; [done|].
    split; [done|]. destruct Hi as [Hnd _ _ _ _].
    destruct (lhm_remove_split _ _ _ Hg) as (n1 & n2 & En & -> & Hn1).
    rewrite Em in En, Hnd.
    assert (sp_id f ∉ lhm_keys m1) as Hm1.
    { rewrite lhm_keys_app in Hnd. apply NoDup_app in Hnd as (_ & Hd & _). intros Hin.
      apply (Hd _ Hin). simpl. left. }
    clear -En Hn1 Hm1. revert n1 En Hn1. induction m1 as [|[a b] m1 IH]; intros [|[c d] n1] En Hn1;
      simpl in *; simplify_eq; [done| | |].
    + exfalso. apply Hn1. left.
    + exfalso. apply Hm1. left.
    + f_equal. apply not_elem_of_cons in Hn1 as [_ Hn1]. apply not_elem_of_cons in Hm1 as [_ Hm1].
      by apply IH.
  - rewrite decide_False by auto. rewrite decide_False by done.
    assert (default (replicate (N.to_nat (sp_count f)) None) (view fa (sp_id f)) = slots_for fa f) as Hv.
    { unfold view, slots_for. by destruct (lhm_get (fa_incomplete fa) (sp_id f)). }
    rewrite Hv, decide_True by done. rewrite Hsl. rewrite <- Hfr.
    destruct (all_filled (im_fragments im')) as [fs|] eqn:Eaf.
    { exfalso. destruct He' as (_ & Hh & _).
      pose proof (all_filled_held (im_fragments im')) as Ha. rewrite Eaf in Ha.
      specialize (Ha ltac:(done)). lia. }
    simpl. split; [done|]. split; [done|]. right. right. split; [done|]. split; [done|].
    split; [done|]. exists im'. split; [done|].
    assert (NoDup (lhm_keys (fa_incomplete fa))) as Hnd by apply Hi.
    assert (lhm_keys (lhm_remove (fa_incomplete fa) (sp_id f) ++ [(sp_id f, im')]) = touched fa f) as Ht.
    { rewrite lhm_keys_app, keys_remove_filter by done. done. }
    split; [|split; [done|]].
    + rewrite Ht. unfold touched. apply NoDup_app. split; [|split].
      * by apply NoDup_filter.
      * intros x Hx. apply elem_of_list_filter in Hx as [Hx _]. by rewrite elem_of_list_singleton.
      * apply NoDup_singleton.
    + subst rest. unfold new'. fold new.
      assert (length new = length (touched fa f)) as Hl1.
      { unfold new. rewrite <- Ht. unfold lhm_keys. by rewrite map_length. }
      assert (held_total new = S (held_total (fa_incomplete fa))) as Hl2.
      { unfold new. rewrite held_total_app. simpl. rewrite Hfr, held_insert by done.
        unfold slots_for in *. destruct (lhm_get (fa_incomplete fa) (sp_id f)) as [im|] eqn:Hg.
        - destruct (lhm_remove_split _ _ _ Hg) as (m1&m2&Em&->&_). rewrite Em, !held_total_app. simpl. lia.
        - rewrite lhm_remove_None by done. rewrite held_replicate. lia. }
      unfold lost_room. rewrite Hl1, Hl2. 
      repeat case_decide; try done; exfalso; lia.
Qed.

Lemma lhm_get_snoc_ne {V} (m : lhm bytes V) k k' v :
  k <> k' -> lhm_get (m ++ [(k, v)]) k' = lhm_get m k'.
Proof.
  intros Hne. rewrite lhm_get_app. simpl. rewrite decide_False by done. by destruct (lhm_get m k').
Qed.

Lemma insert_views_full P fa (f : bytes) :
  fa_inv P fa -> frag_sized f -> P f ->
  let st := one_step (fa_max_per_message fa) (view fa (sp_id f)) f in
  exists fa' out, fa_insert fa f = Val (fa', out) /\ fa_inv P fa' /\
    out = snd st /\ fa_max_per_message fa' = fa_max_per_message fa /\
    (forall k, ~ (overflows fa f /\ head (touched fa f) = Some k) ->
       view fa' k = if decide (k = sp_id f) then fst st else view fa k) /\
    (forall k, overflows fa f -> head (touched fa f) = Some k -> view fa' k = None).
Proof.
  intros Hi Hf HP st.
  destruct (insert_views P fa f Hi Hf HP) as (fa' & out & E & Hi' & Eo & Hm & Hcase).
  exists fa', out. do 4 (split; [done|]). fold st in Eo, Hcase.
  assert (NoDup (lhm_keys (fa_incomplete fa))) as Hnd by apply Hi.
  destruct Hcase as [(-> & Hst & Hb)|[(Ho & Hnb & H1 & Hst & Einc)
                    |(Ho & Hnb & H1 & im' & Hst & Hnd' & Ht & Einc)]].
  - assert (~ overflows fa f) as Hno.
    { intros (Hnb & Hn & _). destruct Hb as [Hb|Hb]; [done|].
      unfold one_step in Hn. rewrite decide_False in Hn.
      - by rewrite decide_True in Hn.
      - intros [?|?]; apply Hnb; [by left|right; by left]. }
    split; [|naive_solver]. intros k _. case_decide; congruence.
  - assert (~ overflows fa f) as Hno.
    { intros (_ & Hn & _). apply Ho. rewrite Eo. exact Hn. }
    split; [|naive_solver]. intros k _. unfold view. rewrite Einc, lhm_get_remove by done.
    rewrite Hst. repeat case_decide; congruence || done.
  - set (new := lhm_remove (fa_incomplete fa) (sp_id f) ++ [(sp_id f, im')]) in *.
    assert (forall k, im_fragments <$> lhm_get new k =
              if decide (k = sp_id f) then fst st else view fa k) as Hget.
    { intros k. unfold new. destruct (decide (k = sp_id f)) as [Hk|Hk].
      - subst k. rewrite lhm_get_app, lhm_get_remove by done. rewrite decide_True by done. simpl.
        by rewrite decide_True.
      - rewrite lhm_get_snoc_ne, lhm_get_remove by done. rewrite decide_False by done. done. }
    destruct (decide (lost_room fa f)) as [Hlr|Hlr].
    + assert (overflows fa f) as Hov.
      { split; [done|]. split; [|done]. fold st. congruence. }
      split.
      * intros k Hk. unfold view. rewrite Einc, lhm_get_tail by done. rewrite Ht.
        rewrite decide_False by naive_solver. apply Hget.
      * intros k _ Hk. unfold view. rewrite Einc, lhm_get_tail by done. rewrite Ht.
        by rewrite decide_True.
    + split.
      * intros k _. unfold view. rewrite Einc. apply Hget.
      * intros k (_ & _ & ?). done.
Qed.

Lemma reachable_inv_True hist fa :
  Forall frag_sized hist -> fa_reachable hist fa -> fa_inv (fun _ => True) fa.
Proof. intros. eapply fa_inv_mono; [|by eapply reachable_inv]. done. Qed.

(** One insertion follows the one-message specification on the message of the fragment and leaves
    every other message alone; except that, when there is no room, exactly the least recently touched
    message (possibly that of the fragment) is dropped. *)
Theorem C06_step hist fa (f : bytes) :
  Forall frag_sized hist -> fa_reachable hist fa -> frag_sized f ->
  exists fa', let '(v, out) := one_step (fa_max_per_message fa) (view fa (sp_id f)) f in
    fa_insert fa f = Val (fa', out) /\
    (forall k, ~ (overflows fa f /\ head (touched fa f) = Some k) ->
       view fa' k = if decide (k = sp_id f) then v else view fa k) /\
    (forall k, overflows fa f -> head (touched fa f) = Some k -> view fa' k = None).
Proof.
  intros Hs Hr Hf. pose proof (reachable_inv_True _ _ Hs Hr) as Hi.
  destruct (insert_views_full _ fa f Hi Hf I) as (fa' & out & E & _ & Eo & _ & H1 & H2).
  exists fa'. destruct (one_step _ _ f) as [v o]. simpl in *. subst. done.
Qed.

(** Message [k] is never dropped for lack of room while [fs] is inserted. *)
Fixpoint kept (k : bytes) (fa : fragment_assembler) (fs : list bytes) : Prop :=
  match fs with
  | [] => True
  | f :: fs' =>
      ~ (overflows fa f /\ head (touched fa f) = Some k) /\
      forall fa' out, fa_insert fa f = Val (fa', out) -> kept k fa' fs'
  end.

(** The outputs for the fragments of message [k] *)
Fixpoint outputs_for (k : bytes) (fs : list bytes) (outs : list (option generic_message))
  : list (option generic_message) :=
  match fs, outs with
  | f :: fs', o :: outs' =>
      if decide (sp_id f = k) then o :: outputs_for k fs' outs' else outputs_for k fs' outs'
  | _, _ => []
  end.

Lemma interleave P k fa fs :
  fa_inv P fa -> Forall frag_sized fs -> (forall f, f ∈ fs -> P f) -> kept k fa fs ->
  exists fa' outs, fa_inserts fa fs = Val (fa', outs) /\
    (view fa' k, outputs_for k fs outs) =
      one_run (fa_max_per_message fa) (view fa k) (filter (fun f => sp_id f = k) fs).
Proof.
  intros Hi Hs HP Hk. revert fa Hi Hk. induction Hs as [|f fs Hf Hs IH]; intros fa Hi Hk; simpl.
  { eexists _, _. split; [done|]. done. }
  destruct Hk as [Hno Hk].
  destruct (insert_views_full P fa f Hi Hf (HP f ltac:(left))) as (fa1 & out & E & Hi1 & Eo & Hm & H1 & _).
  destruct (IH ltac:(intros; apply HP; by right) fa1 Hi1 (Hk _ _ E)) as (fa' & outs & E' & Hrun).
  rewrite E. simpl. rewrite E'. simpl. eexists _, _. split; [done|].
  specialize (H1 k Hno). rewrite filter_cons. simpl. destruct (decide (sp_id f = k)) as [Hid|Hid].
  - subst k. rewrite decide_True in H1 by done. simpl.
    destruct (one_step (fa_max_per_message fa) (view fa (sp_id f)) f) as [v o]. simpl in *.
    rewrite H1, Hm in Hrun. destruct (one_run _ v _) as [v' os]. simplify_eq. congruence.
  - rewrite decide_False in H1 by congruence. by rewrite H1, Hm in Hrun.
Qed.

(** Fragments of other messages, arbitrarily interleaved, do not change what comes out for a message,
    as long as that message is not dropped. *)
Theorem C06_interleaving hist fa k fs :
  Forall frag_sized hist -> fa_reachable hist fa -> Forall frag_sized fs -> kept k fa fs ->
  exists fa' outs, fa_inserts fa fs = Val (fa', outs) /\
    (view fa' k, outputs_for k fs outs) =
      one_run (fa_max_per_message fa) (view fa k) (filter (fun f => sp_id f = k) fs).
Proof.
  intros Hs Hr Hf Hk. apply (interleave (fun _ => True)); [|done|done|done].
  by apply (reachable_inv_True hist).
Qed.

(** When there is room for all the fragments nothing is dropped. *)
Lemma kept_room P k fa fs :
  fa_inv P fa -> Forall frag_sized fs -> (forall f, f ∈ fs -> P f) ->
  (N.of_nat (length (fa_incomplete fa) + length fs) <= fa_max_messages fa)%N ->
  (N.of_nat (held_total (fa_incomplete fa) + length fs) <= fa_max_fragments fa)%N ->
  kept k fa fs.
Proof.
  intros Hi Hs HP. revert fa Hi. induction Hs as [|f fs Hf Hs IH]; intros fa Hi Hm Hn; simpl; [done|].
  cbn [length] in *.
  assert (length (touched fa f) ≤ S (length (fa_incomplete fa))) as Htl.
  { unfold touched. rewrite app_length. simpl.
    pose proof (filter_length (fun k => k <> sp_id f) (map fst (fa_incomplete fa))) as Hfl.
    rewrite map_length in Hfl. lia. }
  split.
  { intros [(_ & _ & Hov) _]. unfold lost_room in Hov. lia. }
  intros fa' out E.
  destruct (fa_insert_case P fa f Hi Hf (HP f ltac:(left))) as (fa2 & out2 & E2 & Hc).
  rewrite E in E2. simplify_eq.
  destruct (insert_case_limits _ _ _ _ _ Hc) as (L1 & L2 & L3).
  assert (length (fa_incomplete fa2) ≤ S (length (fa_incomplete fa)) /\
          held_total (fa_incomplete fa2) ≤ S (held_total (fa_incomplete fa))) as [B1 B2].
  { destruct Hc as [Hb|Hnb H1|m1 im m2 fs' Hnb H1 Hg Em Hfs Hlen Hfi
                 |rest im' Hnb H1 Er Hfr Hsl Hln He' new new']; try lia; simpl.
    - rewrite Em, !app_length, !held_total_app. simpl. lia.
    - assert (length new ≤ S (length (fa_incomplete fa)) /\
              held_total new ≤ S (held_total (fa_incomplete fa))) as [? ?].
      { unfold new. rewrite app_length, held_total_app. simpl. rewrite Hfr, held_insert by done.
        subst rest. unfold slots_for in *.
        destruct (lhm_get (fa_incomplete fa) (sp_id f)) as [im|] eqn:Hg.
        - destruct (lhm_remove_split _ _ _ Hg) as (m1&m2&Em&->&_).
          rewrite Em, !held_total_app, !app_length. simpl. lia.
        - rewrite lhm_remove_None by done. rewrite held_replicate. lia. }
      unfold new'. case_decide; [|done]. destruct new as [|[? ?] new]; simpl in *; lia. }
  apply IH; [by intros; apply HP; right|by eapply insert_case_inv|rewrite L1; lia|rewrite L2; lia].
Qed.
Theorem C06_room hist fa k fs :
  Forall frag_sized hist -> fa_reachable hist fa -> Forall frag_sized fs ->
  (N.of_nat (length (fa_incomplete fa) + length fs) <= fa_max_messages fa)%N ->
  (N.of_nat (held_total (fa_incomplete fa) + length fs) <= fa_max_fragments fa)%N ->
  kept k fa fs.
Proof.
  intros Hs Hr Hf. apply (kept_room (fun _ => True)); [|done|done]. by apply (reachable_inv_True hist).
Qed.

(** ** Least recently touched

    A run records the state before each insertion. Step [t] touches [k] if it adds a fragment of [k]
    that is not ignored. *)
Inductive fa_run (a b c : N) : list (fragment_assembler * bytes) -> fragment_assembler -> Prop :=
| run_nil : fa_run a b c [] (fa_new a b c)
| run_snoc steps fa f fa' out :
    fa_run a b c steps fa -> frag_sized f -> fa_insert fa f = Val (fa', out) ->
    fa_run a b c (steps ++ [(fa, f)]) fa'.
Definition touches (s : fragment_assembler * bytes) (k : bytes) : Prop :=
  sp_id s.2 = k /\ ~ bad s.1 s.2 /\ sp_count s.2 <> 1%N.
(** [t] is the last step touching [k] *)
Definition last_touch (steps : list (fragment_assembler * bytes)) (k : bytes) (t : nat) : Prop :=
  (exists s, steps !! t = Some s /\ touches s k) /\
  forall t' s, steps !! t' = Some s -> touches s k -> t' ≤ t.

Lemma fa_run_inv a b c steps fa : fa_run a b c steps fa -> fa_inv (fun _ => True) fa.
Proof.
  induction 1 as [|steps fa f fa' out Hr IH Hf E]; [apply fa_new_inv|].
  destruct (insert_views_full _ fa f IH Hf I) as (fa2 & o2 & E2 & Hi & _).
  rewrite E in E2. by simplify_eq.
Qed.

Lemma last_touch_snoc steps s k t :
  last_touch steps k t -> ~ touches s k -> last_touch (steps ++ [s]) k t.
Proof.
  intros [(s0 & Hs0 & Ht0) Hmax] Hn. split.
  - exists s0. split; [|done]. by apply lookup_app_l_Some.
  - intros t' s' Hl Ht. apply lookup_app_Some in Hl as [Hl|[Hge Hl]]; [by eapply Hmax|].
    apply list_lookup_singleton_Some in Hl as [_ <-]. done.
Qed.
Lemma last_touch_new steps s k : touches s k -> last_touch (steps ++ [s]) k (length steps).
Proof.
  intros Ht. split.
  - exists s. split; [|done]. by apply list_lookup_middle.
  - intros t' s' Hl _. apply lookup_lt_Some in Hl. rewrite app_length in Hl. simpl in Hl. lia.
Qed.
Lemma last_touch_lt steps k t : last_touch steps k t -> t < length steps.
Proof. intros [(s & Hs & _) _]. by apply lookup_lt_Some in Hs. Qed.

Lemma StronglySorted_filter {A} (R : A -> A -> Prop) (Q : A -> Prop) `{forall x, Decision (Q x)} l :
  StronglySorted R l -> StronglySorted R (filter Q l).
Proof.
  induction 1 as [|x l Hs IH Hf]; [constructor|]. rewrite filter_cons. case_decide; [|done].
  constructor; [done|]. apply Forall_forall. intros y Hy.
  apply elem_of_list_filter in Hy as [_ Hy]. by eapply Forall_forall in Hf.
Qed.
Lemma StronglySorted_snoc {A} (R : A -> A -> Prop) l x :
  StronglySorted R l -> Forall (fun y => R y x) l -> StronglySorted R (l ++ [x]).
Proof.
  induction 1 as [|y l Hs IH Hf]; simpl; intros HR; [repeat constructor|].
  apply Forall_cons in HR as [HR1 HR2]. constructor; [by apply IH|].
  apply Forall_app. split; [done|]. by constructor.
Qed.
Lemma StronglySorted_tail {A} (R : A -> A -> Prop) l :
  StronglySorted R l -> StronglySorted R (tail l).
Proof. destruct 1; simpl; [constructor|done]. Qed.
Lemma StronglySorted_impl_in {A} (R R' : A -> A -> Prop) l :
  (forall x y, x ∈ l -> y ∈ l -> R x y -> R' x y) -> StronglySorted R l -> StronglySorted R' l.
Proof.
  intros HR Hs. induction Hs as [|x l Hs IH Hf]; [constructor|]. constructor.
  - apply IH. intros; apply HR; [by right|by right|done].
  - apply Forall_forall. intros y Hy. apply HR; [by left|by right|]. by eapply Forall_forall in Hf.
Qed.

(** The messages held are in order of last touch, least recent first. *)
Theorem C06_recency a b c steps fa :
  fa_run a b c steps fa ->
  Forall (fun k => exists t, last_touch steps k t) (map fst (fa_incomplete fa)) /\
  StronglySorted (fun k1 k2 => forall t1 t2, last_touch steps k1 t1 -> last_touch steps k2 t2 -> t1 < t2)
    (map fst (fa_incomplete fa)).
Proof.
  induction 1 as [|steps fa f fa' out Hr [IH1 IH2] Hf E]; [split; simpl; constructor|].
  pose proof (fa_run_inv _ _ _ _ _ Hr) as Hi.
  destruct (insert_views _ fa f Hi Hf I) as (fa2 & o2 & E2 & Hi2 & Eo & _ & Hcase).
  rewrite E in E2. simplify_eq.
  set (keys := map fst (fa_incomplete fa)) in *.
  (* keys other than that of [f] keep their last touch *)
  assert (forall k t, ~ touches (fa, f) k -> (exists t', last_touch steps k t') ->
            last_touch (steps ++ [(fa, f)]) k t -> last_touch steps k t) as Hback.
  { intros k t Hn [t' Ht'] Ht. pose proof (last_touch_snoc _ (fa, f) _ _ Ht' Hn) as Ht2.
    assert (t = t') as ->; [|done].
    destruct Ht as [(s1 & Hs1 & Ht1) Hm1]. destruct Ht2 as [(s2 & Hs2 & Ht2) Hm2].
    apply Nat.le_antisymm; [by eapply Hm2|by eapply Hm1]. }
  assert (forall l, (forall k, k ∈ l -> k ∈ keys /\ ~ touches (fa, f) k) ->
            StronglySorted (fun k1 k2 => forall t1 t2, last_touch steps k1 t1 ->
                              last_touch steps k2 t2 -> t1 < t2) l ->
            Forall (fun k => exists t, last_touch (steps ++ [(fa, f)]) k t) l /\
            StronglySorted (fun k1 k2 => forall t1 t2, last_touch (steps ++ [(fa, f)]) k1 t1 ->
                              last_touch (steps ++ [(fa, f)]) k2 t2 -> t1 < t2) l) as Hkeep.
  { intros l Hl Hss. rewrite Forall_forall in IH1. split.
    - apply Forall_forall. intros k Hk. destruct (Hl k Hk) as [Hk1 Hk2].
      destruct (IH1 k Hk1) as [t Ht]. exists t. by apply last_touch_snoc.
    - eapply StronglySorted_impl_in; [|exact Hss]. intros x y Hx Hy HR t1 t2 H1 H2. simpl in HR.
      destruct (Hl x Hx), (Hl y Hy). apply HR; eapply Hback; eauto. }
  destruct Hcase as [(-> & Hst & Hb)|[(Ho & Hnb & H1 & Hst & Einc)
                    |(Ho & Hnb & H1 & im' & Hst & Hnd' & Ht & Einc)]].
  - apply Hkeep; [|done]. intros k Hk. split; [done|]. intros (_ & ? & ?). naive_solver.
  - rewrite Einc. change (map fst) with (@lhm_keys bytes incomplete_message).
    rewrite keys_remove_filter by apply Hi. apply Hkeep.
    + intros k Hk. apply elem_of_list_filter in Hk as [Hk Hk2]. split; [done|].
      intros (? & _). simpl in *. congruence.
    + by apply StronglySorted_filter.
  - assert (Forall (fun k => exists t, last_touch (steps ++ [(fa, f)]) k t) (touched fa f) /\
            StronglySorted (fun k1 k2 => forall t1 t2, last_touch (steps ++ [(fa, f)]) k1 t1 ->
                              last_touch (steps ++ [(fa, f)]) k2 t2 -> t1 < t2) (touched fa f)) as [G1 G2].
    { unfold touched.
      assert (touches (fa, f) (sp_id f)) as Htf by (split; [done|]; done).
      destruct (Hkeep (filter (fun k => k <> sp_id f) keys)) as [K1 K2].
      { intros k Hk. apply elem_of_list_filter in Hk as [Hk Hk2]. split; [done|].
        intros (? & _). simpl in *. congruence. }
      { by apply StronglySorted_filter. }
      split.
      - apply Forall_app. split; [done|]. constructor; [|constructor].
        exists (length steps). by apply last_touch_new.
      - apply StronglySorted_snoc; [done|]. apply Forall_forall. intros k Hk t1 t2 Ht1 Ht2.
        apply elem_of_list_filter in Hk as [Hk Hk2]. fold keys in Hk2.
        rewrite Forall_forall in IH1.
        assert (t1 < length steps) as Hlt.
        { eapply last_touch_lt, Hback; [|by apply IH1|exact Ht1]. intros (? & _). simpl in *. congruence. }
        destruct Ht2 as [_ Hmax].
        pose proof (Hmax (length steps) (fa, f)) as Hmax'.
        rewrite list_lookup_middle in Hmax' by done. specialize (Hmax' eq_refl Htf). lia. }
    rewrite Einc. destruct (decide (lost_room fa f)).
    + assert (forall l : lhm bytes incomplete_message, map fst (tail l) = tail (lhm_keys l)) as Hmt
        by (by intros []).
      rewrite Hmt, Ht. split; [by apply Forall_tail|by apply StronglySorted_tail].
    + change (map fst) with (@lhm_keys bytes incomplete_message). rewrite Ht. done.
Qed.

(** ** C01 *)

(** The automaton on a complete set, in any order *)
Lemma one_step_fresh max v f l :
  sp_valid f -> (sp_count f <= max)%N -> sp_count f <> 1%N ->
  default (replicate (N.to_nat (sp_count f)) None) v = l ->
  N.of_nat (length l) = sp_count f -> l !! N.to_nat (sp_index f) = Some None ->
  one_step max v f =
    match all_filled (<[N.to_nat (sp_index f) := Some f]> l) with
    | Some fs => (None, Some (msg_of fs))
    | None => (Some (<[N.to_nat (sp_index f) := Some f]> l), None)
    end.
Proof.
  intros Hv Hm H1 Hl Hlen Hn. unfold one_step. rewrite decide_False by (intros [?|?]; [done|lia]).
  rewrite decide_False by done. rewrite Hl, decide_True by done. by rewrite Hn.
Qed.

(** Every fragment carries its index in [fs] *)
Definition indexed (fs : list bytes) : Prop :=
  forall i g, fs !! i = Some g ->
    sp_valid g /\ sp_count g = N.of_nat (length fs) /\ sp_index g = N.of_nat i.

Lemma one_run_perm max fs l todo v :
  indexed fs -> 2 ≤ length fs -> (N.of_nat (length fs) <= max)%N ->
  default (replicate (length fs) None) v = l ->
  length l = length fs ->
  todo <> [] -> NoDup todo -> (forall f, f ∈ todo -> f ∈ fs) ->
  (forall i f, fs !! i = Some f -> l !! i = Some (if decide (f ∈ todo) then None else Some f)) ->
  one_run max v todo = (None, replicate (length todo - 1) None ++ [Some (msg_of fs)]).
Proof.
  intros Hix Hn Hmax. revert l v. induction todo as [|f todo IH]; intros l v Hv Hl Hne Hnd Hsub Hslots.
  { done. }
  apply NoDup_cons in Hnd as [Hnf Hnd].
  destruct (elem_of_list_lookup_1 fs f (Hsub f ltac:(left))) as [i Hi].
  destruct (Hix i f Hi) as (Hvf & Hcf & Hif).
  assert (N.to_nat (sp_index f) = i) as Hii by lia.
  assert (l !! i = Some None) as Hli.
  { rewrite (Hslots i f Hi). rewrite decide_True; [done|left]. }
  assert (i < length l) as Hil by (by apply lookup_lt_Some in Hli).
  simpl one_run. rewrite (one_step_fresh max v f l); [|done|lia|lia| |lia|by rewrite Hii].
  2:{ rewrite Hcf, Nat2N.id. done. }
  rewrite Hii.
  assert (forall j g, fs !! j = Some g ->
            <[i := Some f]> l !! j = Some (if decide (g ∈ todo) then None else Some g)) as Hslots'.
  { intros j g Hj. destruct (decide (j = i)) as [->|Hji].
    - rewrite list_lookup_insert by done. rewrite Hi in Hj. simplify_eq. by rewrite decide_False.
    - rewrite list_lookup_insert_ne by done. rewrite (Hslots j g Hj).
      assert (g <> f) as Hgf.
      { intros ->. destruct (Hix j f Hj) as (_ & _ & Hjx). lia. }
      do 2 case_decide; try done.
      + exfalso. match goal with H : g ∈ f :: todo |- _ => apply elem_of_cons in H as [?|?] end; done.
      + exfalso. match goal with H : g ∉ f :: todo |- _ => apply H end. by right. }
  destruct todo as [|f2 todo].
  - assert (<[i := Some f]> l = map Some fs) as Hfull.
    { apply list_eq. intros j. destruct (fs !! j) as [g|] eqn:Hj.
      - rewrite (Hslots' j g Hj). rewrite decide_False by apply not_elem_of_nil.
        by rewrite (list_lookup_fmap Some), Hj.
      - rewrite (list_lookup_fmap Some), Hj. simpl. apply lookup_ge_None.
        rewrite insert_length, Hl. by apply lookup_ge_None. }
    apply all_filled_Some in Hfull. rewrite Hfull. done.
  - destruct (all_filled (<[i := Some f]> l)) as [gs|] eqn:Eaf.
    { exfalso. apply all_filled_Some in Eaf.
      destruct (elem_of_list_lookup_1 fs f2 (Hsub f2 ltac:(right; left))) as [j Hj].
      pose proof (Hslots' j f2 Hj) as Hs2. rewrite Eaf, (list_lookup_fmap Some) in Hs2.
      rewrite decide_True in Hs2 by left. destruct (gs !! j); done. }
    rewrite (IH (<[i := Some f]> l)); [|done|by rewrite insert_length|done|done| |done].
    + simpl. by rewrite Nat.sub_0_r.
    + intros g Hg. apply Hsub. by right.
Qed.

Lemma one_run_complete max fs todo :
  indexed fs -> fs <> [] -> (N.of_nat (length fs) <= max)%N -> todo ≡ₚ fs ->
  one_run max None todo = (None, replicate (length fs - 1) None ++ [Some (msg_of fs)]).
Proof.
  intros Hix Hne Hmax Hp. assert (NoDup fs) as Hnd.
  { apply NoDup_alt. intros i j g Hi Hj. destruct (Hix i g Hi) as (_ & _ & ?).
    destruct (Hix j g Hj) as (_ & _ & ?). lia. }
  destruct (decide (length fs = 1)) as [H1|H1].
  - destruct fs as [|f [|]]; try done. apply Permutation_singleton_r in Hp. subst todo.
    destruct (Hix 0 f eq_refl) as (Hv & Hc & _). simpl in Hc. simpl. unfold one_step.
    rewrite decide_False by (intros [?|?]; [done|simpl in Hmax; lia]).
    by rewrite decide_True.
  - assert (2 ≤ length fs) by (destruct fs as [|? [|]]; simpl in *; lia || done).
    rewrite (one_run_perm max fs (replicate (length fs) None)); try done.
    + by rewrite Hp.
    + by rewrite replicate_length.
    + intros ->. by apply Permutation_nil_l in Hp.
    + by rewrite Hp.
    + intros f Hf. by rewrite <- Hp.
    + intros i f Hi. rewrite lookup_replicate_2 by (by apply lookup_lt_Some in Hi).
      rewrite decide_True; [done|]. rewrite Hp. by eapply elem_of_list_lookup_2.
Qed.

(** *** The fragments of a message

    What a sender produces: the blueprints of the message, each written to a buffer of arbitrary
    contents, followed by the SURBs, each fragment taking as many as its blueprint says. *)
Fixpoint fill_all (bs : list fragment_blueprint) (bufs : list bytes) (surbs : list bytes)
  : outcome (list bytes) :=
  match bs, bufs with
  | b :: bs', buf :: bufs' =>
      let n := N.to_nat (fb_num_surbs b) in
      f ← fill b buf (take n surbs);
      fs ← fill_all bs' bufs' (drop n surbs);
      Val (f :: fs)
  | _, _ => Val []
  end.
Definition make_fragments (id : bytes) (data : scattered N) (surbs : list bytes) (bufs : list bytes)
  : outcome (option (list bytes)) :=
  bs ← fragment_blueprints id data (N.of_nat (length surbs));
  match bs with
  | None => Val None
  | Some bs => fs ← fill_all bs bufs surbs; Val (Some fs)
  end.

Lemma fill_all_spec id last k bs (bufs surbs : list bytes) :
  length id = 16 -> (last < 65536)%N ->
  Forall (fun '(di, si) => di + 222 * si <= 2025)%N (plan_of bs) ->
  foldr (fun '(_, si) acc => si + acc)%N 0%N (plan_of bs) = N.of_nat (length surbs) ->
  Forall (fun b => sc_wf (fb_data b)) bs ->
  (forall i b, bs !! i = Some b -> fb_message_id b = id /\ fb_last_index b = last /\
                                  fb_index b = (k + N.of_nat i)%N) ->
  (k + N.of_nat (length bs) = last + 1)%N ->
  length bufs = length bs -> Forall frag_sized bufs -> Forall (fun s => length s = 222) surbs ->
  exists fs, fill_all bs bufs surbs = Val fs /\ length fs = length bs /\
    Forall frag_sized fs /\
    concat (map sp_data fs) = concat (map (fun b => sc_contents (fb_data b)) bs) /\
    concat (map sp_surbs fs) = surbs /\
    (forall i g, fs !! i = Some g -> sp_valid g /\ sp_id g = id /\ sp_count g = (last + 1)%N /\
                                    sp_index g = (k + N.of_nat i)%N).
Proof.
  intros Hid Hlast. revert k bufs surbs.
  induction bs as [|b bs IH]; intros k bufs surbs Hfit Hsum Hwf Hb Hk Hbl Hbufs Hsurbs.
  { simpl in *. exists []. split; [done|]. split; [done|]. split; [constructor|]. split; [done|].
    split; [|intros i g Hg; by rewrite lookup_nil in Hg].
    destruct surbs; [done|]. simpl in Hsum. lia. }
  destruct bufs as [|buf bufs]; [done|]. simpl in Hbl.
  cbn [plan_of map] in Hfit, Hsum. apply Forall_cons in Hfit as [Hfit1 Hfit2].
  apply Forall_cons in Hwf as [Hwf1 Hwf2]. apply Forall_cons in Hbufs as [Hbuf1 Hbufs2].
  cbn [foldr] in Hsum. fold (plan_of bs) in *.
  destruct (Hb 0 b eq_refl) as (Hb1 & Hb2 & Hb3).
  set (n := N.to_nat (fb_num_surbs b)).
  assert (n ≤ length surbs) as Hns by lia.
  cbn [fill_all]. cbv zeta. fold n. unfold sc_wf in Hwf1.
  destruct (fill_spec b buf (take n surbs)) as (pad & Hpad & Efill).
  { done. }
  { done. }
  { by rewrite Hb1. }
  { rewrite take_length. lia. }
  { rewrite <- Hwf1. lia. }
  { by apply Forall_take. }
  rewrite Efill. cbn [out_bind].
  destruct (IH (k + 1)%N bufs (drop n surbs)) as (fs & -> & Hl & Hsz & Hd & Hs & Hi).
  { done. }
  { rewrite drop_length. lia. }
  { done. }
  { intros i b' Hb'. destruct (Hb (S i) b' Hb') as (?&?&->). split_and!; try done. lia. }
  { cbn [length] in Hk. lia. }
  { lia. }
  { done. }
  { by apply Forall_drop. }
  cbn [out_bind]. eexists. split; [done|].
  rewrite Hb1, Hb2, Hb3 in *. cbn [length] in Hk.
  assert (k + N.of_nat 0 < 65536)%N by lia.
  assert (Forall (fun s => length s = 222) (take n surbs)) by (by apply Forall_take).
  set (f := frag_bytes _ _ _ _ _ _).
  assert (sp_data f = sc_contents (fb_data b)) as Fd by (by apply frag_bytes_data).
  assert (sp_surbs f = take n surbs) as Fs by (by apply frag_bytes_surbs).
  split; [by simpl; rewrite Hl|]. split.
  { constructor; [|done]. by apply frag_bytes_length. }
  split; [cbn [map concat]; by rewrite Fd, Hd|].
  split; [cbn [map concat]; rewrite Fs, Hs; apply take_drop|].
  intros [|i] g Hg; cbn in Hg.
  - simplify_eq. split_and!.
    + apply frag_bytes_valid; done || lia.
    + by apply frag_bytes_id.
    + by apply frag_bytes_count.
    + by apply frag_bytes_index.
  - destruct (Hi i g Hg) as (?&?&?&->). split_and!; try done. lia.
Qed.

Lemma make_fragments_spec id data (surbs bufs : list bytes) n :
  sc_wf data -> length id = 16 -> Forall (fun s => length s = 222) surbs ->
  (N.of_nat (length (sc_contents data)) <= USIZE_MAX)%N -> (N.of_nat (length surbs) <= USIZE_MAX)%N ->
  plan_num_fragments (N.of_nat (length (sc_contents data))) (N.of_nat (length surbs)) = Val n ->
  (n <= 65536)%N -> length bufs = N.to_nat n -> Forall frag_sized bufs ->
  exists fs, make_fragments id data surbs bufs = Val (Some fs) /\ length fs = N.to_nat n /\
    fs <> [] /\ Forall frag_sized fs /\ indexed fs /\ Forall (fun f => sp_id f = id) fs /\
    msg_of fs = {| gm_id := id; gm_data := sc_contents data; gm_surbs := surbs |}.
Proof.
  intros Hwf Hid Hsz Hd Hs Hn Hle Hbl Hbufs.
  destruct (fragment_blueprints_spec id data (N.of_nat (length surbs)) Hwf Hd Hs)
    as (n' & Hn' & H1 & Hc).
  rewrite Hn in Hn'. injection Hn' as <-.
  destruct Hc as [[? _]|(_ & bs & E & Hlb & (P1 & P2 & P3) & Hw & Hcat & Hb)]; [lia|].
  unfold make_fragments. rewrite E. cbn [out_bind].
  destruct (fill_all_spec id (n - 1) 0 bs bufs surbs) as (fs & -> & Hl & Hfsz & Hda & Hsu & Hix);
    try done; try lia.
  cbn [out_bind]. exists fs. split; [done|]. split; [lia|].
  assert (fs <> []) as Hne by (intros ->; simpl in Hl; lia).
  split; [done|]. split; [done|]. split; [|split].
  - intros i g Hg. destruct (Hix i g Hg) as (?&?&?&?). split_and!; try done; lia.
  - apply Forall_lookup. intros i g Hg. by destruct (Hix i g Hg) as (?&?&?&?).
  - unfold msg_of. rewrite Hda, Hcat, Hsu. f_equal. destruct fs as [|f0 fs]; [done|].
    simpl. by destruct (Hix 0 f0 eq_refl) as (?&?&?&?).
Qed.

(** Whatever else arrives in between, a message whose fragments all arrive exactly once, in any order,
    comes out when its last fragment arrives, and not before, provided it is not dropped for lack of
    room. (With [C06_room] for a sufficient condition.) *)
Theorem C01_round_trip_interleaved hist fa id data (surbs bufs : list bytes) n (stream : list bytes) :
  Forall frag_sized hist -> fa_reachable hist fa ->
  (* the message *)
  sc_wf data -> length id = 16 -> Forall (fun s => length s = 222) surbs ->
  (N.of_nat (length (sc_contents data)) <= USIZE_MAX)%N -> (N.of_nat (length surbs) <= USIZE_MAX)%N ->
  plan_num_fragments (N.of_nat (length (sc_contents data))) (N.of_nat (length surbs)) = Val n ->
  (n <= 65536)%N -> length bufs = N.to_nat n -> Forall frag_sized bufs ->
  (* the receiver *)
  (n <= fa_max_per_message fa)%N -> lhm_get (fa_incomplete fa) id = None ->
  Forall frag_sized stream -> kept id fa stream ->
  exists fs, make_fragments id data surbs bufs = Val (Some fs) /\
    (filter (fun f => sp_id f = id) stream ≡ₚ fs ->
     exists fa' outs, fa_inserts fa stream = Val (fa', outs) /\
       outputs_for id stream outs =
         replicate (N.to_nat n - 1) None ++
         [Some {| gm_id := id; gm_data := sc_contents data; gm_surbs := surbs |}] /\
       lhm_get (fa_incomplete fa') id = None).
Proof.
  intros Hh Hr Hwf Hid Hsz Hd Hs Hn Hle Hbl Hbufs Hmax Hnone Hst Hk.
  destruct (make_fragments_spec id data surbs bufs n) as (fs & E & Hl & Hne & Hfsz & Hix & Hids & Hmsg);
    try done.
  exists fs. split; [done|]. intros Hp.
  destruct (C06_interleaving hist fa id stream Hh Hr Hst Hk) as (fa' & outs & E' & Hrun).
  exists fa', outs. split; [done|].
  assert (view fa id = None) as Hv by (unfold view; by rewrite Hnone).
  rewrite Hv, (one_run_complete _ fs) in Hrun; [|done|done|lia|done].
  injection Hrun as Hv' Ho. rewrite Ho, Hl, Hmsg. split; [done|].
  unfold view in Hv'. by destruct (lhm_get (fa_incomplete fa') id).
Qed.

(** With only the fragments of the message arriving, room for one more message and for all but one of
    its fragments is enough, and the assembler ends up exactly as it was. *)
Lemma same_id_no_overflow P fa k n (f : bytes) :
  fa_inv P fa -> frag_sized f -> P f -> sp_id f = k -> sp_count f = N.of_nat n -> 2 ≤ n ->
  (N.of_nat (length (lhm_remove (fa_incomplete fa) k)) < fa_max_messages fa)%N ->
  (N.of_nat (held_total (lhm_remove (fa_incomplete fa) k) + (n - 1)) <= fa_max_fragments fa)%N ->
  ~ overflows fa f /\
  forall fa' out, fa_insert fa f = Val (fa', out) ->
    lhm_remove (fa_incomplete fa') k = lhm_remove (fa_incomplete fa) k.
Proof.
  intros Hi Hf HP Hk Hc Hn Hm Hfr.
  destruct (fa_insert_case P fa f Hi Hf HP) as (fa0 & out0 & E0 & Hcase0).
  destruct (insert_views P fa f Hi Hf HP) as (fa1 & out & E & Hi1 & Eo & _ & Hcase).
  rewrite E in E0. injection E0 as <- <-.
  assert (~ bad fa f -> out = None -> ~ lost_room fa f) as Hroom.
  { intros Hnb Ho. rewrite Ho in Hcase0. inversion Hcase0 as [| | |rest im' Hnb' H1 Er Hfs Hsl Hln He' new new' Efa Eout]; subst.
    { done. }
    destruct He' as (_ & Hh & _). rewrite Hfs, insert_length, held_insert in Hh by done.
    assert (held_total (fa_incomplete fa) =
            held (slots_for fa f) + held_total (lhm_remove (fa_incomplete fa) (sp_id f))) as Ht.
    { unfold slots_for. destruct (lhm_get (fa_incomplete fa) (sp_id f)) as [im|] eqn:Hg.
      - destruct (lhm_remove_split _ _ _ Hg) as (m1&m2&Em&->&_). rewrite Em, !held_total_app. simpl. lia.
      - rewrite lhm_remove_None by done. by rewrite held_replicate. }
    assert (length (touched fa f) = S (length (lhm_remove (fa_incomplete fa) (sp_id f)))) as Htl.
    { unfold touched. change (map fst) with (@lhm_keys bytes incomplete_message).
      rewrite <- keys_remove_filter by apply Hi. rewrite app_length. unfold lhm_keys.
      rewrite map_length. simpl. lia. }
    unfold lost_room. lia. }
  split.
  { intros (Hnb & Hn0 & Hlr). apply (Hroom Hnb); [by rewrite Eo|done]. }
  intros fa' out' E'. rewrite E in E'. injection E' as <- <-. rewrite <- Hk.
  assert (NoDup (lhm_keys (fa_incomplete fa))) as Hnd by apply Hi.
  destruct Hcase as [(-> & Hst & Hb)|[(Ho & Hnb & H1 & Hst & Einc)
                    |(Ho & Hnb & H1 & im' & Hst & Hnd' & Ht & Einc)]].
  - done.
  - rewrite Einc. apply lhm_remove_None. rewrite lhm_get_remove by done. by rewrite decide_True.
  - rewrite Einc, decide_False by (by apply Hroom).
    assert (forall (m : lhm bytes incomplete_message) k v,
              k ∉ lhm_keys m -> lhm_remove (m ++ [(k, v)]) k = m) as Hrm.
    { intros m k1 v. induction m as [|[k0 v0] m IHm]; simpl; [by rewrite decide_True|].
      intros [? ?]%not_elem_of_cons. rewrite decide_False by done. by rewrite IHm. }
    apply Hrm. apply lhm_get_None. rewrite lhm_get_remove by done. by rewrite decide_True.
Qed.

Lemma same_id_run P fa k n stream :
  fa_inv P fa -> Forall frag_sized stream -> (forall f, f ∈ stream -> P f) ->
  Forall (fun f => sp_id f = k /\ sp_count f = N.of_nat n) stream -> 2 ≤ n ->
  (N.of_nat (length (lhm_remove (fa_incomplete fa) k)) < fa_max_messages fa)%N ->
  (N.of_nat (held_total (lhm_remove (fa_incomplete fa) k) + (n - 1)) <= fa_max_fragments fa)%N ->
  kept k fa stream /\
  forall fa' outs, fa_inserts fa stream = Val (fa', outs) ->
    lhm_remove (fa_incomplete fa') k = lhm_remove (fa_incomplete fa) k.
Proof.
  intros Hi Hs HP Hk Hn. revert fa Hi. induction Hs as [|f stream Hf Hs IH]; intros fa Hi Hm Hfr.
  { split; [done|]. simpl. intros fa' outs ?. by simplify_eq. }
  apply Forall_cons in Hk as [[Hk1 Hc1] Hk].
  destruct (same_id_no_overflow P fa k n f) as [Hno Hrem]; try done.
  { apply HP. left. }
  destruct (insert_views_full P fa f Hi Hf (HP f ltac:(left))) as (fa1 & out & E & Hi1 & _).
  pose proof (Hrem _ _ E) as Hrem1.
  destruct (fa_insert_case P fa f Hi Hf (HP f ltac:(left))) as (fa2 & out2 & E2 & Hcase).
  rewrite E in E2. simplify_eq.
  destruct (insert_case_limits _ _ _ _ _ Hcase) as (L1 & L2 & _).
  destruct (IH ltac:(intros; apply HP; by right) Hk fa2 Hi1) as [K1 K2].
  { by rewrite Hrem1, L1. }
  { by rewrite Hrem1, L2. }
  split.
  - split; [naive_solver|]. intros fa' out E'. rewrite E in E'. by simplify_eq.
  - intros fa' outs E'. simpl in E'. rewrite E in E'. simpl in E'. inv_val.
    etransitivity; [by eapply K2|done].
Qed.

Lemma outputs_for_all k fs outs :
  Forall (fun f => sp_id f = k) fs -> length outs = length fs -> outputs_for k fs outs = outs.
Proof.
  intros Hf. revert outs. induction Hf as [|f fs Hk Hf IH]; intros [|o outs] Hl; simpl in *; try done.
  rewrite decide_True by done. rewrite IH by lia. done.
Qed.

Theorem C01_round_trip hist fa id data (surbs bufs : list bytes) n :
  Forall frag_sized hist -> fa_reachable hist fa ->
  (* the message *)
  sc_wf data -> length id = 16 -> Forall (fun s => length s = 222) surbs ->
  (N.of_nat (length (sc_contents data)) <= USIZE_MAX)%N -> (N.of_nat (length surbs) <= USIZE_MAX)%N ->
  plan_num_fragments (N.of_nat (length (sc_contents data))) (N.of_nat (length surbs)) = Val n ->
  (n <= 65536)%N -> length bufs = N.to_nat n -> Forall frag_sized bufs ->
  (* room at the receiver *)
  (n <= fa_max_per_message fa)%N -> lhm_get (fa_incomplete fa) id = None ->
  (N.of_nat (length (fa_incomplete fa)) < fa_max_messages fa)%N ->
  (fa_num_fragments fa + (n - 1) <= fa_max_fragments fa)%N ->
  exists fs, make_fragments id data surbs bufs = Val (Some fs) /\ length fs = N.to_nat n /\
    forall stream, stream ≡ₚ fs ->
     exists fa', fa_inserts fa stream =
         Val (fa', replicate (N.to_nat n - 1) None ++
                   [Some {| gm_id := id; gm_data := sc_contents data; gm_surbs := surbs |}]) /\
       fa_incomplete fa' = fa_incomplete fa /\ fa_num_fragments fa' = fa_num_fragments fa.
Proof.
  intros Hh Hr Hwf Hid Hsz Hd Hs Hn Hle Hbl Hbufs Hmax Hnone Hm1 Hm2.
  destruct (make_fragments_spec id data surbs bufs n) as (fs & E & Hl & Hne & Hfsz & Hix & Hids & Hmsg);
    try done.
  exists fs. split; [done|]. split; [done|]. intros stream Hp.
  pose proof (reachable_inv_True _ _ Hh Hr) as Hi.
  assert (Forall frag_sized stream) as Hst by (by rewrite Hp).
  assert (length stream = length fs) as Hls by (by rewrite Hp).
  assert (Forall (fun f => sp_id f = id) stream) as Hids2 by (by rewrite Hp).
  assert (kept id fa stream /\ forall fa' outs, fa_inserts fa stream = Val (fa', outs) ->
            lhm_remove (fa_incomplete fa') id = lhm_remove (fa_incomplete fa) id) as [Hkept Hrem].
  { destruct (decide (n = 1%N)) as [->|Hn1].
    - assert (exists f, stream = [f]) as [f ->].
      { destruct stream as [|f [|]]; simpl in *; try lia. by exists f. }
      apply Forall_cons in Hids2 as [Hf _]. apply Forall_cons in Hst as [Hfs _].
      assert (fs = [f]) as -> by (symmetry; by apply Permutation_singleton_l).
      destruct (Hix 0 f eq_refl) as (Hv & Hc & _). simpl in Hc.
      simpl. split; [split; [|done]|].
      + intros [(Hnb & Ho & _) _]. unfold one_step in Ho. rewrite decide_False in Ho.
        * by rewrite decide_True in Ho.
        * intros [?|?]; [done|]. lia.
      + intros fa' outs Ein. destruct (insert_views _ fa f Hi Hfs I) as (fa1 & o1 & E1 & _ & _ & _ & Hcase).
        rewrite E1 in Ein. simpl in Ein. simplify_eq.
        destruct Hcase as [(-> & _)|[(_ & _ & ? & _)|(_ & _ & ? & _)]]; done.
    - apply (same_id_run (fun _ => True) fa id (N.to_nat n)); try done.
      + rewrite Hp. apply Forall_lookup. intros i g Hg. destruct (Hix i g Hg) as (_ & Hc & _).
        rewrite Forall_lookup in Hids. split; [by eapply Hids|]. rewrite Hc. lia.
      + destruct fs; [done|]. cbn [length] in Hl. lia.
      + by rewrite lhm_remove_None.
      + rewrite lhm_remove_None by done. rewrite (inv_count _ _ Hi) in Hm2. lia. }
  destruct (interleave _ id fa stream Hi Hst ltac:(done) Hkept) as (fa' & outs & E' & Hrun).
  assert (filter (fun f => sp_id f = id) stream = stream) as Hfil.
  { clear -Hids2. induction Hids2 as [|f l H H2 IH]; [done|]. rewrite filter_cons_True by done. by rewrite IH. }
  assert (view fa id = None) as Hv by (unfold view; by rewrite Hnone).
  rewrite Hfil, Hv, (one_run_complete _ fs) in Hrun; [|done|done|lia|done].
  destruct (fa_inserts_inv _ fa stream Hi Hst ltac:(done)) as (fa2 & outs2 & E2 & Hi2 & Hlo & _).
  rewrite E' in E2. injection E2 as <- <-.
  injection Hrun as Hv' Ho. rewrite outputs_for_all in Ho; [|done|done]. exists fa'. split.
  { rewrite E', Ho, Hl, Hmsg. done. }
  assert (fa_incomplete fa' = fa_incomplete fa) as Hinc.
  { assert (lhm_get (fa_incomplete fa') id = None) as Hn2.
    { unfold view in Hv'. by destruct (lhm_get (fa_incomplete fa') id). }
    rewrite <- (lhm_remove_None (fa_incomplete fa') id) by done.
    rewrite (Hrem _ _ E'). by apply lhm_remove_None. }
  split; [done|]. by rewrite (inv_count _ _ Hi2), (inv_count _ _ Hi), Hinc.
Qed.

(** ** Concrete cases *)
Definition ex_id : bytes := replicate 16 9%N.
Definition ex_data : scattered N :=
  sc_from_slices [replicate (N.to_nat 1500) 1%N; []; replicate (N.to_nat 3000) 2%N].
Definition ex_surbs : list bytes := [replicate 222 3%N; replicate 222 4%N].
Definition ex_bufs : list bytes := replicate 3 (replicate (N.to_nat 2048) 5%N).
Definition ex_fa : fragment_assembler := fa_new 2 4 25.

(** The hypotheses of [C01_round_trip]; the message takes 3 fragments *)
Example ex_C01_hyps :
  Forall frag_sized [] /\ fa_reachable [] ex_fa /\
  sc_wf ex_data /\ length ex_id = 16 /\ Forall (fun s => length s = 222) ex_surbs /\
  (N.of_nat (length (sc_contents ex_data)) <= USIZE_MAX)%N /\
  (N.of_nat (length ex_surbs) <= USIZE_MAX)%N /\
  plan_num_fragments (N.of_nat (length (sc_contents ex_data))) (N.of_nat (length ex_surbs)) = Val 3%N /\
  length ex_bufs = N.to_nat 3 /\ Forall frag_sized ex_bufs /\
  (3 <= fa_max_per_message ex_fa)%N /\ lhm_get (fa_incomplete ex_fa) ex_id = None /\
  (N.of_nat (length (fa_incomplete ex_fa)) < fa_max_messages ex_fa)%N /\
  (fa_num_fragments ex_fa + (3 - 1) <= fa_max_fragments ex_fa)%N.
Proof.
  split; [constructor|]. split; [by exists 2%N, 4%N, 25%N, []|].
  split; [apply sc_from_slices_wf|]. split; [done|]. split; [by repeat constructor|].
  split; [vm_compute; done|]. split; [vm_compute; done|]. split; [vm_compute; done|].
  split; [done|]. split; [apply Forall_replicate; unfold frag_sized; by rewrite replicate_length|].
  split_and!; vm_compute; done.
Qed.

(** A run with a shuffled message interleaved with another one, a duplicate, a fragment with a bad
    index, and one of a wrong count *)
Definition ex_other (id last idx : N) : bytes :=
  frag_bytes (replicate 16 id) last idx [id; idx] (replicate (N.to_nat 2023) 0%N) [].
Example ex_run :
  match make_fragments ex_id ex_data ex_surbs ex_bufs with
  | Val (Some [f0; f1; f2]) =>
      match fa_inserts ex_fa [f2; ex_other 7 1 0; f0; f0; ex_other 8 2 3; ex_other 9 1 1; f1; ex_other 7 1 1] with
      | Val (fa, outs) =>
          outs = [None; None; None; None; None; None;
                  Some {| gm_id := ex_id; gm_data := sc_to_vec ex_data; gm_surbs := ex_surbs |};
                  Some {| gm_id := replicate 16 7%N; gm_data := [7; 0; 7; 1]%N; gm_surbs := [] |}]
          /\ fa = ex_fa
      | _ => False
      end
  | _ => False
  end.
Proof. vm_compute. split; reflexivity. Qed.

(** Overflow drops the least recently touched message: message 2, although message 1 is older. *)
Example ex_evict :
  match fa_inserts ex_fa [ex_other 1 3 0; ex_other 2 3 0; ex_other 1 3 1; ex_other 3 3 0] with
  | Val (fa, _) => map fst (fa_incomplete fa) = [replicate 16 1%N; replicate 16 3%N]
  | Panic => False
  end.
Proof. vm_compute. reflexivity. Qed.

Print Assumptions C01_round_trip.
Print Assumptions C01_round_trip_interleaved.
Print Assumptions C03_no_panic.
Print Assumptions C03_bounds.
Print Assumptions C04_bad_ignored.
Print Assumptions C04_good_not_ignored.
Print Assumptions C05_sound.
Print Assumptions C06_step.
Print Assumptions C06_interleaving.
Print Assumptions C06_room.
Print Assumptions C06_recency.
