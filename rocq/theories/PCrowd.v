(** C78: a message on its way is lost to other messages only if there are as many as the limits allow. *)
From Verif Require Import LBase.
From Verif Require Export PEnd PProvenance.
Local Open Scope nat_scope.

(** ** Specification *)

(** Node [y] takes fragment [f] out of the packet it handles at that moment. *)
Definition gives (pr : prims) (y : bytes) (mt : moment) (f : bytes) : Prop :=
  exists b p now msg, mt_event mt = EvHandle b p now msg /\ ap_peer_id p = y /\
    PProvenance.yields pr (w_node (mt_before mt) y) (ap_packet p) f.
(** One of the packets [ps] is handled at that moment, but was not before. *)
Definition new_at (ps : list addressed_packet) (earlier : list moment) (mt : moment) : Prop :=
  exists p, p ∈ ps /\ handles mt p /\ forall mt', mt' ∈ earlier -> ~ handles mt' p.
(** Fragments of message [id] come to [y] with the packets [ps] only. *)
Definition own_only (pr : prims) (id y : bytes) (ps : list addressed_packet) (tr : list moment) : Prop :=
  forall t1 mt t2 f, tr = t1 ++ mt :: t2 -> gives pr y mt f -> sp_id f = id -> new_at ps t1 mt.
(** Between one of the packets [ps] and the next, fragments of at most [c] messages come to [y]. *)
Definition few_between (pr : prims) (c : nat) (y : bytes) (ps : list addressed_packet) (tr : list moment) : Prop :=
  forall t1 a mid b t2, tr = t1 ++ a :: mid ++ b :: t2 ->
    new_at ps t1 a -> new_at ps (t1 ++ a :: mid) b ->
    (forall m1 d m2, mid = m1 ++ d :: m2 -> ~ new_at ps (t1 ++ a :: m1) d) ->
    exists others, length others ≤ c /\ forall mt f, mt ∈ mid -> gives pr y mt f -> sp_id f ∈ others.
(** The limits of the node leave room for [c] messages and one more, each with all but one of the most
    fragments a message may have. *)
Definition limits_fit (cf : config) (c : nat) : Prop :=
  (N.of_nat (S c) <= cf_max_incomplete_messages cf)%N /\
  (N.of_nat (S c) * (cf_max_fragments_per_message cf - 1) <= cf_max_incomplete_fragments cf)%N.

(** ** Proof *)

(** *** The assembler *)
Definition small (P : N) (inc : lhm bytes incomplete_message) : Prop :=
  Forall (fun e => held (im_fragments e.2) < length (im_fragments e.2) /\ (N.of_nat (length (im_fragments e.2)) <= P)%N) inc.
Lemma small_total P inc : small P inc -> (N.of_nat (held_total inc) <= N.of_nat (length inc) * (P - 1))%N.
Proof.
  induction 1 as [|[k im] inc [H1 H2] _ IH]; [done|]. cbn [held_total sum_list_with length]. fold (held_total inc).
  cbn in H1, H2. lia.
Qed.

(** The messages touched after [id]. *)
Definition behind (id : bytes) (L : list bytes) (keys : list bytes) : Prop :=
  exists pre suf, keys = pre ++ id :: suf /\ forall k, k ∈ suf -> k ∈ L.
Lemma behind_filter id L keys k : k <> id -> behind id L keys -> behind id L (filter (fun k' => k' <> k) keys).
Proof.
  intros Hk (pre & suf & -> & Hs). exists (filter (fun k' => k' <> k) pre), (filter (fun k' => k' <> k) suf).
  rewrite filter_app, filter_cons_True by done. split; [done|]. intros k' [_ Hk']%elem_of_list_filter. by apply Hs.
Qed.
Lemma behind_snoc id L keys k : k ∈ L -> behind id L keys -> behind id L (keys ++ [k]).
Proof.
  intros Hk (pre & suf & -> & Hs). exists pre, (suf ++ [k]). split; [by rewrite <- app_assoc|].
  intros k' [Hk'|Hk']%elem_of_app; [by apply Hs|]. by apply elem_of_list_singleton in Hk' as ->.
Qed.
Lemma behind_tail id L keys : behind id L keys -> head keys <> Some id -> behind id L (tail keys).
Proof.
  intros ([|k pre] & suf & -> & Hs) Hh; [done|]. by exists pre, suf.
Qed.
Lemma behind_length id L keys : NoDup keys -> behind id L keys -> head keys = Some id -> length keys ≤ S (length L).
Proof.
  intros Hnd (pre & suf & -> & Hs) Hh. destruct pre as [|k pre].
  - cbn. apply NoDup_cons in Hnd as [_ Hnd]. apply le_n_S. apply submseteq_length. by apply NoDup_submseteq.
  - injection Hh as ->. cbn in Hnd. apply NoDup_cons in Hnd as [Hn _]. exfalso. apply Hn. apply elem_of_app. right. left.
Qed.
Lemma keys_tail {V} (m : lhm bytes V) : lhm_keys (tail m) = tail (lhm_keys m).
Proof. by destruct m. Qed.
Lemma get_tail {V} (m : lhm bytes V) k : head (lhm_keys m) <> Some k -> lhm_get (tail m) k = lhm_get m k.
Proof. destruct m as [|[k0 v] m]; [done|]. cbn. intros H. rewrite decide_False; [done|]. congruence. Qed.

Section assembler.
  Context (fa : fragment_assembler) (Hi : fa_inv (fun _ => True) fa)
    (Hsm : Forall (fun e => (N.of_nat (length (im_fragments e.2)) <= fa_max_per_message fa)%N) (fa_incomplete fa)).

  Lemma inc_small : small (fa_max_per_message fa) (fa_incomplete fa).
  Proof.
    apply Forall_forall. intros [k im] Hin. rewrite Forall_forall in Hsm. split; [|by apply (Hsm (k, im))].
    pose proof (inv_entries _ _ Hi) as He. rewrite Forall_forall in He. destruct (He (k, im) Hin) as (_ & H & _). cbn. lia.
  Qed.
  Lemma remove_small k : small (fa_max_per_message fa) (lhm_remove (fa_incomplete fa) k).
  Proof.
    destruct (lhm_get (fa_incomplete fa) k) as [im|] eqn:E.
    - destruct (lhm_remove_split _ _ _ E) as (m1 & m2 & Em & -> & _). pose proof inc_small as H. rewrite Em in H.
      apply Forall_app in H as [H1 H2]. apply Forall_cons in H2 as [_ H2]. apply Forall_app. done.
    - rewrite lhm_remove_None by done. apply inc_small.
  Qed.

  (** A fragment of another message. *)
  Lemma other_insert f fa' out id :
    frag_sized f -> sp_id f <> id -> fa_insert fa f = Val (fa', out) ->
    (lhm_get (fa_incomplete fa) id = None -> lhm_get (fa_incomplete fa') id = None) /\
    forall L, behind id L (lhm_keys (fa_incomplete fa)) -> sp_id f ∈ L ->
      (N.of_nat (S (length L)) <= fa_max_messages fa)%N ->
      (N.of_nat (S (length L)) * (fa_max_per_message fa - 1) <= fa_max_fragments fa)%N ->
      behind id L (lhm_keys (fa_incomplete fa')) /\ lhm_get (fa_incomplete fa') id = lhm_get (fa_incomplete fa) id.
  Proof.
    intros Hf Hne E. destruct (fa_insert_case _ fa f Hi Hf I) as (fa1 & o1 & E1 & Hc). rewrite E in E1.
    injection E1 as <- <-. pose proof (inv_nodup _ _ Hi) as Hnd.
    destruct Hc as [Hb|Hnb H1|m1 im m2 fs Hnb H1 Hg Em Hfs Hlen Hfi|rest im' Hnb H1 Er Hfr Hsl Hln He' new new'].
    - done.
    - done.
    - assert (Erm : m1 ++ m2 = lhm_remove (fa_incomplete fa) (sp_id f)).
      { destruct (lhm_remove_split _ _ _ Hg) as (n1 & n2 & En & -> & Hn1). rewrite Em in En, Hnd.
        unfold lhm_keys in Hnd. rewrite map_app in Hnd. cbn in Hnd. apply NoDup_app in Hnd as (_ & Hd & _).
        assert (Hk1 : sp_id f ∉ lhm_keys m1). { intros Hx. apply (Hd _ Hx). left. }
        clear -En Hn1 Hk1. revert n1 En Hn1. induction m1 as [|[k v] m1 IH]; intros [|[k' v'] n1] En Hn1; cbn in *.
        - by injection En as ->.
        - injection En as Ek _ _. exfalso. apply Hn1. rewrite Ek. left.
        - injection En as Ek _ _. exfalso. apply Hk1. rewrite Ek. left.
        - injection En as -> -> En. f_equal. apply IH; [|done|].
          + intros Hx. apply Hk1. by right.
          + intros Hx. apply Hn1. by right. }
      cbn [fa_set fa_incomplete]. rewrite Erm.
      assert (Eg : lhm_get (lhm_remove (fa_incomplete fa) (sp_id f)) id = lhm_get (fa_incomplete fa) id).
      { rewrite lhm_get_remove by done. by rewrite decide_False. }
      split; [by rewrite Eg|]. intros L HL _ _ _. split; [|done]. rewrite keys_remove_filter by done.
      by apply behind_filter.
    - cbn [fa_set fa_incomplete].
      assert (Hkn : lhm_keys new = filter (fun k => k <> sp_id f) (lhm_keys (fa_incomplete fa)) ++ [sp_id f]).
      { unfold new. rewrite lhm_keys_app, Er, keys_remove_filter by done. done. }
      assert (Hndn : NoDup (lhm_keys new)).
      { rewrite Hkn. apply NoDup_app. split_and!.
        - by apply NoDup_filter.
        - intros k [Hk _]%elem_of_list_filter ->%elem_of_list_singleton. done.
        - apply NoDup_singleton. }
      assert (Egn : lhm_get new id = lhm_get (fa_incomplete fa) id).
      { unfold new. rewrite lhm_get_app, Er, lhm_get_remove by done. rewrite decide_False by done. cbn.
        rewrite decide_False by done. by destruct (lhm_get _ id). }
      split.
      + intros Hg. unfold new'. rewrite Hg in Egn. destruct (decide _); [|done].
        apply lhm_get_None in Egn. apply lhm_get_None. rewrite keys_tail. intros Hx. apply Egn.
        destruct (lhm_keys new); [done|]. by right.
      + intros L HL HfL Hm1 Hm2.
        assert (Hbn : behind id L (lhm_keys new)).
        { rewrite Hkn. apply behind_snoc; [done|]. by apply behind_filter. }
        unfold new'. destruct (decide _) as [Hov|_]; [|done].
        assert (Hhd : head (lhm_keys new) <> Some id).
        { intros Hh. pose proof (behind_length _ _ _ Hndn Hbn Hh) as Hl. unfold lhm_keys in Hl. rewrite map_length in Hl.
          assert (Hs : small (fa_max_per_message fa) new).
          { unfold new. apply Forall_app. split; [rewrite Er; apply remove_small|]. apply Forall_singleton. cbn.
            destruct He' as (_ & Hh' & _). split; [lia|]. rewrite Hfr, insert_length.
            assert (~ (fa_max_per_message fa < sp_count f)%N) by (intros ?; apply Hnb; right; by left). lia. }
          apply small_total in Hs.
          assert (N.of_nat (length new) * (fa_max_per_message fa - 1) <= fa_max_fragments fa)%N.
          { etrans; [|exact Hm2]. apply N.mul_le_mono_r. lia. }
          destruct Hov as [Hov|Hov]; lia. }
        split; [rewrite keys_tail; by apply behind_tail|]. by rewrite get_tail.
  Qed.

  (** One of its own, not held yet and not the last. *)
  Lemma own_insert f fa' out l :
    frag_sized f -> fa_insert fa f = Val (fa', out) -> sp_valid f -> (sp_count f <= fa_max_per_message fa)%N ->
    sp_count f <> 1%N -> default (replicate (N.to_nat (sp_count f)) None) (view fa (sp_id f)) = l ->
    N.of_nat (length l) = sp_count f -> l !! N.to_nat (sp_index f) = Some None ->
    (exists j, j <> N.to_nat (sp_index f) /\ l !! j = Some None) ->
    (1 <= fa_max_messages fa)%N -> (fa_max_per_message fa - 1 <= fa_max_fragments fa)%N ->
    behind (sp_id f) [] (lhm_keys (fa_incomplete fa')) /\
    view fa' (sp_id f) = Some (<[N.to_nat (sp_index f) := Some f]> l).
  Proof.
    intros Hf E Hv Hc Hc1 El Hll Hli (j & Hj & Hlj) Hm1 Hm2.
    destruct (fa_insert_case _ fa f Hi Hf I) as (fa1 & o1 & E1 & Hcase). rewrite E in E1. injection E1 as <- <-.
    pose proof (inv_nodup _ _ Hi) as Hnd.
    assert (Els : slots_for fa f = l).
    { rewrite <- El. unfold slots_for, view. by destruct (lhm_get _ _). }
    assert (Hgood : ~ bad fa f).
    { intros [?|[?|(_ & im & Hg & Hb)]]; [done|lia|]. unfold view in El. rewrite Hg in El. cbn in El. subst l.
      destruct Hb as [Hb|(g & Hb)]; [done|]. rewrite Hli in Hb. done. }
    destruct Hcase as [Hb|Hnb H1|m1 im m2 fs Hnb H1 Hg Em Hfs Hlen Hfi|rest im' Hnb H1 Er Hfr Hsl Hln He' new new'].
    - done.
    - done.
    - exfalso. unfold view in El. rewrite Hg in El. cbn in El. subst l.
      assert (Hx : <[N.to_nat (sp_index f):=Some f]> (im_fragments im) !! j = Some None)
        by (rewrite list_lookup_insert_ne by done; done).
      rewrite Hfs, list_lookup_fmap in Hx. by destruct (fs !! j).
    - cbn [fa_set fa_incomplete].
      assert (Hkn : lhm_keys new = filter (fun k => k <> sp_id f) (lhm_keys (fa_incomplete fa)) ++ [sp_id f]).
      { unfold new. rewrite lhm_keys_app, Er, keys_remove_filter by done. done. }
      assert (Hbn : behind (sp_id f) [] (lhm_keys new)).
      { rewrite Hkn. eexists _, []. split; [done|]. by intros k ?%elem_of_nil. }
      assert (Hgn : lhm_get new (sp_id f) = Some im').
      { unfold new. rewrite lhm_get_app, Er, lhm_get_remove by done. rewrite decide_True by done. cbn.
        by rewrite decide_True. }
      assert (Hvw : forall fa2, lhm_get (fa_incomplete fa2) (sp_id f) = Some im' ->
                view fa2 (sp_id f) = Some (<[N.to_nat (sp_index f) := Some f]> l)).
      { intros fa2 Hg2. unfold view. rewrite Hg2. cbn. by rewrite Hfr, Els. }
      unfold new'. destruct (decide _) as [Hov|_].
      2:{ split; [done|]. apply Hvw. done. }
      assert (Hndn : NoDup (lhm_keys new)).
      { rewrite Hkn. apply NoDup_app. split_and!.
        - by apply NoDup_filter.
        - intros k [Hk _]%elem_of_list_filter ->%elem_of_list_singleton. done.
        - apply NoDup_singleton. }
      assert (Hhd : head (lhm_keys new) <> Some (sp_id f)).
      { intros Hh. pose proof (behind_length _ _ _ Hndn Hbn Hh) as Hl. unfold lhm_keys in Hl. rewrite map_length in Hl.
        cbn in Hl.
        assert (Hs : small (fa_max_per_message fa) new).
        { unfold new. apply Forall_app. split; [rewrite Er; apply remove_small|]. apply Forall_singleton. cbn.
          destruct He' as (_ & Hh' & _). split; [lia|]. rewrite Hfr, insert_length. lia. }
        apply small_total in Hs.
        assert (N.of_nat (length new) * (fa_max_per_message fa - 1) <= 1 * (fa_max_per_message fa - 1))%N
          by (apply N.mul_le_mono_r; lia).
        destruct Hov as [Hov|Hov]; lia. }
      split; [rewrite keys_tail; by apply behind_tail|]. apply Hvw. cbn [fa_set fa_incomplete]. by rewrite get_tail.
  Qed.
End assembler.

(** *** Histories *)
Section crowd.
  Context (pr : prims) (Hok : prims_ok pr).

  Lemma assembler_step w e w1 y :
    world_ok pr w -> happens pr w e w1 ->
    mx_assembler (w_node w1 y) = mx_assembler (w_node w y) \/
    exists b p now msg f out, e = EvHandle b p now msg /\ ap_peer_id p = y /\
      PProvenance.yields pr (w_node w y) (ap_packet p) f /\ frag_sized f /\
      fa_insert (mx_assembler (w_node w y)) f = Val (mx_assembler (w_node w1 y), out).
  Proof.
    intros Hw Hh. destruct (happens_call _ _ _ _ Hh) as (x & c & a & m & Hc & He & En & Hev). rewrite En.
    destruct (decide (y = x)) as [->|Hne]; [|left; by rewrite with_node_other].
    rewrite with_node_same. destruct (Hw x) as (cf & hist & Hr).
    destruct (reachable_mx_ok pr Hok _ _ _ Hr) as [Hcf Hm].
    pose proof (PInv.exec_step pr Hok _ _ _ _ _ Hcf Hm Hc He) as Hst.
    apply step_assembler in Hst as [[-> _]|(p & now & f & out & Ec & Hy & Hl & Hf & _)]; [by left|].
    right. destruct e as [x' c' a'|b q now' msg].
    - destruct Hev as (_ & _ & _ & Hnh & _). by rewrite Ec in Hnh.
    - destruct Hev as (Ex & Ec' & _). rewrite Ec in Ec'. injection Ec' as -> ->. exists b, q, now', msg, f, out.
      subst x. done.
  Qed.

  Lemma node_limits w y : world_ok pr w -> let fa := mx_assembler (w_node w y) in let cf := mx_config (w_node w y) in
    fa_inv (fun _ => True) fa /\
    Forall (fun e => (N.of_nat (length (im_fragments e.2)) <= fa_max_per_message fa)%N) (fa_incomplete fa) /\
    fa_max_messages fa = cf_max_incomplete_messages cf /\ fa_max_fragments fa = cf_max_incomplete_fragments cf /\
    fa_max_per_message fa = cf_max_fragments_per_message cf.
  Proof.
    intros Hw fa cf. destruct (Hw y) as (cf0 & hist & Hr). destruct (reachable_mx_ok pr Hok _ _ _ Hr) as [_ Hm].
    destruct (mo_assembler _ _ _ Hm) as (Hi & H1 & H2 & H3). unfold cf. rewrite (mo_config _ _ _ Hm).
    split_and!; try done. destruct (C56_memory pr Hok _ _ _ Hr) as (_ & _ & _ & _ & _ & Him & _).
    apply Forall_forall. intros [k im] Hin. cbn. unfold fa. rewrite H3. by apply (Him k im).
  Qed.
  Lemma same_config w e w1 y : world_ok pr w -> happens pr w e w1 -> mx_config (w_node w1 y) = mx_config (w_node w y).
  Proof.
    intros Hw Hh. destruct (happens_call _ _ _ _ Hh) as (x & c & a & m & Hc & He & En & Hev). rewrite En.
    destruct (decide (y = x)) as [->|Hne]; [|by rewrite with_node_other].
    rewrite with_node_same. destruct (Hw x) as (cf & hist & Hr).
    destruct (reachable_mx_ok pr Hok _ _ _ Hr) as [Hcf Hm].
    destruct (reachable_mx_ok pr Hok _ _ _ (reachable_snoc pr _ _ _ _ _ _ Hr Hc He)) as [_ Hm'].
    by rewrite (mo_config _ _ _ Hm), (mo_config _ _ _ Hm').
  Qed.

  Lemma undisturbed_none id y tr : forall ps, arrivals ps tr = [] -> undisturbed id y ps tr.
  Proof.
    induction tr as [|mt tr IH]; intros ps H; [done|]. cbn [arrivals undisturbed] in *.
    destruct (handled_of ps mt) as [[p msg]|]; [done|]. split; [by left|by apply IH].
  Qed.
  (** The next arrival. *)
  Lemma next_arrival tr : forall ps, arrivals ps tr <> [] ->
    exists mid b t2 p msg, tr = mid ++ b :: t2 /\ handled_of ps b = Some (p, msg) /\
      forall mt, mt ∈ mid -> handled_of ps mt = None.
  Proof.
    induction tr as [|mt tr IH]; intros ps H; [done|]. cbn [arrivals] in H.
    destruct (handled_of ps mt) as [[p msg]|] eqn:E.
    - exists [], mt, tr, p, msg. split_and!; try done. by intros ? ?%elem_of_nil.
    - destruct (IH ps H) as (mid & b & t2 & p & msg & -> & Eb & Hm). exists (mt :: mid), b, t2, p, msg.
      split_and!; try done. intros mt' [->|Hin]%elem_of_cons; [done|by apply Hm].
  Qed.

  Context (y : bytes) (c : nat) (id : bytes) (finals : list addressed_packet) (fs : list bytes) (T : list moment).
  Context (Hlen : length finals = length fs) (Hix : indexed fs) (Hsz : Forall frag_sized fs)
    (Hid : Forall (fun f => sp_id f = id) fs) (Hnd : NoDup finals).
  Context (Hown : own_only pr id y finals T) (Hfew : few_between pr c y finals T).
  Context (Hstep : forall i p f mt, finals !! i = Some p -> fs !! i = Some f -> first_at T mt p ->
       exists out, fa_insert (mx_assembler (w_node (mt_before mt) y)) f = Val (mx_assembler (w_node (mt_after mt) y), out)).

  (** The packets still to arrive. *)
  Definition left_of (t0 : list moment) (ps : list addressed_packet) : Prop :=
    forall p, p ∈ ps <-> p ∈ finals /\ forall mt, mt ∈ t0 -> ~ handles mt p.
  (** What is held is what has arrived. *)
  Definition filled (v : slots) (ps : list addressed_packet) : Prop :=
    length (default (replicate (length fs) None) v) = length fs /\
    forall i f p, fs !! i = Some f -> finals !! i = Some p ->
      default (replicate (length fs) None) v !! i = Some (if decide (p ∈ ps) then None else Some f).
  (** The messages that come before the next of the packets. *)
  Definition window (L : list bytes) (ps : list addressed_packet) (tr : list moment) : Prop :=
    forall mid b t2, tr = mid ++ b :: t2 -> handled_of ps b <> None ->
      (forall mt, mt ∈ mid -> handled_of ps mt = None) -> forall mt f, mt ∈ mid -> gives pr y mt f -> sp_id f ∈ L.

  Lemma new_handled t0 ps mt : left_of t0 ps -> new_at finals t0 mt <-> handled_of ps mt <> None.
  Proof.
    intros Hl. split.
    - intros (p & Hp & Hh & Hn). intros E. eapply handled_of_None; [exact E| |exact Hh]. by apply Hl.
    - intros E. destruct (handled_of ps mt) as [[p msg]|] eqn:Eh; [|done].
      apply handled_of_Some in Eh as (Hp & b & now & Ee). apply Hl in Hp as [Hp Hn]. exists p. split_and!; try done.
      by exists b, now, msg.
  Qed.
  Lemma left_skip t0 ps mt : left_of t0 ps -> handled_of ps mt = None -> left_of (t0 ++ [mt]) ps.
  Proof.
    intros Hl E p. rewrite (Hl p). split.
    - intros [Hp Hn]. split; [done|]. intros mt' [Hin| ->%elem_of_list_singleton]%elem_of_app; [by apply Hn|].
      eapply handled_of_None; [exact E|]. by apply Hl.
    - intros [Hp Hn]. split; [done|]. intros mt' Hin. apply Hn. apply elem_of_app. by left.
  Qed.
  Lemma left_skips mid : forall t0 ps, left_of t0 ps -> (forall mt, mt ∈ mid -> handled_of ps mt = None) -> left_of (t0 ++ mid) ps.
  Proof.
    induction mid as [|mt mid IH]; intros t0 ps Hl Hm; [by rewrite app_nil_r|]. rewrite cons_middle, app_assoc.
    apply IH.
    - apply left_skip; [done|]. apply Hm. left.
    - intros mt' Hin. apply Hm. by right.
  Qed.
  Lemma left_take t0 ps mt p msg : left_of t0 ps -> handled_of ps mt = Some (p, msg) -> left_of (t0 ++ [mt]) (without p ps).
  Proof.
    intros Hl E q. rewrite elem_of_without, (Hl q). apply handled_of_Some in E as (Hp & b & now & Ee). split.
    - intros [Hq [Hqf Hn]]. split; [done|]. intros mt' [Hin| ->%elem_of_list_singleton]%elem_of_app; [by apply Hn|].
      intros (? & ? & ? & E2). rewrite Ee in E2. by injection E2 as _ ->.
    - intros [Hqf Hn]. split_and!; [|done|].
      + intros ->. apply (Hn mt); [apply elem_of_app; right; left|]. by exists b, now, msg.
      + intros mt' Hin. apply Hn. apply elem_of_app. by left.
  Qed.

  Lemma crowd_run w tr w' : history pr w tr w' -> forall t0 ps,
    world_ok pr w -> limits_fit (mx_config (w_node w y)) c ->
    (N.of_nat (length fs) <= cf_max_fragments_per_message (mx_config (w_node w y)))%N ->
    T = t0 ++ tr -> left_of t0 ps -> filled (view (mx_assembler (w_node w y)) id) ps ->
    (held_for id (w_node w y) = None \/
     exists L, length L ≤ c /\ behind id L (lhm_keys (fa_incomplete (mx_assembler (w_node w y)))) /\ window L ps tr) ->
    undisturbed id y ps tr.
  Proof.
    induction 1 as [w|w e w1 tr w2 He Hh IH]; intros t0 ps Hw Hfit Hmax HT Hl Hfill Hst; [done|].
    destruct (decide (arrivals ps (Moment w e w1 :: tr) = [])) as [Hno|Hyes]; [by apply undisturbed_none|].
    assert (Hw1 : world_ok pr w1) by (by eapply happens_ok).
    pose proof (same_config _ _ _ y Hw He) as Ecf.
    destruct (node_limits w y Hw) as (Hi & Hsm & Lm & Lf & Lp).
    assert (HT' : T = (t0 ++ [Moment w e w1]) ++ tr) by (rewrite <- app_assoc; done).
    cbn [undisturbed arrivals] in *. destruct (handled_of ps (Moment w e w1)) as [[p msg]|] eqn:Eh.
    - (* an arrival *)
      destruct (decide (arrivals (without p ps) tr = [])) as [Hno|Hmore].
      { split; [by left|]. by apply undisturbed_none. }
      assert (Hnew : new_at finals t0 (Moment w e w1)). { apply (new_handled t0 ps); [done|]. by rewrite Eh. }
      pose proof Eh as (Hp & b & now & Ee)%handled_of_Some. cbn in Ee. pose proof (proj1 (Hl p) Hp) as [Hpf Hpn].
      destruct (elem_of_list_lookup_1 _ _ Hpf) as [i Hpi].
      destruct (lookup_lt_is_Some_2 fs i) as [f Hf]; [rewrite <- Hlen; by eapply lookup_lt_Some|].
      destruct (Hstep i p f (Moment w e w1) Hpi Hf) as [out Hins].
      { exists t0, tr. split_and!; try done. by exists b, now, msg. }
      cbn in Hins. destruct (Hix i f Hf) as (Hfv & Hfc & Hfi).
      assert (Hfid : sp_id f = id) by (by eapply (Forall_lookup_1 (fun f => sp_id f = id))).
      assert (Hfsz : frag_sized f) by (by eapply (Forall_lookup_1 _ _ _ _ Hsz)).
      pose proof (left_take _ _ _ _ _ Hl Eh) as Hl'.
      destruct (next_arrival tr (without p ps) Hmore) as (mid & b2 & t2 & q & msg2 & Etr & Eb2 & Hmid).
      pose proof Eb2 as (Hq & _)%handled_of_Some. apply elem_of_without in Hq as [Hqp Hq].
      pose proof (proj1 (Hl q) Hq) as [Hqf _]. destruct (elem_of_list_lookup_1 _ _ Hqf) as [j Hqj].
      destruct (lookup_lt_is_Some_2 fs j) as [g Hg]; [rewrite <- Hlen; by eapply lookup_lt_Some|].
      assert (Hij : j <> i) by (intros ->; congruence).
      set (l := default (replicate (length fs) None) (view (mx_assembler (w_node w y)) id)) in *.
      destruct Hfill as [Hfl Hfill]. fold l in Hfl, Hfill.
      assert (Hlt : i < length fs /\ j < length fs) by (split; by eapply lookup_lt_Some).
      destruct (own_insert _ Hi Hsm f _ out l Hfsz Hins Hfv) as [Hb Hv].
      { rewrite Hfc, Lp. done. } { lia. }
      { rewrite Hfid, Hfc, Nat2N.id. done. } { rewrite Hfc, Hfl. done. }
      { rewrite Hfi, Nat2N.id. rewrite (Hfill i f p Hf Hpi). by rewrite decide_True. }
      { exists j. split; [rewrite Hfi, Nat2N.id; done|]. rewrite (Hfill j g q Hg Hqj). by rewrite decide_True. }
      { destruct Hfit as [? _]. lia. } { destruct Hfit as [_ Hf2]. rewrite Lp, Lf. etrans; [|exact Hf2].
        set (P1 := (_ - 1)%N). rewrite <- (N.mul_1_l P1) at 1. apply N.mul_le_mono_r. lia. }
      rewrite Hfid in *. rewrite Hfi, Nat2N.id in Hv. split.
      { right. cbn. intros En. unfold view in Hv. unfold held_for in En. rewrite En in Hv. done. }
      apply (IH (t0 ++ [Moment w e w1]) (without p ps)); try done; [by rewrite Ecf..| |].
      + rewrite Hv. unfold filled. cbn [from_option Datatypes.id]. split; [by rewrite insert_length|].
        intros i' f' p' Hf' Hp'. destruct (decide (i' = i)) as [->|Hne].
        * rewrite list_lookup_insert by lia. assert (f' = f) as -> by congruence. assert (p' = p) as -> by congruence.
          rewrite decide_False; [done|]. rewrite elem_of_without. by intros [? _].
        * rewrite list_lookup_insert_ne by done. rewrite (Hfill i' f' p' Hf' Hp').
          assert (Hpp : p' <> p). { intros ->. apply Hne. by eapply NoDup_lookup. }
          assert (Hd : p' ∈ without p ps <-> p' ∈ ps) by (rewrite elem_of_without; naive_solver).
          destruct (decide (p' ∈ ps)), (decide (p' ∈ without p ps)); naive_solver.
      + right.
        assert (Hmid2 : left_of (t0 ++ Moment w e w1 :: mid) (without p ps)).
        { rewrite cons_middle, app_assoc. by apply left_skips. }
        destruct (Hfew t0 (Moment w e w1) mid b2 t2) as (L & HL & Hin).
        * rewrite HT, Etr. done.
        * done.
        * apply (new_handled _ (without p ps)); [done|]. by rewrite Eb2.
        * intros m1 d m2 Em Hn. assert (Hl2 : left_of (t0 ++ Moment w e w1 :: m1) (without p ps)).
          { rewrite cons_middle, app_assoc. apply left_skips; [done|]. intros mt Hx. apply Hmid. rewrite Em.
            apply elem_of_app. by left. }
          apply (new_handled _ _ _ Hl2) in Hn. apply Hn. apply Hmid. rewrite Em. apply elem_of_app. right. left.
        * exists L. split; [done|]. split.
          { destruct Hb as (pre & suf & E & Hs). exists pre, suf. split; [done|]. intros k Hk. by apply Hs in Hk as ?%elem_of_nil. }
          intros mid' b' t2' Etr' Hb' Hmid'.
          assert (Emid : mid' = mid).
          { rewrite Etr in Etr'. clear -Etr' Hmid Hmid' Eb2 Hb'. revert mid' Etr' Hmid'.
            induction mid as [|a mid IH]; intros [|a' mid'] E Hmid'; [done|..]; cbn in E.
            - injection E as <- _. rewrite Hmid' in Eb2 by left. done.
            - injection E as -> _. exfalso. apply Hb'. apply Hmid. left.
            - injection E as <- E. f_equal. apply IH; [|done|].
              + intros mt Hm. apply Hmid. by right.
              + intros mt Hm. apply Hmid'. by right. }
          subst mid'. done.
    - (* something else *)
      assert (Hl' := left_skip _ _ _ Hl Eh).
      assert (Hsame : held_for id (w_node w1 y) = held_for id (w_node w y) /\
        (held_for id (w_node w1 y) = None \/
         exists L, length L ≤ c /\ behind id L (lhm_keys (fa_incomplete (mx_assembler (w_node w1 y)))) /\ window L ps tr)).
      { assert (Hwin : forall L, window L ps (Moment w e w1 :: tr) -> window L ps tr).
        { intros L HwL mid b t2 -> Hb Hmid mt f Hmt. apply (HwL (Moment w e w1 :: mid) b t2); try done.
          - intros mt' [->|Hx]%elem_of_cons; [done|by apply Hmid].
          - by right. }
        destruct (assembler_step _ _ _ y Hw He) as [Ea|(b & p & now & msg & f & out & Ee & Hpy & Hyi & Hfs & Hins)].
        - unfold held_for in *. rewrite Ea. split; [done|]. destruct Hst as [?|(L & HL & Hb & Hwd)]; [by left|].
          right. exists L. split_and!; try done. by apply Hwin.
        - assert (Hgive : gives pr y (Moment w e w1) f) by (by exists b, p, now, msg).
          assert (Hne : sp_id f <> id).
          { intros Hx. pose proof (Hown t0 _ tr f HT Hgive Hx) as Hn. by apply (new_handled _ _ _ Hl) in Hn. }
          destruct (other_insert _ Hi Hsm f _ out id Hfs Hne Hins) as [Hn Ho]. unfold held_for in *.
          destruct Hst as [Hst|(L & HL & Hb & Hwd)].
          + rewrite (Hn Hst). split; [done|]. by left.
          + destruct (next_arrival tr ps Hyes) as (mid & b2 & t2 & q & msg2 & Etr & Eb2 & Hmid).
            destruct (Ho L Hb) as [Hb' Eg].
            * apply (Hwd (Moment w e w1 :: mid) b2 t2 (f_equal _ Etr)) with (mt := Moment w e w1).
              -- by rewrite Eb2.
              -- intros mt' [->|Hx]%elem_of_cons; [done|by apply Hmid].
              -- left.
              -- done.
            * destruct Hfit as [? _]. lia.
            * destruct Hfit as [_ Hf2]. rewrite Lp, Lf. etrans; [|exact Hf2]. apply N.mul_le_mono_r. lia.
            * split; [done|]. right. exists L. split_and!; try done. by apply Hwin. }
      destruct Hsame as [Hs Hst']. split; [by right|].
      apply (IH (t0 ++ [Moment w e w1]) ps); try done; [by rewrite Ecf..|].
      unfold view in *. unfold held_for in Hs. by rewrite Hs.
  Qed.
End crowd.

(** *** More messages than there is room for *)
Lemma flood id gs : forall fa n fa' outs,
  fa_inv (fun _ => True) fa ->
  (id ∈ lhm_keys (fa_incomplete fa) -> exists pre suf, lhm_keys (fa_incomplete fa) = pre ++ id :: suf /\ n <= length suf) ->
  Forall (fun g => length g = N.to_nat 2048 /\ sp_valid g /\ (2 <= sp_count g <= fa_max_per_message fa)%N /\
            sp_id g ∉ lhm_keys (fa_incomplete fa)) gs ->
  NoDup (map sp_id gs) -> id ∉ map sp_id gs -> (fa_max_messages fa <= N.of_nat (n + length gs))%N ->
  fa_inserts fa gs = Val (fa', outs) -> lhm_get (fa_incomplete fa') id = None.
Proof.
  induction gs as [|g gs IH]; intros fa n fa' outs Hi Hid Hgs Hnd Hne Hmax E; cbn [fa_inserts map length] in *.
  { injection E as <- _. apply lhm_get_None. intros Hin. destruct (Hid Hin) as (pre & suf & Ek & Hn).
    pose proof (inv_max_messages _ _ Hi) as Hm. apply (f_equal length) in Ek. unfold lhm_keys in Ek.
    rewrite map_length, app_length in Ek. cbn in Ek. lia. }
  apply Forall_cons in Hgs as [(Hl & Hv & Hc & Hk) Hgs]. apply NoDup_cons in Hnd as [Hg Hnd].
  apply not_elem_of_cons in Hne as [Hne1 Hne].
  destruct (fa_insert_case _ fa g Hi Hl I) as (fa1 & o1 & E1 & Hcase). rewrite E1 in E. cbn [out_bind] in E.
  apply out_bind_Val in E as ([fa2 outs2] & E & E'). injection E' as <- _.
  pose proof (insert_case_inv _ _ _ _ _ Hi Hcase) as Hi1. destruct (insert_case_limits _ _ _ _ _ Hcase) as (L1 & _ & L3).
  assert (Hget : lhm_get (fa_incomplete fa) (sp_id g) = None) by (by apply lhm_get_None).
  (* the new message goes to the back, and at most the first goes *)
  assert (Hkeys : lhm_keys (fa_incomplete fa1) = lhm_keys (fa_incomplete fa) ++ [sp_id g] \/
                  lhm_keys (fa_incomplete fa1) = tail (lhm_keys (fa_incomplete fa) ++ [sp_id g])).
  { destruct Hcase as [Hb|Hnb H1|m1 im m2 fs Hnb H1 Hg' Em Hfs Hlen Hfi|rest im' Hnb H1 Er Hfr Hsl Hln He' new new'].
    - exfalso. destruct Hb as [?|[?|(_ & im & Hx & _)]]; [done|lia|congruence].
    - lia.
    - congruence.
    - cbn [fa_set fa_incomplete].
      assert (Hkn : lhm_keys new = lhm_keys (fa_incomplete fa) ++ [sp_id g]).
      { unfold new. by rewrite lhm_keys_app, Er, lhm_remove_None. }
      rewrite <- Hkn. unfold new'. destruct (decide (_ \/ _)); [right; apply keys_tail|by left]. }
  assert (Hndk : NoDup (lhm_keys (fa_incomplete fa) ++ [sp_id g])).
  { apply NoDup_app. split_and!; [apply (inv_nodup _ _ Hi)| |apply NoDup_singleton].
    intros k Hx ->%elem_of_list_singleton. done. }
  assert (Htl : forall k (l : list bytes), k ∈ tail l -> k ∈ l) by (intros k [|? l] Hx; [done|by right]).
  assert (Hsub : forall k, k ∈ lhm_keys (fa_incomplete fa1) -> k ∈ lhm_keys (fa_incomplete fa) \/ k = sp_id g).
  { intros k Hx. assert (Hx' : k ∈ lhm_keys (fa_incomplete fa) ++ [sp_id g]).
    { destruct Hkeys as [<-|Ek]; [done|]. rewrite Ek in Hx. by apply Htl. }
    apply elem_of_app in Hx' as [?|?%elem_of_list_singleton]; auto. }
  apply (IH fa1 (S n) fa2 outs2 Hi1); [| |done|done|rewrite L1; lia|done].
  - intros Hin. destruct (Hsub _ Hin) as [Hin0|?]; [|done]. destruct (Hid Hin0) as (pre & suf & Ek & Hn).
    assert (Hls : S n <= length (suf ++ [sp_id g])) by (rewrite app_length; cbn; lia).
    rewrite Ek, <- app_assoc in Hkeys, Hndk. cbn [app] in Hkeys, Hndk. destruct Hkeys as [Hkeys|Hkeys].
    + exists pre, (suf ++ [sp_id g]). done.
    + destruct pre as [|k0 pre].
      * exfalso. cbn [app tail] in Hkeys. rewrite Hkeys in Hin. cbn [app] in Hndk. by apply NoDup_cons in Hndk as [? _].
      * exists pre, (suf ++ [sp_id g]). done.
  - rewrite L3. rewrite Forall_forall in Hgs. apply Forall_forall. intros g' Hg'.
    destruct (Hgs _ Hg') as (? & ? & ? & Hk'). split_and!; try done; [lia|lia|].
    intros Hx. destruct (Hsub _ Hx) as [?|Heq]; [done|]. apply Hg. rewrite <- Heq. by apply elem_of_list_fmap_1.
Qed.

Section theorems.
  Context (pr : prims) (Hok : prims_ok pr).

  (** The fragments of the message, whatever else comes in between in small numbers, give the message. *)
  Definition yields_among (nodes : list mixnode) (index : session_index)
      (ready : nat -> stage -> mixnet -> Prop) (trips : list (list stage)) (x y : bytes) (id : bytes)
      (msg : message) (w : world) : Prop :=
    forall c tr w', conveyed pr nodes index ready trips x w tr w' ->
      (N.of_nat (length trips) <= cf_max_fragments_per_message (mx_config (w_node w y)))%N ->
      held_for id (w_node w y) = None -> limits_fit (mx_config (w_node w y)) c ->
      own_only pr id y (omap last_packet trips) tr -> few_between pr c y (omap last_packet trips) tr ->
      map fst (arrivals (omap last_packet trips) tr) ≡ₚ omap last_packet trips /\
      map snd (arrivals (omap last_packet trips) tr) = replicate (length trips - 1) None ++ [Some msg].

  Lemma yields_among_of nodes index (ready : nat -> stage -> mixnet -> Prop) trips x y id w key t msg kind :
    world_ok pr w -> Forall (trip_to pr nodes index key t) trips -> addr_of nodes t = Some y ->
    carries pr nodes index ready kind trips id msg -> yields_among nodes index ready trips x y id msg w.
  Proof.
    intros Hw Ht Hy Hcar c tr w' Hca Hmax Hnone Hfit Hown Hfew.
    pose proof (yields_of pr Hok nodes index ready trips x y id w key t msg Hw Ht Hy kind Hcar tr w' Hca Hmax Hnone) as Hyi.
    apply Hyi. clear Hyi. destruct Hcar as (fs & mk & <- & Hlen & Hne & Hix & Hsz & Hid & Hread).
    destruct (conveyed_steps pr Hok _ _ _ _ _ _ _ _ _ _ fs mk _ _ Hw Ht Hy Hlen Hix Hread Hca) as (Hlf & Hnd & Hto & Hall & Hstep).
    assert (Hv : view (mx_assembler (w_node w y)) id = None).
    { unfold held_for in Hnone. unfold view. by rewrite Hnone. }
    assert (Hlf' : length (omap last_packet trips) = length fs) by (by rewrite Hlf).
    refine (crowd_run pr Hok y c id (omap last_packet trips) fs tr Hlf' Hix Hsz Hid Hnd Hown Hfew _ w tr w' _ [] _ Hw Hfit _ eq_refl _ _ _).
    - intros i p f mt Hi Hf Hfst. destruct (Hstep i p f mt Hi Hf Hfst) as (_ & b & now & fa & out & E & -> & _). by exists out.
    - apply Hca.
    - by rewrite <- Hlen.
    - intros p. split; [|by intros [? _]]. intros Hp. split; [done|]. by intros ? ?%elem_of_nil.
    - rewrite Hv. unfold filled. cbn [from_option Datatypes.id]. rewrite replicate_length. split; [done|].
      intros i f p Hf Hp. rewrite lookup_replicate_2 by (by eapply lookup_lt_Some). rewrite decide_True; [done|].
      by eapply elem_of_list_lookup_2.
    - by left.
  Qed.

  (** A request is returned by its destination whatever else arrives there, if between its packets there
      are fragments of no more messages than the destination has room for beside it, and nobody else uses
      its id. *)
  Theorem C78_request w x index dest id data k ns r d mt w1 rel s key :
    world_ok pr w ->
    happens pr w (EvCall x (CallPostRequest index dest id data k ns r) (RespPost (Some d) (Ok mt))) w1 ->
    usable (w_node w x) index rel s -> honest pr (se_topology s) key ->
    let nodes := tp_mixnodes (se_topology s) in
    exists y trips surbs, request_sent pr w x index id data k rel nodes key d w1 y trips surbs /\
      yields_among nodes index (ready_request pr nodes index) trips x y id
        (MRequest (RequestMessage index id (sc_contents data) surbs)) w1.
  Proof.
    intros Hw Hhap Hus Hhon nodes.
    destruct (round_trip pr Hok _ _ _ _ _ _ _ _ _ _ _ _ _ _ _ Hw Hhap Hus Hhon)
      as (_ & y & trips & surbs & entries & dqs & dls & [H1 Hcar] & _). fold nodes in H1, Hcar.
    exists y, trips, surbs. split; [done|]. destruct H1 as (Hy & _ & _ & _ & _ & Htt & _).
    eapply yields_among_of; try done. by eapply happens_ok.
  Qed.

  (** ... and so is a reply, by the node that made the request. *)
  Theorem C78_reply w x index dest id data k ns r d mt w1 rel s key :
    world_ok pr w ->
    happens pr w (EvCall x (CallPostRequest index dest id data k ns r) (RespPost (Some d) (Ok mt))) w1 ->
    usable (w_node w x) index rel s -> honest pr (se_topology s) key ->
    let nodes := tp_mixnodes (se_topology s) in let me := self (se_topology s) ns in
    addr_of nodes me = Some x ->
    exists y trips surbs entries,
      request_sent pr w x index id data k rel nodes key d w1 y trips surbs /\
      mx_keystore (w_node w1 x) = ks_pushes (mx_keystore (w_node w x)) entries /\
      length entries = length surbs /\
      forall w2 y2 rsurbs left rid rdata rel2 s2 w3,
        world_ok pr w2 ->
        happens pr w2 (EvCall y2 (CallPostReply rsurbs index rid rdata) (RespReply left (Ok tt))) w3 ->
        usable (w_node w2 y2) index rel2 s2 -> tp_mixnodes (se_topology s2) = nodes ->
        Forall (fun u => u ∈ surbs) rsurbs ->
        exists rtrips used,
          reply_queued pr index id nodes key me x surbs entries w2 y2 rsurbs left rid rdata rel2 w3 rtrips used /\
          yields_among nodes index (ready_reply pr nodes index (map snd used)) rtrips y2 x rid
            (MReply (ReplyMessage id (sc_contents rdata))) w3.
  Proof.
    intros Hw Hhap Hus Hhon nodes me Hself.
    destruct (round_trip pr Hok _ _ _ _ _ _ _ _ _ _ _ _ _ _ _ Hw Hhap Hus Hhon)
      as (_ & y & trips & surbs & entries & dqs & dls & [H1 _] & H2 & H3 & _ & Hreply). fold nodes me in H1, Hreply.
    exists y, trips, surbs, entries. split; [done|]. split; [done|]. split; [done|].
    intros w2 y2 rsurbs left rid rdata rel2 s2 w3 Hw2 Hhap2 Hus2 Hn2 Hin.
    destruct (Hreply w2 y2 rsurbs left rid rdata rel2 s2 w3 Hw2 Hhap2 Hus2 Hn2 Hin Hself) as (rtrips & used & [Hrq Hcar] & _).
    exists rtrips, used. split; [done|]. destruct Hrq as (_ & _ & _ & _ & _ & _ & Htt & _).
    eapply yields_among_of; try done. by eapply happens_ok.
  Qed.

  (** For one assembler: what is held of a message stays while fragments of no more other messages arrive
      than there is room for beside it; [others] lists their ids. *)
  Theorem C78_assembler cf hist m id others f (fa' : fragment_assembler) out :
    reachable pr cf hist m -> limits_fit cf (length others) -> length f = N.to_nat 2048 ->
    sp_id f <> id -> sp_id f ∈ others ->
    fa_insert (mx_assembler m) f = Val (fa', out) ->
    (* [id] is held, and those touched after it are among the others *)
    (exists pre suf, map fst (fa_incomplete (mx_assembler m)) = pre ++ id :: suf /\ forall k, k ∈ suf -> k ∈ others) ->
    lhm_get (fa_incomplete fa') id = lhm_get (fa_incomplete (mx_assembler m)) id /\
    exists pre suf, map fst (fa_incomplete fa') = pre ++ id :: suf /\ forall k, k ∈ suf -> k ∈ others.
  Proof.
    intros Hr [Hf1 Hf2] Hl Hne Hin E Hb. destruct (reachable_mx_ok pr Hok _ _ _ Hr) as [_ Hm].
    destruct (mo_assembler _ _ _ Hm) as (Hi & H1 & H2 & H3).
    destruct (C56_memory pr Hok _ _ _ Hr) as (_ & _ & _ & _ & _ & Him & _).
    assert (Hsm : Forall (fun e => (N.of_nat (length (im_fragments e.2)) <= fa_max_per_message (mx_assembler m))%N) (fa_incomplete (mx_assembler m))).
    { apply Forall_forall. intros [k im] Hx. cbn. rewrite H3. by apply (Him k im). }
    destruct (other_insert _ Hi Hsm f fa' out id Hl Hne E) as [_ Ho].
    destruct (Ho others Hb Hin) as [Hb' Hg]; [by rewrite H1|by rewrite H2, H3|]. done.
  Qed.

  (** The limit is as it is: as many new messages as may be held push out whatever was there before. *)
  Theorem C78_limit cf hist m id gs (fa' : fragment_assembler) outs :
    reachable pr cf hist m ->
    Forall (fun g => length g = N.to_nat 2048 /\ sp_valid g /\ (2 <= sp_count g <= cf_max_fragments_per_message cf)%N /\
              lhm_get (fa_incomplete (mx_assembler m)) (sp_id g) = None) gs ->
    NoDup (map sp_id gs) -> id ∉ map sp_id gs -> N.of_nat (length gs) = cf_max_incomplete_messages cf ->
    fa_inserts (mx_assembler m) gs = Val (fa', outs) ->
    lhm_get (fa_incomplete fa') id = None.
  Proof.
    intros Hr Hgs Hnd Hid Hlen E. destruct (reachable_mx_ok pr Hok _ _ _ Hr) as [_ Hm].
    destruct (mo_assembler _ _ _ Hm) as (Hi & H1 & H2 & H3).
    apply (flood id gs (mx_assembler m) 0 fa' outs Hi); [| |done|done|rewrite H1; cbn; lia|done].
    - intros Hin. apply elem_of_list_split in Hin as (pre & suf & ->). exists pre, suf. split; [done|lia].
    - rewrite H3. eapply Forall_impl; [done|]. cbn. intros g (? & ? & ? & Hg). split_and!; try done; try lia. by apply lhm_get_None.
  Qed.
End theorems.
