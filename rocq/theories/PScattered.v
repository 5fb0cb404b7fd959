(** C07: scattered slices behave as one contiguous slice. *)
From Verif Require Import MScattered.

(** ** Specification: the contents of a scattered buffer, as one list *)
Definition sc_contents {A} (s : scattered A) : list A :=
  sc_first s ++ concat (sc_mids s) ++ sc_last s.
(** The recorded length is right. *)
Definition sc_wf {A} (s : scattered A) : Prop := sc_len s = length (sc_contents s).

Section scattered.
  Context {A : Type}.
  Implicit Types s : scattered A.

  Lemma sc_from_slice_wf (l : list A) : sc_wf (sc_from_slice l).
  Proof. unfold sc_wf, sc_contents; simpl. by rewrite !app_nil_r. Qed.
  Lemma sc_from_slices_wf (ls : list (list A)) : sc_wf (sc_from_slices ls).
  Proof.
    unfold sc_wf, sc_contents; simpl. rewrite app_nil_r.
    induction ls as [|l ls IH]; simpl; [done|]. rewrite app_length. lia.
  Qed.

  Lemma nat_checked_sub_Some a b c : nat_checked_sub a b = Some c <-> b ≤ a /\ c = a - b.
  Proof. unfold nat_checked_sub. case_decide; naive_solver. Qed.
  Lemma nat_checked_sub_None a b : nat_checked_sub a b = None <-> a < b.
  Proof. unfold nat_checked_sub. case_decide; split; [done|lia|lia|done]. Qed.

  Lemma sc_split_mids_spec s mid right_len left rest i n :
    sc_mids s = left ++ rest -> i = length left ->
    match sc_split_mids s mid right_len i n rest with
    | Val (inl (a, b)) =>
        sc_len a = mid /\ sc_len b = right_len /\
        sc_first a = sc_first s /\ sc_last b = sc_last s /\
        exists r, r ≤ length (concat rest) /\ r = n /\
          concat (sc_mids a) ++ sc_last a = concat left ++ take r (concat rest) /\
          sc_first b ++ concat (sc_mids b) = drop r (concat rest)
    | Val (inr m) => length (concat rest) ≤ n /\ m = n - length (concat rest)
    | Panic => False
    end.
  Proof.
    revert left i n. induction rest as [|x rest IH]; intros left i n Hm Hi; simpl.
    { lia. }
    destruct (nat_checked_sub n (length x)) as [k|] eqn:E.
    - apply nat_checked_sub_Some in E as [Hle ->].
      specialize (IH (left ++ [x]) (S i) (n - length x)).
      rewrite Hm, <- app_assoc in IH. specialize (IH eq_refl). rewrite app_length in IH; simpl in IH.
      specialize (IH ltac:(lia)).
      destruct (sc_split_mids _ _ _ _ _ rest) as [[[a b]|m]|]; [|rewrite app_length; lia|done].
      destruct IH as (?&?&?&?&r&?&->&Ha&Hb). do 4 (split; [done|]).
      exists n. rewrite app_length. split; [lia|]. split; [done|]. split.
      + rewrite Ha, concat_app; simpl. rewrite app_nil_r, <- app_assoc.
        by rewrite take_app_ge.
      + rewrite Hb. by rewrite drop_app_ge.
    - apply nat_checked_sub_None in E. unfold slice_split_at.
      rewrite Hm. rewrite app_length. simpl.
      rewrite decide_True by lia. simpl. subst i. rewrite drop_app.
      simpl. rewrite decide_True by lia. simpl.
      do 4 (split; [done|]). exists n. rewrite app_length. split; [lia|]. split; [done|]. split.
      + rewrite take_app. by rewrite take_app_le by lia.
      + rewrite drop_app_le by lia. done.
  Qed.

  (** Splitting at any position inside the contents gives the two halves, both well formed (so they
      can be split again). *)
  Theorem C07_split_at s mid :
    sc_wf s -> mid ≤ length (sc_contents s) ->
    exists a b, sc_split_at s mid = Val (a, b) /\ sc_wf a /\ sc_wf b /\
                sc_contents a = take mid (sc_contents s) /\
                sc_contents b = drop mid (sc_contents s).
  Proof.
    intros Hwf Hmid. unfold sc_split_at. rewrite Hwf.
    destruct (nat_checked_sub (length (sc_contents s)) mid) as [rl|] eqn:E; simpl.
    2:{ apply nat_checked_sub_None in E. lia. }
    apply nat_checked_sub_Some in E as [_ ->].
    assert (forall a b, sc_len a = mid -> sc_len b = length (sc_contents s) - mid ->
              sc_contents a = take mid (sc_contents s) ->
              sc_contents b = drop mid (sc_contents s) -> sc_wf a /\ sc_wf b) as Hw.
    { intros a b Ha Hb Ea Eb. unfold sc_wf. rewrite Ea, Eb, take_length, drop_length. lia. }
    assert (forall a b, sc_len a = mid -> sc_len b = length (sc_contents s) - mid ->
              sc_contents a = take mid (sc_contents s) ->
              sc_contents b = drop mid (sc_contents s) ->
              exists a' b', Val (a, b) = Val (a', b') /\ sc_wf a' /\ sc_wf b' /\
                sc_contents a' = take mid (sc_contents s) /\
                sc_contents b' = drop mid (sc_contents s)) as Hfin.
    { intros a b H1 H2 H3 H4. destruct (Hw a b H1 H2 H3 H4). eauto 10. }
    destruct (nat_checked_sub mid (length (sc_first s))) as [n|] eqn:E.
    - apply nat_checked_sub_Some in E as [Hge ->].
      pose proof (sc_split_mids_spec s mid (length (sc_contents s) - mid) [] (sc_mids s) 0
                    (mid - length (sc_first s)) eq_refl eq_refl) as Hspec.
      destruct (sc_split_mids _ _ _ _ _ _) as [[[a b]|m]|]; [| |done]; simpl.
      + destruct Hspec as (?&?&Ef&El&r&Hr&->&Ha&Hb). simpl in Ha.
        apply Hfin; [done|done| |]; unfold sc_contents.
        * rewrite Ha, Ef. rewrite take_app_ge by lia. by rewrite take_app_le by lia.
        * rewrite El, drop_app_ge by lia. rewrite drop_app_le by lia.
          rewrite <- Hb. by rewrite app_assoc.
      + destruct Hspec as [Hle ->]. unfold slice_split_at.
        unfold sc_contents in Hmid. rewrite !app_length in Hmid.
        rewrite decide_True by lia. simpl.
        apply Hfin; [done|done| |]; unfold sc_contents; simpl.
        * rewrite take_app_ge by lia. by rewrite take_app_ge by lia.
        * rewrite drop_app_ge by lia. rewrite drop_app_ge by lia. by rewrite app_nil_r.
    - apply nat_checked_sub_None in E. unfold slice_split_at. rewrite decide_True by lia. simpl.
      apply Hfin; [done|done| |]; unfold sc_contents; simpl.
      + rewrite app_nil_r. by rewrite take_app_le by lia.
      + by rewrite drop_app_le by lia.
  Qed.

  (** Splitting outside the contents panics. *)
  Theorem C07_split_at_out_of_range s mid :
    sc_wf s -> length (sc_contents s) < mid -> sc_split_at s mid = Panic.
  Proof.
    intros Hwf Hmid. unfold sc_split_at. rewrite Hwf.
    destruct (nat_checked_sub _ _) as [rl|] eqn:E; simpl; [|done].
    apply nat_checked_sub_Some in E. lia.
  Qed.

  Lemma copy_mids_spec mids (dst : list A) :
    copy_mids dst mids =
      if decide (length (concat mids) ≤ length dst)
      then Val (concat mids, drop (length (concat mids)) dst) else Panic.
  Proof.
    revert dst. induction mids as [|m mids IH]; intros dst; simpl; [done|].
    unfold copy_part. rewrite app_length. case_decide; simpl.
    - rewrite IH. rewrite drop_length. repeat case_decide; simpl; try lia; [|done].
      by rewrite drop_drop.
    - rewrite decide_False by lia. done.
  Qed.

  (** [copy_to_slice] writes exactly the contents, and panics unless the lengths agree. *)
  Theorem C07_copy_to_slice s (dst : list A) :
    sc_copy_to_slice s dst =
      if decide (length dst = length (sc_contents s)) then Val (sc_contents s) else Panic.
  Proof.
    unfold sc_copy_to_slice, copy_part, sc_contents. rewrite !app_length.
    case_decide as H1; simpl.
    - rewrite copy_mids_spec, drop_length. case_decide as H2; simpl.
      + rewrite !drop_length. repeat case_decide; try lia; done.
      + rewrite decide_False by lia. done.
    - rewrite decide_False by lia. done.
  Qed.

  Theorem C07_to_vec s : sc_to_vec s = sc_contents s.
  Proof.
    unfold sc_to_vec, sc_contents. by rewrite <- app_assoc.
  Qed.

  Theorem C07_len s : sc_wf s -> (sc_is_empty s = true <-> sc_contents s = []).
  Proof.
    intros Hwf. unfold sc_is_empty. rewrite Hwf, bool_decide_eq_true.
    split; [apply nil_length_inv|by intros ->].
  Qed.

  Theorem C07_from (l : list A) (ls : list (list A)) :
    sc_wf (sc_from_slice l) /\ sc_contents (sc_from_slice l) = l /\
    sc_wf (sc_from_slices ls) /\ sc_contents (sc_from_slices ls) = concat ls.
  Proof.
    split; [apply sc_from_slice_wf|]. split.
    { unfold sc_contents; simpl. by rewrite app_nil_r. }
    split; [apply sc_from_slices_wf|]. unfold sc_contents; simpl. by rewrite app_nil_r.
  Qed.

  (** ** Any sequence of splits, each applied to the right part left by the previous one *)
  Fixpoint sc_splits s (mids : list nat) : outcome (list (scattered A)) :=
    match mids with
    | [] => Val [s]
    | mid :: mids' => '(a, b) ← sc_split_at s mid; rest ← sc_splits b mids'; Val (a :: rest)
    end.

  Theorem C07_splits s mids :
    sc_wf s -> sum_list mids ≤ length (sc_contents s) ->
    exists parts, sc_splits s mids = Val parts /\ concat (map sc_contents parts) = sc_contents s /\
      Forall sc_wf parts /\
      Forall2 (fun p n => sc_len p = n) parts (mids ++ [length (sc_contents s) - sum_list mids]).
  Proof.
    revert s. induction mids as [|mid mids IH]; intros s Hwf Hsum; simpl in *.
    - exists [s]; simpl. rewrite app_nil_r. split_and!; [done|done|by constructor|].
      repeat constructor. unfold sc_wf in Hwf. lia.
    - destruct (C07_split_at s mid Hwf ltac:(lia)) as (a&b&->&Ha&Hb&Ea&Eb). simpl.
      destruct (IH b Hb) as (ps&->&Ec&Hps&Hl); [rewrite Eb, drop_length; lia|].
      simpl. exists (a :: ps). split_and!; [done| | |].
      + simpl. rewrite Ec, Ea, Eb. apply take_drop.
      + by constructor.
      + constructor.
        * rewrite Ha, Ea, take_length. lia.
        * rewrite Eb, drop_length in Hl. by rewrite Nat.sub_add_distr.
  Qed.
End scattered.

(** Concrete cases: a buffer of several slices, some empty, split in the middle of a slice and at a
    slice boundary. *)
Definition ex_scattered : scattered nat := sc_from_slices [[1; 2]; []; [3; 4; 5]; [6]].
Example ex_scattered_hyp : sc_wf ex_scattered /\ sum_list [2; 2] ≤ length (sc_contents ex_scattered).
Proof. split; [apply sc_from_slices_wf|]. vm_compute. lia. Qed.
Example ex_scattered_split :
  sc_split_at ex_scattered 4 =
    Val (Scattered 4 [] [[1; 2]; []] [3; 4], Scattered 2 [5] [[6]] []).
Proof. reflexivity. Qed.
Example ex_scattered_oob : length (sc_contents ex_scattered) < 7 /\ sc_split_at ex_scattered 7 = Panic.
Proof. split; [vm_compute; lia|reflexivity]. Qed.

Print Assumptions C07_split_at.
Print Assumptions C07_split_at_out_of_range.
Print Assumptions C07_copy_to_slice.
Print Assumptions C07_splits.
