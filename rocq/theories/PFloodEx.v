(** Cases of C78_assembler and C78_limit: at a node holding one of the two fragments of a message, another
    message's fragment leaves it there, and those of as many messages as may be held push it out. *)
From Verif Require Import PCrowd PEndEx PExample PCrowdEx.

Definition ex_half : list act := ADo (ex_peer 8) ex_ask :: take 10 ex_mixed.
Lemma ex_half_ok : Forall act_ok ex_half.
Proof. constructor; [exact ex_ask_ok|]. apply Forall_take, ex_mixed_ok. Qed.
(** The first of two fragments of message number [k]. *)
Definition ex_first_id (k : N) : bytes := [k mod 256; k / 256]%N ++ replicate 14 20%N.
Definition ex_first (k : N) : bytes := ex_first_id k ++ [1; 0; 0; 0; 1; 0; 0]%N ++ replicate (N.to_nat 2025) 5%N.
Definition ex_firsts (n : nat) : list bytes := map (fun j => ex_first (N.of_nat j)) (seq 0 n).
Lemma ex_first_facts k :
  length (ex_first k) = N.to_nat 2048 /\ sp_valid (ex_first k) /\ sp_count (ex_first k) = 2%N /\ sp_id (ex_first k) = ex_first_id k.
Proof.
  split; [unfold ex_first, ex_first_id; rewrite !app_length, !replicate_length; cbn [length]; lia|].
  split; [|split; reflexivity].
  assert (E : sp_index (ex_first k) = 0%N /\ sp_count (ex_first k) = 2%N /\ sp_dsize (ex_first k) = 1%N /\ sp_nsurbs (ex_first k) = 0%N) by (split; [|split; [|split]]; reflexivity).
  destruct E as (E1 & E2 & E3 & E4). unfold sp_valid. rewrite E1, E2, E3, E4. lia.
Qed.
Lemma ex_first_id_inj j k : ex_first_id j = ex_first_id k -> j = k.
Proof.
  unfold ex_first_id. intros [= E1 E2]. rewrite (N.div_mod' j 256), (N.div_mod' k 256), E1, E2. reflexivity.
Qed.
Lemma ex_first_id_other k : ex_first_id k <> ex_id.
Proof. intros E. apply (f_equal (fun l => l !! 2)) in E. discriminate E. Qed.
Lemma ex_firsts_ids n : map sp_id (ex_firsts n) = map (fun j => ex_first_id (N.of_nat j)) (seq 0 n).
Proof. unfold ex_firsts. rewrite map_map. apply map_ext. intros j. apply ex_first_facts. Qed.
Lemma ex_firsts_nodup n : NoDup (map sp_id (ex_firsts n)).
Proof.
  rewrite ex_firsts_ids. apply (NoDup_fmap_2_strong (fun j => ex_first_id (N.of_nat j))); [|apply NoDup_ListNoDup, seq_NoDup].
  intros i j _ _ E%ex_first_id_inj. lia.
Qed.
Lemma ex_firsts_other n : ex_id ∉ map sp_id (ex_firsts n).
Proof.
  rewrite ex_firsts_ids. intros (j & E & _)%elem_of_list_fmap. by apply (ex_first_id_other (N.of_nat j)).
Qed.

(** Node 24 holds the first of the two fragments of [ex_id] and has room for a message more, of two fragments. *)
Definition ex_run4 (w : world) : bool :=
  match play_w w ex_half with
  | Some (_, w2) =>
      let fa := mx_assembler (w_node w2 (ex_peer 24)) in
      bool_decide (lhm_keys (fa_incomplete fa) = [ex_id]) && ((2 <=? fa_max_messages fa)%N &&
        ((2 * (fa_max_per_message fa - 1) <=? fa_max_fragments fa)%N && (2 <=? fa_max_per_message fa)%N))
  | None => false
  end.
Lemma ex_run4_true : with_world ex_run4 = true.
Proof. by vm_compute. Qed.
Lemma ex_run4_spec :
  exists cf hist m, reachable toy_prims cf hist m /\ lhm_keys (fa_incomplete (mx_assembler m)) = [ex_id] /\
    (2 <= cf_max_incomplete_messages cf)%N /\ (2 * (cf_max_fragments_per_message cf - 1) <= cf_max_incomplete_fragments cf)%N /\
    (2 <= cf_max_fragments_per_message cf)%N /\ fa_inv (fun _ => True) (mx_assembler m).
Proof.
  destruct (with_world_spec _ ex_run4_true) as (w & Hw & _ & H). unfold ex_run4 in H.
  destruct (play_w w ex_half) as [[tr w2]|] eqn:E; [|discriminate H]. pose proof (play_w_history _ _ _ _ ex_half_ok E) as Hh. clear E.
  cbv zeta in H. apply andb_true_iff in H as [Hk H]. apply bool_decide_eq_true in Hk.
  apply andb_true_iff in H as [H1 H]. apply andb_true_iff in H as [H2 H3]. apply N.leb_le in H1, H2, H3.
  destruct (history_ok toy_prims _ _ _ Hh Hw (ex_peer 24)) as (cf & hist & Hr).
  destruct (reachable_mx_ok _ toy_prims_ok _ _ _ Hr) as [_ Hm]. destruct (mo_assembler _ _ _ Hm) as (Hi & L1 & L2 & L3).
  rewrite L1 in H1. rewrite L2, L3 in H2. rewrite L3 in H3.
  exists cf, hist, (w_node w2 (ex_peer 24)). do 5 (split; [assumption|]). exact Hi.
Qed.

Example C78_assembler_example :
  exists cf hist m fa' out,
    reachable toy_prims cf hist m /\ limits_fit cf (length [ex_first_id 0]) /\ length (ex_first 0) = N.to_nat 2048 /\
    sp_id (ex_first 0) <> ex_id /\ sp_id (ex_first 0) ∈ [ex_first_id 0] /\
    fa_insert (mx_assembler m) (ex_first 0) = Val (fa', out) /\
    (exists pre suf, map fst (fa_incomplete (mx_assembler m)) = pre ++ ex_id :: suf /\ forall k, k ∈ suf -> k ∈ [ex_first_id 0]) /\
    lhm_get (fa_incomplete (mx_assembler m)) ex_id <> None /\
    lhm_get (fa_incomplete fa') ex_id = lhm_get (fa_incomplete (mx_assembler m)) ex_id.
Proof.
  destruct ex_run4_spec as (cf & hist & m & Hr & Hk & H1 & H2 & H3 & Hi). generalize (ex_first_facts 0).
  generalize (ex_first_id_other 0). generalize (ex_first_id 0) as i, (ex_first 0) as f. intros i f Hne (Hl & _ & _ & Hid).
  destruct (fa_insert_case _ _ f Hi Hl I) as (fa' & out & E & _).
  assert (Hfit : limits_fit cf (length [i])) by (split; cbn [length]; lia).
  rewrite <- Hid in Hne. assert (Hin : sp_id f ∈ [i]) by (rewrite Hid; left).
  assert (Hb : exists pre suf, map fst (fa_incomplete (mx_assembler m)) = pre ++ ex_id :: suf /\ forall k, k ∈ suf -> k ∈ [i]).
  { exists [], []. split; [exact Hk|]. by intros k ?%elem_of_nil. }
  destruct (C78_assembler _ toy_prims_ok cf hist m ex_id [i] f fa' out Hr Hfit Hl Hne Hin E Hb) as [Hg _].
  exists cf, hist, m, fa', out. do 7 (split; [assumption|]). split; [|exact Hg].
  intros Hn. apply lhm_get_None in Hn. apply Hn. rewrite Hk. left.
Qed.

Example C78_limit_example :
  exists cf hist m gs fa' outs,
    reachable toy_prims cf hist m /\
    Forall (fun g => length g = N.to_nat 2048 /\ sp_valid g /\ (2 <= sp_count g <= cf_max_fragments_per_message cf)%N /\
              lhm_get (fa_incomplete (mx_assembler m)) (sp_id g) = None) gs /\
    NoDup (map sp_id gs) /\ ex_id ∉ map sp_id gs /\ N.of_nat (length gs) = cf_max_incomplete_messages cf /\
    fa_inserts (mx_assembler m) gs = Val (fa', outs) /\
    lhm_get (fa_incomplete (mx_assembler m)) ex_id <> None /\ lhm_get (fa_incomplete fa') ex_id = None.
Proof.
  destruct ex_run4_spec as (cf & hist & m & Hr & Hk & H1 & H2 & H3 & Hi).
  set (n := N.to_nat (cf_max_incomplete_messages cf)).
  assert (Hf : Forall (fun g => length g = N.to_nat 2048 /\ sp_valid g /\ (2 <= sp_count g <= cf_max_fragments_per_message cf)%N /\
              lhm_get (fa_incomplete (mx_assembler m)) (sp_id g) = None) (ex_firsts n)).
  { apply Forall_forall. intros g (j & -> & _)%elem_of_list_fmap. destruct (ex_first_facts (N.of_nat j)) as (F1 & F2 & F3 & F4).
    split; [exact F1|]. split; [exact F2|]. rewrite F3, F4. split; [lia|]. apply lhm_get_None. rewrite Hk.
    intros Hx%elem_of_list_singleton. exact (ex_first_id_other _ Hx). }
  destruct (fa_inserts_inv _ _ (ex_firsts n) Hi) as (fa' & outs & E & _).
  { eapply Forall_impl; [exact Hf|]. intros g [Hg _]. exact Hg. }
  { intros; exact I. }
  assert (Hl : N.of_nat (length (ex_firsts n)) = cf_max_incomplete_messages cf).
  { unfold ex_firsts, n. rewrite map_length, seq_length. lia. }
  exists cf, hist, m, (ex_firsts n), fa', outs. split; [exact Hr|]. split; [exact Hf|]. split; [apply ex_firsts_nodup|].
  split; [apply ex_firsts_other|]. split; [exact Hl|]. split; [exact E|]. split.
  - intros Hn. apply lhm_get_None in Hn. apply Hn. rewrite Hk. left.
  - exact (C78_limit _ toy_prims_ok cf hist m ex_id (ex_firsts n) fa' outs Hr Hf (ex_firsts_nodup n) (ex_firsts_other n) Hl E).
Qed.
