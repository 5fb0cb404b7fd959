(** C42-C47: properties of every history of a request manager. *)
From stdpp Require Import sorting.
From Verif Require Export PReqMgr.
Local Open Scope N_scope.

(** ** Permutations of concatenations *)
Lemma perm_pull {A} (a b x z R : list A) : R = (x ++ a ++ z)%list -> b ≡ₚ (x ++ z)%list -> (a ++ b)%list ≡ₚ R.
Proof. intros -> ->. by rewrite Permutation_app_swap_app. Qed.
Lemma perm_cons {A} (a : A) (b x z R : list A) : R = (x ++ a :: z)%list -> b ≡ₚ (x ++ z)%list -> (a :: b)%list ≡ₚ R.
Proof. intros -> ->. by rewrite Permutation_middle. Qed.
Ltac perm_split a R :=
  lazymatch R with
  | (a ++ ?z)%list => let T := type of R in constr:(((@nil _ : T), z))
  | (?y ++ ?R')%list => let p := perm_split a R' in lazymatch p with (?x, ?z) => constr:(((y ++ x)%list, z)) end
  | (?y :: ?R')%list => let p := perm_split a R' in lazymatch p with (?x, ?z) => constr:(((y :: x)%list, z)) end
  | a => let T := type of R in constr:(((@nil _ : T), (@nil _ : T)))
  end.
Ltac perm_split1 a R :=
  lazymatch R with
  | (a :: ?z)%list => let T := type of R in constr:(((@nil _ : T), z))
  | (?y ++ ?R')%list => let p := perm_split1 a R' in lazymatch p with (?x, ?z) => constr:(((y ++ x)%list, z)) end
  | (?y :: ?R')%list => let p := perm_split1 a R' in lazymatch p with (?x, ?z) => constr:(((y :: x)%list, z)) end
  end.
Ltac perm_tidy := rewrite ?map_app, ?omap_app; cbn [map omap list_omap]; rewrite <-?app_assoc, ?app_nil_r; cbn [app].
(** Both sides are concatenations of the same lists and elements, in another order. *)
Ltac perm :=
  perm_tidy;
  lazymatch goal with
  | |- ?l ≡ₚ ?l => reflexivity
  | |- (?a ++ ?b)%list ≡ₚ ?R =>
      let p := perm_split a R in
      lazymatch p with (?x, ?z) =>
        apply (perm_pull a b x z R); [by rewrite <-?app_assoc, ?app_nil_r|perm] end
  | |- (?a :: ?b)%list ≡ₚ ?R =>
      let p := perm_split1 a R in
      lazymatch p with (?x, ?z) =>
        apply (perm_cons a b x z R); [by rewrite <-?app_assoc, ?app_nil_r|perm] end
  end.

(** Make the left-hand side of [H] the syntactic form it has in the goal. *)
Ltac update_shape H :=
  lazymatch type of H with
  | ?f _ ≡ₚ ?R =>
      match goal with |- context [f (rqm_set_status ?a ?b)] => change (f (rqm_set_status a b) ≡ₚ R) in H end
  end.

Section requests.
  Context {W Req : Type}.
  Context (post : W -> session_index -> option mixnode_index -> bytes -> Req ->
                  outcome (W * option mixnode_index * result request_metrics post_err)).
  Context (now : W -> instant * W).
  Context (fresh_id : W -> bytes * W).
  Context (handling_delay : Req -> bytes -> duration).
  Context (valid : session_index -> mixnode_index -> Prop) (Hpost : post_law valid post).
  Notation manager := (request_manager Req).
  Notation state := (request_state Req).
  Implicit Types (m : manager) (st : state).
  Notation rm_run := (rm_run post now fresh_id handling_delay).
  Notation rm_reach := (rm_reach post now fresh_id handling_delay).
  Notation exec_steps := (exec_steps post now fresh_id handling_delay valid Hpost).
  Notation rstep := (rstep valid).
  Notation rsteps := (rsteps valid).

  Lemma run_steps m d h m' d' :
    rm_run m d h m' d' ->
    exists ls, rsteps (m, d) ls (m', d') /\ lab_ins ls = inserted h /\ lab_rem ls = removed h /\ lab_pops ls = pops h /\
      (Forall (fun x => x.1 <> RmChanged) h -> Forall (fun l => l <> LChanged) ls).
  Proof.
    induction 1 as [m d|m d w c m1 w1 d1 a h m2 d2 E _ (ls & Hs & H1 & H2 & H3 & H4)].
    { exists []. split; [constructor|]. done. }
    apply exec_steps in E as (l1 & Hs1 & I1 & I2 & I3 & I4). exists (l1 ++ ls)%list. split; [by eapply rsteps_app|].
    unfold lab_ins, lab_rem, lab_pops, inserted, removed, pops in *. rewrite !omap_app, !app_length, H1, H2, I1, I2, I3.
    change ((c, a) :: h) with ([(c, a)] ++ h)%list. rewrite !omap_app, app_length, H3. repeat split.
    intros [Hc Hh]%Forall_cons. apply Forall_app. auto.
  Qed.

  Definition fresh_manager (cf : rm_config) (t : instant) : manager :=
    RequestManager cf t {| st_current_index := 0; st_phase := PCoverToCurrent |} (PostQueues [] [] []) [] false [].

  (** Invariants of the small steps. *)
  Lemma reach_inv (P : list label -> manager -> list bytes -> Prop) cf h m d :
    (forall t, P [] (fresh_manager cf t) []) ->
    (forall ls m d l m' d', P ls m d -> rstep (m, d) l (m', d') -> P (ls ++ [l])%list m' d') ->
    rm_reach cf h m d ->
    exists ls, P ls m d /\ lab_ins ls = inserted h /\ lab_rem ls = removed h /\ lab_pops ls = pops h.
  Proof.
    intros H0 Hstep [w Hr]. apply run_steps in Hr as (ls & Hs & I1 & I2 & I3 & _). exists ls. split; [|done]. clear I1 I2 I3.
    assert (Hgen : forall x y l0 ls, P l0 x.1 x.2 -> rsteps x ls y -> P (l0 ++ ls)%list y.1 y.2).
    { intros x y l0 l Hp Hst. revert l0 Hp. induction Hst as [x|x y z l1 ls1 H1 _ IH]; intros l0 Hp.
      { by rewrite app_nil_r. }
      destruct x as [m1 d1], y as [m2 d2]. rewrite (app_assoc l0 [l1] ls1 : (l0 ++ l1 :: ls1)%list = _).
      apply IH. by eapply Hstep. }
    refine (Hgen _ _ [] ls _ Hs). apply (H0 (now w).1).
  Qed.

  (** ** Shapes of the queues *)
  Definition others (m : manager) (rel : option rel_session_index) : list state :=
    match rel with
    | Some RCurrent => (pq_prev (rqm_post_queues m) ++ pq_default (rqm_post_queues m) ++ rqm_retry_queue m)%list
    | Some RPrev => (pq_current (rqm_post_queues m) ++ pq_default (rqm_post_queues m) ++ rqm_retry_queue m)%list
    | None => (pq_current (rqm_post_queues m) ++ pq_prev (rqm_post_queues m) ++ rqm_retry_queue m)%list
    end.
  Lemma managed_get m rel : managed m ≡ₚ (pq_get (rqm_post_queues m) rel ++ others m rel)%list.
  Proof.
    unfold managed. destruct rel as [[]|]; cbn; [done| |].
    - by rewrite Permutation_app_swap_app.
    - rewrite (Permutation_app_swap_app (pq_default _)). apply Permutation_app_head. by rewrite Permutation_app_swap_app.
  Qed.
  Lemma managed_with m rel l : managed (with_queue m rel l) ≡ₚ (l ++ others m rel)%list.
  Proof. rewrite (managed_get _ rel). unfold with_queue. cbn. rewrite pq_get_set. by destruct rel as [[]|]. Qed.
  Lemma managed_push m rel st : managed (push m rel st) ≡ₚ st :: managed m.
  Proof.
    unfold push. fold (with_queue m rel (pq_get (rqm_post_queues m) rel ++ [st])%list).
    rewrite managed_with, (managed_get m rel), <-app_assoc. cbn. by rewrite Permutation_middle.
  Qed.
  Lemma managed_retry m l b :
    managed (rqm_set_retry m l b) ≡ₚ (l ++ pq_current (rqm_post_queues m) ++ pq_prev (rqm_post_queues m) ++
      pq_default (rqm_post_queues m))%list.
  Proof.
    unfold managed. cbn. rewrite !app_assoc. rewrite Permutation_app_comm. by rewrite <-!app_assoc.
  Qed.
  Lemma managed_retry_same m :
    managed m ≡ₚ (rqm_retry_queue m ++ pq_current (rqm_post_queues m) ++ pq_prev (rqm_post_queues m) ++
      pq_default (rqm_post_queues m))%list.
  Proof. rewrite <-(managed_retry m (rqm_retry_queue m) false). by destruct m. Qed.
  Lemma managed_insert m st : managed (retry_insert m st) ≡ₚ st :: managed m.
  Proof.
    unfold retry_insert. rewrite managed_retry, managed_retry_same. set (i := partition_point _ _).
    rewrite <-(take_drop i (rqm_retry_queue m)) at 3. rewrite <-!app_assoc. cbn. by rewrite <-Permutation_middle.
  Qed.
  Lemma managed_emit m e : managed (rqm_emit m e) = managed m.
  Proof. done. Qed.
  Lemma shift_perm (q : post_queues state) old new :
    (pq_current (shift_queues q old new) ++ pq_prev (shift_queues q old new) ++ pq_default (shift_queues q old new))%list ≡ₚ
    (pq_current q ++ pq_prev q ++ pq_default q)%list.
  Proof.
    unfold shift_queues. set (q1 := if st_current_index old =? _ then q else _).
    assert (H1 : (pq_current q1 ++ pq_prev q1 ++ pq_default q1)%list ≡ₚ (pq_current q ++ pq_prev q ++ pq_default q)%list).
    { subst q1. destruct (_ =? _); [done|]. cbv zeta. destruct (_ =? 1); cbn.
      - rewrite (Permutation_app_comm (pq_default q)). done.
      - by rewrite (Permutation_app_comm _ (pq_current q)), (Permutation_app_comm (pq_default q)). }
    set (q2 := if negb (allow_requests_and_replies (st_phase new) RCurrent) then _ else q1).
    assert (H2 : (pq_current q2 ++ pq_prev q2 ++ pq_default q2)%list ≡ₚ (pq_current q1 ++ pq_prev q1 ++ pq_default q1)%list).
    { subst q2. clear H1. clearbody q1. destruct (negb _); [|done]. cbn.
      by rewrite app_assoc, (Permutation_app_comm _ (pq_current q1)). }
    set (q3 := if negb (allow_requests_and_replies (st_phase new) RPrev) then _ else q2).
    assert (H3 : (pq_current q3 ++ pq_prev q3 ++ pq_default q3)%list ≡ₚ (pq_current q2 ++ pq_prev q2 ++ pq_default q2)%list).
    { subst q3. clear H2. clearbody q2. destruct (negb _); [|done]. cbn. by rewrite (Permutation_app_comm (pq_default q2)). }
    etrans; [exact H3|]. etrans; [exact H2|exact H1].
  Qed.
  (** The states that stay, and those that get a new destination, when the session status changes. *)
  Lemma shift_default (q : post_queues state) old new : exists l, pq_default (shift_queues q old new) = (pq_default q ++ l)%list.
  Proof.
    unfold shift_queues. destruct (_ =? _); cbv zeta; [|destruct (_ =? 1)]; destruct (negb _); destruct (negb _); cbn;
      rewrite <-?app_assoc; eauto. exists []. by rewrite app_nil_r.
  Qed.
  Lemma managed_update m status ids : 
    let q := shift_queues (rqm_post_queues m) (rqm_status m) status in
    let n := length (pq_default (rqm_post_queues m)) in
    length ids = length (drop n (pq_default q)) ->
    let m' := rqm_set_status (rqm_set_queues m (pq_set q None (take n (pq_default q) ++
           zip_with (fun st id => with_fresh st id (rqm_created_at m)) (drop n (pq_default q)) ids)%list)) status in
    exists kept moved, managed m ≡ₚ (kept ++ moved)%list /\ length ids = length moved /\
      managed m' ≡ₚ (kept ++ zip_with (fun st id => with_fresh st id (rqm_created_at m)) moved ids)%list.
  Proof.
    intros q n Hl m'. destruct (shift_default (rqm_post_queues m) (rqm_status m) status) as [l El]. fold q in El.
    assert (Et : take n (pq_default q) = pq_default (rqm_post_queues m)) by (rewrite El; by apply take_app).
    assert (Ed : drop n (pq_default q) = l) by (rewrite El; by apply drop_app).
    pose proof (shift_perm (rqm_post_queues m) (rqm_status m) status) as Hp. fold q in Hp.
    exists (pq_current q ++ pq_prev q ++ pq_default (rqm_post_queues m) ++ rqm_retry_queue m)%list, l. rewrite Ed in Hl.
    split; [|split; [done|]].
    - unfold managed. rewrite El in Hp. rewrite !app_assoc in Hp |- *. rewrite <-Hp.
      rewrite <-!app_assoc. do 3 apply Permutation_app_head. by rewrite Permutation_app_comm.
    - unfold managed. subst m'. cbn. rewrite Et, Ed. rewrite <-!app_assoc. do 3 apply Permutation_app_head.
      by rewrite Permutation_app_comm.
  Qed.
  Lemma fresh_requests (l : list state) ids past :
    length ids = length l -> map rst_request (zip_with (fun st id => with_fresh st id past) l ids) = map rst_request l.
  Proof. revert ids. induction l as [|st l IH]; intros [|id ids] [=]; cbn; [done|]. f_equal. auto. Qed.

  Lemma reborn_request m d st rel st' d' : reborn m d st (Some (rel, st')) d' -> rst_request st' = rst_request st.
  Proof. by inversion 1; subst. Qed.

  (** ** C42: no request is lost or duplicated *)
  Theorem C42_conservation (cf : rm_config) h m d :
    rm_reach cf h m d ->
    inserted h ≡ₚ (map rst_request (managed m) ++ removed h ++ post_errs (rqm_log m) ++ limits (rqm_log m))%list.
  Proof.
    intros Hr. destruct (reach_inv (fun ls m d => lab_ins ls ≡ₚ (map rst_request (managed m) ++ lab_rem ls ++
        post_errs (rqm_log m) ++ limits (rqm_log m))%list) cf h m d) as (ls & Hp & <- & <- & _); [| |exact Hr|exact Hp].
    { done. }
    clear. intros ls m d l m' d' IH Hst.
    unfold lab_ins, lab_rem in *. rewrite !omap_app.
    inversion Hst as [? ? rel rod i st rest dest t rtt Ht Hq Hs [Hd Hvd] Hn|? ? rel rod i st rest dest t rtt Ht Hq Hs [Hd Hvd] Hn|
      |? ? rel st rest e Hq|? ? r o ? Hsp Hrb|? ? st rest o ? Hq Hn Hrb|? ? rel l1 st l2 Hq|? ? l1 st l2 b Hq Hb|? ? status ids Hne q n Hl|];
      subst; cbn [omap list_omap]; rewrite ?app_nil_r.
    - rewrite managed_push, managed_emit, managed_with, IH, (managed_get m rel), Hq. unfold post_errs, limits. cbn. perm.
    - rewrite managed_insert, managed_emit, managed_with, IH, (managed_get m rel), Hq. unfold post_errs, limits. cbn. perm.
    - rewrite IH, managed_emit. unfold post_errs, limits. cbn. perm.
    - rewrite managed_emit, managed_with, IH, (managed_get m rel), Hq. unfold post_errs, limits. cbn. perm.
    - rewrite IH. unfold settle. destruct o as [[rel st']|].
      + rewrite managed_push. unfold post_errs, limits. cbn. rewrite (reborn_request _ _ _ _ _ _ Hrb). cbn. perm.
      + rewrite managed_emit. unfold post_errs, limits. cbn. perm.
    - rewrite IH, managed_retry_same, Hq. unfold settle. destruct o as [[rel st']|].
      + rewrite managed_push, managed_retry. unfold post_errs, limits. cbn. rewrite (reborn_request _ _ _ _ _ _ Hrb). perm.
      + rewrite managed_emit, managed_retry. unfold post_errs, limits. cbn. perm.
    - rewrite IH, managed_with, (managed_get m rel), Hq. unfold post_errs, limits. cbn. perm.
    - rewrite IH, managed_retry, managed_retry_same, Hq. unfold post_errs, limits. cbn. perm.
    - destruct (managed_update m status ids Hl) as (kept & moved & E1 & E2 & E3).
      update_shape E3.
      etrans; [|apply Permutation_app_tail, Permutation_map; symmetry; exact E3].
      rewrite IH, E1, !map_app, fresh_requests; done.
    - done.
  Qed.

  (** [remove] gives back a request that is managed under the given message ID, if there is one. *)
  Theorem C42_remove m w d id m' w' a :
    rm_exec post now fresh_id handling_delay m (w, d) (RmRemove id) = Val (m', w', a) ->
    (a = RmRemoved None /\ m' = m /\ (forall st, st ∈ managed m -> rst_message_id st <> id)) \/
    (exists st, a = RmRemoved (Some (rst_request st)) /\ rst_message_id st = id /\ managed m ≡ₚ st :: managed m').
  Proof.
    intros E. cbn in E. unfold rqm_remove in E.
    set (p := fun st : state => bool_decide (rst_message_id st = id)) in *.
    assert (Hp : forall st, p st = true -> rst_message_id st = id) by (intros st Hst; by apply bool_decide_eq_true in Hst).
    assert (Hf : forall st, p st = false -> rst_message_id st <> id) by (intros st Hst; by apply bool_decide_eq_false in Hst).
    pose proof (remove_first_spec p (pq_current (rqm_post_queues m))) as Hc.
    destruct (remove_first p (pq_current (rqm_post_queues m))) as [[[i1 s1] l1]|].
    { injection E as <- <- <-. destruct Hc as (k1 & k2 & E1 & -> & _ & Hs & _). right. exists s1. split; [done|]. split; [auto|].
      etrans; [|apply Permutation_skip; symmetry; exact (managed_with m (Some RCurrent) (k1 ++ k2))].
      rewrite (managed_get m (Some RCurrent)). cbn [pq_get]. rewrite E1. perm. }
    pose proof (remove_first_spec p (pq_prev (rqm_post_queues m))) as Hv.
    destruct (remove_first p (pq_prev (rqm_post_queues m))) as [[[i1 s1] l1]|].
    { injection E as <- <- <-. destruct Hv as (k1 & k2 & E1 & -> & _ & Hs & _). right. exists s1. split; [done|]. split; [auto|].
      etrans; [|apply Permutation_skip; symmetry; exact (managed_with m (Some RPrev) (k1 ++ k2))].
      rewrite (managed_get m (Some RPrev)). cbn [pq_get]. rewrite E1. perm. }
    pose proof (remove_first_spec p (pq_default (rqm_post_queues m))) as Hd.
    destruct (remove_first p (pq_default (rqm_post_queues m))) as [[[i1 s1] l1]|].
    { injection E as <- <- <-. destruct Hd as (k1 & k2 & E1 & -> & _ & Hs & _). right. exists s1. split; [done|]. split; [auto|].
      etrans; [|apply Permutation_skip; symmetry; exact (managed_with m None (k1 ++ k2))].
      rewrite (managed_get m None). cbn [pq_get]. rewrite E1. perm. }
    pose proof (remove_first_spec p (rqm_retry_queue m)) as Hr.
    destruct (remove_first p (rqm_retry_queue m)) as [[[i1 s1] l1]|].
    { injection E as <- <- <-. destruct Hr as (k1 & k2 & E1 & -> & _ & Hs & _). right. exists s1. split; [done|]. split; [auto|].
      rewrite managed_retry, managed_retry_same, E1. perm. }
    injection E as <- <- <-. left. split; [done|]. split; [done|]. intros st Hin. apply Hf. unfold managed in Hin.
    rewrite Forall_forall in Hc, Hv, Hd, Hr. rewrite !elem_of_app in Hin. naive_solver.
  Qed.

  (** ** C43: capacity *)
  Lemma len_managed m : rqm_len m = N.of_nat (length (managed m)).
  Proof. unfold rqm_len, managed. rewrite !app_length. f_equal. lia. Qed.
  Theorem C43_has_space m : rqm_has_space m = true <-> (N.of_nat (length (managed m)) < rmc_capacity (rqm_config m)).
  Proof. unfold rqm_has_space. rewrite len_managed. apply N.ltb_lt. Qed.
  Lemma settle_length m r o : (length (managed (settle m r o)) <= S (length (managed m)))%nat.
  Proof. destruct o as [[rel st]|]; unfold settle; [rewrite managed_push; cbn [length]; lia|rewrite managed_emit; lia]. Qed.
  Lemma settle_config m r o : rqm_config (settle m r o) = rqm_config m.
  Proof. by destruct o as [[rel st]|]. Qed.
  Theorem C43_capacity cf h m d :
    rm_reach cf h m d -> rqm_config m = cf /\ N.of_nat (length (managed m)) <= rmc_capacity cf.
  Proof.
    intros Hr. destruct (reach_inv (fun ls m d => rqm_config m = cf /\ N.of_nat (length (managed m)) <= rmc_capacity cf) cf h m d)
      as (ls & Hp & _); [| |exact Hr|exact Hp].
    { intros t. split; [done|]. cbn. lia. }
    clear. intros ls m d l m' d' [Hcf IH] Hst.
    inversion Hst as [? ? rel rod i st rest dest t rtt Ht Hq Hs [Hd Hvd] Hn|? ? rel rod i st rest dest t rtt Ht Hq Hs [Hd Hvd] Hn|
      |? ? rel st rest e Hq|? ? r o ? Hsp Hrb|? ? st rest o ? Hq Hn Hrb|? ? rel l1 st l2 Hq|? ? l1 st l2 b Hq Hb|? ? status ids Hne q n Hl|];
      subst l m' d'; subst; (split; [by rewrite ?settle_config|]).
    - rewrite managed_push, managed_emit. cbn [length]. rewrite managed_with. rewrite (managed_get _ rel), Hq in IH. cbn in IH. done.
    - rewrite managed_insert, managed_emit. cbn [length]. rewrite managed_with. rewrite (managed_get _ rel), Hq in IH. cbn in IH. done.
    - done.
    - rewrite managed_emit, managed_with. rewrite (managed_get _ rel), Hq in IH. cbn in IH. lia.
    - pose proof (settle_length m r o). apply C43_has_space in Hsp. lia.
    - pose proof (settle_length (rqm_set_retry m rest true) (rst_request st) o). rewrite managed_retry in H.
      rewrite managed_retry_same, Hq in IH. cbn [app length] in IH. lia.
    - rewrite managed_with. rewrite (managed_get _ rel), Hq, <-app_assoc in IH. rewrite <-app_assoc.
      rewrite app_length in *. cbn in IH. lia.
    - rewrite managed_retry. rewrite managed_retry_same, Hq, <-app_assoc in IH. rewrite <-app_assoc.
      rewrite app_length in *. cbn in IH. lia.
    - destruct (managed_update m status ids Hl) as (kept & moved & E1 & E2 & E3).
      update_shape E3.
      apply Permutation_length in E3. rewrite E3. rewrite E1 in IH. rewrite app_length in *. rewrite zip_with_length. lia.
    - done.
  Qed.

  (** ** C44: retries are bounded *)
  Definition wsum (g : state -> N) (l : list state) : N := foldr (fun st a => g st + a) 0 l.
  Lemma wsum_app g l l' : wsum g (l ++ l') = wsum g l + wsum g l'.
  Proof. induction l as [|st l IH]; cbn; [done|]. unfold wsum in *. rewrite IH. lia. Qed.
  Lemma wsum_cons g st l : wsum g (st :: l) = g st + wsum g l.
  Proof. done. Qed.
  Lemma wsum_perm g l l' : l ≡ₚ l' -> wsum g l = wsum g l'.
  Proof. unfold wsum. induction 1; cbn; lia. Qed.
  Lemma wsum_fresh g (l : list state) ids past : (forall st id, g (with_fresh st id past) = g st) ->
    length ids = length l -> wsum g (zip_with (fun st id => with_fresh st id past) l ids) = wsum g l.
  Proof. intros Hg. revert ids. induction l as [|st l IH]; intros [|id ids] [=]; cbn; [done|]. rewrite Hg. unfold wsum in *. rewrite IH; done. Qed.

  (** The number of requests of a class [f] in a list, and of successful posts of such requests. *)
  Definition count (f : Req -> bool) (l : list Req) : N := N.of_nat (length (List.filter f l)).
  Definition posts (f : Req -> bool) (l : list (rm_event Req)) : N :=
    count f (omap (fun e => match e with EvPosted r _ _ _ _ _ => Some r | _ => None end) l).
  Lemma count_app f l l' : count f (l ++ l') = count f l + count f l'.
  Proof. unfold count. rewrite List.filter_app, app_length. lia. Qed.
  Lemma count_one f r : count f [r] = if f r then 1 else 0.
  Proof. unfold count. cbn. by destruct (f r). Qed.
  Lemma posts_emit f m e : posts f (rqm_log (rqm_emit m e)) =
    posts f (rqm_log m) + match e with EvPosted r _ _ _ _ _ => if f r then 1 else 0 | _ => 0 end.
  Proof.
    unfold posts. cbn. rewrite omap_app, count_app. destruct e; cbn; try done. by rewrite count_one.
  Qed.

  (** Posts still allowed for the requests in the queues. *)
  Definition attempts_left (cf : rm_config) (st : state) : N :=
    rst_attempts_remaining st + rst_destinations_remaining st * rmc_num_attempts_per_destination cf.
  Definition left_retry (cf : rm_config) (f : Req -> bool) (st : state) : N :=
    if f (rst_request st) then attempts_left cf st * rmc_num_posts_per_attempt cf else 0.
  Definition left_post (cf : rm_config) (f : Req -> bool) (st : state) : N :=
    if f (rst_request st) then attempts_left cf st * rmc_num_posts_per_attempt cf + rst_posts_remaining st + 1 else 0.
  Definition waiting (m : manager) : list state :=
    (pq_current (rqm_post_queues m) ++ pq_prev (rqm_post_queues m) ++ pq_default (rqm_post_queues m))%list.
  Definition rest_of (m : manager) (rel : option rel_session_index) : list state :=
    match rel with
    | Some RCurrent => (pq_prev (rqm_post_queues m) ++ pq_default (rqm_post_queues m))%list
    | Some RPrev => (pq_current (rqm_post_queues m) ++ pq_default (rqm_post_queues m))%list
    | None => (pq_current (rqm_post_queues m) ++ pq_prev (rqm_post_queues m))%list
    end.
  Lemma waiting_get m rel : waiting m ≡ₚ (pq_get (rqm_post_queues m) rel ++ rest_of m rel)%list.
  Proof. unfold waiting. destruct rel as [[]|]; cbn; perm. Qed.
  Lemma waiting_with m rel l : waiting (with_queue m rel l) ≡ₚ (l ++ rest_of m rel)%list.
  Proof. rewrite (waiting_get _ rel). unfold with_queue. cbn. rewrite pq_get_set. by destruct rel as [[]|]. Qed.
  Lemma waiting_push m rel st : waiting (push m rel st) ≡ₚ st :: waiting m.
  Proof.
    unfold push. fold (with_queue m rel (pq_get (rqm_post_queues m) rel ++ [st])%list).
    rewrite waiting_with, (waiting_get m rel). perm.
  Qed.
  Lemma retry_insert_queue m st : rqm_retry_queue (retry_insert m st) ≡ₚ st :: rqm_retry_queue m.
  Proof.
    unfold retry_insert. cbn. set (i := partition_point _ _).
    rewrite <-(take_drop i (rqm_retry_queue m)) at 3. by rewrite <-Permutation_middle.
  Qed.
  Lemma waiting_update m status ids :
    let q := shift_queues (rqm_post_queues m) (rqm_status m) status in
    let n := length (pq_default (rqm_post_queues m)) in
    length ids = length (drop n (pq_default q)) ->
    let m' := rqm_set_status (rqm_set_queues m (pq_set q None (take n (pq_default q) ++
           zip_with (fun st id => with_fresh st id (rqm_created_at m)) (drop n (pq_default q)) ids)%list)) status in
    exists kept moved, waiting m ≡ₚ (kept ++ moved)%list /\ length ids = length moved /\
      waiting m' ≡ₚ (kept ++ zip_with (fun st id => with_fresh st id (rqm_created_at m)) moved ids)%list.
  Proof.
    intros q n Hl m'. destruct (shift_default (rqm_post_queues m) (rqm_status m) status) as [l El]. fold q in El.
    assert (Et : take n (pq_default q) = pq_default (rqm_post_queues m)) by (rewrite El; by apply take_app).
    assert (Ed : drop n (pq_default q) = l) by (rewrite El; by apply drop_app).
    pose proof (shift_perm (rqm_post_queues m) (rqm_status m) status) as Hp. fold q in Hp.
    exists (pq_current q ++ pq_prev q ++ pq_default (rqm_post_queues m))%list, l. rewrite Ed in Hl.
    split; [|split; [done|]].
    - unfold waiting. rewrite El in Hp. rewrite <-Hp. perm.
    - unfold waiting. subst m'. cbn. rewrite Et, Ed. perm.
  Qed.

  Lemma waiting_emit m e : waiting (rqm_emit m e) = waiting m.
  Proof. done. Qed.
  Lemma waiting_rinsert m st : waiting (retry_insert m st) = waiting m.
  Proof. done. Qed.
  Lemma waiting_set_retry m l b : waiting (rqm_set_retry m l b) = waiting m.
  Proof. done. Qed.
  Lemma log_rinsert m st : rqm_log (retry_insert m st) = rqm_log m.
  Proof. done. Qed.
  Lemma log_push m rel st : rqm_log (push m rel st) = rqm_log m.
  Proof. done. Qed.
  Lemma log_with m rel l : rqm_log (with_queue m rel l) = rqm_log m.
  Proof. done. Qed.
  Lemma retry_push m rel st : rqm_retry_queue (push m rel st) = rqm_retry_queue m.
  Proof. done. Qed.
  Lemma retry_with m rel l : rqm_retry_queue (with_queue m rel l) = rqm_retry_queue m.
  Proof. done. Qed.
  Lemma retry_emit m e : rqm_retry_queue (rqm_emit m e) = rqm_retry_queue m.
  Proof. done. Qed.
  Lemma retry_set m l b : rqm_retry_queue (rqm_set_retry m l b) = l.
  Proof. done. Qed.
  Lemma log_set_retry m l b : rqm_log (rqm_set_retry m l b) = rqm_log m.
  Proof. done. Qed.

  Lemma reborn_left cf f m d st o d' : rqm_config m = cf -> reborn m d st o d' ->
    match o with
    | Some (_, st') => left_post cf f st' = left_retry cf f st /\ attempts_left cf st' + 1 = attempts_left cf st
    | None => left_retry cf f st = 0 /\ attempts_left cf st = 0
    end.
  Proof.
    intros <- Hr. unfold left_post, left_retry, attempts_left.
    set (A := rmc_num_attempts_per_destination (rqm_config m)). set (P := rmc_num_posts_per_attempt (rqm_config m)).
    assert (H1 : forall a D, 0 < a -> 1 <= P ->
      (a - 1 + D * A) * P + (P - 1) + 1 = (a + D * A) * P /\ a - 1 + D * A + 1 = a + D * A).
    { intros a D Ha HP. replace a with (a - 1 + 1) at 2 by lia. split; [|lia].
      rewrite !N.mul_add_distr_r. lia. }
    assert (H2 : forall D, 0 < D -> 1 <= P -> 1 <= A ->
      (A - 1 + (D - 1) * A) * P + (P - 1) + 1 = (0 + D * A) * P /\ A - 1 + (D - 1) * A + 1 = 0 + D * A).
    { intros D HD HP HA. assert (E : A - 1 + (D - 1) * A + 1 = 0 + D * A).
      { replace D with (D - 1 + 1) at 2 by lia. rewrite N.mul_add_distr_r. lia. }
      split; [|exact E]. rewrite <-E, !N.mul_add_distr_r. lia. }
    destruct Hr as [E1 E2|? ? E1 E2 E3|E1 E2 E3|? ? E1 E2 E3|? E1 E2 E3 E4]; cbn.
    - rewrite E1, E2. by destruct (f _).
    - destruct (H1 _ (rst_destinations_remaining st) E1 E2). by destruct (f _).
    - destruct (H1 _ (rst_destinations_remaining st) E1 E2). by destruct (f _).
    - destruct (H1 _ (rst_destinations_remaining st) E1 E2). by destruct (f _).
    - rewrite E1. destruct (H2 _ E2 E4 E3). by destruct (f _).
  Qed.

  Theorem C44_posts cf h m d (f : Req -> bool) :
    rm_reach cf h m d ->
    posts f (rqm_log m) <= rmc_num_destinations cf * rmc_num_attempts_per_destination cf * rmc_num_posts_per_attempt cf *
      count f (inserted h).
  Proof.
    intros Hr. destruct (reach_inv (fun ls m d => rqm_config m = cf /\
        posts f (rqm_log m) + wsum (left_post cf f) (waiting m) + wsum (left_retry cf f) (rqm_retry_queue m) <=
        rmc_num_destinations cf * rmc_num_attempts_per_destination cf * rmc_num_posts_per_attempt cf * count f (lab_ins ls)) cf h m d)
      as (ls & [Hcf Hp] & <- & _); [| |exact Hr|lia].
    { intros t. split; [done|]. cbn. lia. }
    clear -f. intros ls m d l m' d' [Hcf IH] Hst.
    unfold lab_ins in *. rewrite omap_app, count_app.
    inversion Hst as [? ? rel rod i st rest dest t rtt Ht Hq Hs [Hd Hvd] Hn|? ? rel rod i st rest dest t rtt Ht Hq Hs [Hd Hvd] Hn|
      |? ? rel st rest e Hq|? ? r o ? Hsp Hrb|? ? st rest o ? Hq Hn Hrb|? ? rel l1 st l2 Hq|? ? l1 st l2 b Hq Hb|? ? status ids Hne q n Hl|];
      subst l m' d'; subst; (split; [by rewrite ?settle_config|]); cbn [omap list_omap]; change (count f []) with 0; rewrite ?N.add_0_r.
    - rewrite (wsum_perm _ _ _ (waiting_push _ _ _)), wsum_cons, waiting_emit, log_push, posts_emit, log_with,
        retry_push, retry_emit, retry_with, (wsum_perm _ _ _ (waiting_with m rel rest)), wsum_app.
      rewrite (wsum_perm _ _ _ (waiting_get m rel)), Hq, wsum_app, wsum_cons in IH.
      etrans; [|exact IH]. unfold left_post at 1 4, attempts_left. cbn. destruct (f (rst_request st)); lia.
    - rewrite (wsum_perm _ _ _ (retry_insert_queue _ _)), wsum_cons, waiting_rinsert, waiting_emit, log_rinsert, posts_emit, log_with,
        retry_emit, retry_with, (wsum_perm _ _ _ (waiting_with m rel rest)), wsum_app.
      rewrite (wsum_perm _ _ _ (waiting_get m rel)), Hq, wsum_app, wsum_cons in IH.
      etrans; [|exact IH]. unfold left_post at 3, left_retry at 1, attempts_left. cbn. destruct (f (rst_request st)); lia.
    - rewrite posts_emit, waiting_emit, retry_emit. lia.
    - rewrite posts_emit, log_with, waiting_emit, retry_emit, retry_with, (wsum_perm _ _ _ (waiting_with m rel rest)), wsum_app.
      rewrite (wsum_perm _ _ _ (waiting_get m rel)), Hq, wsum_app, wsum_cons in IH. lia.
    - pose proof (reborn_left _ f _ _ _ _ _ eq_refl Hrb) as Hl. destruct o as [[rel st']|]; unfold settle.
      + rewrite (wsum_perm _ _ _ (waiting_push _ _ _)), wsum_cons, log_push, retry_push. destruct Hl as [Hl _]. rewrite Hl.
        unfold left_retry at 1, attempts_left. cbn [rst_request initial rst_attempts_remaining rst_destinations_remaining].
        rewrite count_one. destruct (f r); lia.
      + rewrite posts_emit, waiting_emit, retry_emit. lia.
    - pose proof (reborn_left _ f _ _ _ _ _ eq_refl Hrb) as Hl. rewrite Hq, wsum_cons in IH. destruct o as [[rel st']|]; unfold settle.
      + rewrite (wsum_perm _ _ _ (waiting_push _ _ _)), wsum_cons, log_push, log_set_retry, retry_push, retry_set, waiting_set_retry.
        destruct Hl as [Hl _]. cbn [rqm_set_retry rqm_config] in Hl. rewrite Hl. lia.
      + rewrite posts_emit, waiting_emit, retry_emit, retry_set, waiting_set_retry, log_set_retry. lia.
    - rewrite log_with, retry_with, (wsum_perm _ _ _ (waiting_with m rel (l1 ++ l2))).
      rewrite (wsum_perm _ _ _ (waiting_get m rel)), Hq in IH. rewrite !wsum_app in *. rewrite wsum_cons in IH. lia.
    - rewrite log_set_retry, retry_set, waiting_set_retry. rewrite Hq in IH. rewrite !wsum_app in *. rewrite wsum_cons in IH. lia.
    - destruct (waiting_update m status ids Hl) as (kept & moved & E1 & E2 & E3).
      update_shape E3.
      etrans; [|exact IH]. rewrite (wsum_perm _ _ _ E1). rewrite (wsum_perm _ _ _ E3). rewrite !wsum_app.
      rewrite wsum_fresh; [|done|done]. done.
    - done.
  Qed.

  (** A request is not given up on early: if all the requests of a class reached the retry limit (none
      is still managed, removed by the caller or given up because of an error), then they were posted
      exactly as often as the configuration says. *)
  Lemma count_nil_app f l l' : count f (l ++ l') = 0 -> count f l = 0 /\ count f l' = 0.
  Proof. rewrite count_app. lia. Qed.
  Lemma errs_emit f m e : count f (post_errs (rqm_log (rqm_emit m e))) =
    count f (post_errs (rqm_log m)) + match e with EvPostErr r _ => if f r then 1 else 0 | _ => 0 end.
  Proof. unfold post_errs. cbn. rewrite omap_app, count_app. destruct e; cbn; try done. by rewrite count_one. Qed.
  Theorem C44_all_posts cf h m d (f : Req -> bool) :
    rm_reach cf h m d ->
    count f (removed h) = 0 -> count f (post_errs (rqm_log m)) = 0 -> count f (map rst_request (managed m)) = 0 ->
    posts f (rqm_log m) = rmc_num_destinations cf * rmc_num_attempts_per_destination cf * rmc_num_posts_per_attempt cf *
      count f (inserted h).
  Proof.
    intros Hr. destruct (reach_inv (fun ls m d => rqm_config m = cf /\
        (count f (lab_rem ls) = 0 -> count f (post_errs (rqm_log m)) = 0 ->
        posts f (rqm_log m) + wsum (left_post cf f) (waiting m) + wsum (left_retry cf f) (rqm_retry_queue m) =
        rmc_num_destinations cf * rmc_num_attempts_per_destination cf * rmc_num_posts_per_attempt cf * count f (lab_ins ls))) cf h m d)
      as (ls & [Hcf Hp] & <- & <- & _); [| |exact Hr|].
    { intros t. split; [done|]. cbn. lia. }
    2:{ intros H1 H2 H3. rewrite <-Hp by done.
        assert (Hz : forall (g : rm_config -> (Req -> bool) -> state -> N) l,
          (forall st, f (rst_request st) = false -> g cf f st = 0) -> count f (map rst_request l) = 0 -> wsum (g cf f) l = 0).
        { intros g l Hg. induction l as [|st l IH]; [done|]. cbn [map]. intros Hc.
          change (rst_request st :: map rst_request l) with ([rst_request st] ++ map rst_request l)%list in Hc.
          apply count_nil_app in Hc as [Hc1 Hc2]. rewrite count_one in Hc1. rewrite wsum_cons, (IH Hc2), Hg; [done|]. by destruct (f _). }
        assert (Hm : managed m = (waiting m ++ rqm_retry_queue m)%list) by (unfold managed, waiting; by rewrite <-!(assoc_L (++)%list)).
        rewrite Hm, map_app in H3. apply count_nil_app in H3 as [H3 H4].
        rewrite (Hz left_post), (Hz left_retry); [lia|by intros st; unfold left_retry; intros ->|done|by intros st; unfold left_post; intros ->|done]. }
    clear -f. intros ls m d l m' d' [Hcf IH] Hst.
    unfold lab_ins, lab_rem in *. rewrite !omap_app, !count_app.
    inversion Hst as [? ? rel rod i st rest dest t rtt Ht Hq Hs [Hd Hvd] Hn|? ? rel rod i st rest dest t rtt Ht Hq Hs [Hd Hvd] Hn|
      |? ? rel st rest e Hq|? ? r o ? Hsp Hrb|? ? st rest o ? Hq Hn Hrb|? ? rel l1 st l2 Hq|? ? l1 st l2 b Hq Hb|? ? status ids Hne q n Hl|];
      subst l m' d'; subst; (split; [by rewrite ?settle_config|]); cbn [omap list_omap]; change (count f []) with 0; rewrite ?N.add_0_r;
      intros Hr1 Hr2.
    - rewrite log_push, errs_emit, log_with, N.add_0_r in Hr2. specialize (IH Hr1 Hr2).
      rewrite (wsum_perm _ _ _ (waiting_push _ _ _)), wsum_cons, waiting_emit, log_push, posts_emit, log_with,
        retry_push, retry_emit, retry_with, (wsum_perm _ _ _ (waiting_with m rel rest)), wsum_app.
      rewrite (wsum_perm _ _ _ (waiting_get m rel)), Hq, wsum_app, wsum_cons in IH.
      etrans; [|exact IH]. unfold left_post at 1 4, attempts_left. cbn. destruct (f (rst_request st)); lia.
    - rewrite log_rinsert, errs_emit, log_with, N.add_0_r in Hr2. specialize (IH Hr1 Hr2).
      rewrite (wsum_perm _ _ _ (retry_insert_queue _ _)), wsum_cons, waiting_rinsert, waiting_emit, log_rinsert, posts_emit, log_with,
        retry_emit, retry_with, (wsum_perm _ _ _ (waiting_with m rel rest)), wsum_app.
      rewrite (wsum_perm _ _ _ (waiting_get m rel)), Hq, wsum_app, wsum_cons in IH.
      etrans; [|exact IH]. unfold left_post at 3, left_retry at 1, attempts_left. cbn. destruct (f (rst_request st)); lia.
    - rewrite errs_emit, N.add_0_r in Hr2. specialize (IH Hr1 Hr2). rewrite posts_emit, waiting_emit, retry_emit. lia.
    - rewrite errs_emit, log_with in Hr2. specialize (IH Hr1 ltac:(lia)).
      rewrite posts_emit, log_with, waiting_emit, retry_emit, retry_with, (wsum_perm _ _ _ (waiting_with m rel rest)), wsum_app.
      rewrite (wsum_perm _ _ _ (waiting_get m rel)), Hq, wsum_app, wsum_cons in IH.
      unfold left_post at 1 in IH. destruct (f (rst_request st)); lia.
    - pose proof (reborn_left _ f _ _ _ _ _ eq_refl Hrb) as Hl. destruct o as [[rel st']|]; unfold settle in *.
      + rewrite log_push in Hr2. specialize (IH Hr1 Hr2).
        rewrite (wsum_perm _ _ _ (waiting_push _ _ _)), wsum_cons, log_push, retry_push. destruct Hl as [Hl _]. rewrite Hl.
        unfold left_retry at 1, attempts_left. cbn [rst_request initial rst_attempts_remaining rst_destinations_remaining].
        rewrite count_one. destruct (f r); lia.
      + rewrite errs_emit, N.add_0_r in Hr2. specialize (IH Hr1 Hr2).
        rewrite posts_emit, waiting_emit, retry_emit. destruct Hl as [Hl _]. rewrite count_one. unfold left_retry, attempts_left in Hl.
        cbn [rst_request initial rst_attempts_remaining rst_destinations_remaining] in Hl. destruct (f r); lia.
    - pose proof (reborn_left _ f _ _ _ _ _ eq_refl Hrb) as Hl. destruct o as [[rel st']|]; unfold settle in *.
      + rewrite log_push, log_set_retry in Hr2. specialize (IH Hr1 Hr2). rewrite Hq, wsum_cons in IH.
        rewrite (wsum_perm _ _ _ (waiting_push _ _ _)), wsum_cons, log_push, log_set_retry, retry_push, retry_set, waiting_set_retry.
        destruct Hl as [Hl _]. cbn [rqm_set_retry rqm_config] in Hl. rewrite Hl. lia.
      + rewrite errs_emit, log_set_retry, N.add_0_r in Hr2. specialize (IH Hr1 Hr2). rewrite Hq, wsum_cons in IH.
        rewrite posts_emit, waiting_emit, retry_emit, retry_set, waiting_set_retry, log_set_retry. destruct Hl as [Hl _].
        cbn [rqm_set_retry rqm_config] in Hl. lia.
    - rewrite log_with in Hr2. specialize (IH ltac:(lia) Hr2). rewrite count_one in Hr1.
      rewrite log_with, retry_with, (wsum_perm _ _ _ (waiting_with m rel (l1 ++ l2))).
      rewrite (wsum_perm _ _ _ (waiting_get m rel)), Hq in IH. rewrite !wsum_app in *. rewrite wsum_cons in IH.
      unfold left_post at 2 in IH. destruct (f (rst_request st)); lia.
    - rewrite log_set_retry in Hr2. specialize (IH ltac:(lia) Hr2). rewrite count_one in Hr1.
      rewrite log_set_retry, retry_set, waiting_set_retry. rewrite Hq in IH. rewrite !wsum_app in *. rewrite wsum_cons in IH.
      unfold left_retry at 2 in IH. destruct (f (rst_request st)); lia.
    - specialize (IH Hr1 Hr2). destruct (waiting_update m status ids Hl) as (kept & moved & E1 & E2 & E3).
      update_shape E3.
      etrans; [|exact IH]. rewrite (wsum_perm _ _ _ E1). rewrite (wsum_perm _ _ _ E3). rewrite !wsum_app.
      rewrite wsum_fresh; [|done|done]. done.
    - by apply IH.
  Qed.

  (** A request is retried at most [num_destinations * num_attempts_per_destination] times: after as
      many calls of [pop_next_retry] there is nothing left to retry. *)
  Theorem C44_retries cf h m d :
    rm_reach cf h m d ->
    N.of_nat (pops h) + N.of_nat (length (managed m)) <=
      rmc_num_destinations cf * rmc_num_attempts_per_destination cf * N.of_nat (length (inserted h)).
  Proof.
    intros Hr. destruct (reach_inv (fun ls m d => rqm_config m = cf /\
        N.of_nat (lab_pops ls) + wsum (fun st => attempts_left cf st + 1) (managed m) <=
        rmc_num_destinations cf * rmc_num_attempts_per_destination cf * N.of_nat (length (lab_ins ls))) cf h m d)
      as (ls & [Hcf Hp] & <- & _ & <-); [| |exact Hr|].
    { intros t. split; [done|]. cbn. lia. }
    2:{ etrans; [|exact Hp]. apply N.add_le_mono_l. clear. induction (managed m) as [|st l IH]; cbn [length wsum foldr]; [lia|].
        unfold wsum in IH. lia. }
    clear. intros ls m d l m' d' [Hcf IH] Hst.
    unfold lab_ins, lab_pops in *. rewrite !omap_app, !app_length.
    inversion Hst as [? ? rel rod i st rest dest t rtt Ht Hq Hs [Hd Hvd] Hn|? ? rel rod i st rest dest t rtt Ht Hq Hs [Hd Hvd] Hn|
      |? ? rel st rest e Hq|? ? r o ? Hsp Hrb|? ? st rest o ? Hq Hn Hrb|? ? rel l1 st l2 Hq|? ? l1 st l2 b Hq Hb|? ? status ids Hne q n Hl|];
      subst l m' d'; subst; (split; [by rewrite ?settle_config|]); cbn [omap list_omap length]; rewrite ?Nat.add_0_r.
    - rewrite (wsum_perm _ _ _ (managed_push _ _ _)), wsum_cons, managed_emit, (wsum_perm _ _ _ (managed_with m rel rest)).
      rewrite (wsum_perm _ _ _ (managed_get m rel)), Hq in IH. exact IH.
    - rewrite (wsum_perm _ _ _ (managed_insert _ _)), wsum_cons, managed_emit, (wsum_perm _ _ _ (managed_with m rel rest)).
      rewrite (wsum_perm _ _ _ (managed_get m rel)), Hq in IH. exact IH.
    - exact IH.
    - rewrite managed_emit, (wsum_perm _ _ _ (managed_with m rel rest)).
      rewrite (wsum_perm _ _ _ (managed_get m rel)), Hq in IH. cbn [app] in IH. rewrite wsum_cons in IH. lia.
    - pose proof (reborn_left _ (fun _ => true) _ _ _ _ _ eq_refl Hrb) as Hl. destruct o as [[rel st']|]; unfold settle.
      + rewrite (wsum_perm _ _ _ (managed_push _ _ _)), wsum_cons. destruct Hl as [_ Hl]. rewrite Hl. unfold attempts_left at 1. cbn [initial rst_attempts_remaining rst_destinations_remaining]. lia.
      + rewrite managed_emit. lia.
    - pose proof (reborn_left _ (fun _ => true) _ _ _ _ _ eq_refl Hrb) as Hl.
      rewrite (wsum_perm _ _ _ (managed_retry_same m)), Hq in IH. cbn [app] in IH. rewrite wsum_cons in IH. destruct o as [[rel st']|]; unfold settle.
      + rewrite (wsum_perm _ _ _ (managed_push _ _ _)), wsum_cons. destruct Hl as [_ Hl]. cbn [rqm_set_retry rqm_config] in Hl. rewrite Hl.
        rewrite (wsum_perm _ _ _ (managed_retry m rest true)). lia.
      + rewrite managed_emit, (wsum_perm _ _ _ (managed_retry m rest true)). cbn [rqm_set_retry rqm_config] in Hl. lia.
    - rewrite (wsum_perm _ _ _ (managed_with m rel (l1 ++ l2))). rewrite (wsum_perm _ _ _ (managed_get m rel)), Hq in IH.
      rewrite !wsum_app in *. rewrite wsum_cons in IH. lia.
    - rewrite (wsum_perm _ _ _ (managed_retry m _ _)). rewrite (wsum_perm _ _ _ (managed_retry_same m)), Hq in IH.
      rewrite !wsum_app in *. rewrite wsum_cons in IH. lia.
    - destruct (managed_update m status ids Hl) as (kept & moved & E1 & E2 & E3).
      update_shape E3.
      etrans; [|exact IH]. rewrite (wsum_perm _ _ _ E1). rewrite (wsum_perm _ _ _ E3). rewrite !wsum_app.
      rewrite wsum_fresh; [|done|done]. done.
    - exact IH.
  Qed.

  (** ** C45: a message ID is only ever used for one destination *)
  Definition ids_ok (L : list state) (log : list (rm_event Req)) (d : list bytes) : Prop :=
    (forall st, st ∈ L -> rst_message_id st ∈ d) /\
    NoDup (map rst_message_id L) /\
    (forall r id s dest t rtt, EvPosted r id s dest t rtt ∈ log -> id ∈ d /\ dest <> None /\
       (forall st, st ∈ L -> rst_message_id st = id ->
          rst_request st = r /\ rst_session_index st = Some s /\ rst_destination_index st = dest /\
          t + rtt <= rst_retry_deadline st)) /\
    (forall r id s dest t rtt r' s' dest' t' rtt', EvPosted r id s dest t rtt ∈ log ->
       EvPosted r' id s' dest' t' rtt' ∈ log -> r = r' /\ s = s' /\ dest = dest').

  Lemma ids_perm L L' log d : L ≡ₚ L' -> ids_ok L log d -> ids_ok L' log d.
  Proof.
    intros Hp (H1 & H2 & H3 & H4). split; [|split; [|split]].
    - intros st Hin. apply H1. by rewrite Hp.
    - by rewrite <-Hp.
    - intros r id s dest t rtt Hev. destruct (H3 _ _ _ _ _ _ Hev) as (Ha & Hb & Hc). split; [done|]. split; [done|].
      intros st Hin. apply Hc. by rewrite Hp.
    - exact H4.
  Qed.
  Lemma ids_drop st L log d : ids_ok (st :: L) log d -> ids_ok L log d.
  Proof.
    intros (H1 & H2 & H3 & H4). split; [|split; [|split]].
    - intros st' Hin. apply H1. by right.
    - by apply NoDup_cons in H2 as [_ H2].
    - intros r id s dest t rtt Hev. destruct (H3 _ _ _ _ _ _ Hev) as (Ha & Hb & Hc). split; [done|]. split; [done|].
      intros st' Hin. apply Hc. by right.
    - exact H4.
  Qed.
  Lemma ids_event L log d e : (forall r id s dest t rtt, e <> EvPosted r id s dest t rtt) ->
    ids_ok L log d -> ids_ok L (log ++ [e]) d.
  Proof.
    intros He (H1 & H2 & H3 & H4). split; [done|]. split; [done|]. split.
    - intros r id s dest t rtt [Hev|Hev%elem_of_list_singleton]%elem_of_app; [by eapply H3|]. by apply eq_sym, He in Hev.
    - intros r id s dest t rtt r' s' dest' t' rtt' [Hev|Hev%elem_of_list_singleton]%elem_of_app; [|by apply eq_sym, He in Hev].
      intros [Hev'|Hev'%elem_of_list_singleton]%elem_of_app; [by eapply H4|]. by apply eq_sym, He in Hev'.
  Qed.
  Lemma ids_counts st a b c L log d : ids_ok (st :: L) log d -> ids_ok (with_counts st a b c :: L) log d.
  Proof.
    intros (H1 & H2 & H3 & H4). split; [|split; [|split]].
    - intros st' [->|Hin]%elem_of_cons; [apply (H1 st); by left|apply H1; by right].
    - exact H2.
    - intros r id s dest t rtt Hev. destruct (H3 _ _ _ _ _ _ Hev) as (Ha & Hb & Hc). split; [done|]. split; [done|].
      intros st' [->|Hin]%elem_of_cons; [cbn; apply (Hc st); by left|apply Hc; by right].
    - exact H4.
  Qed.
  Lemma ids_fresh st id past L log d : id ∉ d -> ids_ok L log d -> ids_ok (with_fresh st id past :: L) log (d ++ [id]).
  Proof.
    intros Hid (H1 & H2 & H3 & H4). split; [|split; [|split]].
    - intros st' [->|Hin]%elem_of_cons; apply elem_of_app; [right; by left|left; auto].
    - cbn. apply NoDup_cons. split; [|done]. intros (st' & E & Hin)%elem_of_list_fmap. apply Hid. rewrite E. auto.
    - intros r id' s dest t rtt Hev. destruct (H3 _ _ _ _ _ _ Hev) as (Ha & Hb & Hc).
      split; [apply elem_of_app; by left|]. split; [done|].
      intros st' [->|Hin]%elem_of_cons E; [|by apply Hc]. cbn in E. by subst id'.
    - exact H4.
  Qed.
  Lemma ids_update past L moved ids log d :
    length ids = length moved -> NoDup (d ++ ids) -> ids_ok (L ++ moved) log d ->
    ids_ok (L ++ zip_with (fun st id => with_fresh st id past) moved ids) log (d ++ ids).
  Proof.
    revert L ids d. induction moved as [|st moved IH]; intros L [|id ids] d [=] Hd Hok; cbn.
    { rewrite app_nil_r in Hok. by rewrite !app_nil_r. }
    assert (E1 : (d ++ id :: ids = (d ++ [id]) ++ ids)%list) by (by rewrite <-app_assoc). rewrite E1 in *.
    apply (ids_perm (((with_fresh st id past) :: L) ++ zip_with (fun st id => with_fresh st id past) moved ids)); [perm|].
    apply IH; [done|done|]. cbn. apply ids_fresh.
    { rewrite NoDup_app in Hd. destruct Hd as [Hd _]. rewrite NoDup_app in Hd. destruct Hd as (_ & Hd & _).
      intros Hin. apply (Hd id Hin). by left. }
    apply (ids_drop st). eapply ids_perm; [|exact Hok]. perm.
  Qed.
  Lemma ids_post st L log d i dest t rtt posts :
    (rst_session_index st = None \/ rst_session_index st = Some i) ->
    (rst_destination_index st = None \/ rst_destination_index st = Some dest) ->
    ids_ok (st :: L) log d ->
    ids_ok (with_post st posts i dest (N.max (rst_retry_deadline st) (t + rtt)) :: L)
      (log ++ [EvPosted (rst_request st) (rst_message_id st) i (Some dest) t rtt]) d.
  Proof.
    intros Hs Hd (H1 & H2 & H3 & H4).
    assert (Hold : forall r s dest' t' rtt', EvPosted r (rst_message_id st) s dest' t' rtt' ∈ log ->
      r = rst_request st /\ s = i /\ dest' = Some dest /\ t' + rtt' <= rst_retry_deadline st).
    { intros r s dest' t' rtt' Hev. destruct (H3 _ _ _ _ _ _ Hev) as (_ & Hb & Hc).
      destruct (Hc st) as (-> & E1 & E2 & E3); [by left|done|]. rewrite E1 in Hs. destruct Hs as [?|[= ->]]; [done|].
      rewrite E2 in Hd. destruct Hd as [?| ->]; [done|]. done. }
    split; [|split; [|split]].
    - intros st' [->|Hin]%elem_of_cons; [cbn; apply (H1 st); by left|apply H1; by right].
    - exact H2.
    - intros r id s dest' t' rtt' [Hev|Hev%elem_of_list_singleton]%elem_of_app.
      + destruct (H3 _ _ _ _ _ _ Hev) as (Ha & Hb & Hc). split; [done|]. split; [done|].
        intros st' [->|Hin]%elem_of_cons E; [|apply Hc; [by right|done]]. cbn in E |- *. subst id.
        destruct (Hold _ _ _ _ _ Hev) as (-> & -> & -> & Hle). repeat split; try done. lia.
      + injection Hev as -> -> -> -> -> ->. split; [apply H1; by left|]. split; [done|].
        intros st' [->|Hin]%elem_of_cons E; cbn; [repeat split; try done; lia|].
        apply NoDup_cons in H2 as [H2 _]. destruct H2. rewrite <-E. by apply elem_of_list_fmap_1.
    - intros r id s dest1 t1 rtt1 r' s' dest2 t2 rtt2 [Hev|Hev%elem_of_list_singleton]%elem_of_app;
        intros [Hev'|Hev'%elem_of_list_singleton]%elem_of_app.
      + by eapply H4.
      + injection Hev' as -> -> -> -> -> ->. by destruct (Hold _ _ _ _ _ Hev) as (-> & -> & -> & _).
      + injection Hev as -> -> -> -> -> ->. by destruct (Hold _ _ _ _ _ Hev') as (-> & -> & -> & _).
      + injection Hev as -> -> -> -> -> ->. by injection Hev' as -> -> -> -> ->.
  Qed.
  Lemma ids_settle m d st o d' log L : reborn m d st o d' -> NoDup d' ->
    ids_ok (st :: L) log d ->
    match o with
    | Some (_, st') => ids_ok (st' :: L) log d'
    | None => ids_ok L log d'
    end.
  Proof.
    intros Hr Hd Hok. destruct Hr as [E1 E2|? ? E1 E2 E3|E1 E2 E3|? ? E1 E2 E3|? E1 E2 E3 E4].
    - by eapply ids_drop.
    - by apply ids_counts.
    - by apply ids_counts.
    - apply ids_fresh; [|by eapply ids_drop]. rewrite NoDup_app in Hd. destruct Hd as (_ & Hd & _).
      intros Hin. apply (Hd _ Hin). by left.
    - apply ids_fresh; [|by eapply ids_drop]. rewrite NoDup_app in Hd. destruct Hd as (_ & Hd & _).
      intros Hin. apply (Hd _ Hin). by left.
  Qed.

  Lemma ids_step m d l m' d' :
    (NoDup d -> ids_ok (managed m) (rqm_log m) d) -> rstep (m, d) l (m', d') -> NoDup d' ->
    ids_ok (managed m') (rqm_log m') d'.
  Proof.
    intros IH Hst Hnd.
    inversion Hst as [? ? rel rod i st rest dest t rtt Ht Hq Hs [Hd Hvd] Hn|? ? rel rod i st rest dest t rtt Ht Hq Hs [Hd Hvd] Hn|
      |? ? rel st rest e Hq|? ? r o ? Hsp Hrb|? ? st rest o ? Hq Hn Hrb|? ? rel l1 st l2 Hq|? ? l1 st l2 b Hq Hb|? ? status ids Hne q n Hl|];
      subst l m' d'; subst.
    - specialize (IH Hnd). rewrite log_push. eapply ids_perm; [symmetry; apply managed_push|]. rewrite managed_emit.
      eapply ids_perm; [apply Permutation_skip; symmetry; apply managed_with|].
      apply ids_post; [destruct rel; cbn in Hs; auto|done|]. eapply ids_perm; [|exact IH]. by rewrite (managed_get m rel), Hq.
    - specialize (IH Hnd). rewrite log_rinsert. eapply ids_perm; [symmetry; apply managed_insert|]. rewrite managed_emit.
      eapply ids_perm; [apply Permutation_skip; symmetry; apply managed_with|].
      apply ids_post; [destruct rel; cbn in Hs; auto|done|]. eapply ids_perm; [|exact IH]. by rewrite (managed_get m rel), Hq.
    - apply ids_event; [done|]. auto.
    - apply ids_event; [done|]. rewrite managed_emit. eapply ids_perm; [symmetry; apply managed_with|].
      eapply (ids_drop st). eapply ids_perm; [|apply IH, Hnd]. by rewrite (managed_get m rel), Hq.
    - assert (Hnd' : NoDup d).
      { destruct Hrb; try done; rewrite NoDup_app in Hnd; tauto. }
      specialize (IH Hnd'). inversion Hrb as [E1 E2|? ? E1 E2 E3|E1 E2 E3|? ? E1 E2 E3|? E1 E2 E3 E4]; subst; cbn in E1; try lia.
      + apply ids_event; [done|]. exact IH.
      + unfold settle. rewrite log_push. eapply ids_perm; [symmetry; apply managed_push|].
        apply ids_fresh; [|exact IH]. rewrite NoDup_app in Hnd. destruct Hnd as (_ & Hnd & _).
        intros Hin. apply (Hnd _ Hin). by left.
    - assert (Hnd' : NoDup d).
      { destruct Hrb; try done; rewrite NoDup_app in Hnd; tauto. }
      specialize (IH Hnd'). eapply ids_perm in IH; [|apply managed_retry_same]. rewrite Hq in IH. cbn [app] in IH.
      pose proof (ids_settle _ _ _ _ _ _ _ Hrb Hnd IH) as Hset. destruct o as [[rel st']|]; unfold settle.
      + rewrite log_push. eapply ids_perm; [symmetry; apply managed_push|].
        eapply ids_perm; [apply Permutation_skip; symmetry; apply managed_retry|]. exact Hset.
      + apply ids_event; [done|]. rewrite managed_emit. eapply ids_perm; [symmetry; apply managed_retry|]. exact Hset.
    - rewrite log_with. eapply ids_perm; [symmetry; apply managed_with|]. eapply (ids_drop st).
      eapply ids_perm; [|apply IH, Hnd]. rewrite (managed_get m rel), Hq. perm.
    - rewrite log_set_retry. eapply ids_perm; [symmetry; apply managed_retry|]. eapply (ids_drop st).
      eapply ids_perm; [|apply IH, Hnd]. rewrite managed_retry_same, Hq. perm.
    - destruct (managed_update m status ids Hl) as (kept & moved & E1 & E2 & E3).
      eapply ids_perm; [symmetry; exact E3|]. apply ids_update; [done|done|]. eapply ids_perm; [exact E1|]. apply IH.
      rewrite NoDup_app in Hnd. tauto.
    - exact (IH Hnd).
  Qed.
  Lemma reach_ids cf h m d : rm_reach cf h m d -> NoDup d -> ids_ok (managed m) (rqm_log m) d.
  Proof.
    intros Hr. destruct (reach_inv (fun ls m d => NoDup d -> ids_ok (managed m) (rqm_log m) d) cf h m d) as (ls & Hp & _);
      [| |exact Hr|exact Hp].
    { intros t _. split; [by intros ? ?%elem_of_nil|]. split; [constructor|]. cbn.
      split; [by intros ? ? ? ? ? ? ?%elem_of_nil|by intros ? ? ? ? ? ? ? ? ? ? ? ?%elem_of_nil]. }
    clear Hr m d h. intros ls m d l m' d' IH Hst. by eapply ids_step.
  Qed.

  Theorem C45_one_destination cf h m d r id s dest t rtt r' s' dest' t' rtt' :
    rm_reach cf h m d -> NoDup d ->
    EvPosted r id s dest t rtt ∈ rqm_log m -> EvPosted r' id s' dest' t' rtt' ∈ rqm_log m ->
    r = r' /\ s = s' /\ dest = dest' /\ dest <> None.
  Proof.
    intros Hr Hd H1 H2. destruct (reach_ids _ _ _ _ Hr Hd) as (_ & _ & H3 & H4).
    destruct (H4 _ _ _ _ _ _ _ _ _ _ _ H1 H2) as (-> & -> & ->). destruct (H3 _ _ _ _ _ _ H1) as (_ & Hb & _). done.
  Qed.
  (** No two managed requests have the same message ID, and a managed request whose ID was used is
      still bound to the session and destination it was used for. *)
  Theorem C45_managed cf h m d :
    rm_reach cf h m d -> NoDup d ->
    NoDup (map rst_message_id (managed m)) /\
    forall st r s dest t rtt, st ∈ managed m -> EvPosted r (rst_message_id st) s dest t rtt ∈ rqm_log m ->
      rst_request st = r /\ rst_session_index st = Some s /\ rst_destination_index st = dest.
  Proof.
    intros Hr Hd. destruct (reach_ids _ _ _ _ Hr Hd) as (_ & H2 & H3 & _). split; [done|].
    intros st r s dest t rtt Hst Hev. destruct (H3 _ _ _ _ _ _ Hev) as (_ & _ & Hc). by destruct (Hc st Hst eq_refl) as (? & ? & ? & _).
  Qed.

  (** ** C46: the retry deadline *)
  Theorem C46_not_early cf h m d st r s dest t rtt :
    rm_reach cf h m d -> NoDup d -> st ∈ managed m ->
    EvPosted r (rst_message_id st) s dest t rtt ∈ rqm_log m -> t + rtt <= rst_retry_deadline st.
  Proof.
    intros Hr Hd Hst Hev. destruct (reach_ids _ _ _ _ Hr Hd) as (_ & H2 & H3 & _).
    destruct (H3 _ _ _ _ _ _ Hev) as (_ & _ & Hc). by destruct (Hc st Hst eq_refl) as (? & ? & ? & ?).
  Qed.

  Notation before := (fun a b : state => rst_retry_deadline a <= rst_retry_deadline b).
  Lemma sorted_insert (l : list state) st :
    StronglySorted before l ->
    let i := partition_point (fun s => rst_retry_deadline s <? rst_retry_deadline st) l in
    StronglySorted before (take i l ++ [st] ++ drop i l)%list.
  Proof.
    induction 1 as [|x l Hs IH Hf]; cbn; [repeat constructor|].
    destruct (rst_retry_deadline x <? rst_retry_deadline st) eqn:E; cbn.
    - apply N.ltb_lt in E. constructor; [exact IH|].
      set (i := partition_point _ _). rewrite <-(take_drop i l), Forall_app in Hf. destruct Hf as [Hf1 Hf2].
      apply Forall_app. split; [done|]. constructor; [lia|done].
    - apply N.ltb_ge in E. constructor; [by constructor|]. constructor; [done|].
      eapply Forall_impl; [exact Hf|]. cbn. lia.
  Qed.
  Lemma sorted_remove (l1 l2 : list state) st : StronglySorted before (l1 ++ st :: l2) -> StronglySorted before (l1 ++ l2).
  Proof.
    induction l1 as [|x l1 IH]; cbn; intros Hs; inversion Hs as [|? ? Hs' Hf]; subst; [done|].
    constructor; [auto|]. rewrite Forall_app in *. destruct Hf as [Hf1 Hf2]. inversion Hf2. done.
  Qed.
  Lemma sorted_step m d l m' d' : StronglySorted before (rqm_retry_queue m) -> rstep (m, d) l (m', d') ->
    StronglySorted before (rqm_retry_queue m').
  Proof.
    intros IH Hst.
    inversion Hst as [? ? rel rod i st rest dest t rtt Ht Hq Hs [Hd Hvd] Hn|? ? rel rod i st rest dest t rtt Ht Hq Hs [Hd Hvd] Hn|
      |? ? rel st rest e Hq|? ? r o ? Hsp Hrb|? ? st rest o ? Hq Hn Hrb|? ? rel l1 st l2 Hq|? ? l1 st l2 b Hq Hb|? ? status ids Hne q n Hl|];
      subst l m' d'; subst; try exact IH.
    - exact (sorted_insert _ _ IH).
    - destruct o as [[rel st']|]; exact IH.
    - rewrite Hq in IH. inversion IH; subst. destruct o as [[rel st']|]; done.
    - rewrite Hq in IH. cbn. by eapply sorted_remove.
  Qed.
  (** The deadline reported is the earliest one of the requests waiting to be retried. *)
  Theorem C46_earliest cf h m d :
    rm_reach cf h m d ->
    match next_retry_deadline m with
    | Some t => (exists st, st ∈ rqm_retry_queue m /\ rst_retry_deadline st = t) /\
                (forall st, st ∈ rqm_retry_queue m -> t <= rst_retry_deadline st)
    | None => rqm_retry_queue m = []
    end.
  Proof.
    intros Hr. destruct (reach_inv (fun ls m d => StronglySorted before (rqm_retry_queue m)) cf h m d) as (ls & Hp & _);
      [| |exact Hr|].
    { intros t. constructor. }
    { clear. intros ls m d l m' d' IH Hst. by eapply sorted_step. }
    unfold next_retry_deadline. destruct (rqm_retry_queue m) as [|st l]; cbn; [done|].
    inversion Hp as [|? ? Hs Hf]; subst. split; [exists st; split; [by left|done]|].
    intros st' [->|Hin]%elem_of_cons; [done|]. rewrite Forall_forall in Hf. by apply Hf.
  Qed.

  Lemma changed_step m d l m' d' : rstep (m, d) l (m', d') -> l <> LChanged ->
    (rqm_deadline_changed m = true -> rqm_deadline_changed m' = true) /\
    (next_retry_deadline m <> next_retry_deadline m' -> rqm_deadline_changed m' = true).
  Proof.
    intros Hst Hlab.
    inversion Hst as [? ? rel rod i st rest dest t rtt Ht Hq Hs [Hd Hvd] Hn|? ? rel rod i st rest dest t rtt Ht Hq Hs [Hd Hvd] Hn|
      |? ? rel st rest e Hq|? ? r o ? Hsp Hrb|? ? st rest o ? Hq Hn Hrb|? ? rel l1 st l2 Hq|? ? l1 st l2 b Hq Hb|? ? status ids Hne q n Hl|];
      subst l m' d'; subst; try done.
    - cbn. set (st' := with_post _ _ _ _ _). set (k := partition_point _ _). destruct (decide (k = 0%nat)) as [->|Hk]; [done|].
      split; [done|]. unfold next_retry_deadline. cbn. intros Hne. exfalso. apply Hne.
      fold k. destruct (rqm_retry_queue m) as [|x l]; [by destruct Hk|]. destruct k; [done|]. done.
    - destruct o as [[rel st']|]; done.
    - destruct o as [[rel st']|]; done.
    - cbn. destruct l1 as [|x l1]; [done|]. split; [done|]. unfold next_retry_deadline. cbn. rewrite Hq. cbn. done.
  Qed.
  Lemma changed_steps (x : manager * list bytes) ls y : rsteps x ls y -> Forall (fun l => l <> LChanged) ls ->
    (rqm_deadline_changed x.1 = true -> rqm_deadline_changed y.1 = true) /\
    (next_retry_deadline x.1 <> next_retry_deadline y.1 -> rqm_deadline_changed y.1 = true).
  Proof.
    induction 1 as [x|[m1 d1] [m2 d2] z l ls H1 _ IH]; intros Hf; [done|]. inversion Hf as [|? ? Hl Hf']; subst.
    destruct (IH Hf') as [I1 I2]. destruct (changed_step _ _ _ _ _ H1 Hl) as [J1 J2]. cbn in *. split; [auto|].
    intros Hne. destruct (decide (next_retry_deadline m2 = next_retry_deadline z.1)) as [E|E]; [|auto].
    apply I1, J2. by rewrite E.
  Qed.
  (** A change of the deadline is reported by the next call of [next_retry_deadline_changed]. *)
  Theorem C46_signalled m d h m1 d1 w m2 w2 b :
    rm_run m d h m1 d1 -> Forall (fun x => x.1 <> RmChanged) h ->
    next_retry_deadline m <> next_retry_deadline m1 ->
    rm_exec post now fresh_id handling_delay m1 (w, d1) RmChanged = Val (m2, w2, RmFlag b) ->
    b = true.
  Proof.
    intros Hr Hh Hne E. apply run_steps in Hr as (ls & Hs & _ & _ & _ & Hf).
    destruct (changed_steps _ _ _ Hs (Hf Hh)) as [_ H2]. cbn in E. injection E as <- <- <-. exact (H2 Hne).
  Qed.

  (** ** C47: consistent queues, and termination without panics *)
  Record queues_ok (m : manager) : Prop := {
    qk_default : Forall (fun st => rst_session_index st = None /\ rst_destination_index st = None) (pq_default (rqm_post_queues m));
    qk_current : Forall (fun st => rst_session_index st = Some (st_current_index (rqm_status m)) /\ rst_destination_index st <> None)
                        (pq_current (rqm_post_queues m));
    qk_prev : Forall (fun st => (exists i, rst_session_index st = Some i /\ st_current_index (rqm_status m) = i + 1) /\
                                rst_destination_index st <> None)
                     (pq_prev (rqm_post_queues m));
    qk_no_current : st_phase (rqm_status m) = PCoverToCurrent -> pq_current (rqm_post_queues m) = [];
    qk_no_prev : st_phase (rqm_status m) = PCoverToPrev \/ st_phase (rqm_status m) = PDisconnectFromPrev ->
                 pq_prev (rqm_post_queues m) = [];
    qk_retry : Forall (fun st => rst_posts_remaining st = 0 /\ rst_session_index st <> None /\ rst_destination_index st <> None)
                      (rqm_retry_queue m)
  }.
  Lemma rsi_add_val rel c i : rsi_add rel c = Val i -> c = match rel with RCurrent => i | RPrev => i + 1 end.
  Proof.
    destruct rel; cbn; [by intros [= ->]|]. unfold checked_sub. destruct (1 <=? c) eqn:E; [|done].
    apply N.leb_le in E. cbn. intros [= <-]. lia.
  Qed.
  Lemma queues_pop m rel st rest : queues_ok m -> pq_get (rqm_post_queues m) rel = st :: rest ->
    queues_ok (with_queue m rel rest).
  Proof.
    intros [H1 H2 H3 H4 H5 H6] Hq. destruct rel as [[]|]; cbn in Hq; rewrite Hq in *;
      (constructor; cbn; [| | | | |done]);
      try done; try (by eapply Forall_inv_tail); try (intros Hp; exfalso; by discriminate (H4 Hp) || discriminate (H5 Hp)).
  Qed.
  Lemma queues_remove m rel l1 st l2 : queues_ok m -> pq_get (rqm_post_queues m) rel = (l1 ++ st :: l2)%list ->
    queues_ok (with_queue m rel (l1 ++ l2)).
  Proof.
    intros [H1 H2 H3 H4 H5 H6] Hq. destruct rel as [[]|]; cbn in Hq; rewrite Hq in *; constructor; cbn; try done;
      try (rewrite Forall_app in *; destruct_and?; split; [done|]; by eapply Forall_inv_tail).
    - intros Hp. specialize (H4 Hp). by destruct l1.
    - intros Hp. specialize (H5 Hp). by destruct l1.
  Qed.
  Lemma queues_emit m e : queues_ok m -> queues_ok (rqm_emit m e).
  Proof. intros [H1 H2 H3 H4 H5 H6]. by constructor. Qed.
  Lemma queues_retry m l b : queues_ok m ->
    Forall (fun st => rst_posts_remaining st = 0 /\ rst_session_index st <> None /\ rst_destination_index st <> None) l ->
    queues_ok (rqm_set_retry m l b).
  Proof. intros [H1 H2 H3 H4 H5 H6] Hl. by constructor. Qed.
  Lemma allow_current p : allow_requests_and_replies p RCurrent = true <-> p <> PCoverToCurrent.
  Proof. by destruct p. Qed.
  Lemma allow_prev p : allow_requests_and_replies p RPrev = true <-> ~ (p = PCoverToPrev \/ p = PDisconnectFromPrev).
  Proof. destruct p; cbn; naive_solver. Qed.
  (** A request bound to a session that accepts requests can wait in the queue of that session. *)
  Lemma queues_push m rel st i : queues_ok m ->
    rsi_add rel (cur m) = Val i -> allow_requests_and_replies (st_phase (rqm_status m)) rel = true ->
    rst_session_index st = Some i -> rst_destination_index st <> None -> queues_ok (push m (Some rel) st).
  Proof.
    intros [H1 H2 H3 H4 H5 H6] Hi%rsi_add_val Ha Hs Hd. unfold cur in Hi. destruct rel; constructor; cbn; try done.
    - apply Forall_app. split; [done|]. constructor; [|done]. by rewrite Hi.
    - intros Hp. by rewrite allow_current in Ha.
    - apply Forall_app. split; [done|]. constructor; [|done]. eauto.
    - intros Hp. by rewrite allow_prev in Ha.
  Qed.
  Lemma queues_push_default m st : queues_ok m ->
    rst_session_index st = None -> rst_destination_index st = None -> queues_ok (push m None st).
  Proof.
    intros [H1 H2 H3 H4 H5 H6] Hs Hd. constructor; cbn; try done. apply Forall_app. split; [done|]. by constructor.
  Qed.
  Lemma queues_allowed m rel rod i st rest : queues_ok m -> target m rel rod i -> pq_get (rqm_post_queues m) rel = st :: rest ->
    allow_requests_and_replies (st_phase (rqm_status m)) rod = true.
  Proof.
    intros [H1 H2 H3 H4 H5 H6] [-> _] Hq. destruct rel as [[]|]; cbn [default from_option id].
    - apply allow_current. intros Hp. cbn in Hq. by rewrite (H4 Hp) in Hq.
    - apply allow_prev. intros Hp. cbn in Hq. by rewrite (H5 Hp) in Hq.
    - by destruct (st_phase (rqm_status m)).
  Qed.
  Lemma queues_shift m status moved : queues_ok m ->
    let q := shift_queues (rqm_post_queues m) (rqm_status m) status in
    let n := length (pq_default (rqm_post_queues m)) in
    Forall (fun st => rst_session_index st = None /\ rst_destination_index st = None) moved ->
    queues_ok (rqm_set_status (rqm_set_queues m (pq_set q None (take n (pq_default q) ++ moved)%list)) status).
  Proof.
    intros [H1 H2 H3 H4 H5 H6] q n Hm. destruct (shift_default (rqm_post_queues m) (rqm_status m) status) as [l El]. fold q in El.
    assert (Et : take n (pq_default q) = pq_default (rqm_post_queues m)) by (rewrite El; by apply take_app). rewrite Et. clear Et El l.
    assert (Hq : Forall (fun st => rst_session_index st = Some (st_current_index status) /\ rst_destination_index st <> None) (pq_current q) /\
      Forall (fun st => (exists i, rst_session_index st = Some i /\ st_current_index status = i + 1) /\ rst_destination_index st <> None) (pq_prev q) /\
      (st_phase status = PCoverToCurrent -> pq_current q = []) /\
      (st_phase status = PCoverToPrev \/ st_phase status = PDisconnectFromPrev -> pq_prev q = [])).
    { unfold shift_queues in q.
      set (q1 := if st_current_index (rqm_status m) =? st_current_index status then rqm_post_queues m else _) in q.
      assert (Hq1 : Forall (fun st => rst_session_index st = Some (st_current_index status) /\ rst_destination_index st <> None) (pq_current q1) /\
        Forall (fun st => (exists i, rst_session_index st = Some i /\ st_current_index status = i + 1) /\ rst_destination_index st <> None) (pq_prev q1)).
      { subst q q1. destruct (_ =? _) eqn:E1.
        - apply N.eqb_eq in E1. by rewrite <-E1.
        - cbv zeta. unfold saturating_sub. destruct (_ =? 1) eqn:E2; cbn; [|by repeat constructor].
          apply N.eqb_eq in E2. split; [by constructor|]. eapply Forall_impl; [exact H2|]. intros st [Hs Hd]. split; [|done].
          eexists. split; [exact Hs|]. lia. }
      clearbody q1. destruct Hq1 as [Q1 Q2]. subst q.
      pose proof (allow_current (st_phase status)) as Ac. pose proof (allow_prev (st_phase status)) as Ap.
      destruct (allow_requests_and_replies (st_phase status) RCurrent), (allow_requests_and_replies (st_phase status) RPrev);
        cbn; repeat split; try done; try (by constructor); intros Hp; exfalso; naive_solver. }
    destruct Hq as (Q1 & Q2 & Q3 & Q4). clearbody q. constructor; cbn; try done. by apply Forall_app.
  Qed.
  Lemma queues_reborn m d st o d' r : queues_ok m -> reborn m d st o d' ->
    (0 < rst_attempts_remaining st -> rst_session_index st <> None /\ rst_destination_index st <> None) ->
    queues_ok (settle m r o).
  Proof.
    intros Hok Hr Hst. destruct Hr as [E1 E2|i rel E1 E2 E3 E4 E5|E1 E2 E3|? ? E1 E2 E3|? E1 E2 E3 E4]; unfold settle.
    - by apply queues_emit.
    - eapply (queues_push _ _ _ i); [done| |done|done|]; [|cbn; by apply Hst].
      unfold rsi_from_session_index, checked_sub in E4. destruct (i <=? cur m) eqn:El; [|done]. apply N.leb_le in El.
      destruct (cur m - i) as [|[?|?|]] eqn:Ed; try discriminate E4; injection E4 as <-; cbn; unfold checked_sub.
      + f_equal. lia.
      + assert (Ec : cur m = i + 1) by lia. rewrite Ec. destruct (1 <=? i + 1) eqn:E6; [|apply N.leb_gt in E6; lia]. cbn. f_equal. lia.
    - by destruct (Hst E1).
    - by apply queues_push_default.
    - by apply queues_push_default.
  Qed.
  Lemma queues_step m d l m' d' : queues_ok m -> rstep (m, d) l (m', d') -> queues_ok m'.
  Proof.
    intros IH Hst.
    inversion Hst as [? ? rel rod i st rest dest t rtt Ht Hq Hs [Hd Hvd] Hn|? ? rel rod i st rest dest t rtt Ht Hq Hs [Hd Hvd] Hn|
      |? ? rel st rest e Hq|? ? r o ? Hsp Hrb|? ? st rest o ? Hq Hn Hrb|? ? rel l1 st l2 Hq|? ? l1 st l2 b Hq Hb|? ? status ids Hne q n Hl|];
      subst l m' d'; subst.
    - apply (queues_push _ _ _ i); [|apply Ht|exact (queues_allowed m _ _ _ _ _ IH Ht Hq)|done|done]. apply queues_emit. by eapply queues_pop.
    - unfold retry_insert. apply queues_retry; [apply queues_emit; by eapply queues_pop|].
      set (k := partition_point _ _). pose proof (qk_retry _ IH) as H6. cbn.
      rewrite <-(take_drop k (rqm_retry_queue m)), Forall_app in H6. destruct H6. apply Forall_app. split; [done|]. by constructor.
    - by apply queues_emit.
    - apply queues_emit. by eapply queues_pop.
    - eapply queues_reborn; [done|exact Hrb|]. cbn. lia.
    - pose proof (qk_retry _ IH) as H6. rewrite Hq in H6. inversion H6 as [|? ? (? & ? & ?) ?]; subst.
      eapply queues_reborn; [by apply queues_retry|exact Hrb|done].
    - by eapply queues_remove.
    - apply queues_retry; [done|]. pose proof (qk_retry _ IH) as H6. rewrite Hq in H6. rewrite Forall_app in *. destruct H6 as [? H6].
      split; [done|]. by inversion H6.
    - apply queues_shift; [done|]. clear. revert ids. induction (drop n (pq_default q)); intros [|? ?]; cbn; try constructor; auto.
    - apply queues_retry; [done|]. apply (qk_retry _ IH).
  Qed.
  Lemma queues_steps (x : manager * list bytes) ls y : rsteps x ls y -> queues_ok x.1 -> queues_ok y.1.
  Proof. induction 1 as [x|[m1 d1] [m2 d2] z l ls H1 _ IH]; intros Hok; [done|]. apply IH. by eapply queues_step. Qed.
  Lemma reach_queues cf h m d : rm_reach cf h m d -> queues_ok m.
  Proof.
    intros Hr. destruct (reach_inv (fun ls m d => queues_ok m) cf h m d) as (ls & Hp & _); [| |exact Hr|exact Hp].
    { intros t. constructor; cbn; try done; by constructor. }
    clear Hr m d h. intros ls m d l m' d' IH Hst. by eapply queues_step.
  Qed.

  (** The queues are always consistent with the session status. *)
  Theorem C47_queues cf h m d :
    rm_reach cf h m d ->
    (forall st, st ∈ pq_default (rqm_post_queues m) -> rst_session_index st = None /\ rst_destination_index st = None) /\
    (forall st, st ∈ pq_current (rqm_post_queues m) ->
       rst_session_index st = Some (st_current_index (rqm_status m)) /\ rst_destination_index st <> None) /\
    (forall st, st ∈ pq_prev (rqm_post_queues m) ->
       (exists i, rst_session_index st = Some i /\ st_current_index (rqm_status m) = i + 1) /\ rst_destination_index st <> None) /\
    (st_phase (rqm_status m) = PCoverToCurrent -> pq_current (rqm_post_queues m) = []) /\
    (st_current_index (rqm_status m) = 0 \/ st_phase (rqm_status m) = PCoverToPrev \/ st_phase (rqm_status m) = PDisconnectFromPrev ->
       pq_prev (rqm_post_queues m) = []).
  Proof.
    intros Hr. destruct (reach_queues _ _ _ _ Hr) as [H1 H2 H3 H4 H5 H6]. rewrite Forall_forall in H1, H2.
    split; [exact H1|]. split; [exact H2|]. split; [by rewrite Forall_forall in H3|]. split; [done|].
    intros [E|Hp]; [|by apply H5]. destruct (pq_prev (rqm_post_queues m)) as [|st l]; [done|].
    inversion H3 as [|? ? [(i & _ & Hi) _] _]; subst. lia.
  Qed.

  (** Every request bound to a destination is bound to a valid one. *)
  Definition dest_ok (st : state) : Prop :=
    forall i x, rst_session_index st = Some i -> rst_destination_index st = Some x -> valid i x.
  Definition good (m : manager) : Prop := queues_ok m /\ Forall dest_ok (managed m).
  Lemma good_step m d l m' d' : good m -> rstep (m, d) l (m', d') -> good m'.
  Proof.
    intros [Hq0 IH] Hst. split; [by eapply queues_step|]. clear Hq0.
    assert (Hreborn : forall m d st o d' r, reborn m d st o d' -> (dest_ok st) -> Forall dest_ok (managed m) ->
      Forall dest_ok (managed (settle m r o))).
    { clear. intros m d st o d' r Hrb Hst Hm. destruct Hrb; unfold settle; rewrite ?managed_push, ?managed_emit; try done;
        constructor; try done. }
    inversion Hst as [? ? rel rod i st rest dest t rtt Ht Hq Hs [Hd Hvd] Hn|? ? rel rod i st rest dest t rtt Ht Hq Hs [Hd Hvd] Hn|
      |? ? rel st rest e Hq|? ? r o ? Hsp Hrb|? ? st rest o ? Hq Hn Hrb|? ? rel l1 st l2 Hq|? ? l1 st l2 b Hq Hb|? ? status ids Hne q n Hl|];
      subst l m' d'; subst.
    - rewrite managed_push, managed_emit, managed_with. rewrite (managed_get m rel), Hq in IH. inversion IH; subst.
      constructor; [|done]. by intros ? ? [= <-] [= <-].
    - rewrite managed_insert, managed_emit, managed_with. rewrite (managed_get m rel), Hq in IH. inversion IH; subst.
      constructor; [|done]. by intros ? ? [= <-] [= <-].
    - by rewrite managed_emit.
    - rewrite managed_emit, managed_with. rewrite (managed_get m rel), Hq in IH. by inversion IH; subst.
    - by eapply Hreborn.
    - rewrite managed_retry_same, Hq in IH. inversion IH; subst. eapply Hreborn; [exact Hrb|done|]. by rewrite managed_retry.
    - rewrite managed_with. rewrite (managed_get m rel), Hq in IH. rewrite !Forall_app in *. destruct_and?. repeat split; try done.
      by eapply Forall_inv_tail.
    - rewrite managed_retry. rewrite managed_retry_same, Hq in IH. rewrite !Forall_app in *. destruct_and?. repeat split; try done.
      by eapply Forall_inv_tail.
    - destruct (managed_update m status ids Hl) as (kept & moved & E1 & E2 & E3). update_shape E3. rewrite E3. rewrite E1 in IH.
      rewrite Forall_app in *. destruct IH as [IH _]. split; [done|]. clear. revert ids.
      induction moved as [|st moved IH]; intros [|id ids]; cbn; constructor; [done|auto].
    - rewrite managed_retry. by rewrite managed_retry_same in IH.
  Qed.
  Lemma good_steps (x : manager * list bytes) ls y : rsteps x ls y -> good x.1 -> good y.1.
  Proof. induction 1 as [x|[m1 d1] [m2 d2] z l ls H1 _ IH]; intros Hok; [done|]. apply IH. by eapply good_step. Qed.
  Lemma reach_good cf h m d : rm_reach cf h m d -> good m.
  Proof.
    intros Hr. destruct (reach_inv (fun ls m d => good m) cf h m d) as (ls & Hp & _); [| |exact Hr|exact Hp].
    { intros t. split; [constructor; cbn; try done; by constructor|by constructor]. }
    clear Hr m d h. intros ls m d l m' d' IH Hst. by eapply good_step.
  Qed.

  (** The worlds that a world can turn into by posting requests, reading the clock and drawing message IDs. *)
  Inductive wsteps : W -> W -> Prop :=
  | WsNil w : wsteps w w
  | WsPost w i dest id r w' dest' res w2 : post w i dest id r = Val (w', dest', res) -> wsteps w' w2 -> wsteps w w2
  | WsNow w w2 : wsteps (now w).2 w2 -> wsteps w w2
  | WsFresh w w2 : wsteps (fresh_id w).2 w2 -> wsteps w w2.
  Lemma wsteps_trans w1 w2 w3 : wsteps w1 w2 -> wsteps w2 w3 -> wsteps w1 w3.
  Proof.
    induction 1; intros; [done|by eapply WsPost; eauto|by apply WsNow; auto|by apply WsFresh; auto].
  Qed.
  (** A world in which posting to a valid destination, or to one to be chosen, panics, or the
      round-trip time cannot be represented. *)
  Definition post_trouble (w : W) : Prop := exists i dest id r,
    (forall x, dest = Some x -> valid i x) /\
    (post w i dest id r = Panic \/
     exists w' dest' metrics, post w i dest id r = Val (w', dest', Ok metrics) /\ estimate_rtt metrics (handling_delay r id) = Panic).
  Definition trouble (w : W) : Prop := exists w', wsteps w w' /\ post_trouble w'.
  Lemma trouble_steps w w' : wsteps w w' -> trouble w' -> trouble w.
  Proof. intros H1 (w2 & H2 & H3). exists w2. split; [by eapply wsteps_trans|done]. Qed.

  Notation exec := (rm_exec post now fresh_id handling_delay).
  Notation l_post := (l_post post).
  Notation l_now := (l_now now).
  Notation l_fresh := (l_fresh fresh_id).
  (** The result of a computation in world [w] is a value, or a panic caused by posting. *)
  Definition fine (w : W) (o : outcome (manager * (W * list bytes))) : Prop :=
    (exists m' w', o = Val (m', w') /\ wsteps w w'.1) \/ (o = Panic /\ trouble w).
  Lemma fine_val w m' w' : wsteps w w'.1 -> fine w (Val (m', w')).
  Proof. intros H. left. eauto. Qed.
  Lemma fine_steps w w' o : wsteps w w' -> fine w' o -> fine w o.
  Proof.
    intros H [(m' & w2 & -> & H2)|[-> H2]]; [left; eexists _, _; split; [done|by eapply wsteps_trans]|].
    right. split; [done|by eapply trouble_steps].
  Qed.
  Lemma fine_bind w o f : fine w o -> (forall m' w', o = Val (m', w') -> fine w'.1 (f (m', w'))) -> fine w (x ← o; f x).
  Proof.
    intros [(m' & w2 & -> & H2)|[-> H2]] Hf; [|by right]. cbn. eapply fine_steps; [exact H2|]. by apply Hf.
  Qed.

  Definition queue_posts (l : list state) : nat := sum_list_with (fun st => S (N.to_nat (rst_posts_remaining st))) l.
  Lemma loop_total fuel rel rod i m w :
    target m rel rod i ->
    Forall (fun st => rst_session_index st = expected rel i /\ forall x, rst_destination_index st = Some x -> valid i x)
      (pq_get (rqm_post_queues m) rel) ->
    (queue_posts (pq_get (rqm_post_queues m) rel) < fuel)%nat ->
    fine w.1 (post_loop l_post l_now handling_delay fuel rel rod (expected rel i) i m w).
  Proof.
    revert m w. induction fuel as [|fuel IH]; intros m w Ht Hs Hf; [lia|]. cbn.
    destruct (pq_get (rqm_post_queues m) rel) as [|st rest] eqn:Hq; [apply fine_val, WsNil|].
    inversion Hs as [|? ? [Hst Hvd] Hrest]; subst. rewrite (bool_decide_true _ Hst). cbn.
    unfold PReqMgr.l_post. destruct (post w.1 i (rst_destination_index st) (rst_message_id st) (rst_request st)) as [[[w1 dest] res]|] eqn:E.
    2:{ right. split; [done|]. exists w.1. split; [apply WsNil|]. eexists _, _, _, _. split; [exact Hvd|]. by left. }
    cbn. unfold queue_posts in Hf. cbn in Hf. destruct res as [metrics|e].
    - unfold post_ok. cbn. destruct (estimate_rtt metrics (handling_delay (rst_request st) (rst_message_id st))) as [rtt|] eqn:Er.
      2:{ right. split; [done|]. exists w.1. split; [apply WsNil|]. eexists _, _, _, _. split; [exact Hvd|]. right. eauto 6. }
      cbn. destruct (Hpost _ _ _ _ _ _ _ _ E) as (x & -> & _ & Hx).
      assert (Hw : wsteps w.1 (now w1).2) by (eapply WsPost; [exact E|]; apply WsNow, WsNil).
      unfold checked_sub. destruct (1 <=? rst_posts_remaining st) eqn:E1; cbn; (eapply fine_steps; [exact Hw|]).
      + apply N.leb_le in E1. apply (IH _ ((now w1).2, w.2)).
        * exact Ht.
        * destruct Ht as [-> _]. destruct rel as [r|]; cbn.
          -- destruct r; cbn; apply Forall_app; (split; [done|]); (constructor; [|done]); (split; [done|]); by intros ? [= <-].
          -- by destruct (default_request_session _).
        * destruct Ht as [-> _]. destruct rel as [r|]; cbn.
          -- destruct r; cbn; unfold queue_posts; rewrite sum_list_with_app; cbn; lia.
          -- destruct (default_request_session _); cbn; unfold queue_posts; lia.
      + apply (IH _ ((now w1).2, w.2)); [exact Ht| |]; cbn; rewrite pq_get_set; [done|]. unfold queue_posts. lia.
    - assert (Hw : wsteps w.1 w1) by (eapply WsPost; [exact E|]; apply WsNil).
      eapply fine_steps; [exact Hw|].
      assert (Hloop : fine w1 (post_loop l_post l_now handling_delay fuel rel rod (expected rel i) i
        (rqm_emit (rqm_set_queues m (pq_set (rqm_post_queues m) rel rest)) (EvPostErr (rst_request st) e)) (w1, w.2))).
      { apply (IH _ (w1, w.2)); [exact Ht| |]; cbn; rewrite pq_get_set; [done|]. unfold queue_posts. lia. }
      destruct e; try exact Hloop. apply fine_val, WsNil.
  Qed.
  Lemma process_total rel m w : good m -> fine w.1 (process_post_queue l_post l_now handling_delay rel m w).
  Proof.
    intros [Hok Hdv]. unfold process_post_queue. cbv zeta.
    set (rod := default (default_request_session (st_phase (rqm_status m))) rel).
    destruct (bool_decide (rod = RPrev) && (st_current_index (rqm_status m) =? 0)) eqn:Ez.
    - apply andb_true_iff in Ez as [_ Ez]. apply N.eqb_eq in Ez. rewrite bool_decide_true; [apply fine_val, WsNil|].
      destruct (pq_prev (rqm_post_queues m)) as [|st l] eqn:Eq; [done|]. pose proof (qk_prev _ Hok) as H3. rewrite Eq in H3.
      inversion H3 as [|? ? [(i & _ & Hi) _] _]; subst. lia.
    - assert (Hi : exists i, rsi_add rod (cur m) = Val i).
      { destruct rod; cbn; [eauto|]. cbn in Ez. apply N.eqb_neq in Ez. unfold checked_sub, cur.
        destruct (1 <=? st_current_index (rqm_status m)) eqn:E1; [cbn; eauto|]. apply N.leb_gt in E1. lia. }
      destruct Hi as [i Hi]. assert (Ht : target m rel rod i) by (by split).
      assert (Hexp : Forall (fun st => rst_session_index st = expected rel i /\ forall x, rst_destination_index st = Some x -> valid i x)
                (pq_get (rqm_post_queues m) rel)).
      { rewrite (managed_get m rel), Forall_app in Hdv. destruct Hdv as [Hdv _].
        destruct Hok as [H1 H2 H3 H4 H5 H6]. apply rsi_add_val in Hi. unfold cur in Hi. destruct rel as [[]|]; cbn in rod, Hi, Hdv |- *.
        - eapply Forall_impl; [apply Forall_and; exact (conj H2 Hdv)|]. intros st [[Hs _] Hv]. subst rod. rewrite Hi in Hs. split; [done|].
          intros x. by apply Hv.
        - eapply Forall_impl; [apply Forall_and; exact (conj H3 Hdv)|]. intros st [[(j & Hs & Hj) _] Hv]. subst rod.
          assert (j = i) as -> by lia. split; [done|]. intros x. by apply Hv.
        - eapply Forall_impl; [exact H1|]. intros st [-> ->]. by split. }
      assert (Hf : (queue_posts (pq_get (rqm_post_queues m) rel) < post_fuel (pq_get (rqm_post_queues m) rel))%nat)
        by (unfold post_fuel, queue_posts; lia).
      pose proof (loop_total (post_fuel (pq_get (rqm_post_queues m) rel)) rel rod i m w Ht Hexp Hf) as E.
      fold (cur m). rewrite Hi. destruct rel as [r|]; cbn in *; [|done]. subst rod. by rewrite Hi.
  Qed.
  Lemma process_good rel m w m' w' : good m -> process_post_queue l_post l_now handling_delay rel m w = Val (m', w') -> good m'.
  Proof.
    intros Hok E1. apply (process_queue_steps post now handling_delay valid Hpost) in E1 as [(l1 & _ & S1) _].
    by apply good_steps in S1.
  Qed.
  Lemma process_all_total m w : good m -> fine w.1 (process_post_queues l_post l_now handling_delay m w).
  Proof.
    intros Hok. unfold process_post_queues. apply fine_bind; [by apply process_total|]. intros m1 w1 E1.
    apply process_good in E1; [|done]. apply fine_bind; [by apply process_total|]. intros m2 w2 E2.
    apply process_good in E2; [|done]. by apply process_total.
  Qed.
  Lemma retry_total m st w :
    1 <= rmc_num_attempts_per_destination (rqm_config m) -> 1 <= rmc_num_posts_per_attempt (rqm_config m) ->
    rst_posts_remaining st = 0 ->
    (forall rel st' d', reborn m w.2 st (Some (rel, st')) d' -> good (push m rel st')) ->
    fine w.1 (rqm_retry l_post l_now l_fresh handling_delay m st w).
  Proof.
    intros HA HP Hp0 Hq. unfold rqm_retry. cbv zeta. rewrite Hp0. cbn [N.eqb assert_or_panic out_bind].
    assert (Hend : forall rel st1 w1, wsteps w.1 w1.1 -> good (push m rel st1) ->
      fine w.1 (if session_post_queues_empty m rel then
         '(m, w) ← process_post_queue l_post l_now handling_delay rel (push m rel st1) w1;
         match rel with
         | None => process_post_queue l_post l_now handling_delay
                     (Some (default_request_session (st_phase (rqm_status m)))) m w
         | Some _ => Val (m, w)
         end
       else Val (push m rel st1, w1))).
    { intros rel st1 w1 Hw Hok. destruct (session_post_queues_empty m rel); [|by apply fine_val].
      eapply fine_steps; [exact Hw|]. apply fine_bind; [by apply process_total|]. intros m1 w2 E1.
      apply process_good in E1; [|done]. destruct rel; [apply fine_val, WsNil|]. by apply process_total. }
    unfold checked_sub, sub_or_panic.
    rewrite (proj2 (N.leb_le 1 (rmc_num_attempts_per_destination (rqm_config m))) HA).
    rewrite (proj2 (N.leb_le 1 (rmc_num_posts_per_attempt (rqm_config m))) HP).
    destruct (1 <=? rst_attempts_remaining st) eqn:Ea.
    - apply N.leb_le in Ea.
      cbn [out_bind rst_session_index rst_request rst_destinations_remaining rst_attempts_remaining rst_posts_remaining
         rst_message_id rst_destination_index rst_retry_deadline].
      destruct (rst_session_index st) as [i|] eqn:Es.
      + destruct (rsi_from_session_index i (st_current_index (rqm_status m))) as [rel|] eqn:Er.
        * destruct (allow_requests_and_replies (st_phase (rqm_status m)) rel) eqn:El; cbn [negb].
          -- eapply Hend; [apply WsNil|]. eapply Hq. rewrite <-Es. eapply RbSame; eauto. lia.
          -- unfold new_destination, PReqMgr.l_fresh.
             cbn [fst snd rst_request rst_destinations_remaining rst_attempts_remaining rst_posts_remaining].
             eapply Hend; [apply WsFresh, WsNil|]. eapply Hq. eapply RbMoved; [lia|lia|exact Es|]. unfold cur. rewrite Er. by intros ? [= <-].
        * cbn [negb]. unfold new_destination, PReqMgr.l_fresh.
          cbn [fst snd rst_request rst_destinations_remaining rst_attempts_remaining rst_posts_remaining].
          eapply Hend; [apply WsFresh, WsNil|]. eapply Hq. eapply RbMoved; [lia|lia|exact Es|]. unfold cur. by rewrite Er.
      + eapply Hend; [apply WsNil|]. eapply Hq. rewrite <-Es. eapply RbNone; eauto. lia.
    - apply N.leb_gt in Ea. destruct (1 <=? rst_destinations_remaining st) eqn:Ed; [|cbn; apply fine_val, WsNil].
      apply N.leb_le in Ed. cbn [out_bind]. unfold new_destination, PReqMgr.l_fresh.
      cbn [out_bind fst snd rst_session_index rst_request rst_destinations_remaining rst_attempts_remaining rst_posts_remaining
         rst_message_id rst_destination_index rst_retry_deadline].
      eapply Hend; [apply WsFresh, WsNil|]. eapply Hq. eapply RbNew; lia.
  Qed.
  Lemma new_destinations_world (l : list state) past w : wsteps w.1 (new_destinations l_fresh l past w).2.1.
  Proof.
    revert w. induction l as [|st l IH]; intros w; cbn; [apply WsNil|]. specialize (IH (l_fresh w).2).
    unfold PReqMgr.l_fresh in *. cbn in *. destruct (new_destinations _ l past _) as [l' w']. cbn in *. by apply WsFresh.
  Qed.

  (** Every call terminates, and only a panic of [Mixnet::post_request] or of [estimate_rtt] makes it
      panic: no assertion of the manager fails. *)
  Theorem C47_panics cf h m d w c :
    rm_reach cf h m d ->
    1 <= rmc_num_attempts_per_destination cf -> 1 <= rmc_num_posts_per_attempt cf ->
    (forall r, c = RmInsert r -> rqm_has_space m = true) ->
    (exists m' w' d' a, exec m (w, d) c = Val (m', (w', d'), a) /\ wsteps w w') \/
    (exec m (w, d) c = Panic /\ trouble w).
  Proof.
    intros Hr HA HP Hc. pose proof (reach_good _ _ _ _ Hr) as Hok. destruct (C43_capacity _ _ _ _ Hr) as [Hcf _].
    rewrite <-Hcf in HA, HP.
    assert (Hfine : forall o a, fine w o -> (exists m' w' d' a', ('(m, w) ← o; Val (m, w, a)) = Val (m', (w', d'), a') /\ wsteps w w') \/
      (('(m, w) ← o; Val (m, w, a : rm_resp Req)) = Panic /\ trouble w)).
    { intros o a [(m' & [w' d'] & -> & H2)|[-> H2]]; [left; cbn; eauto 8|by right]. }
    destruct c as [status|r|id| | |]; cbn [rm_exec].
    - apply Hfine. unfold update_session_status. case_decide as Hs; [apply fine_val, WsNil|]. cbv zeta.
      set (q := shift_queues (rqm_post_queues m) (rqm_status m) status).
      destruct (new_destinations_spec fresh_id (drop (length (pq_default (rqm_post_queues m))) (pq_default q)) (rqm_created_at m) (w, d))
        as (ids & H1 & H2 & H3).
      pose proof (new_destinations_world (drop (length (pq_default (rqm_post_queues m))) (pq_default q)) (rqm_created_at m) (w, d)) as Hw.
      destruct (new_destinations _ _ _ _) as [moved w2]. cbn [fst snd] in H2, H3, Hw. subst moved.
      eapply fine_steps; [exact Hw|]. apply process_all_total.
      by apply (good_step m d LOther _ (d ++ ids) Hok (RsUpdate _ m d status ids Hs H1)).
    - apply Hfine. specialize (Hc r eq_refl). unfold rqm_insert. rewrite Hc. cbn [assert_or_panic out_bind].
      apply (retry_total m (initial m r) (w, d)); [done|done|done|].
      intros rel st' d' Hrb. exact (good_step m d _ _ _ Hok (RsInsert _ m d r _ _ Hc Hrb)).
    - destruct (rqm_remove m id). cbn. left. eexists _, _, _, _. split; [done|apply WsNil].
    - apply Hfine. exact (process_all_total m (w, d) Hok).
    - unfold pop_next_retry. destruct (rqm_retry_queue m) as [|st rest] eqn:Eq.
      { left. eexists _, _, _, _. split; [done|apply WsNil]. }
      pose proof (qk_retry _ (proj1 Hok)) as H6. rewrite Eq in H6. inversion H6 as [|? ? (Hp0 & _) _]; subst.
      pose proof (retry_total (rqm_set_retry m rest true) st (w, d) HA HP Hp0) as E.
      destruct E as [(m' & [w' d'] & -> & H2)|[-> H2]]; [|left; cbn; eauto 8|by right].
      intros rel st' d' Hrb. exact (good_step m d _ _ _ Hok (RsPop _ m d st rest _ _ Eq Hp0 Hrb)).
    - left. eexists _, _, _, _. split; [done|apply WsNil].
  Qed.
End requests.
