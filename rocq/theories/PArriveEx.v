(** Concrete cases for C76: the request of PEndEx, of two packets, and the reply to it; the moment each is
    accepted, nothing is in its way. *)
From Verif Require POnTime.
From Verif Require Import PArrive PExample PEndEx PKeptEx PLeaveEx PRateEx POnTimeEx.
Local Open Scope nat_scope.

Definition stage_b (request : bool) (trips : list (list stage)) (w : world) (i : nat) (trip : list stage) (j : nat) (g : stage) : bool :=
  let z := ap_peer_id (sg_to g) in let m := w_node w z in
  on_current m (fun s =>
    negb (bool_decide (PHandle.seen toy_prims (noting toy_prims s (at_peer z (noted_before request trips i trip j))) (ap_packet (sg_to g)))) &&
    (bool_decide (is_mixnode s) && (bool_decide (kp_secret (se_kx_pair s) = sg_key g) &&
     bool_decide (tp_mixnodes (se_topology s) = ex_nodes)))) &&
  (bool_decide (st_current_index (mx_status m) = 0%N) && (0 <? fq_capacity (mx_forward m))%N).
Definition way_b (request : bool) (trips : list (list stage)) (w : world) : bool :=
  forallb (fun i => match trips !! i with
    | Some trip => forallb (fun j => match trip !! j with Some g => stage_b request trips w i trip j g | None => true end)
                     (seq 0 (length trip))
    | None => true
    end) (seq 0 (length trips)).
Lemma way_b_spec request trips w : way_b request trips w = true -> way_clear toy_prims ex_nodes 0 request trips w.
Proof.
  unfold way_b. intros H i trip j g Hi Hj. cbv zeta.
  rewrite forallb_forall in H. specialize (H i). rewrite Hi in H. rewrite forallb_forall in H.
  specialize (fun A => H A j). rewrite Hj in H.
  assert (Hs : stage_b request trips w i trip j g = true).
  { apply H; apply in_seq; [apply lookup_lt_Some in Hi|apply lookup_lt_Some in Hj]; lia. }
  clear H. unfold stage_b, on_current in Hs. apply andb_true_iff in Hs as [H H']. apply andb_true_iff in H' as [H5 H6].
  destruct (ss_current (mx_sessions (w_node w (ap_peer_id (sg_to g))))) as [| | |s] eqn:Es; try discriminate H.
  apply andb_true_iff in H as [H1 H]. apply andb_true_iff in H as [H2 H]. apply andb_true_iff in H as [H3 H4].
  apply negb_true_iff, bool_decide_eq_false in H1. apply bool_decide_eq_true in H2, H3, H4, H5. apply N.ltb_lt in H6.
  exists RCurrent, s. split; [|split; [exact H1|split; [intros E; discriminate E|split; [intros _; by split|intros _; exact H2]]]].
  split; [exact Es|]. split; [symmetry; exact H5|]. split; [exact H3|exact H4].
Qed.

Definition room_b (m : mixnet) (id : bytes) (n : nat) : bool :=
  none_b (held_for id m) &&
  ((N.of_nat n <=? cf_max_fragments_per_message (mx_config m))%N &&
   ((1 <=? cf_max_incomplete_messages (mx_config m))%N && (N.of_nat (n - 1) <=? cf_max_incomplete_fragments (mx_config m))%N)).
Lemma room_b_spec m id n : room_b m id n = true -> room_for m id n.
Proof.
  unfold room_b. intros [H1 H]%andb_true_iff. apply andb_true_iff in H as [H2 H]. apply andb_true_iff in H as [H3 H4].
  apply N.leb_le in H2, H3, H4. split; [by destruct (held_for id m)|]. by split.
Qed.

(** The nodes of PEndEx run sane configurations. *)
Lemma start_sane k l h m : Forall call_ok l -> start k l = Some (h, m) -> sane (mx_config m).
Proof.
  intros Hl H. apply start_reachable in H; [|done].
  destruct (reachable_mx_ok _ toy_prims_ok _ _ _ H) as [_ Hm]. rewrite (mo_config _ _ _ Hm). apply ex_sane.
Qed.
Lemma with_world_sane f : with_world f = true -> exists w, world_ok toy_prims w /\ all_sane w /\ calm w /\ f w = true.
Proof.
  unfold with_world. intros H.
  destruct (start 8 ex_setup) as [[ha a]|] eqn:Ea; [|discriminate H].
  destruct (start 16 ex_setup) as [[hb b]|] eqn:Eb; [|discriminate H].
  destruct (start 24 ex_setup) as [[hc c]|] eqn:Ec; [|discriminate H].
  destruct (start 32 ex_setup) as [[hd d]|] eqn:Ed; [|discriminate H].
  destruct (start 40 ex_setup) as [[he e]|] eqn:Ee; [|discriminate H].
  apply andb_true_iff in H as [Hi H]. eexists. split; [|split; [|split; [|exact H]]].
  - intros x. cbn [w_node]. repeat case_decide; eexists _, _; eapply start_reachable; eauto using ex_setup_ok.
  - intros x. cbn [w_node]. repeat case_decide; eapply start_sane; eauto using ex_setup_ok.
  - intros x Hx. cbn [w_node].
    rewrite !decide_False; [by apply idle_spec|..]; intros ->; apply Hx; unfold ex_peers; cbn [map];
      repeat first [apply elem_of_list_here|apply elem_of_list_further].
Qed.
Lemma sane_happens w e w' : world_ok toy_prims w -> happens toy_prims w e w' -> all_sane w -> all_sane w'.
Proof. intros Hw H Hs z. rewrite (POnTime.happens_config toy_prims toy_prims_ok _ _ _ z Hw H). apply Hs. Qed.
Lemma sane_history w tr w' : world_ok toy_prims w -> history toy_prims w tr w' -> all_sane w -> all_sane w'.
Proof.
  intros Hw H. revert Hw. induction H as [w|w e w1 tr w2 He _ IH]; intros Hw Hs; [done|].
  apply IH; [by eapply happens_ok|by eapply sane_happens].
Qed.

(** All the computations; the trips are found by carrying the packets, as in PEndEx. *)
Definition arr_run (w : world) : bool :=
  session_b w (ex_peer 8) own_session &&
  (match entries_of w (ex_peer 8) with [] => true | _ => false end &&
  match next w (ADo (ex_peer 8) ex_ask) with
  | Some (Moment _ (EvCall _ _ (RespPost (Some d) (Ok _))) w1) =>
      (d =? 2)%N &&
      match play_w w1 ex_out with
      | Some (tr, w2) =>
          match check w1 tr w2 (ex_peer 8) (ex_peer 24) ex_id (queue_of w1 (ex_peer 8)) with
          | Some cs =>
              (length cs =? 2) && (way_b true cs w1 && (turn_b (w_node w1 (ex_peer 8)) RCurrent (CallPopAuthored (ex_ns 8) ex_big) &&
              (room_b (w_node w1 (ex_peer 24)) ex_id 2 &&
              (forallb (fun u => bool_decide (length u = 222)) (got cs tr) &&
              ((length (got cs tr) =? 1) && (session_b w2 (ex_peer 24) (fun _ => true) &&
              match next w2 (ADo (ex_peer 24) (ex_answer (got cs tr))) with
              | Some (Moment _ (EvCall _ _ (RespReply [] (Ok _))) w3) =>
                  match play_w w3 ex_back with
                  | Some (tr', w4) =>
                      match check w3 tr' w4 (ex_peer 24) (ex_peer 8) (replicate 16 7%N) (queue_of w3 (ex_peer 24)) with
                      | Some cs' => (length cs' =? 1) && (way_b false cs' w3 &&
                          (turn_b (w_node w3 (ex_peer 24)) RCurrent (CallPopAuthored (ex_ns 24) ex_big) &&
                          (room_b (w_node w3 (ex_peer 8)) (replicate 16 7%N) 1 &&
                           bool_decide (entries_of w3 (ex_peer 8) = entries_of w1 (ex_peer 8)))))
                      | None => false
                      end
                  | None => false
                  end
              | _ => false
              end))))))
          | None => false
          end
      | None => false
      end
  | _ => false
  end).
Lemma arr_run_true : with_world arr_run = true.
Proof. by vm_compute. Qed.

Lemma ex_pop_ok k : call_ok (CallPopAuthored (ex_ns k) ex_big).
Proof. apply replicate_length. Qed.

Example C76_example :
  exists w mt w1 s trips surbs entries,
    world_ok toy_prims w /\ exp1_ok (pr_exp1 toy_prims) /\
    happens toy_prims w (EvCall (ex_peer 8) ex_ask (RespPost (Some 2%N) (Ok mt))) w1 /\
    usable (w_node w (ex_peer 8)) 0 RCurrent s /\ honest toy_prims (se_topology s) ex_key /\
    tp_mixnodes (se_topology s) = ex_nodes /\
    addr_of ex_nodes (self (se_topology s) (ex_ns 8)) = Some (ex_peer 8) /\
    request_sent toy_prims w (ex_peer 8) 0 ex_id ex_long 1 RCurrent ex_nodes ex_key 2 w1 (ex_peer 24) trips surbs /\
    length trips = 2 /\ length surbs = 1 /\
    all_sane w1 /\ way_clear toy_prims ex_nodes 0 true trips w1 /\
    call_ok (CallPopAuthored (ex_ns 8) ex_big) /\
    turn (w_node w1 (ex_peer 8)) RCurrent (CallPopAuthored (ex_ns 8) ex_big) /\
    room_for (w_node w1 (ex_peer 24)) ex_id (length trips) /\
    can_arrive toy_prims w1 (ex_peer 24) (MRequest (RequestMessage 0 ex_id (sc_contents ex_long) surbs)) /\
    exists w2 s2 w3 rtrips used,
      world_ok toy_prims w2 /\
      happens toy_prims w2 (EvCall (ex_peer 24) (ex_answer surbs) (RespReply [] (Ok tt))) w3 /\
      usable (w_node w2 (ex_peer 24)) 0 RCurrent s2 /\ tp_mixnodes (se_topology s2) = ex_nodes /\
      reply_queued toy_prims 0 ex_id ex_nodes ex_key (self (se_topology s) (ex_ns 8)) (ex_peer 8) surbs entries w2 (ex_peer 24)
        surbs [] (replicate 16 7%N) (Scattered 2 [4; 5]%N [] []) RCurrent w3 rtrips used /\
      length rtrips = 1 /\
      all_sane w3 /\ way_clear toy_prims ex_nodes 0 false rtrips w3 /\
      call_ok (CallPopAuthored (ex_ns 24) ex_big) /\
      turn (w_node w3 (ex_peer 24)) RCurrent (CallPopAuthored (ex_ns 24) ex_big) /\
      room_for (w_node w3 (ex_peer 8)) (replicate 16 7%N) (length rtrips) /\
      NoDup (map (fun ue => fst (snd ue)) used) /\
      Forall (fun ue => sk_entry (mx_keystore (w_node w3 (ex_peer 8))) (fst (snd ue)) = Some (snd (snd ue))) used /\
      can_arrive toy_prims w3 (ex_peer 8) (MReply (ReplyMessage ex_id [4; 5]%N)).
Proof.
  pose proof toy_prims_ok as Hok. pose proof toy_exp1_ok as Hexp.
  destruct (with_world_sane _ arr_run_true) as (w & Hw & Hsane & Hcalm & H). unfold arr_run in H.
  apply andb_true_iff in H as [Hs H]. apply andb_true_iff in H as [He H].
  destruct (session_b_spec _ _ _ Hs) as (s & Hus & Hnodes & Hq & Hf). clear Hs.
  assert (Hself : self (se_topology s) (ex_ns 8) = TMixnodeIndex 0).
  { unfold own_session in Hf. apply andb_true_iff in Hf as [Hf _]. by apply bool_decide_eq_true in Hf. }
  destruct (own_session_spec s Hf Hnodes) as [Hhon Hsa]. clear Hf.
  assert (He' : entries_of w (ex_peer 8) = []) by (destruct (entries_of w (ex_peer 8)); [done|discriminate He]). clear He.
  destruct (next w (ADo (ex_peer 8) ex_ask)) as [[w0 e w1]|] eqn:E1; [|discriminate H].
  destruct (next_happens _ _ _ ex_ask_ok E1) as [Hhap Hw0]. cbn [mt_event mt_after mt_before] in Hhap, Hw0. subst w0.
  assert (Hev : exists a, e = EvCall (ex_peer 8) ex_ask a).
  { cbn [next] in E1. destruct (exec _ _ _) as [[m a]|]; [|discriminate E1]. injection E1 as <- _. by exists a. }
  destruct Hev as [a ->]. clear E1.
  destruct a as [| | | | |[d|] [mt|]| |]; try discriminate H. apply andb_true_iff in H as [Hd H]. apply N.eqb_eq in Hd. subst d.
  destruct (play_w w1 ex_out) as [[tr w2]|] eqn:E2; [|discriminate H].
  pose proof (play_w_history _ _ _ _ (proj1 ex_out_ok) E2) as Hh1. clear E2.
  destruct (check w1 tr w2 _ _ _ _) as [cs|] eqn:Ec1; [|discriminate H].
  apply andb_true_iff in H as [Hcs H]. apply andb_true_iff in H as [Hway H]. apply andb_true_iff in H as [Hturn H].
  apply andb_true_iff in H as [Hroom H].
  apply andb_true_iff in H as [Hlen H]. apply andb_true_iff in H as [Hgot H].
  apply andb_true_iff in H as [Hs2 H]. apply Nat.eqb_eq in Hcs, Hgot.
  destruct (session_b_spec _ _ _ Hs2) as (s2 & Hus2 & Hnodes2 & Hq2 & _). clear Hs2.
  assert (Hlen' : Forall (fun u => length u = 222) (got cs tr)).
  { apply Forall_forall. intros u Hu. rewrite forallb_forall in Hlen. apply elem_of_list_In in Hu.
    specialize (Hlen _ Hu). by apply bool_decide_eq_true in Hlen. }
  destruct (next w2 (ADo (ex_peer 24) (ex_answer (got cs tr)))) as [[w0 e w3]|] eqn:E3; [|discriminate H].
  destruct (next_happens _ _ _ (ex_answer_ok _ Hlen') E3) as [Hhap2 Hw0]. cbn [mt_event mt_after mt_before] in Hhap2, Hw0. subst w0.
  assert (Hev : exists a, e = EvCall (ex_peer 24) (ex_answer (got cs tr)) a).
  { cbn [next] in E3. destruct (exec _ _ _) as [[m a]|]; [|discriminate E3]. injection E3 as <- _. by exists a. }
  destruct Hev as [a ->]. clear E3.
  destruct a as [| | | | | |[|] [[]|]|]; try discriminate H.
  destruct (play_w w3 ex_back) as [[tr' w4]|] eqn:E4; [|discriminate H].
  pose proof (play_w_history _ _ _ _ (proj2 ex_out_ok) E4) as Hh2. clear E4.
  destruct (check w3 tr' w4 _ _ _ _) as [cs'|] eqn:Ec2; [|discriminate H].
  apply andb_true_iff in H as [Hcs' H]. apply andb_true_iff in H as [Hway3 H]. apply andb_true_iff in H as [Hturn3 H].
  apply andb_true_iff in H as [Hroom3 Hkept]. apply Nat.eqb_eq in Hcs'. apply bool_decide_eq_true in Hkept.
  pose proof (C76_request toy_prims Hok Hexp w (ex_peer 8) 0 (Some 2%N) ex_id ex_long 1 (ex_ns 8) ex_r 2 mt w1 RCurrent s ex_key
                Hw Hhap Hus Hhon) as HCa. cbv zeta in HCa. rewrite Hnodes in HCa.
  pose proof (C76_reply toy_prims Hok Hexp w (ex_peer 8) 0 (Some 2%N) ex_id ex_long 1 (ex_ns 8) ex_r 2 mt w1 RCurrent s ex_key
                Hw Hhap Hus Hhon) as HCb. cbv zeta in HCb. rewrite Hnodes in HCb.
  destruct (HCb Hsa) as (y & trips & surbs & entries & Hsent & Hks & Hle & Hreply). clear HCb.
  assert (y = ex_peer 24) as ->.
  { destruct Hsent as [Hy _]. unfold ex_nodes in Hy. cbn [addr_of map lookup list_lookup] in Hy.
    change (N.to_nat 2) with 2 in Hy. by injection Hy. }
  pose proof (after_calm _ _ _ _ Hcalm Hhap) as Hcalm1.
  pose proof Hsent as (Hy & _ & Hns & Hqd & _ & Htr & Hyields).
  destruct (check_spec w1 tr w2 (ex_peer 8) (ex_peer 24) ex_id (queue_of w1 (ex_peer 8)) cs 2 trips
              (ready_request toy_prims ex_nodes 0) Hh1 Hcalm1 Ec1 Hy (queued_now _ _ _ _ _ Hus Hq Hqd) Htr)
    as (Et & Hconv & Hmax & Hheld & Hund).
  { intros i trip g mt' _ _ _ [Hc _] _. exact Hc. }
  destruct (Hyields tr w2 Hconv Hmax Hheld Hund) as [_ Harr].
  assert (Hsurbs : got cs tr = surbs).
  { unfold got. rewrite <- Et, Harr, last_snoc. reflexivity. }
  rewrite Hsurbs in Hhap2, Hgot. rewrite <- Et in Hcs, Hway.
  apply way_b_spec in Hway, Hway3. apply room_b_spec in Hroom, Hroom3.
  pose proof (turn_b_spec (w_node w1 (ex_peer 8)) RCurrent (CallPopAuthored (ex_ns 8) ex_big)) as Ht1.
  rewrite Hturn in Ht1. clear Hturn.
  pose proof (turn_b_spec (w_node w3 (ex_peer 24)) RCurrent (CallPopAuthored (ex_ns 24) ex_big)) as Ht3.
  rewrite Hturn3 in Ht3. clear Hturn3.
  pose proof (sane_happens _ _ _ Hw Hhap Hsane) as Hsane1.
  pose proof (happens_ok toy_prims _ _ _ Hhap Hw) as Hw1.
  pose proof (history_ok toy_prims _ _ _ Hh1 Hw1) as Hw2.
  pose proof (sane_happens _ _ _ Hw2 Hhap2 (sane_history _ _ _ Hw1 Hh1 Hsane1)) as Hsane3.
  destruct (Hreply w2 (ex_peer 24) surbs [] (replicate 16 7%N) (Scattered 2 [4; 5]%N [] []) RCurrent s2 w3 Hw2 Hhap2 Hus2 Hnodes2)
    as (rtrips & used & Hrq & Hgo).
  { apply Forall_forall. auto. }
  pose proof Hrq as (Hused & Hin & Hlu & _ & Hqd2 & _ & Htr2 & _).
  assert (Hcalm3 : calm w3).
  { assert (Hcalm2 : calm w2).
    { eapply inside_calm; [exact Hh1| |exact Hcalm1]. unfold check in Ec1. destruct (mapM _ _); [|discriminate Ec1].
      destruct (inside tr); [reflexivity|discriminate Ec1]. }
    intros x Hx. destruct (happens_call _ _ _ _ Hhap2) as (z & c & a & m & _ & _ & En & <- & _).
    rewrite En, with_node_other; [by apply Hcalm2|]. intros ->. apply Hx. 
    do 2 apply elem_of_list_further. apply elem_of_list_here. }
  rewrite Hself in Htr2.
  pose proof (queued_now _ _ _ _ _ Hus2 Hq2 Hqd2) as Hfp.
  destruct (check_spec w3 tr' w4 (ex_peer 24) (ex_peer 8) (replicate 16 7%N) (queue_of w3 (ex_peer 24)) cs' 0 rtrips
              (fun _ _ _ => True) Hh2 Hcalm3 Ec2 (eq_refl _) Hfp Htr2)
    as (Et2 & _); [done|].
  rewrite <- Et2 in Hcs', Hway3.
  assert (Hnd : NoDup (map (fun ue => fst (snd ue)) used)).
  { assert (Hl1 : length used = 1) by (by rewrite Hlu, Hcs'). destruct used as [|? [|]]; [discriminate Hl1| |discriminate Hl1].
    cbn [map]. apply NoDup_singleton. }
  assert (Hks3 : Forall (fun ue => sk_entry (mx_keystore (w_node w3 (ex_peer 8))) (fst (snd ue)) = Some (snd (snd ue))) used).
  { destruct surbs as [|u [|]]; [discriminate Hgot| |discriminate Hgot].
    destruct entries as [|[uid v] [|]]; [discriminate Hle| |discriminate Hle].
    apply Forall_forall. intros ue Hue. specialize (Hin ue Hue). apply elem_of_list_singleton in Hin as ->. cbn [fst snd].
    unfold sk_entry. change (sk_surbs (mx_keystore (w_node w3 (ex_peer 8)))) with (entries_of w3 (ex_peer 8)). rewrite Hkept.
    assert (Hent : entries_of w1 (ex_peer 8) = [(uid, v)]).
    { unfold entries_of. rewrite Hks. cbn [ks_pushes foldl ks_push sk_surbs]. unfold entries_of in He'. rewrite He'. 
      unfold make_room. by case_match. }
    rewrite Hent. cbn. by rewrite decide_True. }
  assert (Hroom' : room_for (w_node w1 (ex_peer 24)) ex_id (length trips)) by (by rewrite Hcs).
  assert (Hroom3' : room_for (w_node w3 (ex_peer 8)) (replicate 16 7%N) (length rtrips)) by (by rewrite Hcs').
  assert (Hcan : can_arrive toy_prims w1 (ex_peer 24) (MRequest (RequestMessage 0 ex_id (sc_contents ex_long) surbs))).
  { destruct HCa as (y & trips0 & surbs0 & Hsent0 & HCa).
    assert (y = ex_peer 24) as ->.
    { destruct Hsent0 as [Hy0 _]. rewrite Hy in Hy0. by injection Hy0. }
    pose proof Hsent0 as (_ & _ & _ & Hqd0 & _ & Htr0 & Hyields0).
    destruct (check_spec w1 tr w2 (ex_peer 8) (ex_peer 24) ex_id (queue_of w1 (ex_peer 8)) cs 2 trips0
              (ready_request toy_prims ex_nodes 0) Hh1 Hcalm1 Ec1 Hy (queued_now _ _ _ _ _ Hus Hq Hqd0) Htr0)
      as (Et0 & Hconv0 & Hmax0 & Hheld0 & Hund0).
    { intros i trip g mt' _ _ _ [Hc _] _. exact Hc. }
    destruct (Hyields0 tr w2 Hconv0 Hmax0 Hheld0 Hund0) as [_ Harr0].
    assert (surbs0 = surbs) as ->.
    { rewrite <- Hsurbs. unfold got. rewrite <- Et0, Harr0, last_snoc. reflexivity. }
    assert (trips0 = trips) as -> by (by rewrite Et, Et0).
    exact (HCa (ex_ns 8) ex_big Hsane1 Hway (ex_pop_ok 8) Ht1 Hroom'). }
  exists w, mt, w1, s, trips, surbs, entries. do 12 (split; [assumption|]). split; [apply ex_pop_ok|]. do 3 (split; [assumption|]).
  exists w2, s2, w3, rtrips, used. do 8 (split; [assumption|]). split; [apply ex_pop_ok|]. do 4 (split; [assumption|]).
  exact (Hgo (ex_ns 24) ex_big Hsane3 Hway3 (ex_pop_ok 24) Ht3 Hroom3' Hnd Hks3).
Qed.

Print Assumptions C76_request.
Print Assumptions C76_reply.
