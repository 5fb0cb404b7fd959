(** Concrete cases for C75: the request of PEndEx, of two packets, is posted; node 8 then has three
    occasions to send a packet, of which the second goes to a loop cover packet; the other two are turns of
    the session, and send the two packets of the request. *)
From Verif Require Import PLeave PExample PEndEx PKeptEx.

Definition turn_b (m : mixnet) (rel : rel_session_index) (c : call) : bool :=
  match c with
  | CallPopAuthored _ r =>
      match pick_session m r with
      | Val (Some (rel', _), r1) =>
          bool_decide (rel' = rel) &&
          (match gen_bool (cf_loop_cover_proportion (mx_config m)) r1 with Val (false, _) => true | _ => false end &&
           bool_decide (phase_allows (st_phase (mx_status m)) rel))
      | _ => false
      end
  | _ => false
  end.
Lemma turn_b_spec m rel c : if turn_b m rel c then turn m rel c else ~ turn m rel c.
Proof.
  destruct c as [| | | | |ns r| | |]; cbn [turn_b turn]; try (by intros []).
  destruct (pick_session m r) as [[[[rel1 s]|] r1]|]; [|by intros [(? & ? & ? & ? & _) _]..].
  case_bool_decide as Hrel; cbn [andb]; [subst rel1|by intros [(? & ? & ? & [= ->] & _) _]].
  destruct (gen_bool (cf_loop_cover_proportion (mx_config m)) r1) as [[[] r2]|] eqn:Eg; cbn [andb].
  - intros [(s' & r1' & r2' & H1 & H2) _]. injection H1 as <- <-. congruence.
  - case_bool_decide; [|by intros [_ ?]]. split; [|done]. by exists s, r1, r2.
  - intros [(s' & r1' & r2' & H1 & H2) _]. injection H1 as <- <-. congruence.
Qed.
(** The turns of the current session of node [x], if the node is not told a new status. *)
Definition turns_at (x : bytes) (tr : list moment) : nat :=
  sum_list_with (fun mt => match call_at x (mt_event mt) with
                           | Some (c, _) => if turn_b (w_node (mt_before mt) x) RCurrent c then 1 else 0
                           | None => 0
                           end) tr.
Definition same_status (x : bytes) (tr : list moment) : bool :=
  forallb (fun mt => match call_at x (mt_event mt) with Some (CallSetStatus _, _) => false | _ => true end) tr.
Lemma turns_at_spec x w tr w2 :
  history toy_prims w tr w2 -> same_status x tr = true ->
  takes_turns toy_prims (w_node w x) RCurrent (calls_at x tr) (w_node w2 x) RCurrent (turns_at x tr).
Proof.
  induction 1 as [w|w e w1 tr w2 He _ IH]; [constructor|]. intros [Hs1 Hs]%andb_true_iff. specialize (IH Hs).
  destruct (happens_call _ _ _ _ He) as (y & c & a & m & Hc & Hex & En & Hev). cbn [mt_event] in Hs1.
  assert (Hat : call_at x e = if decide (y = x) then Some (c, a) else None).
  { destruct e as [x' c' a'|b p' now' msg]; [by destruct Hev as (-> & -> & -> & _)|by destruct Hev as (-> & -> & -> & _)]. }
  unfold calls_at, turns_at. cbn [omap list_omap sum_list_with mt_event mt_before]. rewrite Hat in Hs1 |- *.
  destruct (decide (y = x)) as [->|Hne].
  - rewrite En, with_node_same in IH. pose proof (turn_b_spec (w_node w x) RCurrent c) as Ht.
    destruct (turn_b (w_node w x) RCurrent c).
    + eapply TtTurn; [exact Hc|exact Hex|exact Ht|exact IH].
    + eapply TtOther; [exact Hc|exact Hex|exact Ht| |exact IH]. by destruct c.
  - by rewrite En, with_node_other in IH by congruence.
Qed.

Definition ex_low : rng := Rng (fun i => 0%N) 0.
Definition ex_times : list act :=
  [ex_pop 8; ADo (ex_peer 8) (CallPopAuthored (ex_ns 8) ex_low); ADeliver 0 5; ex_pop 8].
Lemma ex_times_ok : Forall act_ok ex_times.
Proof. repeat (constructor; [first [exact I|split; [exact I|first [exact I|apply replicate_length]]]|]); constructor. Qed.
Definition turns_check (w : world) : bool :=
  session_b w (ex_peer 8) own_session &&
  match next w (ADo (ex_peer 8) ex_ask) with
  | Some (Moment _ (EvCall _ _ (RespPost (Some d) (Ok _))) w1) =>
      (d =? 2)%N && ((length (queue_of w1 (ex_peer 8)) =? 2) &&
      match play_w w1 ex_times with
      | Some (tr, w2) =>
          (turns_at (ex_peer 8) tr =? 2) && (same_status (ex_peer 8) tr && (length (authored (calls_at (ex_peer 8) tr)) =? 3))
      | None => false
      end)
  | _ => false
  end.
Lemma turns_check_true : with_world turns_check = true.
Proof. by vm_compute. Qed.

Example C75_example :
  exists w mt w1 s tr w2 y trips surbs,
    world_ok toy_prims w /\
    happens toy_prims w (EvCall (ex_peer 8) ex_ask (RespPost (Some 2%N) (Ok mt))) w1 /\
    usable (w_node w (ex_peer 8)) 0 RCurrent s /\ honest toy_prims (se_topology s) ex_key /\
    request_sent toy_prims w (ex_peer 8) 0 ex_id ex_long 1 RCurrent (tp_mixnodes (se_topology s)) ex_key 2 w1 y trips surbs /\
    length trips = 2 /\ history toy_prims w1 tr w2 /\
    takes_turns toy_prims (w_node w1 (ex_peer 8)) RCurrent (calls_at (ex_peer 8) tr) (w_node w2 (ex_peer 8)) RCurrent 2 /\
    length (authored (calls_at (ex_peer 8) tr)) = 3 /\ length (aq_queue (se_authored s)) + length trips ≤ 2 /\
    forall trip g, trip ∈ trips -> head trip = Some g -> sends (ex_peer 8) tr (sg_to g).
Proof.
  destruct (with_world_spec _ turns_check_true) as (w & Hw & _ & H). unfold turns_check in H.
  apply andb_true_iff in H as [Hs H]. destruct (session_b_spec _ _ _ Hs) as (s & Hus & Hnodes & Hq & Hf). clear Hs.
  destruct (own_session_spec s Hf Hnodes) as [Hhon _].
  destruct (next w (ADo (ex_peer 8) ex_ask)) as [[w0 e w1]|] eqn:E; [|discriminate H].
  destruct (next_happens _ _ _ ex_ask_ok E) as [Hhap Hb]. cbn [mt_event mt_after mt_before] in Hhap, Hb. subst w0.
  cbn [next] in E. destruct (exec _ _ _) as [[m a]|]; [|discriminate E]. injection E as <- _.
  destruct a as [| | | | |[d|] [mt|]| |]; try discriminate H. apply andb_true_iff in H as [Hd H]. apply N.eqb_eq in Hd as ->.
  apply andb_true_iff in H as [Hl H]. apply Nat.eqb_eq in Hl.
  destruct (play_w w1 ex_times) as [[tr w2]|] eqn:Ep; [|discriminate H]. apply play_w_history in Ep; [|exact ex_times_ok].
  apply andb_true_iff in H as [Hn H]. apply andb_true_iff in H as [Hst Hau]. apply Nat.eqb_eq in Hn, Hau.
  pose proof (turns_at_spec _ _ _ _ Ep Hst) as Ht. rewrite Hn in Ht.
  destruct (C75_request toy_prims toy_prims_ok w (ex_peer 8) 0 (Some 2%N) ex_id ex_long 1 (ex_ns 8) ex_r 2 mt w1 RCurrent s ex_key
             Hw Hhap Hus Hhon) as (y & trips & surbs & Hsent & Hall).
  assert (Hl2 : length trips = 2).
  { pose proof Hsent as (_ & _ & _ & Hqd & _). apply (queued_now _ _ _ _ _ Hus Hq) in Hqd. apply (f_equal length) in Hqd.
    rewrite !map_length in Hqd. by rewrite Hqd. }
  assert (Hle : length (aq_queue (se_authored s)) + length trips ≤ 2) by (rewrite Hq, Hl2; done).
  exists w, mt, w1, s, tr, w2, y, trips, surbs.
  split; [exact Hw|]. split; [exact Hhap|]. split; [exact Hus|]. split; [exact Hhon|]. split; [exact Hsent|].
  split; [exact Hl2|]. split; [exact Ep|]. split; [exact Ht|]. split; [exact Hau|]. split; [exact Hle|].
  exact (Hall tr w2 RCurrent 2 Ep Ht Hle).
Qed.
