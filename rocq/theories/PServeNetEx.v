(** A concrete case for C66_returned: in the history of PEndEx, the request that node 24 returns is handed
    to a reply manager, which posts a reply to it. *)
From Verif Require Import MManagers PServe Toy PEnd PExample PEndEx.
Local Open Scope nat_scope.

(** The calls of a node in a history of a network. *)
Definition calls_at (y : bytes) (tr : list moment) : list (call * resp) :=
  omap (fun mt => match mt_event mt with
                  | EvCall x c a => if decide (x = y) then Some (c, a) else None
                  | EvHandle _ p now msg =>
                      if decide (ap_peer_id p = y) then Some (CallHandle (ap_packet p) now, RespMessage msg) else None
                  end) tr.
Lemma history_calls pr w tr w' cf hist y :
  history pr w tr w' -> reachable pr cf hist (PNet.w_node w y) -> reachable pr cf (hist ++ calls_at y tr) (PNet.w_node w' y).
Proof.
  intros Hh. revert hist. induction Hh as [w|w e w1 tr w2 He Hh IH]; intros hist Hr; [by rewrite app_nil_r|].
  destruct (happens_call _ _ _ _ He) as (x & c & a & m & Hc & Hex & En & Hev).
  assert (Ec : calls_at y (Moment w e w1 :: tr) = (if decide (x = y) then [(c, a)] else []) ++ calls_at y tr).
  { unfold calls_at. cbn [omap list_omap mt_event]. destruct e as [x' c' a'|b p now msg].
    - destruct Hev as (-> & -> & -> & _). by destruct (decide (x = y)).
    - destruct Hev as (-> & -> & -> & _). by destruct (decide (ap_peer_id p = y)). }
  rewrite Ec, app_assoc. apply IH. rewrite En. destruct (decide (x = y)) as [->|Hne].
  - rewrite with_node_same. by eapply reachable_snoc.
  - rewrite with_node_other by done. by rewrite app_nil_r.
Qed.
Lemma run_served pr m hist m' rm qs :
  run pr m hist m' ->
  served pr (Server m rm qs []) (map (fun x => ByApp x.1 x.2) hist) (Server m' rm (qs ++ mbind (fun x => request_in x.2) hist) []).
Proof.
  intros Hr. revert qs. induction Hr as [m|m c a m1 hist m2 Hc He Hr IH]; intros qs.
  - cbn. rewrite app_nil_r. constructor.
  - cbn [map]. rewrite bind_cons, app_assoc. eapply SeNode; [done|done|]. apply IH.
Qed.
Lemma arrivals_in ps tr p msg :
  (p, msg) ∈ arrivals ps tr -> p ∈ ps /\ exists b now w w', Moment w (EvHandle b p now msg) w' ∈ tr.
Proof.
  revert ps. induction tr as [|[w e w'] tr IH]; intros ps; cbn [arrivals]; [by intros ?%elem_of_nil|].
  unfold handled_of. cbn [mt_event]. destruct e as [x c a|b q now msg'].
  - intros (H & b & now & v & v' & Hin)%IH. split; [done|]. exists b, now, v, v'. by right.
  - destruct (decide (q ∈ ps)) as [Hq|Hq].
    + intros [[= -> ->]|H]%elem_of_cons.
      * split; [done|]. exists b, now, w, w'. left.
      * apply IH in H as (H & b' & now' & v & v' & Hin). split; [by apply elem_of_list_filter in H as [_ ?]|].
        exists b', now', v, v'. by right.
    + intros (H & b' & now' & v & v' & Hin)%IH. split; [done|]. exists b', now', v, v'. by right.
Qed.
Lemma trips_end pr nodes index key t trips p y :
  Forall (trip_to pr nodes index key t) trips -> p ∈ omap last_packet trips -> addr_of nodes t = Some y -> ap_peer_id p = y.
Proof.
  intros Ht Hp Hy. apply elem_of_list_omap in Hp as (trip & Htrip & Hl).
  rewrite Forall_forall in Ht. destruct (Ht _ Htrip) as (_ & _ & is & Hf).
  unfold last_packet in Hl. destruct (list.last trip) as [g|] eqn:Eg; [|done]. injection Hl as <-.
  apply last_Some in Eg as [l ->]. apply Forall2_app_inv_r in Hf as (l1 & l2 & Hf1 & Hf2 & E).
  inversion Hf2 as [|t' ? l3 ? [Ha _] Hf3]; subst. inversion Hf3; subst.
  apply app_inj_tail in E as [_ <-]. congruence.
Qed.

Definition net_cf : ym_config := YmConfig 5 1 10.
Definition net_world (m : mixnet) : MManagers.world :=
  MManagers.World m (ex_ns 24) (fun _ => Rng (fun _ => 7%N) 0) 0 (fun _ => 3%N) 0.

(** A request with a new id is handed out by a new manager; completing it posts the reply. *)
Lemma net_insert m q :
  call_replier toy_prims (ym_new net_cf) (net_world m) (YmInsert q) =
  Val (ReplyManager net_cf [(rq_id q, YPending)], (net_world m, []), Some (context_of q, rq_data q)).
Proof. destruct q. reflexivity. Qed.
Lemma net_complete m i id data surbs m' :
  exec toy_prims m (ex_answer surbs) = Val (m', RespReply [] (Ok tt)) -> i = 0%N ->
  exists rm' v', call_replier toy_prims (ReplyManager net_cf [(id, YPending)]) (net_world m)
      (YmComplete (context_of (RequestMessage i id data surbs)) [4; 5]%N) =
    Val (rm', (v', [YPost surbs 0 (replicate 16 7%N) [4; 5]%N [] true; YTime 3]), None).
Proof.
  intros He ->. unfold ex_answer in He. cbn [exec] in He. apply out_bind_Val in He as ([[m1 lft] res] & Ep & He).
  injection He as -> -> ->.
  eexists _, _. unfold ym_exec, ym_complete. cbn [ym_states lhm_get rc_message_id context_of rq_id].
  rewrite decide_True by done. unfold reply_new, y_fresh, w_fresh_id. cbn [fst snd].
  change (rng_fill MESSAGE_ID_SIZE (w_rng (net_world m) (w_rng_uses (net_world m)))) with (rng_fill MESSAGE_ID_SIZE (Rng (fun _ => 7%N) 0)).
  replace (rng_fill MESSAGE_ID_SIZE (Rng (fun _ => 7%N) 0)).1 with (replicate 16 7%N) by (vm_compute; reflexivity).
  cbn [ym_cfg ymc_max_posts net_cf]. cbn [post_reply_n]. unfold y_post at 1, w_post_reply at 1. cbn [fst snd context_of rc_surbs rc_session_index ry_message_id ry_data rq_surbs rq_session_index].
  change (sc_from_slice [4; 5]%N) with (Scattered 2 [4; 5]%N [] []). cbn [w_mixnet net_world].
  rewrite Ep. cbn. rewrite decide_True by done. reflexivity.
Qed.
Lemma served_trans pr s1 h1 s2 h2 s3 : served pr s1 h1 s2 -> served pr s2 h2 s3 -> served pr s1 (h1 ++ h2) s3.
Proof. induction 1; intros; cbn; [done|econstructor; eauto..]. Qed.

Example C66_returned_example :
  exists w mt w1 s trips surbs tr w2 cf hist0 h sv v rm' v' l,
    let q := RequestMessage 0 ex_id (sc_contents ex_long) surbs in
    (** the request, as in C66_returned *)
    world_ok toy_prims w /\
    happens toy_prims w (EvCall (ex_peer 8) ex_ask (RespPost (Some 2%N) (Ok mt))) w1 /\
    usable (PNet.w_node w (ex_peer 8)) 0 RCurrent s /\ honest toy_prims (se_topology s) ex_key /\
    tp_mixnodes (se_topology s) = ex_nodes /\
    addr_of ex_nodes (self (se_topology s) (ex_ns 8)) = Some (ex_peer 8) /\
    request_sent toy_prims w (ex_peer 8) 0 ex_id ex_long 1 RCurrent ex_nodes ex_key 2 w1 (ex_peer 24) trips surbs /\
    (** node 24, which has returned it, and the reply manager *)
    history toy_prims w1 tr w2 /\ world_ok toy_prims w2 /\
    h = (map (fun x => ByApp x.1 x.2) (hist0 ++ calls_at (ex_peer 24) tr) ++
         [ByReplier (YmInsert q) (Some (context_of q, rq_data q)) []])%list /\
    served_from_start toy_prims cf net_cf h sv /\
    permitted sv (YmComplete (context_of q) [4; 5]%N) /\ w_mixnet v = sr_node sv /\
    PNet.w_node w2 (ex_peer 24) = sr_node sv /\
    call_replier toy_prims (sr_replier sv) v (YmComplete (context_of q) [4; 5]%N) = Val (rm', (v', l), None) /\
    YPost surbs 0 (replicate 16 7%N) [4; 5]%N [] true ∈ l.
Proof.
  destruct C40_C41_example as (w & mt & w1 & s & trips & surbs & entries & tr & w2 & Hw & Hhap & Hus & Hhon & Hnodes & Hself &
    Hsent & _ & _ & Hconv & _ & _ & _ & s2 & w3 & tr' & w4 & rtrips & used & Hw2 & Hhap2 & _ & _ & _ & _ & _ & _ & _ & _ & _ & _ & Harr & _).
  assert (Hh : history toy_prims w1 tr w2) by apply Hconv.
  destruct (happens_ok toy_prims _ _ _ Hhap Hw (ex_peer 24)) as (cf & hist0 & Hr0).
  pose proof (history_calls _ _ _ _ _ _ _ Hh Hr0) as (Hcf & m0 & Hnew & Hrun).
  set (q := RequestMessage 0 ex_id (sc_contents ex_long) surbs).
  set (calls := (hist0 ++ calls_at (ex_peer 24) tr)%list).
  assert (Hq : q ∈ mbind (fun x : call * resp => request_in x.2) calls).
  { assert (Hin : Some (MRequest q) ∈ map snd (arrivals (omap last_packet trips) tr)) by (rewrite Harr; right; left).
    apply elem_of_list_fmap in Hin as ([p msg] & E & Hin). cbn in E. subst msg.
    apply arrivals_in in Hin as (Hp & b & now & v & v' & Hin).
    destruct Hsent as (Hy & _ & _ & _ & _ & Htr & _).
    pose proof (trips_end _ _ _ _ _ _ _ _ Htr Hp Hy) as Ep.
    apply elem_of_list_bind. exists (CallHandle (ap_packet p) now, RespMessage (Some (MRequest q))).
    split; [left|]. apply elem_of_app. right. apply elem_of_list_omap. eexists. split; [exact Hin|].
    cbn [mt_event]. by rewrite decide_True. }
  apply elem_of_Permutation in Hq as [qs' Hq].
  pose proof (happens_call _ _ _ _ Hhap2) as (x & c & a & m & _ & Hex & _ & <- & <- & <- & _).
  destruct (net_complete _ 0 ex_id (sc_contents ex_long) _ _ Hex eq_refl) as (rm' & v' & Hcomp).
  exists w, mt, w1, s, trips, surbs, tr, w2, cf, hist0. eexists.
  exists (Server (PNet.w_node w2 (ex_peer 24)) (ReplyManager net_cf [(ex_id, YPending)]) qs' [context_of q]),
    (net_world (PNet.w_node w2 (ex_peer 24))), rm', v'. eexists. cbv zeta.
  split_and!; try done.
  - split; [done|]. exists m0. split; [done|]. fold calls.
    eapply served_trans; [by apply run_served|].
    change (PNet.w_node w2 (ex_peer 24)) with (w_mixnet (net_world (PNet.w_node w2 (ex_peer 24)))) at 1.
    eapply SeInsert; [exact Hq|apply net_insert|]. constructor.
  - split; [left|vm_compute; discriminate].
  - left.
Qed.
Print Assumptions C66_returned_example.
