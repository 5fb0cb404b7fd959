(** Concrete cases for C71, and what shows when no cover packet can be made. *)
From Verif Require Import PHide Toy PExample.

Definition own_b (m : mixnet) (c : call) : bool :=
  match c with
  | CallPostRequest _ _ _ _ _ _ _ | CallPostReply _ _ _ _ => true
  | CallHandle p _ =>
      forallb (fun s => match content_of toy_prims s p with CtForward _ _ _ | CtRequest _ => false | _ => true end)
        (ss_iter (mx_sessions m))
  | _ => false
  end.
Lemma own_b_spec m c : own_b m c = true -> own toy_prims m c.
Proof.
  destruct c as [| | |p now| | | | |]; try done. cbn [own_b own]. intros H rel s Hr%reads_get.
  rewrite forallb_forall in H. assert (Hi : In s (ss_iter (mx_sessions m))).
  { apply elem_of_list_In. unfold ss_iter. apply elem_of_list_omap. exists (SlFull s). split; [|done].
    destruct rel; cbn in Hr; rewrite Hr; [left|right; left]. }
  specialize (H s Hi). by destruct (content_of toy_prims s p).
Qed.
Definition posts_b (c : call) : bool :=
  match c with CallPostRequest _ _ _ _ _ _ _ | CallPostReply _ _ _ _ => true | _ => false end.
(** Calls, with the private ones marked. *)
Fixpoint tell (m : mixnet) (l : list (call * bool)) : option (list moment * mixnet) :=
  match l with
  | [] => Some ([], m)
  | (c, b) :: l =>
      if (if b then own_b m c else negb (posts_b c)) then
        match exec toy_prims m c with
        | Val (m1, a) => match tell m1 l with Some (h, m2) => Some (Moment m c a b :: h, m2) | None => None end
        | Panic => None
        end
      else None
  end.
Lemma tell_history l : forall m h m',
  Forall (fun cb => call_ok cb.1) l -> tell m l = Some (h, m') -> history toy_prims m h m' /\ map mt_call (common h) = map fst (List.filter (fun cb => negb cb.2) l).
Proof.
  induction l as [|[c b] l IH]; intros m h m' Hc H; cbn [tell] in H.
  { injection H as <- <-. split; [constructor|done]. }
  apply Forall_cons in Hc as [Hc1 Hc]. destruct (if b then own_b m c else negb (posts_b c)) eqn:Eb; [|discriminate H].
  destruct (exec toy_prims m c) as [[m1 a]|] eqn:E; [|discriminate H].
  destruct (tell m1 l) as [[h' m2]|] eqn:E2; [|discriminate H]. injection H as <- <-.
  destruct (IH _ _ _ Hc E2) as [Hh Ec]. split.
  - econstructor; [exact Hc1|exact E| |exact Hh]. destruct b; [by apply own_b_spec|]. intros Hp. by destruct c.
  - unfold common in *. destruct b; cbn; [exact Ec|]. by rewrite Ec.
Qed.
Definition tell_from (k : N) (l : list (call * bool)) (f : list moment -> mixnet -> bool) : bool :=
  match mx_new toy_prims (ex_config k) with
  | Val m => match tell m l with Some (h, m') => f h m' | None => false end
  | Panic => false
  end.

(** Drop cover packets can be made in the only session. *)
Definition steady_b (m : mixnet) (ns : network_status) : bool :=
  cf_gen_cover_packets (mx_config m) &&
  forallb (fun s => match rg_new (se_topology s) ns with
    | Val g => negb (negb (tp_is_mixnode (rg_topology g)) && bool_decide (rg_connected g = [])) &&
        (negb (length (tp_mixnodes (se_topology s)) <=? 1) &&
         forallb (fun d => (route_hops g (RkToMixnode (N.of_nat d)) (cf_num_hops (mx_config m)) -
                            num_special g (RkToMixnode (N.of_nat d)) - 1) + num_used g (RkToMixnode (N.of_nat d))
                           <=? length (tp_mixnodes (rg_topology g))) (seq 0 (length (tp_mixnodes (se_topology s)))))
    | Panic => false
    end) (ss_iter (mx_sessions m)).
Lemma steady_b_spec m ns : steady_b m ns = true -> steady m ns.
Proof.
  unfold steady_b. intros [H1 H2]%andb_true_iff. split; [done|]. intros rel s Hs (g & Hg & Himp).
  rewrite forallb_forall in H2. assert (Hi : In s (ss_iter (mx_sessions m))).
  { apply elem_of_list_In. unfold ss_iter. apply elem_of_list_omap. exists (SlFull s). split; [|done].
    destruct rel; cbn in Hs; rewrite Hs; [left|right; left]. }
  specialize (H2 s Hi). rewrite Hg in H2. apply andb_true_iff in H2 as [H2 H3]. apply andb_true_iff in H3 as [H3 H4].
  destruct Himp as [[Hn Hc]|[Hl|(d & Hd & He)]].
  - rewrite Hn in H2. by rewrite bool_decide_true in H2.
  - apply negb_true_iff, Nat.leb_gt in H3. lia.
  - rewrite forallb_forall in H4. apply He. specialize (H4 (N.to_nat d)). rewrite N2Nat.id in H4.
    apply Nat.leb_le, H4, in_seq. unfold valid_index in Hd. lia.
Qed.

Local Instance reply_message_eq : EqDecision reply_message.
Proof. solve_decision. Defined.
Local Instance request_message_eq : EqDecision request_message.
Proof. solve_decision. Defined.
Local Instance message_eq : EqDecision message.
Proof. solve_decision. Defined.

(** Node 8 posts a request and gets the reply; or it does neither. *)
Definition pop_8 : call := CallPopAuthored (ex_ns 8) ex_drop.
Definition hide_busy : list (call * bool) :=
  map (fun c => (c, false)) ex_setup ++
  [(ex_post 8 (Some 2%N), true); (pop_8, false); (CallHandle ex_q3 9%N, true); (pop_8, false); (CallTakeEvents, false)].
Definition hide_idle : list (call * bool) :=
  map (fun c => (c, false)) ex_setup ++ [(pop_8, false); (pop_8, false); (CallTakeEvents, false)].
Definition sent (h : list moment) : list (option bytes) :=
  omap (fun x => match mt_resp x with RespPacket p => Some (ap_packet <$> p) | _ => None end) h.
Definition told (h : list moment) : list message :=
  omap (fun x => match mt_resp x with RespMessage p => p | _ => None end) h.
Definition steady_pops (h : list moment) : bool :=
  forallb (fun x => match mt_call x with CallPopAuthored ns _ => steady_b (mt_state x) ns | _ => true end) h.
Definition all_some (l : list (option bytes)) : bool := forallb (fun p => match p with Some _ => true | None => false end) l.
Lemma all_some_spec l : all_some l = true -> Forall is_Some l.
Proof.
  unfold all_some. rewrite forallb_forall. intros H. apply Forall_forall. intros x Hx%elem_of_list_In.
  specialize (H x Hx). by destruct x.
Qed.
Definition hide_check (m : mixnet) : bool :=
  match tell m hide_busy, tell m hide_idle with
  | Some (h1, m1), Some (h2, m2) =>
      steady_pops h1 && (all_some (sent h1) && (all_some (sent h2) && ((length (sent h1) =? 2)%nat &&
      (bool_decide (told h1 = [MReply (ReplyMessage ex_id [4; 5]%N)]) && (bool_decide (told h2 = []) &&
       negb (bool_decide (sent h1 = sent h2)))))))
  | _, _ => false
  end.
Definition hide_start (f : mixnet -> bool) (k : N) : bool :=
  match mx_new toy_prims (ex_config k) with Val m => f m | Panic => false end.
Lemma hide_check_true : hide_start hide_check 8 = true.
Proof. by vm_compute. Qed.
Lemma setup_marked_ok l : Forall call_ok l -> Forall (fun cb : call * bool => call_ok cb.1) (map (fun c => (c, false)) l).
Proof. intros H. by apply Forall_map. Qed.
Lemma hide_busy_ok : Forall (fun cb : call * bool => call_ok cb.1) hide_busy.
Proof.
  apply Forall_app. split; [apply setup_marked_ok, ex_setup_ok|]. constructor; [by apply (ex_post_ok 8 2)|].
  constructor; [apply replicate_length|]. constructor; [exact ex_q3_length|].
  constructor; [apply replicate_length|]. by constructor.
Qed.
Lemma hide_idle_ok : Forall (fun cb : call * bool => call_ok cb.1) hide_idle.
Proof.
  apply Forall_app. split; [apply setup_marked_ok, ex_setup_ok|]. constructor; [apply replicate_length|].
  constructor; [apply replicate_length|]. by constructor.
Qed.
Lemma steady_pops_spec h x ns r :
  steady_pops h = true -> x ∈ h -> mt_call x = CallPopAuthored ns r -> steady (mt_state x) ns.
Proof.
  unfold steady_pops. rewrite forallb_forall. intros H Hx%elem_of_list_In E. specialize (H x Hx). rewrite E in H.
  by apply steady_b_spec.
Qed.

(** Two histories of the same node as C71_unobservable asks, with other packets sent, other messages
    got by the application, and all calls for the next packet in a state in which cover is possible.
    Each of these calls sends a packet in both. *)
Example C71_example :
  exists m l1 m1 l2 m2,
    config_ok (ex_config 8) /\ mx_new toy_prims (ex_config 8) = Val m /\
    history toy_prims m l1 m1 /\ history toy_prims m l2 m2 /\ map mt_call (common l1) = map mt_call (common l2) /\
    told l1 = [MReply (ReplyMessage ex_id [4; 5]%N)] /\ told l2 = [] /\ sent l1 <> sent l2 /\ length (sent l1) = 2 /\
    Forall is_Some (sent l1) /\ Forall is_Some (sent l2) /\
    (forall x ns r, x ∈ l1 -> mt_call x = CallPopAuthored ns r -> steady (mt_state x) ns) /\
    Forall2 looks_same (common l1) (common l2) /\ same_view m1 m2.
Proof.
  pose proof hide_check_true as H. unfold hide_start in H.
  destruct (mx_new toy_prims (ex_config 8)) as [m|] eqn:Em; [|discriminate H]. unfold hide_check in H.
  destruct (tell m hide_busy) as [[l1 m1]|] eqn:E1; [|discriminate H].
  destruct (tell m hide_idle) as [[l2 m2]|] eqn:E2; [|discriminate H].
  destruct (tell_history _ _ _ _ hide_busy_ok E1) as [H1 C1]. destruct (tell_history _ _ _ _ hide_idle_ok E2) as [H2 C2].
  clear E1 E2.
  repeat (let H' := fresh "Hc" in apply andb_true_iff in H as [H' H]).
  exists m, l1, m1, l2, m2.
  assert (Ec : map mt_call (common l1) = map mt_call (common l2)) by (rewrite C1, C2; reflexivity).
  destruct (C71_unobservable toy_prims toy_prims_ok (ex_config 8) m l1 m1 l2 m2 (ex_config_ok 8) Em H1 H2 Ec) as [Hl Hv].
  split; [apply ex_config_ok|]. split; [first [reflexivity|exact Em]|]. split; [exact H1|]. split; [exact H2|]. split; [exact Ec|].
  split; [by apply bool_decide_eq_true in Hc3|]. split; [by apply bool_decide_eq_true in Hc4|].
  split; [by apply negb_true_iff, bool_decide_eq_false in H|]. split; [by apply Nat.eqb_eq|].
  split; [by apply all_some_spec|]. split; [by apply all_some_spec|].
  split; [intros x ns r Hx Hcall; exact (steady_pops_spec l1 x ns r Hc Hx Hcall)|]. split; [exact Hl|exact Hv].
Qed.

(** Without [steady] it is false that a packet is sent in both or in neither: a node that is not a
    mixnode, has a request queued and then loses its gateways sends the request, and would have sent
    nothing had it not posted. *)
Definition ns_off (k : N) : network_status := NetworkStatus (ex_peer k) (fun _ => false).
Definition lone_idle : list (call * bool) :=
  map (fun c => (c, false)) ex_setup ++ [(CallPopAuthored (ns_off 40) ex_drop, false)].
Definition lone_busy : list (call * bool) :=
  map (fun c => (c, false)) ex_setup ++ [(ex_post 40 (Some 2%N), true); (CallPopAuthored (ns_off 40) ex_drop, false)].
Definition lone_check (m : mixnet) : bool :=
  match tell m lone_busy, tell m lone_idle with
  | Some (h1, m1), Some (h2, m2) =>
      all_some (sent h1) && ((length (sent h1) =? 1)%nat && (bool_decide (sent h2 = [None]) &&
       cf_gen_cover_packets (mx_config m)))
  | _, _ => false
  end.
Lemma lone_check_true : hide_start lone_check 40 = true.
Proof. by vm_compute. Qed.
Lemma lone_busy_ok : Forall (fun cb : call * bool => call_ok cb.1) lone_busy.
Proof.
  apply Forall_app. split; [apply setup_marked_ok, ex_setup_ok|]. constructor; [by apply (ex_post_ok 40 2)|].
  constructor; [apply replicate_length|]. by constructor.
Qed.
Lemma lone_idle_ok : Forall (fun cb : call * bool => call_ok cb.1) lone_idle.
Proof.
  apply Forall_app. split; [apply setup_marked_ok, ex_setup_ok|]. constructor; [apply replicate_length|]. by constructor.
Qed.
Theorem C71_without_cover_refuted :
  exists cf m l1 m1 l2 m2 p,
    config_ok cf /\ cf_gen_cover_packets cf = true /\ mx_new toy_prims cf = Val m /\
    history toy_prims m l1 m1 /\ history toy_prims m l2 m2 /\ map mt_call (common l1) = map mt_call (common l2) /\
    sent l1 = [Some p] /\ sent l2 = [None].
Proof.
  pose proof lone_check_true as H. unfold hide_start in H.
  destruct (mx_new toy_prims (ex_config 40)) as [m|] eqn:Em; [|discriminate H]. unfold lone_check in H.
  destruct (tell m lone_busy) as [[l1 m1]|] eqn:E1; [|discriminate H].
  destruct (tell m lone_idle) as [[l2 m2]|] eqn:E2; [|discriminate H].
  destruct (tell_history _ _ _ _ lone_busy_ok E1) as [H1 C1]. destruct (tell_history _ _ _ _ lone_idle_ok E2) as [H2 C2].
  clear E1 E2. apply andb_true_iff in H as [Ha H]. apply andb_true_iff in H as [Hb H]. apply andb_true_iff in H as [Hc _].
  apply all_some_spec in Ha. apply Nat.eqb_eq in Hb. apply bool_decide_eq_true in Hc.
  destruct (sent l1) as [|[p|] [|]] eqn:Es; try discriminate Hb; [|by apply Forall_inv in Ha as [? ?]].
  exists (ex_config 40), m, l1, m1, l2, m2, p.
  split; [apply ex_config_ok|]. split; [reflexivity|]. split; [exact Em|]. split; [exact H1|]. split; [exact H2|].
  split; [rewrite C1, C2; reflexivity|]. split; [exact Es|exact Hc].
Qed.
