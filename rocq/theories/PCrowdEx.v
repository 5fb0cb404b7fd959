(** A concrete case of C78_request and one of C78_reply: node 8 posts two requests to node 24, each of
    two packets, and at node 24 those of the one arrive between and after those of the other; and how a
    message is lost when there is one message more than the limits have room for. *)
From Verif Require Import PCrowd PEndEx PExample.

(** ** Checking what C78 asks of a history *)
Definition new_at_b (ps : list addressed_packet) (t1 : list moment) (mt : moment) : bool :=
  existsb (fun p => bool_decide (handles mt p) && forallb (fun mt' => negb (bool_decide (handles mt' p))) t1) ps.
Lemma new_at_b_spec ps t1 mt : new_at_b ps t1 mt = true -> new_at ps t1 mt.
Proof.
  unfold new_at_b. intros (p & Hin & H)%existsb_exists. apply elem_of_list_In in Hin.
  apply andb_true_iff in H as [H1 H2]. apply bool_decide_eq_true in H1. exists p. split; [done|]. split; [done|].
  intros mt' Hmt. rewrite forallb_forall in H2. apply elem_of_list_In in Hmt. specialize (H2 _ Hmt).
  by apply negb_true_iff, bool_decide_eq_false in H2.
Qed.
(** What node [y] may take out of the packet satisfies [ok]. *)
Definition ok_of (ok : bytes -> bool) (m : mixnet) (p : bytes) (s : session) : bool :=
  match content_of toy_prims s p with
  | CtRequest f => ok f
  | CtReply id pl =>
      match sk_entry (mx_keystore m) id with
      | Some v => match decrypt_reply_payload toy_prims pl (sv_keys v) with
                  | (plain, Ok _) => ok (take (N.to_nat 2048) plain)
                  | _ => true
                  end
      | None => true
      end
  | _ => true
  end.
Definition given_b (y : bytes) (ok : bytes -> bool) (mt : moment) : bool :=
  match mt_event mt with
  | EvHandle _ p _ _ =>
      if decide (ap_peer_id p = y) then
        match ss_prev (mx_sessions (w_node (mt_before mt) y)) with
        | SlFull _ => false
        | _ => on_current (w_node (mt_before mt) y) (ok_of ok (w_node (mt_before mt) y) (ap_packet p))
        end
      else true
  | _ => true
  end.
Lemma given_b_spec y ok mt f : given_b y ok mt = true -> gives toy_prims y mt f -> ok f = true.
Proof.
  intros H (b & p & now & msg & Ee & Ep & Hy). unfold given_b in H. rewrite Ee, decide_True in H by done.
  assert (Hnp : forall s, ss_prev (mx_sessions (w_node (mt_before mt) y)) <> SlFull s).
  { intros s E. rewrite E in H. discriminate H. }
  assert (Hc : on_current (w_node (mt_before mt) y) (ok_of ok (w_node (mt_before mt) y) (ap_packet p)) = true).
  { destruct (ss_prev _); done. }
  clear H. assert (Hcur : forall rel s, reads toy_prims (mx_sessions (w_node (mt_before mt) y)) (ap_packet p) rel s ->
                     ss_current (mx_sessions (w_node (mt_before mt) y)) = SlFull s).
  { intros rel s Hr. destruct Hr as [s Hs _ _|s Hs]; [exact Hs|]. by destruct (Hnp s). }
  unfold on_current in Hc. destruct Hy as [rel s Hr Hct _|rel s id pl v plain Hr Hct Hsk Hd ->];
    rewrite (Hcur _ _ Hr) in Hc; unfold ok_of in Hc; rewrite Hct in Hc; [exact Hc|].
  rewrite Hsk, Hd in Hc. exact Hc.
Qed.
(** Fragments of [id] come with the packets [ps] only, and others are of the messages [others]. *)
Fixpoint crowd_b (id y : bytes) (others : list bytes) (ps : list addressed_packet) (t1 tr : list moment) : bool :=
  match tr with
  | [] => true
  | mt :: tr =>
      given_b y (fun f => bool_decide (sp_id f <> id /\ sp_id f ∈ others) || new_at_b ps t1 mt) mt &&
      crowd_b id y others ps (t1 ++ [mt]) tr
  end.
Lemma crowd_b_at id y others ps tr : forall t0, crowd_b id y others ps t0 tr = true ->
  forall t1 mt t2 f, tr = t1 ++ mt :: t2 -> gives toy_prims y mt f ->
    (sp_id f <> id /\ sp_id f ∈ others) \/ new_at ps (t0 ++ t1) mt.
Proof.
  induction tr as [|mt0 tr IH]; intros t0 H t1 mt t2 f E Hg; [by destruct t1|].
  cbn [crowd_b] in H. apply andb_true_iff in H as [H1 H2]. destruct t1 as [|mt1 t1]; cbn in E; injection E as -> ->.
  - rewrite app_nil_r. pose proof (given_b_spec _ _ _ _ H1 Hg) as H. apply orb_true_iff in H as [H|H].
    + left. by apply bool_decide_eq_true in H.
    + right. by apply new_at_b_spec.
  - destruct (IH _ H2 _ _ _ _ eq_refl Hg) as [?|Hn]; [by left|]. right. by rewrite <- app_assoc in Hn.
Qed.
Lemma crowd_b_spec id y others ps tr :
  crowd_b id y others ps [] tr = true ->
  own_only toy_prims id y ps tr /\ few_between toy_prims (length others) y ps tr.
Proof.
  intros H. pose proof (crowd_b_at _ _ _ _ _ _ H) as Hat. split.
  - intros t1 mt t2 f E Hg Hid. destruct (Hat _ _ _ _ E Hg) as [[? _]|?]; done.
  - intros t1 a mid b t2 E _ _ Hno. exists others. split; [done|]. intros mt f Hin Hg.
    apply elem_of_list_split in Hin as (m1 & m2 & ->).
    assert (E' : tr = (t1 ++ a :: m1) ++ mt :: (m2 ++ b :: t2)) by (rewrite E, <- !app_assoc; done).
    destruct (Hat _ _ _ _ E' Hg) as [[_ ?]|Hn]; [done|]. exfalso. by apply (Hno m1 mt m2).
Qed.

Global Instance limits_fit_dec cf c : Decision (limits_fit cf c).
Proof. unfold limits_fit. apply _. Defined.

(** ** Two requests at once *)
Definition ex_r2 : rng := Rng (fun i => (N.of_nat i * 11 + 5) mod 256)%N 0.
Definition ex_id2 : bytes := replicate 16 6%N.
Definition ex_ask2 : call := CallPostRequest 0 (Some 2%N) ex_id2 ex_long 0 (ex_ns 8) ex_r2.
Definition ex_mixed : list act :=
  [ADo (ex_peer 8) ex_ask2; ex_pop 8; ex_pop 8; ex_pop 8; ex_pop 8;
   ADeliver 0 5; ex_fwd 32; ADeliver 3 6; ex_fwd 16; ADeliver 3 7;
   ADeliver 1 8; ex_fwd 32; ADeliver 2 9; ex_fwd 16; ADeliver 2 10;
   ADeliver 0 11; ex_fwd 32; ADeliver 1 12; ex_fwd 16; ADeliver 1 13;
   ADeliver 0 14; ex_fwd 32; ADeliver 0 15; ex_fwd 16; ADeliver 0 16].
Lemma ex_mixed_ok : Forall act_ok ex_mixed.
Proof.
  constructor.
  { split; [exact I|]. split; [|split; [apply replicate_length|intros d [= <-]; lia]].
    split; [apply replicate_length|]. split; [by vm_compute|]. split; by vm_compute. }
  repeat (constructor; [first [exact I|split; [exact I|first [exact I|apply replicate_length]]]|]); constructor.
Qed.
(** What node 24 returns, in the order of the packets it handles. *)
Definition returned_at (y : bytes) (tr : list moment) : list (option bytes) :=
  omap (fun mt => match mt_event mt with
                  | EvHandle _ p _ msg => if decide (ap_peer_id p = y) then
                      Some (match msg with Some (MRequest rq) => Some (rq_id rq) | _ => None end) else None
                  | _ => None end) tr.
Definition ex_run2 (w : world) : bool :=
  session_b w (ex_peer 8) (fun s => bool_decide (self (se_topology s) (ex_ns 8) = TMixnodeIndex 0) &&
    bool_decide (tp_local_kx_public (se_topology s) = derive_kx_public toy_prims (ex_secret 8))) &&
  match next w (ADo (ex_peer 8) ex_ask) with
  | Some (Moment _ (EvCall _ _ (RespPost (Some d) (Ok _))) w1) =>
      (d =? 2)%N &&
      match play_w w1 ex_mixed with
      | Some (tr, w2) =>
          match check w1 tr w2 (ex_peer 8) (ex_peer 24) ex_id (queue_of w1 (ex_peer 8)) with
          | Some cs =>
              (length cs =? 2) && (crowd_b ex_id (ex_peer 24) [ex_id2] (omap last_packet cs) [] tr &&
              (bool_decide (limits_fit (mx_config (w_node w1 (ex_peer 24))) 1) && bool_decide (returned_at (ex_peer 24) tr = [None; None; Some ex_id; Some ex_id2])))
          | None => false
          end
      | None => false
      end
  | _ => false
  end.
Lemma ex_run2_true : with_world ex_run2 = true.
Proof. by vm_compute. Qed.

(** The hypotheses of C78_request hold, and those of [yields_among]: two packets and one other message in between. *)
Example C78_request_example :
  exists w mt w1 s trips surbs tr w2,
    world_ok toy_prims w /\
    happens toy_prims w (EvCall (ex_peer 8) ex_ask (RespPost (Some 2%N) (Ok mt))) w1 /\
    usable (w_node w (ex_peer 8)) 0 RCurrent s /\ honest toy_prims (se_topology s) ex_key /\
    tp_mixnodes (se_topology s) = ex_nodes /\
    request_sent toy_prims w (ex_peer 8) 0 ex_id ex_long 1 RCurrent ex_nodes ex_key 2 w1 (ex_peer 24) trips surbs /\
    length trips = 2 /\
    conveyed toy_prims ex_nodes 0 (ready_request toy_prims ex_nodes 0) trips (ex_peer 8) w1 tr w2 /\
    (N.of_nat (length trips) <= cf_max_fragments_per_message (mx_config (w_node w1 (ex_peer 24))))%N /\
    held_for ex_id (w_node w1 (ex_peer 24)) = None /\
    limits_fit (mx_config (w_node w1 (ex_peer 24))) 1 /\
    own_only toy_prims ex_id (ex_peer 24) (omap last_packet trips) tr /\
    few_between toy_prims 1 (ex_peer 24) (omap last_packet trips) tr /\
    (* the other message is there: the four packets that arrive complete nothing, nothing, this one and
       the other *)
    returned_at (ex_peer 24) tr = [None; None; Some ex_id; Some ex_id2] /\
    map snd (arrivals (omap last_packet trips) tr) =
      [None; Some (MRequest (RequestMessage 0 ex_id (sc_contents ex_long) surbs))].
Proof.
  pose proof toy_prims_ok as Hok.
  destruct (with_world_spec _ ex_run2_true) as (w & Hw & Hcalm & H). unfold ex_run2 in H.
  apply andb_true_iff in H as [Hs H].
  destruct (session_b_spec _ _ _ Hs) as (s & Hus & Hnodes & Hq & Hf). clear Hs.
  apply andb_true_iff in Hf as [Hself Hloc]. apply bool_decide_eq_true in Hself, Hloc.
  destruct (next w (ADo (ex_peer 8) ex_ask)) as [[w0 e w1]|] eqn:E1; [|discriminate H].
  destruct (next_happens _ _ _ ex_ask_ok E1) as [Hhap Hw0]. cbn [mt_event mt_after mt_before] in Hhap, Hw0. subst w0.
  assert (Hev : exists a, e = EvCall (ex_peer 8) ex_ask a).
  { cbn [next] in E1. destruct (exec _ _ _) as [[m a]|]; [|discriminate E1]. injection E1 as <- _. by exists a. }
  destruct Hev as [a ->]. clear E1.
  destruct a as [| | | | |[d|] [mt|]| |]; try discriminate H. apply andb_true_iff in H as [Hd H]. apply N.eqb_eq in Hd. subst d.
  destruct (play_w w1 ex_mixed) as [[tr w2]|] eqn:E2; [|discriminate H].
  pose proof (play_w_history _ _ _ _ ex_mixed_ok E2) as Hh1. clear E2.
  destruct (check w1 tr w2 _ _ _ _) as [cs|] eqn:Ec1; [|discriminate H].
  apply andb_true_iff in H as [Hcs H]. apply andb_true_iff in H as [Hcr H]. apply andb_true_iff in H as [Hfit Hret].
  apply Nat.eqb_eq in Hcs. apply bool_decide_eq_true in Hret, Hfit.
  assert (Hhon : honest toy_prims (se_topology s) ex_key).
  { split; [|intros p; exact Hloc]. rewrite Hnodes. intros i mn Hi. cbn [ex_key].
    revert Hi. destruct (N.to_nat i) as [|[|[|[|n]]]]; unfold ex_nodes; cbn [map lookup list_lookup]; intros [= <-]; reflexivity. }
  pose proof (C78_request toy_prims Hok w (ex_peer 8) 0 (Some 2%N) ex_id ex_long 1 (ex_ns 8) ex_r 2 mt w1 RCurrent s ex_key
                Hw Hhap Hus Hhon) as HC. cbv zeta in HC. rewrite Hnodes in HC.
  destruct HC as (y & trips & surbs & Hsent & Hyields).
  assert (y = ex_peer 24) as ->.
  { destruct Hsent as [Hy _]. unfold ex_nodes in Hy. cbn [addr_of map lookup list_lookup] in Hy.
    change (N.to_nat 2) with 2 in Hy. by injection Hy. }
  assert (Hcalm1 : calm w1).
  { intros x Hx. destruct (happens_call _ _ _ _ Hhap) as (z & c & a & m & _ & _ & En & <- & _).
    rewrite En, with_node_other; [by apply Hcalm|]. intros ->. apply Hx. apply elem_of_list_here. }
  pose proof Hsent as (Hy & _ & _ & Hqd & _ & Htr & _).
  destruct (check_spec w1 tr w2 (ex_peer 8) (ex_peer 24) ex_id (queue_of w1 (ex_peer 8)) cs 2 trips
              (ready_request toy_prims ex_nodes 0) Hh1 Hcalm1 Ec1 Hy (queued_now _ _ _ _ _ Hus Hq Hqd) Htr)
    as (Et & Hconv & Hmax & Hheld & _).
  { intros i trip g mt' _ _ _ [Hc _] _. exact Hc. }
  destruct (crowd_b_spec _ _ _ _ _ Hcr) as [Hown Hfew]. cbn [length] in Hfew. rewrite <- Et in Hcs, Hown, Hfew.
  destruct (Hyields 1 tr w2 Hconv Hmax Hheld Hfit Hown Hfew) as [_ Harr].
  exists w, mt, w1, s, trips, surbs, tr, w2. do 14 (split; [assumption|]).
  rewrite Harr, Hcs. reflexivity.
Qed.

(** ** A reply with a request in between *)
Definition ex_ask3 : call := CallPostRequest 0 (Some 2%N) ex_id ex_data 2 (ex_ns 8) ex_r.
Definition ex_out3 : list act := [ex_pop 8; ADeliver 0 5; ex_fwd 32; ADeliver 0 6; ex_fwd 16; ADeliver 0 7].
Definition ex_rid : bytes := replicate 16 7%N.
Definition ex_answer3 (surbs : list bytes) : call := CallPostReply surbs 0 ex_rid ex_long.
Definition ex_ask4 : call := CallPostRequest 0 (Some 0%N) ex_id2 ex_long 0 (ex_ns 16) ex_r2.
Definition ex_back3 : list act :=
  [ex_pop 24; ex_pop 24; ADo (ex_peer 16) ex_ask4; ex_pop 16; ex_pop 16;
   ADeliver 0 8; ex_fwd 32; ADeliver 3 9; ex_fwd 16; ADeliver 3 10;
   ADeliver 1 11; ex_fwd 32; ADeliver 2 12; ex_fwd 24; ADeliver 2 13;
   ADeliver 0 14; ex_fwd 32; ADeliver 1 15; ex_fwd 16; ADeliver 1 16;
   ADeliver 0 17; ex_fwd 32; ADeliver 0 18; ex_fwd 24; ADeliver 0 19].
Lemma ex_ask3_ok : act_ok (ADo (ex_peer 8) ex_ask3).
Proof.
  split; [exact I|]. split; [|split; [apply replicate_length|intros d [= <-]; lia]].
  split; [apply replicate_length|]. split; [by vm_compute|]. split; by vm_compute.
Qed.
Lemma ex_answer3_ok surbs : Forall (fun u => length u = 222) surbs -> act_ok (ADo (ex_peer 24) (ex_answer3 surbs)).
Proof.
  intros H. split; [exact I|]. split; [|exact H].
  split; [apply replicate_length|]. split; [by vm_compute|]. split; by vm_compute.
Qed.
Lemma ex_out3_ok : Forall act_ok ex_out3 /\ Forall act_ok ex_back3.
Proof.
  split; repeat (constructor; [first [exact I|split; [exact I|first [exact I|apply replicate_length|
    split; [|split; [apply replicate_length|intros d [= <-]; lia]];
      (split; [apply replicate_length|]; split; [by vm_compute|]; split; by vm_compute)]]]|]); constructor.
Qed.
(** At the first handling of each of the packets, node 8 has the entry of its SURB. *)
Definition kept2_b (es : list (bytes * surb_value)) (cs : list (list stage)) (tr : list moment) : bool :=
  forallb (fun ec => match list.last (snd ec) with
    | Some g => match list_find (fun mt => handles mt (sg_to g)) tr with
                | Some (_, mt) => bool_decide (sk_entry (mx_keystore (w_node (mt_before mt) (ap_peer_id (sg_to g)))) (fst (fst ec)) = Some (snd (fst ec)))
                | None => false
                end
    | None => false end) (zip es cs).
Lemma kept2_b_spec es cs tr i e c g mt :
  kept2_b es cs tr = true -> es !! i = Some e -> cs !! i = Some c -> list.last c = Some g -> first_at tr mt (sg_to g) ->
  sk_entry (mx_keystore (w_node (mt_before mt) (ap_peer_id (sg_to g)))) e.1 = Some e.2.
Proof.
  intros H He Hc Hg Hf. unfold kept2_b in H. rewrite forallb_forall in H.
  assert (Hin : (e, c) ∈ zip es cs).
  { apply elem_of_list_lookup_2 with i. rewrite lookup_zip_with, He. cbn. by rewrite Hc. }
  apply elem_of_list_In in Hin. specialize (H _ Hin). cbn [fst snd] in H. rewrite Hg in H.
  destruct (list_find _ tr) as [[j mt']|] eqn:Ef; [|discriminate H]. apply bool_decide_eq_true in H.
  apply found_first in Ef. by rewrite (first_unique _ _ _ _ Hf Ef).
Qed.
Definition returned_reply (y : bytes) (tr : list moment) : list bool :=
  omap (fun mt => match mt_event mt with
                  | EvHandle _ p _ msg => if decide (ap_peer_id p = y) then Some (negb (none_b msg)) else None
                  | _ => None end) tr.
Definition ex_run3 (w : world) : bool :=
  session_b w (ex_peer 8) (fun s => bool_decide (self (se_topology s) (ex_ns 8) = TMixnodeIndex 0) &&
    bool_decide (tp_local_kx_public (se_topology s) = derive_kx_public toy_prims (ex_secret 8))) &&
  (match entries_of w (ex_peer 8) with [] => true | _ => false end &&
  match next w (ADo (ex_peer 8) ex_ask3) with
  | Some (Moment _ (EvCall _ _ (RespPost (Some d) (Ok _))) w1) =>
      (d =? 2)%N && ((length (entries_of w1 (ex_peer 8)) =? 2) &&
      match play_w w1 ex_out3 with
      | Some (tr, w2) =>
          match check w1 tr w2 (ex_peer 8) (ex_peer 24) ex_id (queue_of w1 (ex_peer 8)) with
          | Some cs =>
              forallb (fun u => bool_decide (length u = 222)) (got cs tr) &&
              ((length (got cs tr) =? 2) && (bool_decide (NoDup (got cs tr)) && (session_b w2 (ex_peer 24) (fun _ => true) &&
              match next w2 (ADo (ex_peer 24) (ex_answer3 (got cs tr))) with
              | Some (Moment _ (EvCall _ _ (RespReply [] (Ok _))) w3) =>
                  match play_w w3 ex_back3 with
                  | Some (tr', w4) =>
                      match check w3 tr' w4 (ex_peer 24) (ex_peer 8) ex_rid (queue_of w3 (ex_peer 24)) with
                      | Some cs' =>
                          (length cs' =? 2) && (kept2_b (reverse (entries_of w1 (ex_peer 8))) cs' tr' &&
                          (crowd_b ex_rid (ex_peer 8) [ex_id2] (omap last_packet cs') [] tr' &&
                          (bool_decide (limits_fit (mx_config (w_node w3 (ex_peer 8))) 1) &&
                           bool_decide (returned_reply (ex_peer 8) tr' = [false; false; true; true]))))
                      | None => false
                      end
                  | None => false
                  end
              | _ => false
              end)))
          | None => false
          end
      | None => false
      end)
  | _ => false
  end).
Lemma ex_run3_true : with_world ex_run3 = true.
Proof. by vm_compute. Qed.

(** The hypotheses of C78_reply and [reply_queued] hold, and those of [yields_among]. *)
Example C78_reply_example :
  exists w mt w1 s trips surbs entries w2 s2 w3 tr' w4 rtrips used,
    world_ok toy_prims w /\
    happens toy_prims w (EvCall (ex_peer 8) ex_ask3 (RespPost (Some 2%N) (Ok mt))) w1 /\
    usable (w_node w (ex_peer 8)) 0 RCurrent s /\ honest toy_prims (se_topology s) ex_key /\
    tp_mixnodes (se_topology s) = ex_nodes /\
    addr_of ex_nodes (self (se_topology s) (ex_ns 8)) = Some (ex_peer 8) /\
    request_sent toy_prims w (ex_peer 8) 0 ex_id ex_data 2 RCurrent ex_nodes ex_key 2 w1 (ex_peer 24) trips surbs /\
    mx_keystore (w_node w1 (ex_peer 8)) = ks_pushes (mx_keystore (w_node w (ex_peer 8))) entries /\
    world_ok toy_prims w2 /\
    happens toy_prims w2 (EvCall (ex_peer 24) (ex_answer3 surbs) (RespReply [] (Ok tt))) w3 /\
    usable (w_node w2 (ex_peer 24)) 0 RCurrent s2 /\ tp_mixnodes (se_topology s2) = ex_nodes /\
    used = reverse (zip surbs entries) /\ length rtrips = 2 /\
    conveyed toy_prims ex_nodes 0 (ready_reply toy_prims ex_nodes 0 (map snd used)) rtrips (ex_peer 24) w3 tr' w4 /\
    (N.of_nat (length rtrips) <= cf_max_fragments_per_message (mx_config (w_node w3 (ex_peer 8))))%N /\
    held_for ex_rid (w_node w3 (ex_peer 8)) = None /\
    limits_fit (mx_config (w_node w3 (ex_peer 8))) 1 /\
    own_only toy_prims ex_rid (ex_peer 8) (omap last_packet rtrips) tr' /\
    few_between toy_prims 1 (ex_peer 8) (omap last_packet rtrips) tr' /\
    (* the third packet to arrive completes the reply, and the fourth the other message *)
    returned_reply (ex_peer 8) tr' = [false; false; true; true] /\
    map snd (arrivals (omap last_packet rtrips) tr') = [None; Some (MReply (ReplyMessage ex_id (sc_contents ex_long)))].
Proof.
  pose proof toy_prims_ok as Hok.
  destruct (with_world_spec _ ex_run3_true) as (w & Hw & Hcalm & H). unfold ex_run3 in H.
  apply andb_true_iff in H as [Hs H]. apply andb_true_iff in H as [He H].
  destruct (session_b_spec _ _ _ Hs) as (s & Hus & Hnodes & Hq & Hf). clear Hs.
  apply andb_true_iff in Hf as [Hself Hloc]. apply bool_decide_eq_true in Hself, Hloc.
  assert (He' : entries_of w (ex_peer 8) = []) by (destruct (entries_of w (ex_peer 8)); [done|discriminate He]). clear He.
  destruct (next w (ADo (ex_peer 8) ex_ask3)) as [[w0 e w1]|] eqn:E1; [|discriminate H].
  destruct (next_happens _ _ _ ex_ask3_ok E1) as [Hhap Hw0]. cbn [mt_event mt_after mt_before] in Hhap, Hw0. subst w0.
  assert (Hev : exists a, e = EvCall (ex_peer 8) ex_ask3 a).
  { cbn [next] in E1. destruct (exec _ _ _) as [[m a]|]; [|discriminate E1]. injection E1 as <- _. by exists a. }
  destruct Hev as [a ->]. clear E1.
  destruct a as [| | | | |[d|] [mt|]| |]; try discriminate H. apply andb_true_iff in H as [Hd H]. apply N.eqb_eq in Hd. subst d.
  apply andb_true_iff in H as [Hle2 H]. apply Nat.eqb_eq in Hle2.
  destruct (play_w w1 ex_out3) as [[tr w2]|] eqn:E2; [|discriminate H].
  pose proof (play_w_history _ _ _ _ (proj1 ex_out3_ok) E2) as Hh1. clear E2.
  destruct (check w1 tr w2 _ _ _ _) as [cs|] eqn:Ec1; [|discriminate H].
  apply andb_true_iff in H as [Hlen H]. apply andb_true_iff in H as [Hgot H]. apply andb_true_iff in H as [Hnd H].
  apply andb_true_iff in H as [Hs2 H]. apply Nat.eqb_eq in Hgot. apply bool_decide_eq_true in Hnd.
  destruct (session_b_spec _ _ _ Hs2) as (s2 & Hus2 & Hnodes2 & Hq2 & _). clear Hs2.
  assert (Hlen' : Forall (fun u => length u = 222) (got cs tr)).
  { apply Forall_forall. intros u Hu. rewrite forallb_forall in Hlen. apply elem_of_list_In in Hu.
    specialize (Hlen _ Hu). by apply bool_decide_eq_true in Hlen. }
  destruct (next w2 (ADo (ex_peer 24) (ex_answer3 (got cs tr)))) as [[w0 e w3]|] eqn:E3; [|discriminate H].
  destruct (next_happens _ _ _ (ex_answer3_ok _ Hlen') E3) as [Hhap2 Hw0]. cbn [mt_event mt_after mt_before] in Hhap2, Hw0. subst w0.
  assert (Hev : exists a, e = EvCall (ex_peer 24) (ex_answer3 (got cs tr)) a).
  { cbn [next] in E3. destruct (exec _ _ _) as [[m a]|]; [|discriminate E3]. injection E3 as <- _. by exists a. }
  destruct Hev as [a ->]. clear E3.
  destruct a as [| | | | | |[|] [[]|]|]; try discriminate H.
  destruct (play_w w3 ex_back3) as [[tr' w4]|] eqn:E4; [|discriminate H].
  pose proof (play_w_history _ _ _ _ (proj2 ex_out3_ok) E4) as Hh2. clear E4.
  destruct (check w3 tr' w4 _ _ _ _) as [cs'|] eqn:Ec2; [|discriminate H].
  apply andb_true_iff in H as [Hcs' H]. apply Nat.eqb_eq in Hcs'. apply andb_true_iff in H as [Hkept H].
  apply andb_true_iff in H as [Hcr H]. apply andb_true_iff in H as [Hfit Hret]. apply bool_decide_eq_true in Hfit, Hret.
  assert (Hhon : honest toy_prims (se_topology s) ex_key).
  { split; [|intros p; exact Hloc]. rewrite Hnodes. intros i mn Hi. cbn [ex_key].
    revert Hi. destruct (N.to_nat i) as [|[|[|[|n]]]]; unfold ex_nodes; cbn [map lookup list_lookup]; intros [= <-]; reflexivity. }
  assert (Hsa : addr_of ex_nodes (self (se_topology s) (ex_ns 8)) = Some (ex_peer 8)) by (rewrite Hself; reflexivity).
  pose proof (C78_reply toy_prims Hok w (ex_peer 8) 0 (Some 2%N) ex_id ex_data 2 (ex_ns 8) ex_r 2 mt w1 RCurrent s ex_key
                Hw Hhap Hus Hhon) as HC. cbv zeta in HC. rewrite Hnodes in HC.
  destruct (HC Hsa) as (y & trips & surbs & entries & Hsent & Hks & Hle & Hreply). clear HC.
  assert (y = ex_peer 24) as ->.
  { destruct Hsent as [Hy _]. unfold ex_nodes in Hy. cbn [addr_of map lookup list_lookup] in Hy.
    change (N.to_nat 2) with 2 in Hy. by injection Hy. }
  assert (Hcalm1 : calm w1).
  { intros x Hx. destruct (happens_call _ _ _ _ Hhap) as (z & c & a & m & _ & _ & En & <- & _).
    rewrite En, with_node_other; [by apply Hcalm|]. intros ->. apply Hx. apply elem_of_list_here. }
  pose proof Hsent as (Hy & _ & Hns & Hqd & _ & Htr & Hyields).
  destruct (check_spec w1 tr w2 (ex_peer 8) (ex_peer 24) ex_id (queue_of w1 (ex_peer 8)) cs 2 trips
              (ready_request toy_prims ex_nodes 0) Hh1 Hcalm1 Ec1 Hy (queued_now _ _ _ _ _ Hus Hq Hqd) Htr)
    as (Et & Hconv & Hmax & Hheld & Hund).
  { intros i trip g mt' _ _ _ [Hc _] _. exact Hc. }
  destruct (Hyields tr w2 Hconv Hmax Hheld Hund) as [_ Harr].
  assert (Hsurbs : got cs tr = surbs).
  { unfold got. rewrite <- Et, Harr, last_snoc. reflexivity. }
  rewrite Hsurbs in Hhap2, Hgot, Hnd.
  pose proof (history_ok toy_prims _ _ _ Hh1 (happens_ok toy_prims _ _ _ Hhap Hw)) as Hw2.
  destruct (Hreply w2 (ex_peer 24) surbs [] ex_rid ex_long RCurrent s2 w3 Hw2 Hhap2 Hus2 Hnodes2)
    as (rtrips & used & (Hused & Hin & Hlu & _ & Hqd2 & _ & Htr2 & _) & Hyields2).
  { apply Forall_forall. auto. }
  assert (Hcalm3 : calm w3).
  { assert (Hcalm2 : calm w2).
    { eapply inside_calm; [exact Hh1| |exact Hcalm1]. unfold check in Ec1. destruct (mapM _ _); [|discriminate Ec1].
      destruct (inside tr); [reflexivity|discriminate Ec1]. }
    intros x Hx. destruct (happens_call _ _ _ _ Hhap2) as (z & c & a & m & _ & _ & En & <- & _).
    rewrite En, with_node_other; [by apply Hcalm2|]. intros ->. apply Hx. 
    do 2 apply elem_of_list_further. apply elem_of_list_here. }
  rewrite Hself in Htr2.
  pose proof (queued_now _ _ _ _ _ Hus2 Hq2 Hqd2) as Hfp.
  destruct surbs as [|u1 [|u2 [|]]]; [discriminate Hgot|discriminate Hgot| |discriminate Hgot].
  destruct entries as [|e1 [|e2 [|]]]; [discriminate Hle|discriminate Hle| |discriminate Hle].
  assert (Hne : u1 <> u2). { intros ->. apply NoDup_cons in Hnd as [Hn _]. apply Hn. left. }
  assert (Hu1 : used = [(u2, e2); (u1, e1)]).
  { rewrite app_nil_l in Hused. apply (f_equal reverse) in Hused. rewrite reverse_involutive in Hused.
    change (reverse [u1; u2]) with [u2; u1] in Hused.
    destruct used as [|[a ea] [|[b eb] [|]]]; try discriminate Hused. cbn [map fst] in Hused. injection Hused as Ha Hb.
    subst a b. change (zip [u1; u2] [e1; e2]) with [(u1, e1); (u2, e2)] in Hin.
    pose proof (Hin _ (elem_of_list_here _ _)) as H1.
    pose proof (Hin _ (elem_of_list_further _ _ _ (elem_of_list_here _ _))) as H2.
    apply elem_of_cons in H1 as [[= H1 _]|H1]; [by subst|]. apply elem_of_list_singleton in H1. injection H1 as ->.
    apply elem_of_cons in H2 as [[= ->]|H2]; [done|]. apply elem_of_list_singleton in H2. injection H2 as H2 _. by subst. }
  subst used. cbn [map fst snd] in *.
  assert (Hent : entries_of w1 (ex_peer 8) = [e1; e2]).
  { revert Hle2. unfold entries_of. rewrite Hks. cbn [ks_pushes foldl ks_push sk_surbs sk_capacity]. unfold entries_of in He'. rewrite He'.
    unfold make_room. cbn [tail]. repeat (case_decide; cbn [tail app length]); done. }
  rewrite Hent in Hkept. change (reverse [e1; e2]) with [e2; e1] in Hkept.
  assert (Hrl : length rtrips = 2) by (by rewrite <- Hlu).
  assert (Ers : rtrips = cs').
  { apply (check_spec w3 tr' w4 (ex_peer 24) (ex_peer 8) ex_rid (queue_of w3 (ex_peer 24)) cs' 0 rtrips
      (fun _ _ _ => True) Hh2 Hcalm3 Ec2 (eq_refl _) Hfp Htr2). done. }
  destruct (check_spec w3 tr' w4 (ex_peer 24) (ex_peer 8) ex_rid (queue_of w3 (ex_peer 24)) cs' 0 rtrips
              (ready_reply toy_prims ex_nodes 0 [e2; e1]) Hh2 Hcalm3 Ec2 (eq_refl _) Hfp Htr2)
    as (Et2 & Hconv2 & Hmax2 & Hheld2 & _).
  { intros i trip g mt' Hi Hg Hfst [(rel & s' & Hhs & Hun & _) _] Hpeer.
    split; [by exists rel, s'|].
    assert (Hilt : i < 2) by (apply lookup_lt_Some in Hi; lia).
    assert (exists ee, [e2; e1] !! i = Some ee) as [[eid ev] Hei] by (apply lookup_lt_is_Some; exact Hilt).
    exists eid, ev. split; [exact Hei|]. rewrite Ers in Hi.
    exact (kept2_b_spec _ _ _ _ _ _ _ _ Hkept Hei Hi Hg Hfst). }
  destruct (crowd_b_spec _ _ _ _ _ Hcr) as [Hown Hfew]. cbn [length] in Hfew. rewrite <- Et2 in Hown, Hfew.
  destruct (Hyields2 1 tr' w4 Hconv2 Hmax2 Hheld2 Hfit Hown Hfew) as [_ Harr2].
  exists w, mt, w1, s, trips, [u1; u2], [e1; e2], w2, s2, w3, tr', w4, rtrips, [(u2, e2); (u1, e1)].
  do 12 (split; [assumption|]). split; [reflexivity|]. do 8 (split; [assumption|]).
  rewrite Harr2, Hrl. reflexivity.
Qed.

Print Assumptions C78_request.
Print Assumptions C78_reply.
Print Assumptions C78_assembler.
Print Assumptions C78_limit.
