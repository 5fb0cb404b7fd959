(** Concrete cases for C73, and a SURB that is no good when it leaves. *)
From Verif Require Import PKept PExample PEndEx.

(** ** Letting a network settle *)
Fixpoint settle (fuel : nat) (w : world) : option (list moment * world) :=
  match fuel with
  | O => None
  | S fuel =>
      let go a := match next w a with
                  | Some mt => match settle fuel (mt_after mt) with Some (tr, w') => Some (mt :: tr, w') | None => None end
                  | None => None
                  end in
      match w_wire w with
      | _ :: _ => go (ADeliver 0 7%N)
      | [] => match list_find (fun x => idle (w_node w x) = false) ex_peers with
              | Some (_, x) => go (ADo x (CallPopForward 0%N))
              | None => Some ([], w)
              end
      end
  end.
Lemma settle_history fuel : forall w tr w', settle fuel w = Some (tr, w') -> history toy_prims w tr w'.
Proof.
  induction fuel as [|fuel IH]; intros w tr w' H; [discriminate H|]. cbn [settle] in H.
  assert (Hgo : forall a, act_ok a ->
    match next w a with
    | Some mt => match settle fuel (mt_after mt) with Some (tr, w') => Some (mt :: tr, w') | None => None end
    | None => None
    end = Some (tr, w') -> history toy_prims w tr w').
  { intros a Ha H'. destruct (next w a) as [mt|] eqn:E; [|discriminate H'].
    destruct (settle fuel (mt_after mt)) as [[tr1 w1]|] eqn:E1; [|discriminate H']. injection H' as <- <-.
    destruct (next_happens _ _ _ Ha E) as [Hh Hb]. destruct mt as [wb e wa]; cbn in *. subst wb.
    econstructor; [done|]. by apply IH. }
  destruct (w_wire w) as [|p l]; [|by apply (Hgo (ADeliver 0 7%N))].
  destruct (list_find _ ex_peers) as [[i x]|]; [by apply (Hgo (ADo x (CallPopForward 0%N)))|].
  injection H as <- <-. constructor.
Qed.
Lemma history_app w tr w1 tr' w2 : history toy_prims w tr w1 -> history toy_prims w1 tr' w2 -> history toy_prims w (tr ++ tr') w2.
Proof. induction 1; [done|]. intros. cbn. econstructor; [done|]. auto. Qed.

(** ** A keystore for one SURB *)
Definition small_config (k : N) : config :=
  Config (cf_num_gateway_mixnodes default_config) (Some (ex_secret k))
    (cf_mixnode_session default_config) (cf_non_mixnode_session default_config)
    (cf_forward_capacity default_config) (cf_mean_forwarding_delay default_config)
    (cf_per_hop_net_delay default_config) (cf_loop_cover_proportion default_config)
    (cf_gen_cover_packets default_config) 3 1 (cf_max_incomplete_messages default_config)
    (cf_max_incomplete_fragments default_config) (cf_max_fragments_per_message default_config).
Definition small_start (l : list call) : option (list (call * resp) * mixnet) :=
  match mx_new toy_prims (small_config 8) with Val m => play m l | Panic => None end.
Lemma small_reachable l h m :
  Forall call_ok l -> small_start l = Some (h, m) -> reachable toy_prims (small_config 8) h m.
Proof.
  intros Hc H. split.
  { split; [cbn; lia|]. intros s [= <-]. apply replicate_length. }
  unfold small_start in H. destruct (mx_new toy_prims (small_config 8)) as [m0|]; [|done]. exists m0.
  split; [done|]. by eapply play_run.
Qed.
Definition small_world (f : world -> bool) : bool :=
  match small_start ex_setup with
  | Some (_, a) => with_world (fun w => f (World (with_node w (ex_peer 8) a) []))
  | None => false
  end.
Lemma small_world_spec f :
  small_world f = true ->
  exists w hist, world_ok toy_prims w /\ reachable toy_prims (small_config 8) hist (w_node w (ex_peer 8)) /\ f w = true.
Proof.
  unfold small_world. intros H. destruct (small_start ex_setup) as [[h a]|] eqn:Ea; [|discriminate H].
  apply with_world_spec in H as (w & Hw & _ & H). eexists _, h. split; [|split; [|exact H]].
  - intros x. cbn [w_node]. unfold with_node. destruct (decide (x = ex_peer 8)); [|apply Hw].
    eexists _, _. eapply small_reachable; [apply ex_setup_ok|exact Ea].
  - cbn [w_node]. rewrite with_node_same. eapply small_reachable; [apply ex_setup_ok|exact Ea].
Qed.

(** Node 8 posts a request with two SURBs to node 24, which replies with one of them. *)
Definition two_surbs : call := CallPostRequest 0 (Some 2%N) ex_id ex_data 2 (ex_ns 8) ex_r.
Lemma two_surbs_ok : act_ok (ADo (ex_peer 8) two_surbs).
Proof.
  split; [exact I|]. split; [|split; [apply replicate_length|intros d [= <-]; lia]].
  split; [apply replicate_length|]. split; [by vm_compute|]. split; by vm_compute.
Qed.
Definition one_surb (u : bytes) : call := CallPostReply [u] 0 (replicate 16 1%N) ex_data.
Lemma one_surb_ok u : length u = 222 -> act_ok (ADo (ex_peer 24) (one_surb u)).
Proof.
  intros H. split; [exact I|]. split; [|by constructor].
  split; [apply replicate_length|]. split; [by vm_compute|]. split; by vm_compute.
Qed.
(** A node makes a call and then sends a packet, which is carried as far as it goes. *)
Definition carry (k : N) (w : world) : option (list moment * world) :=
  match play_w w [ex_pop k] with
  | Some (tr, w1) => match settle 30 w1 with Some (tr', w2) => Some (tr ++ tr', w2) | None => None end
  | None => None
  end.
Lemma carry_history k w tr w' : carry k w = Some (tr, w') -> history toy_prims w tr w'.
Proof.
  unfold carry. intros H. destruct (play_w w [ex_pop k]) as [[tr1 w1]|] eqn:E1; [|discriminate H].
  destruct (settle 30 w1) as [[tr2 w2]|] eqn:E2; [|discriminate H]. injection H as <- <-.
  apply play_w_history in E1; [|constructor; [split; [exact I|apply replicate_length]|done]].
  apply settle_history in E2. by eapply history_app.
Qed.
Definition posted_mt (w : world) (f : request_metrics -> world -> bool) : bool :=
  match next w (ADo (ex_peer 8) two_surbs) with
  | Some (Moment _ (EvCall _ _ (RespPost (Some d) (Ok mt))) w1) => bool_decide (d = 2%N) && f mt w1
  | _ => false
  end.
Lemma posted_mt_spec w f :
  posted_mt w f = true ->
  exists mt w1, happens toy_prims w (EvCall (ex_peer 8) two_surbs (RespPost (Some 2%N) (Ok mt))) w1 /\ f mt w1 = true.
Proof.
  unfold posted_mt. intros H. destruct (next w (ADo (ex_peer 8) two_surbs)) as [[w0 e w1]|] eqn:E; [|discriminate H].
  destruct (next_happens _ _ _ two_surbs_ok E) as [Hh Hb]. cbn [mt_event mt_after mt_before] in Hh, Hb. subst w0.
  cbn [next] in E. destruct (exec _ _ _) as [[m a]|]; [|discriminate E]. injection E as <- _.
  destruct a as [| | | | |[d|] [mt|]| |]; try discriminate H. apply andb_true_iff in H as [Hd H]. apply bool_decide_eq_true in Hd as ->.
  exists mt, w1. split; [exact Hh|exact H].
Qed.
(** The SURBs of a request that a moment delivers; a packet that comes to node 8 as a reply. *)
Definition request_at (mt : moment) : option (list bytes) :=
  match mt_event mt with EvHandle _ _ _ (Some (MRequest q)) => Some (rq_surbs q) | _ => None end.
Definition reply_at (mt : moment) : bool :=
  match mt_event mt with
  | EvHandle _ p _ _ => bool_decide (ap_peer_id p = ex_peer 8) &&
      existsb (fun s => match content_of toy_prims s (ap_packet p) with CtReply _ _ => true | _ => false end)
        (ss_iter (mx_sessions (w_node (mt_before mt) (ex_peer 8))))
  | _ => false
  end.
Lemma get_iter ss rel s : ss_get ss rel = SlFull s -> In s (ss_iter ss).
Proof.
  intros H. apply elem_of_list_In. unfold ss_iter. apply elem_of_list_omap. exists (SlFull s). split; [|done].
  destruct rel; cbn in H; rewrite H; [left|right; left].
Qed.
Lemma iter_get ss s : In s (ss_iter ss) -> exists rel, ss_get ss rel = SlFull s.
Proof.
  intros H%elem_of_list_In. unfold ss_iter in H. apply elem_of_list_omap in H as (x & Hx & E).
  destruct x as [| | |s']; try done. injection E as ->. rewrite !elem_of_cons in Hx.
  destruct Hx as [Hx|[Hx|Hx]]; [by exists RCurrent|by exists RPrev|by apply elem_of_nil in Hx].
Qed.
Lemma no_reply_at id tr : forallb (fun mt => negb (reply_at mt)) tr = true -> no_answer toy_prims (ex_peer 8) id tr.
Proof.
  rewrite forallb_forall. intros H mt b p now msg Hmt%elem_of_list_In Ee Ep (rel & s & pl & Hr & Hc).
  specialize (H mt Hmt). unfold reply_at in H. rewrite Ee, bool_decide_true in H by done. cbn [andb] in H.
  apply negb_true_iff in H. rewrite <- not_true_iff_false in H. apply H, existsb_exists. exists s. split; [|by rewrite Hc].
  apply reads_get in Hr. by eapply get_iter.
Qed.

(** C73_network: node 8 posts a request with two SURBs, which is delivered; it still has the keys. *)
Definition own_session (s : session) : bool :=
  bool_decide (self (se_topology s) (ex_ns 8) = TMixnodeIndex 0) &&
  bool_decide (tp_local_kx_public (se_topology s) = derive_kx_public toy_prims (ex_secret 8)).
Lemma own_session_spec s :
  own_session s = true -> tp_mixnodes (se_topology s) = ex_nodes ->
  honest toy_prims (se_topology s) ex_key /\ addr_of ex_nodes (self (se_topology s) (ex_ns 8)) = Some (ex_peer 8).
Proof.
  unfold own_session. intros [Hself Hloc]%andb_true_iff Hnodes. apply bool_decide_eq_true in Hself, Hloc. split.
  - split; [|intros p; exact Hloc]. rewrite Hnodes. intros i mn Hi. cbn [ex_key].
    revert Hi. destruct (N.to_nat i) as [|[|[|[|n]]]]; unfold ex_nodes; cbn [map lookup list_lookup]; intros [= <-]; reflexivity.
  - rewrite Hself. reflexivity.
Qed.
Definition kept_check (w : world) : bool :=
  session_b w (ex_peer 8) own_session &&
  posted_mt w (fun _ w1 => match carry 8 w1 with
    | Some (tr, w2) => negb (bool_decide (omap request_at tr = [])) && (forallb (fun mt => negb (reply_at mt)) tr &&
        ((made_at (ex_peer 8) tr =? 0)%nat && (cf_surb_keystore_capacity (mx_config (w_node w (ex_peer 8))) =? 200)%N))
    | None => false
    end).
Lemma kept_check_true : with_world kept_check = true.
Proof. by vm_compute. Qed.
Example C73_example :
  exists w mt w1 s y trips surbs entries tr w2,
    world_ok toy_prims w /\
    happens toy_prims w (EvCall (ex_peer 8) two_surbs (RespPost (Some 2%N) (Ok mt))) w1 /\
    usable (w_node w (ex_peer 8)) 0 RCurrent s /\ honest toy_prims (se_topology s) ex_key /\
    addr_of (tp_mixnodes (se_topology s)) (self (se_topology s) (ex_ns 8)) = Some (ex_peer 8) /\
    request_sent toy_prims w (ex_peer 8) 0 ex_id ex_data 2 RCurrent (tp_mixnodes (se_topology s)) ex_key 2 w1 y trips surbs /\
    length entries = 2 /\ history toy_prims w1 tr w2 /\ omap request_at tr <> [] /\
    forall i e, entries !! i = Some e ->
      no_answer toy_prims (ex_peer 8) e.1 tr /\
      length entries - 1 - i + made_at (ex_peer 8) tr < N.to_nat (cf_surb_keystore_capacity (mx_config (w_node w (ex_peer 8)))) /\
      sk_entry (mx_keystore (w_node w2 (ex_peer 8))) e.1 = Some e.2.
Proof.
  destruct (with_world_spec _ kept_check_true) as (w & Hw & _ & H). unfold kept_check in H.
  apply andb_true_iff in H as [Hs H]. destruct (session_b_spec _ _ _ Hs) as (s & Hus & Hnodes & _ & Hf). clear Hs.
  destruct (own_session_spec s Hf Hnodes) as [Hhon Hself]. rewrite <- Hnodes in Hself.
  destruct (posted_mt_spec _ _ H) as (mt & w1 & Hhap & H1). clear H.
  destruct (carry 8 w1) as [[tr w2]|] eqn:Ec; [|discriminate H1]. apply carry_history in Ec.
  apply andb_true_iff in H1 as [Hreq H1]. apply andb_true_iff in H1 as [Hno H1]. apply andb_true_iff in H1 as [Hmade Hcap].
  apply negb_true_iff, bool_decide_eq_false in Hreq. apply Nat.eqb_eq in Hmade. apply N.eqb_eq in Hcap.
  destruct (C73_network toy_prims toy_prims_ok w (ex_peer 8) 0 (Some 2%N) ex_id ex_data 2 (ex_ns 8) ex_r 2 mt w1 RCurrent s ex_key
             Hw Hhap Hus Hhon Hself) as (y & trips & surbs & entries & Hsent & Hlen & _ & Hkept).
  assert (Hl2 : length entries = 2).
  { destruct Hsent as (_ & _ & Hn & _). rewrite Hlen. lia. }
  exists w, mt, w1, s, y, trips, surbs, entries, tr, w2.
  split; [exact Hw|]. split; [exact Hhap|]. split; [exact Hus|]. split; [exact Hhon|]. split; [exact Hself|].
  split; [exact Hsent|]. split; [exact Hl2|]. split; [exact Ec|]. split; [exact Hreq|]. intros i e Hi.
  assert (Hn : no_answer toy_prims (ex_peer 8) e.1 tr) by (by apply no_reply_at).
  assert (Hlt : length entries - 1 - i + made_at (ex_peer 8) tr < N.to_nat (cf_surb_keystore_capacity (mx_config (w_node w (ex_peer 8)))))
    by (rewrite Hl2, Hmade, Hcap; lia).
  split; [exact Hn|]. split; [exact Hlt|]. exact (Hkept i e tr w2 Hi Ec Hn Hlt).
Qed.

(** A SURB need not be good when its request leaves: the keystore of node 8 holds one, its request with
    two is accepted and delivered, the recipient replies with the first, and the reply comes to nothing. *)
Definition lost_check (w : world) : bool :=
  posted_mt w (fun _ w1 => match carry 8 w1 with
    | Some (tr, w2) =>
        match omap request_at tr with
        | [[u; u']] =>
            bool_decide (length u = 222) &&
            match next w2 (ADo (ex_peer 24) (one_surb u)) with
            | Some (Moment _ (EvCall _ _ (RespReply [] (Ok tt))) w3) =>
                match carry 24 w3 with
                | Some (tr', w4) =>
                    match list.last tr' with
                    | Some mt => reply_at mt && (match mt_event mt with EvHandle true _ _ None => true | _ => false end &&
                        ((made_at (ex_peer 8) (tr ++ tr') =? 0)%nat &&
                         forallb (fun mt => negb (reply_at mt)) (tr ++ removelast tr')))
                    | None => false
                    end
                | None => false
                end
            | _ => false
            end
        | _ => false
        end
    | None => false
    end).
Lemma lost_check_true : small_world lost_check = true.
Proof. by vm_compute. Qed.
Theorem C73_first_lost_refuted :
  exists w hist metrics w1 tr w2 u u' w3 tr' mt w4 p now rel s id pl,
    world_ok toy_prims w /\ reachable toy_prims (small_config 8) hist (w_node w (ex_peer 8)) /\
    happens toy_prims w (EvCall (ex_peer 8) two_surbs (RespPost (Some 2%N) (Ok metrics))) w1 /\
    history toy_prims w1 tr w2 /\ omap request_at tr = [[u; u']] /\
    happens toy_prims w2 (EvCall (ex_peer 24) (one_surb u) (RespReply [] (Ok tt))) w3 /\
    history toy_prims w3 (tr' ++ [mt]) w4 /\
    made_at (ex_peer 8) (tr ++ tr') = 0 /\ (forall i, no_answer toy_prims (ex_peer 8) i (tr ++ tr')) /\
    mt_event mt = EvHandle true p now None /\ ap_peer_id p = ex_peer 8 /\
    ss_get (mx_sessions (w_node (mt_before mt) (ex_peer 8))) rel = SlFull s /\
    content_of toy_prims s (ap_packet p) = CtReply id pl.
Proof.
  destruct (small_world_spec _ lost_check_true) as (w & hist & Hw & Hr & H). unfold lost_check in H.
  destruct (posted_mt_spec _ _ H) as (metrics & w1 & Hhap & H1). clear H.
  destruct (carry 8 w1) as [[tr w2]|] eqn:Ec; [|discriminate H1]. apply carry_history in Ec.
  destruct (omap request_at tr) as [|[|u [|u' [|]]] [|]] eqn:Eq; try discriminate H1.
  apply andb_true_iff in H1 as [Hu H1]. apply bool_decide_eq_true in Hu.
  destruct (next w2 (ADo (ex_peer 24) (one_surb u))) as [[w0 e w3]|] eqn:E; [|discriminate H1].
  destruct (next_happens _ _ _ (one_surb_ok u Hu) E) as [Hh Hb]. cbn [mt_event mt_after mt_before] in Hh, Hb. subst w0.
  cbn [next] in E. destruct (exec _ _ _) as [[m a]|]; [|discriminate E]. injection E as <- _.
  destruct a as [| | | | | |[|] [[]|]|]; try discriminate H1.
  destruct (carry 24 w3) as [[tr' w4]|] eqn:Ec'; [|discriminate H1]. apply carry_history in Ec'.
  destruct tr' as [|mt tr' _] using rev_ind; [discriminate H1|]. rewrite last_snoc in H1.
  rewrite removelast_last in H1. apply andb_true_iff in H1 as [Hra H1]. apply andb_true_iff in H1 as [Hev H1].
  apply andb_true_iff in H1 as [Hmade Hno]. apply Nat.eqb_eq in Hmade. unfold reply_at in Hra.
  destruct (mt_event mt) as [|b p now msg] eqn:Ee; [discriminate Hra|]. destruct b, msg; try discriminate Hev.
  apply andb_true_iff in Hra as [Hp Hra]. apply bool_decide_eq_true in Hp. apply existsb_exists in Hra as (s & Hs & Hc).
  destruct (content_of toy_prims s (ap_packet p)) as [| |id pl| |] eqn:Ect; try discriminate Hc.
  assert (Hrel : exists rel, ss_get (mx_sessions (w_node (mt_before mt) (ex_peer 8))) rel = SlFull s) by (by apply iter_get).
  destruct Hrel as [rel Hrel].
  exists w, hist, metrics, w1, tr, w2, u, u', w3, tr', mt, w4, p, now, rel, s, id, pl.
  split; [exact Hw|]. split; [exact Hr|]. split; [exact Hhap|]. split; [exact Ec|]. split; [exact Eq|]. split; [exact Hh|].
  split; [exact Ec'|]. split.
  { unfold made_at in *. rewrite app_assoc, map_app, sum_list_with_app in Hmade. apply Nat.eq_add_0 in Hmade as [Hmade _]. exact Hmade. }
  split; [intros i; by apply no_reply_at|]. split; [exact Ee|]. split; [exact Hp|]. split; [exact Hrel|exact Ect].
Qed.
