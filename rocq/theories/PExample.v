(** A small network run inside the model: concrete cases of the theorems about nodes, and the
    counterexamples C36_refuted and C37_refuted. Four mixnodes in session 0 and, optionally, a node that
    is not a mixnode; the primitives are those of Toy. *)
From Verif Require Export PKeys Toy.

(** ** The network *)
Definition ex_secret (k : N) : bytes := replicate 32 k.
Definition ex_peer (k : N) : bytes := replicate 32 (100 + k)%N.
Definition ex_config (k : N) : config :=
  Config (cf_num_gateway_mixnodes default_config) (Some (ex_secret k))
    (cf_mixnode_session default_config) (cf_non_mixnode_session default_config)
    (cf_forward_capacity default_config) (cf_mean_forwarding_delay default_config)
    (cf_per_hop_net_delay default_config) (cf_loop_cover_proportion default_config)
    (cf_gen_cover_packets default_config) 3
    (cf_surb_keystore_capacity default_config) (cf_max_incomplete_messages default_config)
    (cf_max_incomplete_fragments default_config) (cf_max_fragments_per_message default_config).
Definition ex_node (k : N) : mixnode :=
  Mixnode (derive_kx_public toy_prims (ex_secret k)) (ex_peer k) k.
Definition ex_nodes : list mixnode := map ex_node [8; 16; 24; 32]%N.
Definition ex_r : rng := Rng (fun i => (N.of_nat i * 7 + 3) mod 256)%N 0.
Definition ex_big : rng := Rng (fun i => 2 ^ 63)%N 0.
Definition ex_small : rng := Rng (fun i => N.of_nat i)%N 0.
Definition ex_ns (k : N) : network_status := NetworkStatus (ex_peer k) (fun _ => true).

Fixpoint play (m : mixnet) (l : list call) : option (list (call * resp) * mixnet) :=
  match l with
  | [] => Some ([], m)
  | c :: l =>
      match exec toy_prims m c with
      | Val (m1, a) => match play m1 l with Some (h, m2) => Some ((c, a) :: h, m2) | None => None end
      | Panic => None
      end
  end.
Definition start (k : N) (l : list call) : option (list (call * resp) * mixnet) :=
  match mx_new toy_prims (ex_config k) with Val m => play m l | Panic => None end.

Lemma play_run l : forall m h m', Forall call_ok l -> play m l = Some (h, m') -> run toy_prims m h m'.
Proof.
  induction l as [|c l IH]; intros m h m' Hc H; cbn [play] in H.
  { injection H as <- <-. constructor. }
  apply Forall_cons in Hc as [Hc1 Hc]. destruct (exec toy_prims m c) as [[m1 a]|] eqn:E; [|done].
  destruct (play m1 l) as [[h' m2]|] eqn:E2; [|done]. injection H as <- <-. econstructor; eauto.
Qed.
Lemma ex_config_ok k : config_ok (ex_config k).
Proof. split; [cbn; lia|]. intros s [= <-]. apply replicate_length. Qed.
Lemma start_reachable k l h m :
  Forall call_ok l -> start k l = Some (h, m) -> reachable toy_prims (ex_config k) h m.
Proof.
  intros Hc H. split; [apply ex_config_ok|]. unfold start in H.
  destruct (mx_new toy_prims (ex_config k)) as [m0|]; [|done]. exists m0. split; [done|]. by eapply play_run.
Qed.
(** [f] holds of the state after the calls. *)
Definition after (k : N) (l : list call) (f : mixnet -> bool) : bool :=
  match start k l with Some (_, m) => f m | None => false end.
Lemma after_reachable k l f :
  Forall call_ok l -> after k l f = true -> exists h m, reachable toy_prims (ex_config k) h m /\ f m = true.
Proof.
  unfold after. intros Hc H. destruct (start k l) as [[h m]|] eqn:E; [|done].
  exists h, m. split; [by eapply start_reachable|done].
Qed.
Definition answer (k : N) (l : list call) : option resp :=
  match start k l with Some (h, _) => snd <$> last h | None => None end.

(** ** A request and its reply *)
Definition ex_setup : list call :=
  [CallSetStatus (SessionStatus 0 PRequestsToCurrent); CallSetMixnodes RCurrent (Ok ex_nodes) ex_r].
Definition ex_id : bytes := replicate 16 9%N.
Definition ex_data : scattered N := Scattered 3 [1; 2; 3]%N [] [].
Definition ex_post (k : N) (dest : option mixnode_index) : call := CallPostRequest 0 dest ex_id ex_data 1 (ex_ns k) ex_r.
Definition ex_packet (a : option resp) : bytes :=
  match a with Some (RespPacket (Some p)) => ap_packet p | _ => [] end.
Definition ex_peer_of (a : option resp) : bytes :=
  match a with Some (RespPacket (Some p)) => take 1 (ap_peer_id p) | _ => [] end.
Definition ex_send (k : N) : list call := ex_setup ++ [ex_post k (Some 2%N); CallPopAuthored (ex_ns k) ex_big].
Definition ex_hop (p : bytes) : list call := ex_setup ++ [CallHandle p 5%N; CallPopForward 0%N].
(** The request travels from node 8 through 32 and 16 to 24. *)
Definition ex_p1 : bytes := Eval vm_compute in ex_packet (answer 8 (ex_send 8)).
Definition ex_p2 : bytes := Eval vm_compute in ex_packet (answer 32 (ex_hop ex_p1)).
Definition ex_p3 : bytes := Eval vm_compute in ex_packet (answer 16 (ex_hop ex_p2)).
Definition ex_receive : list call := ex_setup ++ [CallHandle ex_p3 5%N].
Definition ex_message (a : option resp) : option message :=
  match a with Some (RespMessage m) => m | _ => None end.
Definition ex_surb : bytes := Eval vm_compute in
  match ex_message (answer 24 ex_receive) with Some (MRequest rq) => nth 0 (rq_surbs rq) [] | _ => [] end.
(** The reply travels back. *)
Definition ex_reply : list call :=
  ex_receive ++ [CallPostReply [ex_surb] 0 (replicate 16 7%N) (Scattered 2 [4; 5]%N [] []);
                 CallPopAuthored (ex_ns 24) ex_big].
Definition ex_q1 : bytes := Eval vm_compute in ex_packet (answer 24 ex_reply).
Definition ex_q2 : bytes := Eval vm_compute in ex_packet (answer 32 (ex_hop ex_q1)).
Definition ex_q3 : bytes := Eval vm_compute in ex_packet (answer 16 (ex_hop ex_q2)).

Lemma ex_setup_ok : Forall call_ok ex_setup.
Proof. unfold ex_setup. constructor; [done|]. constructor; [|done]. cbn. repeat constructor. Qed.
Lemma ex_post_ok k d : (d <= 65279)%N -> call_ok (ex_post k (Some d)).
Proof. intros Hd. split_and!; [|done|intros ? [= <-]; done]. split_and!; [done|done|by vm_compute|by vm_compute]. Qed.
Lemma ex_send_ok k : Forall call_ok (ex_send k).
Proof.
  apply Forall_app. split; [apply ex_setup_ok|]. constructor; [by apply ex_post_ok|].
  constructor; [|done]. apply replicate_length.
Qed.
Lemma ex_p1_length : length ex_p1 = N.to_nat 2252. Proof. by vm_compute. Qed.
Lemma ex_p2_length : length ex_p2 = N.to_nat 2252. Proof. by vm_compute. Qed.
Lemma ex_p3_length : length ex_p3 = N.to_nat 2252. Proof. by vm_compute. Qed.
Lemma ex_q3_length : length ex_q3 = N.to_nat 2252. Proof. by vm_compute. Qed.
Lemma ex_receive_ok : Forall call_ok ex_receive.
Proof. apply Forall_app. split; [apply ex_setup_ok|]. constructor; [|done]. exact ex_p3_length. Qed.

(** The request arrives, and so does the reply, once. *)
Example ex_request_delivered :
  answer 24 ex_receive = Some (RespMessage (Some (MRequest (RequestMessage 0 ex_id [1; 2; 3]%N [ex_surb])))).
Proof. by vm_compute. Qed.
Example ex_reply_delivered :
  answer 8 (ex_send 8 ++ [CallHandle ex_q3 9%N]) = Some (RespMessage (Some (MReply (ReplyMessage ex_id [4; 5]%N)))) /\
  answer 8 (ex_send 8 ++ [CallHandle ex_q3 9%N; CallHandle ex_q3 10%N]) = Some (RespMessage None).
Proof. by vm_compute. Qed.

(** ** Checks on states *)
Definition on_current (m : mixnet) (f : session -> bool) : bool :=
  match ss_current (mx_sessions m) with SlFull s => f s | _ => false end.
Definition reads_b (m : mixnet) (p : bytes) : bool :=
  on_current m (fun s => negb (bool_decide (PHandle.seen toy_prims s p)) && bool_decide (opens toy_prims s p)).
Lemma reads_b_spec m p :
  reads_b m p = true -> exists s, ss_current (mx_sessions m) = SlFull s /\ reads toy_prims (mx_sessions m) p RCurrent s.
Proof.
  unfold reads_b, on_current. destruct (ss_current (mx_sessions m)) as [| | |s] eqn:E; try done.
  intros [H1 H2]%andb_true_iff. apply negb_true_iff, bool_decide_eq_false in H1. apply bool_decide_eq_true in H2.
  exists s. split; [done|]. by apply ReadsCurrent.
Qed.
Definition acts_b (m : mixnet) (p : bytes) : bool :=
  reads_b m p && on_current m (fun s => bool_decide (is_mixnode s) &&
    match content_of toy_prims s p with
    | CtForward _ _ _ => bool_decide (has_room m)
    | CtRequest _ => true
    | _ => false
    end).
Lemma acts_b_spec m p : acts_b m p = true -> exists s, acts toy_prims m RCurrent s p.
Proof.
  unfold acts_b. intros [H1 H2]%andb_true_iff. destruct (reads_b_spec _ _ H1) as (s & E & Hr). exists s.
  unfold on_current in H2. rewrite E in H2. apply andb_true_iff in H2 as [H2 H3]. apply bool_decide_eq_true in H2.
  split_and!; [done|done|]. destruct (content_of toy_prims s p); try done. by apply bool_decide_eq_true in H3.
Qed.
(** The call returns and [f] holds of what it returns. *)
Definition returns (m : mixnet) (c : call) (f : mixnet -> resp -> bool) : bool :=
  match exec toy_prims m c with Val (m1, a) => f m1 a | Panic => false end.
Lemma returns_spec m c f :
  returns m c f = true -> exists m1 a, exec toy_prims m c = Val (m1, a) /\ f m1 a = true.
Proof. unfold returns. destruct (exec _ _ _) as [[m1 a]|]; [by eauto|done]. Qed.

(** ** C18: node 32 acts on the first packet, then the session becomes the previous one *)
Definition ex_next_status : session_status := SessionStatus 1 PCoverToCurrent.
Example C18_example : exists hist m s m1 a m2,
  reachable toy_prims (ex_config 32) hist m /\ acts toy_prims m RCurrent s ex_p1 /\
  exec toy_prims m (CallHandle ex_p1 5%N) = Val (m1, a) /\
  follows toy_prims m1 RCurrent [(CallSetStatus ex_next_status, RespUnit)] m2 RPrev.
Proof.
  destruct (after_reachable 32 ex_setup (fun m => acts_b m ex_p1 && returns m (CallHandle ex_p1 5%N) (fun m1 _ =>
    bool_decide (mx_status m1 = SessionStatus 0 PRequestsToCurrent)))) as (hist & m & Hr & H).
  { apply ex_setup_ok. }
  { by vm_compute. }
  apply andb_true_iff in H as [Ha He]. destruct (acts_b_spec _ _ Ha) as [s Hs].
  destruct (returns_spec _ _ _ He) as (m1 & a & E & Hst). apply bool_decide_eq_true in Hst.
  exists hist, m, s, m1, a, (set_session_status m1 ex_next_status). split_and!; try done.
  econstructor; [done|done| |constructor]. cbn [carried]. rewrite Hst. split; [by right|done].
Qed.

(** ** C19: node 8 receives the reply *)
Definition decrypts_b (m : mixnet) (p : bytes) : bool :=
  reads_b m p && on_current m (fun s =>
    match content_of toy_prims s p with
    | CtReply id _ => bool_decide (is_Some (sk_entry (mx_keystore m) id))
    | _ => false
    end).
Example C19_example : exists hist m m1 a id,
  reachable toy_prims (ex_config 8) hist m /\ decrypts toy_prims m ex_q3 id /\
  exec toy_prims m (CallHandle ex_q3 9%N) = Val (m1, a).
Proof.
  destruct (after_reachable 8 (ex_send 8) (fun m => decrypts_b m ex_q3 && returns m (CallHandle ex_q3 9%N) (fun _ _ => true)))
    as (hist & m & Hr & H).
  { apply ex_send_ok. }
  { by vm_compute. }
  apply andb_true_iff in H as [Hd He]. destruct (returns_spec _ _ _ He) as (m1 & a & E & _).
  apply andb_true_iff in Hd as [Hd1 Hd2]. destruct (reads_b_spec _ _ Hd1) as (s & Es & Hrd).
  unfold on_current in Hd2. rewrite Es in Hd2. destruct (content_of toy_prims s ex_q3) as [| |id pl| |] eqn:Ec; try done.
  apply bool_decide_eq_true in Hd2 as [v Hv].
  exists hist, m, m1, a, id. split_and!; [done| |done]. split; [by exists RCurrent, s, pl|by exists v].
Qed.

(** ** C21, C22: a packet is queued, the deadline changes, the packet leaves *)
Example C21_example :
  exists hist m, reachable toy_prims (ex_config 32) hist m /\
    exists m1 a m2 p, exec toy_prims m (CallHandle ex_p1 5%N) = Val (m1, a) /\
      fq_next_deadline (mx_forward m) = None /\ is_Some (fq_next_deadline (mx_forward m1)) /\
      exec toy_prims m1 (CallPopForward 0) = Val (m2, RespPacket (Some p)) /\ ap_packet p = ex_p2.
Proof.
  destruct (after_reachable 32 ex_setup (fun m =>
    bool_decide (fq_next_deadline (mx_forward m) = None) && returns m (CallHandle ex_p1 5%N) (fun m1 _ =>
    bool_decide (is_Some (fq_next_deadline (mx_forward m1))) && returns m1 (CallPopForward 0) (fun m2 a =>
      match a with RespPacket (Some p) => bool_decide (ap_packet p = ex_p2) | _ => false end))))
    as (hist & m & Hr & H).
  { apply ex_setup_ok. }
  { by vm_compute. }
  apply andb_true_iff in H as [H1 H]. apply bool_decide_eq_true in H1.
  destruct (returns_spec _ _ _ H) as (m1 & a & E1 & H2). apply andb_true_iff in H2 as [H2 H3].
  apply bool_decide_eq_true in H2. destruct (returns_spec _ _ _ H3) as (m2 & a2 & E2 & H4).
  destruct a2 as [| | | |[p|]| | |]; try done. apply bool_decide_eq_true in H4.
  exists hist, m. split; [done|]. by exists m1, a, m2, p.
Qed.

(** ** C23, C24: the queue of node 8 gets a packet, and gets empty *)
Global Instance room_dec s k : Decision (room s k).
Proof.
  unfold room, fits. destruct (decide (N.of_nat (length (aq_queue (se_authored s))) + k <= apc_capacity (aq_config (se_authored s)))%N).
  - destruct (apc_multiple_messages (aq_config (se_authored s))); [left; by split|].
    destruct (decide (N.of_nat (length (aq_queue (se_authored s))) = 0%N)); [left; by split|right; intros [_ H]; auto].
  - right. by intros [? _].
Defined.
Example C24_example :
  exists hist m s m1 a s1, reachable toy_prims (ex_config 8) hist m /\
    ss_get (mx_sessions m) RCurrent = SlFull s /\ length (aq_queue (se_authored s)) = 1 /\ ~ room s 50 /\
    follows toy_prims m RCurrent [(CallPopAuthored (ex_ns 8) ex_big, a)] m1 RCurrent /\
    ss_get (mx_sessions m1) RCurrent = SlFull s1 /\ aq_queue (se_authored s1) = [] /\ room s1 50.
Proof.
  destruct (after_reachable 8 (ex_setup ++ [ex_post 8 (Some 2%N)]) (fun m => on_current m (fun s =>
    bool_decide (length (aq_queue (se_authored s)) = 1) && (bool_decide (~ room s 50) &&
    returns m (CallPopAuthored (ex_ns 8) ex_big) (fun m1 _ => on_current m1 (fun s1 =>
      match aq_queue (se_authored s1) with [] => true | _ => false end && bool_decide (room s1 50)))))))
    as (hist & m & Hr & H).
  { apply Forall_app. split; [apply ex_setup_ok|]. constructor; [by apply ex_post_ok|done]. }
  { by vm_compute. }
  unfold on_current in H. destruct (ss_current (mx_sessions m)) as [| | |s] eqn:Es; try done.
  apply andb_true_iff in H as [H1 H]. apply andb_true_iff in H as [H2 H].
  apply bool_decide_eq_true in H1, H2. destruct (returns_spec _ _ _ H) as (m1 & a & E & H3).
  destruct (ss_current (mx_sessions m1)) as [| | |s1] eqn:Es1; try done.
  apply andb_true_iff in H3 as [H3 H4]. apply bool_decide_eq_true in H4.
  destruct (aq_queue (se_authored s1)) eqn:Eq; [|done].
  exists hist, m, s, m1, a, s1. split_and!; try done.
  econstructor; [apply replicate_length|exact E|reflexivity|constructor].
Qed.

(** ** C31: keys of node 8 over three sessions *)
Definition ex_keys1 : list call := [CallNextKx ex_r].
Definition ex_keys2 : list call :=
  [CallSetStatus (SessionStatus 1 PRequestsToCurrent); CallSetMixnodes RCurrent (Ok ex_nodes) ex_big;
   CallNextKx ex_small; CallSetStatus (SessionStatus 2 PRequestsToCurrent);
   CallSetMixnodes RPrev (Ok ex_nodes) ex_big; CallSetMixnodes RCurrent (Ok ex_nodes) ex_big].
Lemma ex_keys_ok : Forall call_ok ex_keys1 /\ Forall call_ok ex_keys2.
Proof. split; repeat (constructor; [(done || (cbn; repeat constructor))|]); constructor. Qed.
(** The key announced in session 0 is that of session 1, also when it is the previous session. *)
Example C31_example : exists m0 h1 m1 h2 m2 k,
  mx_new toy_prims (ex_config 8) = Val m0 /\ run toy_prims m0 h1 m1 /\ run toy_prims m1 h2 m2 /\
  NoDup (given (ex_config 8) ++ draws toy_prims m0 (h1 ++ h2)) /\ length (draws toy_prims m0 (h1 ++ h2)) = 2 /\
  (st_current_index (mx_status m1) = 0 /\ st_current_index (mx_status m2) = 2)%N /\
  holds m1 k 1 /\ holds m2 k 1.
Proof.
  set (k := (gen_kx_secret ex_r).1).
  assert (H : match mx_new toy_prims (ex_config 8) with
    | Panic => false
    | Val m0 => match play m0 ex_keys1 with
      | None => false
      | Some (h1, m1) => match play m1 ex_keys2 with
        | None => false
        | Some (h2, m2) =>
            bool_decide (NoDup (given (ex_config 8) ++ draws toy_prims m0 (h1 ++ h2))) &&
            (bool_decide (length (draws toy_prims m0 (h1 ++ h2)) = 2) &&
            (bool_decide (st_current_index (mx_status m1) = 0 /\ st_current_index (mx_status m2) = 2)%N &&
            (bool_decide (secret_at m1 AtNext = Some k) && bool_decide (secret_at m2 AtPrev = Some k))))
        end end end = true) by (by vm_compute).
  destruct (mx_new toy_prims (ex_config 8)) as [m0|]; [|done].
  destruct (play m0 ex_keys1) as [[h1 m1]|] eqn:E1; [|done].
  destruct (play m1 ex_keys2) as [[h2 m2]|] eqn:E2; [|done].
  apply andb_true_iff in H as [H1%bool_decide_eq_true H]. apply andb_true_iff in H as [H2%bool_decide_eq_true H].
  apply andb_true_iff in H as [H3%bool_decide_eq_true H].
  apply andb_true_iff in H as [H4%bool_decide_eq_true H5%bool_decide_eq_true].
  destruct ex_keys_ok as [Ho1 Ho2]. pose proof (play_run _ _ _ _ Ho1 E1) as R1. pose proof (play_run _ _ _ _ Ho2 E2) as R2.
  exists m0, h1, m1, h2, m2, k. split_and!; try done; try (by destruct H3).
  - exists AtNext. split; [done|]. destruct H3 as [E _]. cbn. by rewrite E.
  - exists AtPrev. split; [done|]. destruct H3 as [_ E]. cbn. by rewrite E.
Qed.

(** ** C32, C34 *)
Example C32_example :
  exists hist m m1 rq, reachable toy_prims (ex_config 24) hist m /\
    exec toy_prims m (CallHandle ex_p3 5%N) = Val (m1, RespMessage (Some (MRequest rq))) /\ rq_session_index rq = 0%N.
Proof.
  destruct (after_reachable 24 ex_setup (fun m => returns m (CallHandle ex_p3 5%N) (fun _ a =>
    match a with RespMessage (Some (MRequest rq)) => (rq_session_index rq =? 0)%N | _ => false end)))
    as (hist & m & Hr & H).
  { apply ex_setup_ok. }
  { by vm_compute. }
  destruct (returns_spec _ _ _ H) as (m1 & a & E & Ha). destruct a as [| | |[[rq|]|]| | | |]; try done.
  exists hist, m, m1, rq. split_and!; [done|done|by apply N.eqb_eq].
Qed.
(** A node with the key of a mixnode, and one without: node 40. *)
Example C34_example :
  (exists hist m, reachable toy_prims (ex_config 8) hist m /\ open_slot (ss_get (mx_sessions m) RCurrent) /\
     own_public toy_prims (ss_get (mx_sessions m) RCurrent) ex_r ∈ map mn_kx_public (take (N.to_nat 65280) ex_nodes)) /\
  (exists hist m, reachable toy_prims (ex_config 40) hist m /\ open_slot (ss_get (mx_sessions m) RCurrent) /\
     own_public toy_prims (ss_get (mx_sessions m) RCurrent) ex_r ∉ map mn_kx_public (take (N.to_nat 65280) ex_nodes)).
Proof.
  assert (Hopen : forall sl, match sl with SlKxPair _ => true | _ => false end = true -> open_slot sl).
  { intros []; try done. right. by eexists. }
  split.
  - destruct (after_reachable 8 [] (fun m => match ss_current (mx_sessions m) with SlKxPair _ => true | _ => false end &&
      bool_decide (own_public toy_prims (ss_current (mx_sessions m)) ex_r ∈ map mn_kx_public (take (N.to_nat 65280) ex_nodes))))
      as (hist & m & Hr & H); [done|by vm_compute|].
    apply andb_true_iff in H as [H1 H2%bool_decide_eq_true]. exists hist, m. split_and!; [done|by apply Hopen|done].
  - destruct (after_reachable 40 [] (fun m => match ss_current (mx_sessions m) with SlKxPair _ => true | _ => false end &&
      negb (bool_decide (own_public toy_prims (ss_current (mx_sessions m)) ex_r ∈ map mn_kx_public (take (N.to_nat 65280) ex_nodes)))))
      as (hist & m & Hr & H); [done|by vm_compute|].
    apply andb_true_iff in H as [H1 H2%negb_true_iff%bool_decide_eq_false]. exists hist, m. split_and!; [done|by apply Hopen|done].
Qed.

(** ** C33: the reserved peers of node 8 change *)
Example C33_example :
  exists m0 hist m, mx_new toy_prims (ex_config 8) = Val m0 /\ run toy_prims m0 hist m /\ untaken hist /\
    reserved_peers m0 = Val [] /\ exists p l, reserved_peers m = Val (p :: l).
Proof.
  destruct (mx_new toy_prims (ex_config 8)) as [m0|] eqn:E0; [|by vm_compute in E0].
  assert (H : match mx_new toy_prims (ex_config 8) with
    | Panic => false
    | Val m0 => match play m0 ex_setup with
      | None => false
      | Some (h, m) => match reserved_peers m0, reserved_peers m with Val [], Val (_ :: _) => true | _, _ => false end
      end end = true) by (by vm_compute).
  rewrite E0 in H. destruct (play m0 ex_setup) as [[h m]|] eqn:E; [|done].
  destruct (reserved_peers m0) as [[|]|] eqn:Ep0; try done. destruct (reserved_peers m) as [[|p l]|] eqn:Ep; try done.
  exists m0, h, m. split_and!; [done|by eapply play_run, E; apply ex_setup_ok| |done|by exists p, l].
  cbn [ex_setup play] in E. destruct (exec _ _ _) as [[m1 a1]|]; [|done]. destruct (exec _ _ _) as [[m2 a2]|]; [|done].
  injection E as <- _. by repeat constructor.
Qed.

(** ** C36: the panic *)

(** In a reachable state of a well-configured node, a request to a mixnode that does not exist panics;
    the same request to one that exists is accepted. *)
Theorem C36_refuted :
  exists hist m s, reachable toy_prims (ex_config 8) hist m /\ usable m 0 RCurrent s /\
    call_ok (ex_post 8 (Some 9%N)) /\ ~ (N.to_nat 9 < length (tp_mixnodes (se_topology s))) /\
    exec toy_prims m (ex_post 8 (Some 9%N)) = Panic /\
    exists m' metrics, exec toy_prims m (ex_post 8 (Some 2%N)) = Val (m', RespPost (Some 2%N) (Ok metrics)).
Proof.
  destruct (after_reachable 8 ex_setup (fun m => on_current m (fun s =>
      bool_decide (mx_status m = SessionStatus 0 PRequestsToCurrent) &&
      (bool_decide (length (tp_mixnodes (se_topology s)) = 4) &&
      (match exec toy_prims m (ex_post 8 (Some 9%N)) with Panic => true | Val _ => false end &&
       match exec toy_prims m (ex_post 8 (Some 2%N)) with
       | Val (_, RespPost (Some d) (Ok _)) => (d =? 2)%N | _ => false end))))) as (hist & m & Hr & H).
  { apply ex_setup_ok. }
  { by vm_compute. }
  unfold on_current in H. destruct (ss_current (mx_sessions m)) as [| | |s] eqn:Es; try discriminate H.
  apply andb_true_iff in H as [H1%bool_decide_eq_true H]. apply andb_true_iff in H as [H2%bool_decide_eq_true H].
  apply andb_true_iff in H as [H3 H4]. exists hist, m, s. 
  split; [exact Hr|]. split; [split; [rewrite H1; constructor; left; reflexivity|exact Es]|].
  split; [by apply ex_post_ok|]. split; [rewrite H2; lia|]. split.
  - destruct (exec toy_prims m (ex_post 8 (Some 9%N))); [discriminate H3|reflexivity].
  - destruct (exec toy_prims m (ex_post 8 (Some 2%N))) as [[m' a]|]; [|discriminate H4].
    destruct a as [| | | | |[d|] [mt|]| |]; try discriminate H4. apply N.eqb_eq in H4 as ->.
    exists m', mt. reflexivity.
Qed.

(** ** C37: a reply is not all or nothing *)

(** A reply of two packets, with a good SURB and one that is not valid: the call fails, but the first
    packet stays in the queue. *)
Definition ex_bad_surb : bytes := replicate 222 255%N.
Definition ex_long : scattered N := Scattered (N.to_nat 3000) (replicate (N.to_nat 3000) 1%N) [] [].
Definition ex_bad_reply : call := CallPostReply [ex_bad_surb; ex_surb] 0 (replicate 16 7%N) ex_long.
Lemma ex_bad_reply_ok : call_ok ex_bad_reply.
Proof.
  split.
  - split; [apply replicate_length|]. split; [by vm_compute|]. split; by vm_compute.
  - constructor; [apply replicate_length|]. constructor; [by vm_compute|constructor].
Qed.
Theorem C37_refuted :
  exists hist m s m' s' left, reachable toy_prims (ex_config 24) hist m /\ call_ok ex_bad_reply /\
    ss_get (mx_sessions m) RCurrent = SlFull s /\ aq_queue (se_authored s) = [] /\
    exec toy_prims m ex_bad_reply = Val (m', RespReply left (Err PeBadSurb)) /\
    ss_get (mx_sessions m') RCurrent = SlFull s' /\ length (aq_queue (se_authored s')) = 1 /\ m' <> m.
Proof.
  destruct (after_reachable 24 ex_receive (fun m => on_current m (fun s =>
      match aq_queue (se_authored s) with [] => true | _ => false end &&
      returns m ex_bad_reply (fun m' a =>
        match a with RespReply _ (Err PeBadSurb) => true | _ => false end &&
        on_current m' (fun s' => bool_decide (length (aq_queue (se_authored s')) = 1)))))) as (hist & m & Hr & H).
  { apply ex_receive_ok. }
  { by vm_compute. }
  unfold on_current in H. destruct (ss_current (mx_sessions m)) as [| | |s] eqn:Es; try discriminate H.
  apply andb_true_iff in H as [H1 H]. destruct (returns_spec _ _ _ H) as (m' & a & E & H2).
  apply andb_true_iff in H2 as [H2 H3]. destruct (ss_current (mx_sessions m')) as [| | |s'] eqn:Es'; try discriminate H3.
  apply bool_decide_eq_true in H3. destruct a as [| | | | | |left [[]|e]|]; try discriminate H2. destruct e; try discriminate H2.
  destruct (aq_queue (se_authored s)) eqn:Eq; [|discriminate H1].
  exists hist, m, s, m', s', left.
  split; [exact Hr|]. split; [exact ex_bad_reply_ok|]. split; [exact Es|]. split; [exact Eq|].
  split; [exact E|]. split; [exact Es'|]. split; [exact H3|].
  intros ->. rewrite Es in Es'. injection Es' as <-. rewrite Eq in H3. discriminate H3.
Qed.

(** ** C39: a queued packet, a loop cover packet *)
Example C39_example :
  exists hist m s, reachable toy_prims (ex_config 8) hist m /\ ss_get (mx_sessions m) RCurrent = SlFull s /\
    length (aq_queue (se_authored s)) = 1 /\
    (exists m1 p, exec toy_prims m (CallPopAuthored (ex_ns 8) ex_big) = Val (m1, RespPacket (Some p)) /\
                  aq_queue (se_authored s) = [p]) /\
    (exists m1 p, exec toy_prims m (CallPopAuthored (ex_ns 8) ex_small) = Val (m1, RespPacket (Some p)) /\
                  aq_queue (se_authored s) <> [p]).
Proof.
  destruct (after_reachable 8 (ex_setup ++ [ex_post 8 (Some 2%N)]) (fun m => on_current m (fun s =>
    match aq_queue (se_authored s) with
    | [p0] =>
        returns m (CallPopAuthored (ex_ns 8) ex_big) (fun _ a =>
          match a with RespPacket (Some p) => bool_decide (ap_packet p = ap_packet p0) &&
                                              bool_decide (ap_peer_id p = ap_peer_id p0) | _ => false end) &&
        returns m (CallPopAuthored (ex_ns 8) ex_small) (fun _ a =>
          match a with RespPacket (Some p) => negb (bool_decide (ap_packet p = ap_packet p0)) | _ => false end)
    | _ => false end))) as (hist & m & Hr & H).
  { apply Forall_app. split; [apply ex_setup_ok|]. constructor; [by apply ex_post_ok|done]. }
  { by vm_compute. }
  unfold on_current in H. destruct (ss_current (mx_sessions m)) as [| | |s] eqn:Es; try done.
  destruct (aq_queue (se_authored s)) as [|p0 [|]] eqn:Eq; try done.
  apply andb_true_iff in H as [H1 H2]. destruct (returns_spec _ _ _ H1) as (m1 & a1 & E1 & F1).
  destruct (returns_spec _ _ _ H2) as (m2 & a2 & E2 & F2).
  destruct a1 as [| | | |[p|]| | |]; try done. destruct a2 as [| | | |[q|]| | |]; try done.
  apply andb_true_iff in F1 as [F1%bool_decide_eq_true F1'%bool_decide_eq_true].
  apply negb_true_iff, bool_decide_eq_false in F2.
  exists hist, m, s. rewrite Eq. split_and!; [done|done|done| |].
  - exists m1, p. split; [done|]. destruct p, p0; cbn in *; by subst.
  - exists m2, q. split; [done|]. by intros [= ->].
Qed.

(** ** C10: a drop cover packet from node 8 reaches node 16 through 32 and 24 *)
Definition ex_drop : rng := Rng (fun i => match i with O => 2 ^ 63 | S j => N.of_nat j end)%N 0.
Definition ex_c1 : bytes := Eval vm_compute in ex_packet (answer 8 (ex_setup ++ [CallPopAuthored (ex_ns 8) ex_drop])).
Definition ex_c2 : bytes := Eval vm_compute in ex_packet (answer 32 (ex_hop ex_c1)).
Definition ex_c3 : bytes := Eval vm_compute in ex_packet (answer 24 (ex_hop ex_c2)).
Example C10_example :
  exists hist m s, reachable toy_prims (ex_config 16) hist m /\ length ex_c3 = N.to_nat 2252 /\
    reads toy_prims (mx_sessions m) ex_c3 RCurrent s /\
    exists out, length out = N.to_nat 2252 /\
      (peel toy_prims out ex_c3 (shared toy_prims s ex_c3)).2 = Ok (ADeliverCover None).
Proof.
  destruct (after_reachable 16 ex_setup (fun m => reads_b m ex_c3 && on_current m (fun s =>
    match (peel toy_prims ex_c3 ex_c3 (shared toy_prims s ex_c3)).2 with Ok (ADeliverCover None) => true | _ => false end)))
    as (hist & m & Hr & H).
  { apply ex_setup_ok. }
  { by vm_compute. }
  apply andb_true_iff in H as [H1 H2]. destruct (reads_b_spec _ _ H1) as (s & Es & Hrd).
  unfold on_current in H2. rewrite Es in H2. assert (Hl : length ex_c3 = N.to_nat 2252) by (by vm_compute).
  exists hist, m, s. split; [exact Hr|]. split; [exact Hl|]. split; [exact Hrd|]. exists ex_c3. split; [exact Hl|].
  destruct (peel toy_prims ex_c3 ex_c3 (shared toy_prims s ex_c3)).2 as [[| | |[]]|] eqn:E; try discriminate H2. reflexivity.
Qed.

(** ** C38: node 40, not a mixnode, gets a reply to its request *)
Definition ex_n1 : bytes := Eval vm_compute in ex_packet (answer 40 (ex_send 40)).
Definition ex_n2 : bytes := Eval vm_compute in ex_packet (answer 32 (ex_hop ex_n1)).
Definition ex_n3 : bytes := Eval vm_compute in ex_packet (answer 8 (ex_hop ex_n2)).
Definition ex_surb2 : bytes := Eval vm_compute in
  match ex_message (answer 24 (ex_setup ++ [CallHandle ex_n3 5%N])) with
  | Some (MRequest rq) => nth 0 (rq_surbs rq) [] | _ => [] end.
Definition ex_o1 : bytes := Eval vm_compute in ex_packet (answer 24 (ex_setup ++
  [CallPostReply [ex_surb2] 0 (replicate 16 7%N) (Scattered 2 [4; 5]%N [] []); CallPopAuthored (ex_ns 24) ex_big])).
Definition ex_o2 : bytes := Eval vm_compute in ex_packet (answer 8 (ex_hop ex_o1)).
Definition ex_o3 : bytes := Eval vm_compute in ex_packet (answer 32 (ex_hop ex_o2)).
Example C38_example :
  exists hist m s m' rp, reachable toy_prims (ex_config 40) hist m /\ length ex_o3 = N.to_nat 2252 /\
    reads toy_prims (mx_sessions m) ex_o3 RCurrent s /\ tp_is_mixnode (se_topology s) = false /\
    handle_packet toy_prims m ex_o3 5 = Val (m', Some (MReply rp)).
Proof.
  destruct (after_reachable 40 (ex_send 40) (fun m => reads_b m ex_o3 && (on_current m (fun s =>
    negb (tp_is_mixnode (se_topology s))) &&
    match handle_packet toy_prims m ex_o3 5 with Val (_, Some (MReply _)) => true | _ => false end)))
    as (hist & m & Hr & H).
  { apply ex_send_ok. }
  { by vm_compute. }
  apply andb_true_iff in H as [H1 H2]. apply andb_true_iff in H2 as [H2 H3].
  destruct (reads_b_spec _ _ H1) as (s & Es & Hrd). unfold on_current in H2. rewrite Es in H2.
  destruct (handle_packet toy_prims m ex_o3 5) as [[m' [[rq|rp]|]]|] eqn:E; try discriminate H3.
  exists hist, m, s, m', rp. split; [exact Hr|]. split; [by vm_compute|]. split; [exact Hrd|].
  split; [by apply negb_true_iff|first [exact E|reflexivity]].
Qed.
(** A full forward queue: that of a node which forwards nothing. *)
Example C38_queue_full_example :
  exists m s t d next, reads toy_prims (mx_sessions m) ex_p1 RCurrent s /\ content_of toy_prims s ex_p1 = CtForward t d next /\
    (fq_capacity (mx_forward m) <= N.of_nat (length (fq_queue (mx_forward m))))%N.
Proof.
  destruct (after_reachable 32 ex_setup (fun m => reads_b (mx_set_forward m (fq_new 0)) ex_p1 && on_current m (fun s =>
    match content_of toy_prims s ex_p1 with CtForward _ _ _ => true | _ => false end))) as (hist & m & Hr & H).
  { apply ex_setup_ok. }
  { by vm_compute. }
  apply andb_true_iff in H as [H1 H2]. destruct (reads_b_spec _ _ H1) as (s & Es & Hrd).
  unfold on_current in H2. cbn in Es. rewrite Es in H2.
  destruct (content_of toy_prims s ex_p1) as [t d next| | | |] eqn:Ec; try discriminate H2.
  exists (mx_set_forward m (fq_new 0)), s, t, d, next. split; [exact Hrd|]. split; [exact Ec|]. cbn. lia.
Qed.
(** A packet of zeros is read by nobody. *)
Example C38_unreadable_example :
  exists hist m s, reachable toy_prims (ex_config 32) hist m /\ ss_current (mx_sessions m) = SlFull s /\
    forall rel s, ~ reads toy_prims (mx_sessions m) (replicate (N.to_nat 2252) 0%N) rel s.
Proof.
  destruct (after_reachable 32 ex_setup (fun m => on_current m (fun s =>
     negb (bool_decide (opens toy_prims s (replicate (N.to_nat 2252) 0%N)))) &&
     match ss_prev (mx_sessions m) with SlFull _ => false | _ => true end)) as (hist & m & Hr & H).
  { apply ex_setup_ok. }
  { by vm_compute. }
  apply andb_true_iff in H as [H1 H2]. unfold on_current in H1.
  destruct (ss_current (mx_sessions m)) as [| | |s] eqn:Es;
    [discriminate H1|discriminate H1|discriminate H1|].
  apply negb_true_iff, bool_decide_eq_false in H1. exists hist, m, s. split; [exact Hr|]. split; [exact Es|].
  intros rel s' Hrd. pose proof (reads_get _ _ _ _ _ Hrd) as Hg. destruct (reads_opens _ _ _ _ _ Hrd) as [_ Ho].
  destruct rel; cbn in Hg; [rewrite Es in Hg; injection Hg as <-; exact (H1 Ho)|rewrite Hg in H2; discriminate H2].
Qed.

(** ** C30, C35, C37: requests and replies that are accepted or refused *)
Example C35_example :
  exists hist m m' metrics, reachable toy_prims (ex_config 8) hist m /\
    exec toy_prims m (ex_post 8 (Some 2%N)) = Val (m', RespPost (Some 2%N) (Ok metrics)) /\
    rqm_num_hops metrics = 6.
Proof.
  destruct (after_reachable 8 ex_setup (fun m => returns m (ex_post 8 (Some 2%N)) (fun _ a =>
    match a with RespPost (Some d) (Ok mt) => (d =? 2)%N && (rqm_num_hops mt =? 6)%nat | _ => false end)))
    as (hist & m & Hr & H).
  { apply ex_setup_ok. }
  { by vm_compute. }
  destruct (returns_spec _ _ _ H) as (m' & a & E & Ha).
  destruct a as [| | | | |[d|] [mt|]| |]; try discriminate Ha. apply andb_true_iff in Ha as [Ha1 Ha2].
  apply N.eqb_eq in Ha1 as ->. apply Nat.eqb_eq in Ha2.
  exists hist, m, m', mt. split; [exact Hr|]. split; [exact E|exact Ha2].
Qed.
Example C30_example :
  exists hist m s, reachable toy_prims (ex_config 8) hist m /\ usable m 0 RCurrent s /\
    unusable m 1 (PeSessionNotActiveYet 1).
Proof.
  destruct (after_reachable 8 ex_setup (fun m => on_current m (fun s =>
      bool_decide (mx_status m = SessionStatus 0 PRequestsToCurrent)))) as (hist & m & Hr & H).
  { apply ex_setup_ok. }
  { by vm_compute. }
  unfold on_current in H. destruct (ss_current (mx_sessions m)) as [| | |s] eqn:Es; try discriminate H.
  apply bool_decide_eq_true in H. exists hist, m, s. split; [exact Hr|]. split.
  - split; [rewrite H; constructor; by left|exact Es].
  - apply UnFuture. rewrite H. left. cbn. lia.
Qed.
Example C37_example :
  exists hist m m', reachable toy_prims (ex_config 24) hist m /\
    exec toy_prims m (CallPostReply [ex_surb] 0 (replicate 16 7%N) (Scattered 2 [4; 5]%N [] [])) = Val (m', RespReply [] (Ok tt)).
Proof.
  destruct (after_reachable 24 ex_receive (fun m =>
    returns m (CallPostReply [ex_surb] 0 (replicate 16 7%N) (Scattered 2 [4; 5]%N [] [])) (fun _ a =>
      match a with RespReply [] (Ok _) => true | _ => false end))) as (hist & m & Hr & H).
  { apply ex_receive_ok. }
  { by vm_compute. }
  destruct (returns_spec _ _ _ H) as (m' & a & E & Ha). destruct a as [| | | | | |[|] [[]|]|]; try discriminate Ha.
  exists hist, m, m'. split; [exact Hr|exact E].
Qed.

Print Assumptions C36_refuted.
Print Assumptions C37_refuted.
Print Assumptions C10_no_effect.
Print Assumptions C38_non_mixnode.
Print Assumptions C38_queue_full.
Print Assumptions C38_unreadable.
Print Assumptions C30_post_session.
Print Assumptions C30_post_request.
Print Assumptions C30_post_reply.
Print Assumptions C35_post_request.
Print Assumptions C37_post_reply.
Print Assumptions C37_counts.
Print Assumptions C18_once.
Print Assumptions C23_fifo.
Print Assumptions C24_history.
Print Assumptions C19_once.
Print Assumptions C21_step.
Print Assumptions C21_node.
Print Assumptions C22_deadline.
Print Assumptions C32_index.
Print Assumptions C32_set_mixnodes.
Print Assumptions C32_handle.
Print Assumptions C32_delivered.
Print Assumptions C32_prev.
Print Assumptions C33_events.
Print Assumptions C34_kept.
Print Assumptions C34_set.
Print Assumptions C34_once.
Print Assumptions C34_disabled.
Print Assumptions C36_not_accepted.
Print Assumptions C39_pop.
Print Assumptions C19_origin.
Print Assumptions C31_one_session.
Print Assumptions C31_dropped.
Print Assumptions C31_left_behind.
Print Assumptions C31_stable.
Print Assumptions C31_handover.
Print Assumptions C31_used.
