(** Concrete cases for C58: a request that is posted again after the session has become the previous
    one, a clash of SURB ids, and a session index that goes back. *)
From stdpp Require Import relations.
From Verif Require Import PManaged Toy PExample PRateEx.
Local Open Scope N_scope.

(** [host_step] without the condition that the session index never decreases. *)
Inductive loose_step (pr : prims) : host -> host -> Prop :=
| LooseNode m rm c m' a :
    call_ok c -> exec pr m c = Val (m', a) -> loose_step pr (m, rm) (m', rm)
| LooseManager w rm c rm' w' d' a :
    length (ns_local_peer_id (w_ns w)) = 32%nat -> acceptable rm c ->
    call_manager pr rm (w, []) c = Val (rm', (w', d'), a) ->
    loose_step pr (w_mixnet w, rm) (w_mixnet w', rm').
Definition loose_reach (pr : prims) (cf : config) (rcf : rm_config) (s : host) : Prop :=
  exists m0 w, mx_new pr cf = Val m0 /\ rtc (loose_step pr) (m0, (rqm_new w_now rcf w).1) s.

Inductive hop := HNode (c : call) | HManager (tape : nat -> N) (c : rm_call user_request).
Definition host_world (m : mixnet) (tape : nat -> N) : world :=
  World m (ex_ns 40) (fun i => Rng (fun j => tape (i + j)%nat) 0) 0 (fun i => N.of_nat i) 0.
Definition hop_ok (o : hop) : Prop :=
  match o with HNode c => call_ok c | HManager _ (RmInsert r) => request_ok r | _ => True end.
Definition space_ok (rm : request_manager user_request) (c : rm_call user_request) : bool :=
  match c with RmInsert _ => rqm_has_space rm | _ => true end.
Definition play_hop (s : host) (o : hop) : option host :=
  match o with
  | HNode c => match exec toy_prims s.1 c with Val (m, _) => Some (m, s.2) | Panic => None end
  | HManager tape c =>
      if space_ok s.2 c then
        match call_manager toy_prims s.2 (host_world s.1 tape, []) c with
        | Val (rm, (w, _), _) => Some (w_mixnet w, rm)
        | Panic => None
        end
      else None
  end.
Fixpoint play_hops (s : host) (l : list hop) : option host :=
  match l with
  | [] => Some s
  | o :: l => match play_hop s o with Some s => play_hops s l | None => None end
  end.
(** The session index does not decrease. *)
Definition hop_forward (s : host) (o : hop) : bool :=
  match o with
  | HNode (CallSetStatus st) => st_current_index (mx_status s.1) <=? st_current_index st
  | _ => true
  end.
Fixpoint hops_forward (s : host) (l : list hop) : bool :=
  match l with
  | [] => true
  | o :: l => hop_forward s o && match play_hop s o with Some s => hops_forward s l | None => false end
  end.

Lemma space_acceptable tape rm c : hop_ok (HManager tape c) -> space_ok rm c = true -> acceptable rm c.
Proof. intros H1 H2 r ->. by split. Qed.
Lemma play_hop_loose s o s' : hop_ok o -> play_hop s o = Some s' -> loose_step toy_prims s s'.
Proof.
  destruct s as [m rm]. destruct o as [c|tape c]; cbn [play_hop fst snd]; intros Ho.
  - destruct (exec toy_prims m c) as [[m' a]|] eqn:E; [|discriminate]. intros [= <-]. eapply LooseNode; [exact Ho|exact E].
  - destruct (space_ok rm c) eqn:Es; [|discriminate].
    destruct (call_manager toy_prims rm (host_world m tape, []) c) as [[[rm' [w' d']] a]|] eqn:E; [|discriminate].
    intros [= <-]. eapply (LooseManager _ (host_world m tape)); [|eapply space_acceptable; [exact Ho|exact Es]|exact E].
    apply replicate_length.
Qed.
Lemma play_hop_host s o s' :
  hop_ok o -> hop_forward s o = true -> play_hop s o = Some s' -> host_step toy_prims s s'.
Proof.
  destruct s as [m rm]. destruct o as [c|tape c]; cbn [play_hop fst snd]; intros Ho Hf.
  - destruct (exec toy_prims m c) as [[m' a]|] eqn:E; [|discriminate]. intros [= <-].
    eapply HostNode; [exact Ho| |exact E]. intros st ->. by apply N.leb_le.
  - destruct (space_ok rm c) eqn:Es; [|discriminate].
    destruct (call_manager toy_prims rm (host_world m tape, []) c) as [[[rm' [w' d']] a]|] eqn:E; [|discriminate].
    intros [= <-]. eapply (HostManager _ (host_world m tape)); [|eapply space_acceptable; [exact Ho|exact Es]|exact E].
    apply replicate_length.
Qed.
Lemma play_hops_loose l : forall s s', Forall hop_ok l -> play_hops s l = Some s' -> rtc (loose_step toy_prims) s s'.
Proof.
  induction l as [|o l IH]; intros s s' Hl; cbn [play_hops]; [intros [= <-]; constructor|].
  apply Forall_cons in Hl as [Ho Hl]. destruct (play_hop s o) as [s1|] eqn:E; [|discriminate]. intros H.
  econstructor; [by eapply play_hop_loose|]. by apply IH.
Qed.
Lemma play_hops_host l : forall s s',
  Forall hop_ok l -> hops_forward s l = true -> play_hops s l = Some s' -> rtc (host_step toy_prims) s s'.
Proof.
  induction l as [|o l IH]; intros s s' Hl Hf; cbn [play_hops]; [intros [= <-]; constructor|].
  apply Forall_cons in Hl as [Ho Hl]. cbn [hops_forward] in Hf. apply andb_true_iff in Hf as [Hf1 Hf].
  destruct (play_hop s o) as [s1|] eqn:E; [|discriminate]. intros H.
  econstructor; [by eapply play_hop_host|]. by apply IH.
Qed.

Definition host_cf : rm_config := RmConfig 5 2 2 1.
Definition host_start (f : host -> bool) : bool :=
  match mx_new toy_prims (ex_config 40) with
  | Val m => f (m, (rqm_new w_now host_cf (host_world m (fun _ => 0))).1)
  | Panic => false
  end.
Definition host_then (l : list hop) (f : host -> bool) (s : host) : bool :=
  match play_hops s l with Some s => f s | None => false end.
Lemma host_then_loose l f :
  Forall hop_ok l -> host_start (host_then l f) = true ->
  exists m rm, loose_reach toy_prims (ex_config 40) host_cf (m, rm) /\ f (m, rm) = true.
Proof.
  intros Hl. unfold host_start, host_then. destruct (mx_new toy_prims (ex_config 40)) as [m0|] eqn:Em; [|discriminate].
  set (s0 := (m0, _)). destruct (play_hops s0 l) as [[m rm]|] eqn:E; [|discriminate]. intros H.
  exists m, rm. split; [|exact H]. exists m0, (host_world m0 (fun _ => 0)). split; [exact Em|]. by eapply play_hops_loose.
Qed.
Lemma host_then_host l f :
  Forall hop_ok l -> host_start (fun s => hops_forward s l && host_then l f s) = true ->
  exists m rm, host_reach toy_prims (ex_config 40) host_cf (m, rm) /\ f (m, rm) = true.
Proof.
  intros Hl. unfold host_start, host_then. destruct (mx_new toy_prims (ex_config 40)) as [m0|] eqn:Em; [|discriminate].
  set (s0 := (m0, _)). intros H. apply andb_true_iff in H as [Hf H].
  destruct (play_hops s0 l) as [[m rm]|] eqn:E; [|discriminate].
  exists m, rm. split; [|exact H]. exists m0, (host_world m0 (fun _ => 0)). split; [exact Em|]. by eapply play_hops_host.
Qed.

(** A request without SURBs, and one with two. *)
Definition plain_request : user_request := UserRequest 1 ex_data 0 (fun _ => 1).
Definition surbs_request : user_request := UserRequest 2 ex_data 2 (fun _ => 1).
Lemma plain_request_ok : request_ok plain_request.
Proof. split_and!; [done|by vm_compute|by vm_compute|]. intros id. by vm_compute. Qed.
Lemma surbs_request_ok : request_ok surbs_request.
Proof. split_and!; [done|by vm_compute|by vm_compute|]. intros id. by vm_compute. Qed.
Definition steady : nat -> N := fun i => N.of_nat i * 7 + 3.

Definition to_session (i : N) : list hop :=
  [HNode (CallSetStatus (SessionStatus i PRequestsToCurrent)); HManager steady (RmUpdate (SessionStatus i PRequestsToCurrent))].
Definition host_setup : list hop :=
  to_session 2 ++ [HNode (CallSetMixnodes RCurrent (Ok ex_nodes) ex_r); HManager steady (RmInsert plain_request)].
Lemma to_session_ok i : Forall hop_ok (to_session i).
Proof. by repeat constructor. Qed.
Lemma nodes_ok n r : hop_ok (HNode (CallSetMixnodes RCurrent (Ok (take n ex_nodes)) r)).
Proof. cbn [hop_ok call_ok]. apply Forall_take. unfold ex_nodes. apply Forall_map. by repeat constructor. Qed.
Lemma host_setup_ok : Forall hop_ok host_setup.
Proof.
  apply Forall_app. split; [apply to_session_ok|]. constructor; [apply (nodes_ok 4)|].
  constructor; [exact plain_request_ok|done].
Qed.

(** The destinations of the requests to be retried *)
Definition waiting (s : host) : list (option N * option N) :=
  map (fun st => (rst_session_index st, rst_destination_index st)) (rqm_retry_queue s.2).

Definition is_panic (tape : nat -> N) (c : rm_call user_request) (s : host) : bool :=
  space_ok s.2 c &&
  match call_manager toy_prims s.2 (host_world s.1 tape, []) c with Panic => true | Val _ => false end.
Lemma is_panic_spec tape c m rm :
  hop_ok (HManager tape c) -> is_panic tape c (m, rm) = true ->
  acceptable rm c /\ call_manager toy_prims rm (host_world m tape, []) c = Panic.
Proof.
  intros Ho H. unfold is_panic in H. cbn [fst snd] in H. apply andb_true_iff in H as [H1 H2].
  split; [by eapply space_acceptable|].
  destruct (call_manager toy_prims rm (host_world m tape, []) c); [discriminate|reflexivity].
Qed.

(** In session 2 the request was posted to mixnode 2. In session 3 there are two mixnodes only, but
    the request is posted to mixnode 2 of session 2 again. *)
Definition next_hops : list hop :=
  host_setup ++ to_session 3 ++
  [HNode (CallSetMixnodes RCurrent (Ok (take 2 ex_nodes)) ex_r); HNode (CallPopAuthored (ex_ns 40) ex_big)].
Lemma next_hops_ok : Forall hop_ok next_hops.
Proof.
  apply Forall_app. split; [apply host_setup_ok|]. apply Forall_app. split; [apply to_session_ok|].
  constructor; [apply nodes_ok|]. constructor; [|done]. reflexivity.
Qed.
Definition two_left (s : host) : bool :=
  match ss_current (mx_sessions s.1) with SlFull s => (length (tp_mixnodes (se_topology s)) =? 2)%nat | _ => false end.
Example C58_example :
  (exists m rm, host_reach toy_prims (ex_config 40) host_cf (m, rm) /\
     waiting (m, rm) = [(Some 2, Some 2)] /\ two_left (m, rm) = true /\
     exists rm' w' d' a, call_manager toy_prims rm (host_world m steady, []) RmPop = Val (rm', (w', d'), a) /\
       waiting (w_mixnet w', rm') = [(Some 2, Some 2)] /\ length (rqm_log rm') = 2%nat) /\
  (exists m rm, host_reach toy_prims (ex_config 40) host_cf (m, rm) /\ acceptable rm (RmInsert surbs_request) /\
     call_manager toy_prims rm (host_world m (fun _ => 1), []) (RmInsert surbs_request) = Panic).
Proof.
  split.
  - destruct (host_then_host next_hops (fun s =>
      bool_decide (waiting s = [(Some 2, Some 2)]) && (two_left s &&
      match call_manager toy_prims s.2 (host_world s.1 steady, []) RmPop with
      | Val (rm, (w, _), _) => bool_decide (waiting (w_mixnet w, rm) = [(Some 2, Some 2)]) && (length (rqm_log rm) =? 2)%nat
      | Panic => false
      end)) next_hops_ok) as (m & rm & Hr & H).
    { vm_compute. reflexivity. }
    apply andb_true_iff in H as [H1 H]. apply andb_true_iff in H as [H2 H]. cbn [fst snd] in H.
    apply bool_decide_eq_true in H1. exists m, rm. split; [exact Hr|]. split; [exact H1|]. split; [exact H2|].
    destruct (call_manager toy_prims rm (host_world m steady, []) RmPop) as [[[rm' [w' d']] a]|]; [|discriminate].
    apply andb_true_iff in H as [H3 H4]. apply bool_decide_eq_true in H3. apply Nat.eqb_eq in H4.
    exists rm', w', d', a. split; [reflexivity|]. split; [exact H3|exact H4].
  - destruct (host_then_host (host_setup ++ [HNode (CallPopAuthored (ex_ns 40) ex_big)])
      (is_panic (fun _ => 1) (RmInsert surbs_request))) as (m & rm & Hr & H).
    { apply Forall_app. split; [apply host_setup_ok|]. constructor; [|done]. reflexivity. }
    { vm_compute. reflexivity. }
    apply is_panic_spec in H as [H1 H2]; [|exact surbs_request_ok].
    exists m, rm. split; [exact Hr|]. split; [exact H1|exact H2].
Qed.

(** The condition on the session index is needed. The index goes back to 0, then to 2 again, where only
    one mixnode is left; the request is posted to mixnode 2, which does not exist. No SURB id is drawn. *)
Definition back_hops : list hop :=
  host_setup ++ to_session 0 ++ to_session 2 ++ [HNode (CallSetMixnodes RCurrent (Ok (take 1 ex_nodes)) ex_r)].
Lemma back_hops_ok : Forall hop_ok back_hops.
Proof.
  apply Forall_app. split; [apply host_setup_ok|]. apply Forall_app. split; [apply to_session_ok|].
  apply Forall_app. split; [apply to_session_ok|]. constructor; [apply nodes_ok|done].
Qed.
Theorem C58_backwards_refuted :
  exists w rm, loose_reach toy_prims (ex_config 40) host_cf (w_mixnet w, rm) /\
    length (ns_local_peer_id (w_ns w)) = 32%nat /\ acceptable rm RmPop /\
    call_manager toy_prims rm (w, []) RmPop = Panic /\ ~ id_clash toy_prims w rm RmPop.
Proof.
  destruct (host_then_loose back_hops (fun s =>
    forallb (fun st => rqt_num_surbs (rst_request st) =? 0) (managed s.2) && is_panic steady RmPop s) back_hops_ok)
    as (m & rm & Hr & H).
  { vm_compute. reflexivity. }
  apply andb_true_iff in H as [H0 H]. apply is_panic_spec in H as [H1 H2]; [|exact I].
  exists (host_world m steady), rm. split; [exact Hr|]. split; [apply replicate_length|]. split; [exact H1|]. split; [exact H2|].
  intros (hist & m1 & k & r & n & _ & _ & _ & [Hin|Hc] & Hn & _); [|discriminate Hc].
  apply elem_of_list_In, in_map_iff in Hin as (st & <- & Hin).
  rewrite forallb_forall in H0. specialize (H0 st Hin). apply N.eqb_eq in H0. cbn [snd] in H0. rewrite H0 in Hn. lia.
Qed.
(** The configurations of the theorem *)
Example ex_host_config :
  config_ok (ex_config 40) /\ sane (ex_config 40) /\ cf_per_hop_net_delay (ex_config 40) <= 2 ^ 50 * NANOS_PER_SEC /\
  1 <= rmc_num_attempts_per_destination host_cf /\ 1 <= rmc_num_posts_per_attempt host_cf.
Proof. split; [apply ex_config_ok|]. split; [apply ex_sane|]. split_and!; by vm_compute. Qed.
