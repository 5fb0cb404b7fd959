(** A concrete case for C64: a request posted by the manager of a node travels through the network, is
    answered, and the reply is matched with the request. *)
From Verif Require Import PMatch Toy PExample.
Local Open Scope N_scope.

Inductive hop := HNode (c : call) | HManager (c : rm_call user_request).
(** The random numbers depend on how many ids were drawn. *)
Definition host_world (m : mixnet) (d : list bytes) : world :=
  World m (ex_ns 8) (fun i => Rng (fun j => N.of_nat (i + j) * 7 + N.of_nat (length d) + 3) 0) 0 (fun i => N.of_nat i) 0.
Definition space_ok (rm : request_manager user_request) (c : rm_call user_request) : bool :=
  match c with RmInsert _ => rqm_has_space rm | _ => true end.
Definition hop_ok (o : hop) : Prop :=
  match o with HNode c => call_ok c | HManager (RmInsert r) => request_ok r | _ => True end.
Fixpoint play_hops (s : host) (d : list bytes) (l : list hop) : option (list doing * host * list bytes) :=
  match l with
  | [] => Some ([], s, d)
  | o :: l =>
      match o with
      | HNode c =>
          match exec toy_prims s.1 c with
          | Val (m, a) =>
              match play_hops (m, s.2) d l with
              | Some (h, s', d') => Some (ByNode c a :: h, s', d')
              | None => None
              end
          | Panic => None
          end
      | HManager c =>
          if space_ok s.2 c then
            match call_manager toy_prims s.2 (host_world s.1 d, d) c with
            | Val (rm, (w, d1), a) =>
                match play_hops (w_mixnet w, rm) d1 l with
                | Some (h, s', d') => Some (ByManager c a :: h, s', d')
                | None => None
                end
            | Panic => None
            end
          else None
      end
  end.
Lemma play_hosted l : forall s d h s' d',
  Forall hop_ok l -> play_hops s d l = Some (h, s', d') -> hosted toy_prims s d h s' d'.
Proof.
  induction l as [|o l IH]; intros [m rm] d h s' d' Hl; cbn [play_hops fst snd]; [intros [= <- <- <-]; constructor|].
  apply Forall_cons in Hl as [Ho Hl]. destruct o as [c|c].
  - destruct (exec toy_prims m c) as [[m1 a]|] eqn:E; [|discriminate].
    destruct (play_hops (m1, rm) d l) as [[[h1 s1] d1]|] eqn:El; [|discriminate]. intros [= <- <- <-].
    econstructor; [exact Ho|exact E|]. by apply IH.
  - destruct (space_ok rm c) eqn:Es; [|discriminate].
    destruct (call_manager toy_prims rm (host_world m d, d) c) as [[[rm1 [w1 d1]] a]|] eqn:E; [|discriminate].
    destruct (play_hops (w_mixnet w1, rm1) d1 l) as [[[h1 s1] d2]|] eqn:El; [|discriminate]. intros [= <- <- <-].
    eapply (HdManager _ (host_world m d)); [apply replicate_length| |exact E|by apply IH].
    intros r ->. by split.
Qed.
Definition host_cf : rm_config := RmConfig 5 2 2 1.
Definition host_play (l : list hop) : option (list doing * host * list bytes) :=
  match mx_new toy_prims (ex_config 8) with
  | Val m => play_hops (m, (rqm_new w_now host_cf (host_world m [])).1) [] l
  | Panic => None
  end.
Lemma host_play_spec l h s d :
  Forall hop_ok l -> host_play l = Some (h, s, d) -> hosted_from_start toy_prims (ex_config 8) host_cf h s d.
Proof.
  intros Hl. unfold host_play. destruct (mx_new toy_prims (ex_config 8)) as [m0|] eqn:Em; [|discriminate]. intros H.
  exists m0, (host_world m0 []). split; [apply ex_config_ok|]. split; [exact Em|]. by eapply play_hosted.
Qed.

(** Two requests, posted by the manager, and one posted by the application itself. *)
Definition first_request : user_request := UserRequest 1 ex_data 1 (fun _ => 1).
Definition second_request : user_request := UserRequest 2 ex_data 0 (fun _ => 1).
Lemma first_request_ok : request_ok first_request.
Proof. split_and!; [done|by vm_compute|by vm_compute|]. intros id. by vm_compute. Qed.
Lemma second_request_ok : request_ok second_request.
Proof. split_and!; [done|by vm_compute|by vm_compute|]. intros id. by vm_compute. Qed.
Definition posting : list hop :=
  map HNode ex_setup ++
  [HManager (RmUpdate (SessionStatus 0 PRequestsToCurrent)); HManager (RmInsert first_request);
   HNode (CallPopAuthored (ex_ns 8) ex_big)].

(** The nodes on the way; [deliver] gives what the node at the end returns. *)
Definition key_of (peer : bytes) : N := nth 0 peer 0 - 100.
Definition popped (l : list hop) : option addressed_packet :=
  match host_play l with
  | Some (h, _, _) => match last h with Some (ByNode _ (RespPacket (Some p))) => Some p | _ => None end
  | None => None
  end.
Definition as_popped (a : option resp) : option addressed_packet :=
  match a with Some (RespPacket p) => p | _ => None end.
Definition onward (p : addressed_packet) : option addressed_packet :=
  as_popped (answer (key_of (ap_peer_id p)) (ex_hop (ap_packet p))).
Definition no_packet : addressed_packet := AddressedPacket [] [].
Definition m_p1 : addressed_packet := Eval vm_compute in default no_packet (popped posting).
Definition m_p2 : addressed_packet := Eval vm_compute in default no_packet (onward m_p1).
Definition m_p3 : addressed_packet := Eval vm_compute in default no_packet (onward m_p2).
Definition m_dest : N := Eval vm_compute in key_of (ap_peer_id m_p3).
Definition m_receive : list call := ex_setup ++ [CallHandle (ap_packet m_p3) 5].
Definition m_surbs : list bytes := Eval vm_compute in
  match ex_message (answer m_dest m_receive) with Some (MRequest rq) => rq_surbs rq | _ => [] end.
Definition m_reply : list call :=
  m_receive ++ [CallPostReply m_surbs 0 (replicate 16 7) (Scattered 2 [4; 5] [] []);
                CallPopAuthored (ex_ns m_dest) ex_big].
Definition m_q1 : addressed_packet := Eval vm_compute in default no_packet (as_popped (answer m_dest m_reply)).
Definition m_q2 : addressed_packet := Eval vm_compute in default no_packet (onward m_q1).
Definition m_q3 : addressed_packet := Eval vm_compute in default no_packet (onward m_q2).

(** The request has travelled through 32 and 16 to 24, and so has the reply back to 8. The application
    posts a request, too; the manager posts a second one. *)
Definition before : list hop := posting ++ [HNode (ex_post 8 (Some 2))].
Definition m_handle : call := CallHandle (ap_packet m_q3) 9.
Definition m_id : bytes := [3; 10; 17; 24; 31; 38; 45; 52; 59; 66; 73; 80; 87; 94; 101; 108].
Definition between : list hop := [HManager (RmInsert second_request)].
Lemma m_q3_length : length (ap_packet m_q3) = N.to_nat 2252.
Proof. vm_compute. reflexivity. Qed.
Lemma before_ok : Forall hop_ok before.
Proof.
  apply Forall_app. split; [|constructor; [by apply (ex_post_ok 8 2)|done]].
  apply Forall_app. split; [apply Forall_map; exact ex_setup_ok|].
  constructor; [done|]. constructor; [exact first_request_ok|]. constructor; [reflexivity|done].
Qed.
Lemma between_ok : Forall hop_ok between.
Proof. constructor; [exact second_request_ok|done]. Qed.
Definition tag_of (a : rm_resp user_request) : option N :=
  match a with RmRemoved (Some r) => Some (rqt_tag r) | _ => None end.
Definition hands_back (id : bytes) (s : host) (d : list bytes) (f : host -> list bytes -> rm_resp user_request -> bool) : bool :=
  match call_manager toy_prims s.2 (host_world s.1 d, d) (RmRemove id) with
  | Val (rm, (w, d), a) => f (w_mixnet w, rm) d a
  | Panic => false
  end.
(** After [l1] the node gets reply [data] for request [id] by call [c]; after [l2] the manager hands
    back the request with the given tag, and only once. *)
Definition m_check (l1 : list hop) (c : call) (l2 : list hop) (id data : bytes) (tag : N) : bool :=
  match host_play l1 with
  | Some (h, s, d) =>
      match exec toy_prims s.1 c with
      | Val (m', RespMessage (Some (MReply q))) =>
          bool_decide (rp_request_id q = id) && bool_decide (rp_data q = data) &&
          forallb (fun x => negb (bool_decide (x.1.1.1.1 = id))) (accepted (own h)) &&
          (length (accepted (own h)) =? 1)%nat &&
          bool_decide (NoDup d) &&
          match play_hops (m', s.2) d l2 with
          | Some (_, s', d') =>
              bool_decide (NoDup d') && (length (managed s'.2) =? 2)%nat && (length (rqm_log s'.2) =? 2)%nat &&
              hands_back id s' d' (fun s2 d2 a => bool_decide (tag_of a = Some tag) &&
                hands_back id s2 d2 (fun _ _ a => bool_decide (tag_of a = None)))
          | None => false
          end
      | _ => false
      end
  | None => false
  end.
Lemma m_check_spec l1 c l2 id data tag :
  Forall hop_ok l1 -> Forall hop_ok l2 -> m_check l1 c l2 id data tag = true ->
  exists h m rm d m' q h' m2 rm2 d2 rm3 w3 d3 r,
    hosted_from_start toy_prims (ex_config 8) host_cf h (m, rm) d /\
    exec toy_prims m c = Val (m', RespMessage (Some (MReply q))) /\
    rp_request_id q = id /\ rp_data q = data /\
    (forall i dest data k, (rp_request_id q, i, dest, data, k) ∉ accepted (own h)) /\ length (accepted (own h)) = 1%nat /\
    NoDup d /\
    hosted toy_prims (m', rm) d h' (m2, rm2) d2 /\ NoDup d2 /\ length (managed rm2) = 2%nat /\ length (rqm_log rm2) = 2%nat /\
    call_manager toy_prims rm2 (host_world m2 d2, d2) (RmRemove id) = Val (rm3, (w3, d3), RmRemoved (Some r)) /\ rqt_tag r = tag.
Proof.
  intros Hl1 Hl2 H. unfold m_check in H.
  destruct (host_play l1) as [[[h [m rm]] d]|] eqn:Eh; [|discriminate H]. cbn [fst snd] in H.
  destruct (exec toy_prims m c) as [[m' a]|] eqn:Ee; [|discriminate H].
  destruct a as [| | |[[q|q]|]| | | |]; try discriminate H.
  apply andb_true_iff in H as [H H6]. apply andb_true_iff in H as [H H5]. apply andb_true_iff in H as [H H4].
  apply andb_true_iff in H as [H H3]. apply andb_true_iff in H as [H1 H2].
  destruct (play_hops (m', rm) d l2) as [[[h' [m2 rm2]] d2]|] eqn:Eb; [|discriminate H6].
  cbn [fst snd] in H6. apply andb_true_iff in H6 as [H6 H9]. apply andb_true_iff in H6 as [H6 H8]. apply andb_true_iff in H6 as [H6 H7].
  unfold hands_back at 1 in H9. cbn [fst snd] in H9.
  destruct (call_manager toy_prims rm2 (host_world m2 d2, d2) (RmRemove id)) as [[[rm3 [w3 d3]] a]|] eqn:Er; [|discriminate H9].
  apply andb_true_iff in H9 as [H9 _].
  apply bool_decide_eq_true in H1. apply bool_decide_eq_true in H2. apply bool_decide_eq_true in H5.
  apply bool_decide_eq_true in H6. apply bool_decide_eq_true in H9. apply Nat.eqb_eq in H4. apply Nat.eqb_eq in H7. apply Nat.eqb_eq in H8.
  destruct a as [|[r|]| |]; try discriminate H9. cbn [tag_of] in H9. injection H9 as H9.
  exists h, m, rm, d, m', q, h', m2, rm2, d2, rm3, w3, d3, r.
  split; [exact (host_play_spec _ _ _ _ Hl1 Eh)|]. split; [exact Ee|].
  split; [exact H1|]. split; [exact H2|]. split.
  { intros i dest dat k Hin. rewrite forallb_forall in H3. apply elem_of_list_In in Hin. apply H3 in Hin.
    apply negb_true_iff, bool_decide_eq_false in Hin. by rewrite H1 in Hin. }
  split; [exact H4|]. split; [exact H5|]. split; [exact (play_hosted _ _ _ _ _ _ Hl2 Eb)|].
  split; [exact H6|]. split; [exact H7|]. split; [exact H8|]. split; [exact Er|exact H9].
Qed.
Lemma m_checked : m_check before m_handle between m_id [4; 5] 1 = true.
Proof. vm_compute. reflexivity. Qed.

(** The hypotheses of C64_matched hold, and the reply is matched with the first request. *)
Example C64_example :
  length (ap_packet m_q3) = N.to_nat 2252 /\
  exists h m rm d m' q h' m2 rm2 d2 rm3 w3 d3 r,
    hosted_from_start toy_prims (ex_config 8) host_cf h (m, rm) d /\
    exec toy_prims m m_handle = Val (m', RespMessage (Some (MReply q))) /\
    rp_request_id q = m_id /\ rp_data q = [4; 5] /\
    (forall i dest data k, (rp_request_id q, i, dest, data, k) ∉ accepted (own h)) /\ length (accepted (own h)) = 1%nat /\
    NoDup d /\
    hosted toy_prims (m', rm) d h' (m2, rm2) d2 /\ NoDup d2 /\ length (managed rm2) = 2%nat /\ length (rqm_log rm2) = 2%nat /\
    call_manager toy_prims rm2 (host_world m2 d2, d2) (RmRemove m_id) = Val (rm3, (w3, d3), RmRemoved (Some r)) /\ rqt_tag r = 1.
Proof. split; [exact m_q3_length|]. exact (m_check_spec _ _ _ _ _ _ before_ok between_ok m_checked). Qed.
Example host_cf_ok : 1 <= rmc_num_attempts_per_destination host_cf /\ 1 <= rmc_num_posts_per_attempt host_cf.
Proof. by vm_compute. Qed.
Print Assumptions C64_posts.
Print Assumptions C64_network.
Print Assumptions C64_matched.
Print Assumptions C64_once.
