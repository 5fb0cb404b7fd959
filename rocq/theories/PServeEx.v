(** A concrete case for C66: a node with a reply manager gets a request twice, replies to it once it is
    handled, and again when it comes for the second time. *)
From Verif Require Import MManagers PServe Toy PExample PMatchEx.
Local Open Scope N_scope.

(** Calls on the node and on the manager; the latter for the request that came first, or the context
    that was handed out first. *)
Inductive sop := SApp (c : call) | SInsert | SComplete (data : bytes) | SAbandon.
Definition server_world (m : mixnet) (t : N) : world :=
  World m (ex_ns 24) (fun i => Rng (fun j => N.of_nat (i + j) * 5 + t) 0) 0 (fun i => t + N.of_nat i) 0.
Definition sop_ok (o : sop) : Prop :=
  match o with SApp c => call_ok c | SComplete data => N.of_nat (length data) <= USIZE_MAX | _ => True end.
Definition call_of (s : server) (o : sop) : option (ym_call * list request_message * list reply_context) :=
  match o, sr_requests s, sr_contexts s with
  | SInsert, q :: qs, cs => Some (YmInsert q, qs, cs)
  | SComplete data, qs, x :: cs => Some (YmComplete x data, qs, cs)
  | SAbandon, qs, x :: cs => Some (YmAbandon x, qs, cs)
  | _, _, _ => None
  end.
Fixpoint play_server (s : server) (l : list (N * sop)) : option (list serving * server) :=
  match l with
  | [] => Some ([], s)
  | (t, o) :: l =>
      match o with
      | SApp c =>
          match exec toy_prims (sr_node s) c with
          | Val (m, a) =>
              match play_server (Server m (sr_replier s) (sr_requests s ++ request_in a) (sr_contexts s)) l with
              | Some (h, s') => Some (ByApp c a :: h, s')
              | None => None
              end
          | Panic => None
          end
      | _ =>
          match call_of s o with
          | Some (c, qs, cs) =>
              match call_replier toy_prims (sr_replier s) (server_world (sr_node s) t) c with
              | Val (rm, (w, lg), a) =>
                  match play_server (Server (w_mixnet w) rm qs (cs ++ context_in a)) l with
                  | Some (h, s') => Some (ByReplier c a lg :: h, s')
                  | None => None
                  end
              | Panic => None
              end
          | None => None
          end
      end
  end.
Lemma no_context pr rm w c rm' w' l a :
  call_replier pr rm w c = Val (rm', (w', l), a) -> match c with YmInsert _ => True | _ => context_in a = [] end.
Proof. intros E. apply PReplies.exec_step in E as [_ E]. by inversion E. Qed.
Lemma play_served l : forall s h s', Forall (fun o => sop_ok o.2) l -> play_server s l = Some (h, s') -> served toy_prims s h s'.
Proof.
  induction l as [|[t o] l IH]; intros [m rm qs cs] h s' Hl; [intros [= <- <-]; constructor|].
  apply Forall_cons in Hl as [Ho Hl]. cbn [snd] in Ho.
  destruct o as [c| |data|]; cbn [play_server sr_node sr_replier sr_requests sr_contexts].
  - destruct (exec toy_prims m c) as [[m1 a]|] eqn:E; [|discriminate].
    destruct (play_server _ l) as [[h1 s1]|] eqn:El; [|discriminate]. intros [= <- <-].
    econstructor; [exact Ho|exact E|]. by apply IH.
  - unfold call_of; cbn [sr_requests sr_contexts]. destruct qs as [|q qs]; [discriminate|].
    destruct (ym_exec _ _ _ _ _ _) as [[[rm1 [w1 lg]] a]|] eqn:E; [|discriminate].
    destruct (play_server _ l) as [[h1 s1]|] eqn:El; [|discriminate]. intros [= <- <-].
    eapply (SeInsert _ (server_world m t)); [reflexivity|exact E|]. by apply IH.
  - unfold call_of; cbn [sr_requests sr_contexts]. destruct cs as [|x cs]; [discriminate|].
    destruct (ym_exec _ _ _ _ _ _) as [[[rm1 [w1 lg]] a]|] eqn:E; [|discriminate].
    pose proof (no_context _ _ _ _ _ _ _ _ E) as Hn. cbn in Hn. rewrite Hn, app_nil_r.
    destruct (play_server _ l) as [[h1 s1]|] eqn:El; [|discriminate]. intros [= <- <-].
    eapply (SeComplete _ (server_world m t)); [reflexivity|exact Ho|exact E|]. by apply IH.
  - unfold call_of; cbn [sr_requests sr_contexts]. destruct cs as [|x cs]; [discriminate|].
    destruct (ym_exec _ _ _ _ _ _) as [[[rm1 [w1 lg]] a]|] eqn:E; [|discriminate].
    pose proof (no_context _ _ _ _ _ _ _ _ E) as Hn. cbn in Hn. rewrite Hn, app_nil_r.
    destruct (play_server _ l) as [[h1 s1]|] eqn:El; [|discriminate]. intros [= <- <-].
    eapply (SeAbandon _ (server_world m t)); [reflexivity|exact E|]. by apply IH.
Qed.
Definition server_cf : ym_config := YmConfig 5 2 10.
Definition server_play (l : list (N * sop)) : option (list serving * server) :=
  match mx_new toy_prims (ex_config 24) with
  | Val m => play_server (Server m (ym_new server_cf) [] []) l
  | Panic => None
  end.
Lemma server_play_spec l h s :
  Forall (fun o => sop_ok o.2) l -> server_play l = Some (h, s) -> served_from_start toy_prims (ex_config 24) server_cf h s.
Proof.
  intros Hl. unfold server_play. destruct (mx_new toy_prims (ex_config 24)) as [m0|] eqn:Em; [|discriminate]. intros H.
  split; [apply ex_config_ok|]. exists m0. split; [exact Em|]. by eapply play_served.
Qed.

(** The request of PMatchEx is posted once more, with the same id. *)
Definition s_again : list call :=
  ex_setup ++ [CallPostRequest 0 (Some 2) m_id ex_data 1 (ex_ns 8) (Rng (fun j => N.of_nat j * 11 + 5) 0);
               CallPopAuthored (ex_ns 8) ex_big].
Definition s_p1 : addressed_packet := Eval vm_compute in default no_packet (as_popped (answer 8 s_again)).
Fixpoint carried (n : nat) (p : addressed_packet) : addressed_packet :=
  match n with
  | O => p
  | S n => if decide (key_of (ap_peer_id p) = 24) then p else
           match onward p with Some p => carried n p | None => no_packet end
  end.
Definition s_p : addressed_packet := Eval vm_compute in carried 5 s_p1.
Definition s_ops : list (N * sop) :=
  map (fun c => (0, SApp c)) ex_setup ++
  [(0, SApp (CallHandle (ap_packet m_p3) 5)); (6, SInsert); (7, SComplete [4; 5]);
   (0, SApp (CallHandle (ap_packet s_p) 18)); (19, SInsert)].
Lemma s_lengths : length (ap_packet m_p3) = N.to_nat 2252 /\ length (ap_packet s_p) = N.to_nat 2252.
Proof. split; vm_compute; reflexivity. Qed.
Lemma s_ops_ok : Forall (fun o => sop_ok o.2) s_ops.
Proof.
  apply Forall_app. split; [apply Forall_map; exact ex_setup_ok|].
  constructor; [exact (proj1 s_lengths)|]. constructor; [exact I|]. constructor; [by vm_compute|].
  constructor; [exact (proj2 s_lengths)|]. constructor; [exact I|constructor].
Qed.
(** Two requests with the same id were returned, with different SURBs, and both SURBs were used; the last
    call, which is about the second of them, has posted the reply given to the first. *)
Definition s_check (l : list (N * sop)) (data : bytes) : bool :=
  match server_play l with
  | Some (h, s) =>
      match returned h with
      | [q1; q2] => bool_decide (rq_id q1 = rq_id q2) && bool_decide (used h = rq_surbs q1 ++ rq_surbs q2)%list &&
                    (length (used h) =? 2)%nat && bool_decide (NoDup (used h)) &&
                    match last h with
                    | Some (ByReplier (YmInsert q) _ (YTime _ :: YPost surbs _ _ d _ true :: _)) =>
                        bool_decide (surbs = rq_surbs q2) && bool_decide (d = data)
                    | _ => false
                    end
      | _ => false
      end
  | None => false
  end.
Lemma s_check_spec l data :
  Forall (fun o => sop_ok o.2) l -> s_check l data = true ->
  exists h1 q a lg s q1 q2 i id lft,
    let h := (h1 ++ [ByReplier (YmInsert q) a lg])%list in
    served_from_start toy_prims (ex_config 24) server_cf h s /\
    returned h = [q1; q2] /\ rq_id q1 = rq_id q2 /\ used h = (rq_surbs q1 ++ rq_surbs q2)%list /\
    length (used h) = 2%nat /\ NoDup (used h) /\ YPost (rq_surbs q2) i id data lft true ∈ lg.
Proof.
  intros Hl H. unfold s_check in H. destruct (server_play l) as [[h s]|] eqn:Ep; [|discriminate H].
  apply (server_play_spec _ _ _ Hl) in Ep.
  destruct (returned h) as [|q1 [|q2 [|? ?]]] eqn:Er; try discriminate H.
  apply andb_true_iff in H as [H H5]. apply andb_true_iff in H as [H H4]. apply andb_true_iff in H as [H H3].
  apply andb_true_iff in H as [H1 H2]. apply bool_decide_eq_true in H1. apply bool_decide_eq_true in H2.
  apply Nat.eqb_eq in H3. apply bool_decide_eq_true in H4.
  destruct (last h) as [[|[q|x|x d] a lg]|] eqn:El; try discriminate H5.
  destruct lg as [|[|t] [|[surbs i id d lft [|]|] lg]]; try discriminate H5.
  apply andb_true_iff in H5 as [H5 H6]. apply bool_decide_eq_true in H5. apply bool_decide_eq_true in H6. subst surbs d.
  apply last_Some in El as [h1 ->].
  exists h1, q, a, (YTime t :: YPost (rq_surbs q2) i id data lft true :: lg), s, q1, q2, i, id, lft.
  cbv zeta. split; [exact Ep|]. split; [exact Er|]. split; [exact H1|]. split; [exact H2|]. split; [exact H3|]. split; [exact H4|].
  right. left.
Qed.
Lemma s_checked : s_check s_ops [4; 5] = true.
Proof. vm_compute. reflexivity. Qed.
(** The hypotheses of C66_posts, C66_surbs_once and C66_answers hold. *)
Example C66_example : exists h1 q a lg s q1 q2 i id lft,
  let h := (h1 ++ [ByReplier (YmInsert q) a lg])%list in
  served_from_start toy_prims (ex_config 24) server_cf h s /\
  returned h = [q1; q2] /\ rq_id q1 = rq_id q2 /\ used h = (rq_surbs q1 ++ rq_surbs q2)%list /\
  length (used h) = 2%nat /\ NoDup (used h) /\ YPost (rq_surbs q2) i id [4; 5] lft true ∈ lg.
Proof. exact (s_check_spec _ _ s_ops_ok s_checked). Qed.

Print Assumptions C66_posts. Print Assumptions C66_surbs_once. Print Assumptions C66_answers.
Print Assumptions C66_no_panic. Print Assumptions C66_returned. Print Assumptions C66_example.
