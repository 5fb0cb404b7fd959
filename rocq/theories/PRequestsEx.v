(** The theorems on the request manager apply to [Mixnet::post_request]; concrete histories. *)
From stdpp Require Import sorting.
From Verif Require Import PRequests.
Local Open Scope N_scope.

(** [Mixnet::post_request] satisfies the law, whatever the state of the mixnet. *)
Lemma rb_new_destination t ns dest r rb r' :
  rb_new t ns dest r = Val (Ok (rb, r')) -> dest = None \/ dest = Some (rb_destination_index rb).
Proof.
  unfold rb_new. destruct dest as [x|]; [|by left]. destruct (rg_new t ns); [|done]. cbn. intros [= <- _]. by right.
Qed.
Theorem world_post_law pr : post_law (fun _ _ => True) (w_post_request pr).
Proof.
  intros w i dest id r w' dest' res H. unfold w_post_request, post_request in H.
  destruct (fragment_blueprints _ _ _) as [[bs|]|]; cbn [out_bind] in H; [|by injection H as <- <- <-|done].
  destruct (_ <? _); [by injection H as <- <- <-|].
  destruct (post_session _ _ _) as [[rel s]|e]; [|by injection H as <- <- <-].
  destruct (aq_check_space _ _) as [[]|e]; [|by injection H as <- <- <-].
  destruct (rb_new _ _ _ _) as [[[rb g]|e]|] eqn:Er; cbn [out_bind] in H; [|by injection H as <- <- <-|done].
  destruct (post_request_loop _ _ _ _ _ _ _) as [[st [u|e]]|]; cbn [out_bind] in H; [|by injection H as <- <- <-|done].
  destruct (delay_to_duration _ _); cbn [out_bind] in H; [|done].
  destruct (estimate_authored_packet_queue_delay _ _); cbn [out_bind] in H; [|done].
  injection H as <- <- <-. eexists. split; [done|]. split; [|done]. by eapply rb_new_destination.
Qed.

(** ** Concrete histories *)
(** A history is played by running its calls. *)
Section play.
  Context {W Req : Type}.
  Context (post : W -> session_index -> option mixnode_index -> bytes -> Req ->
                  outcome (W * option mixnode_index * result request_metrics post_err)).
  Context (now : W -> instant * W).
  Context (fresh_id : W -> bytes * W).
  Context (handling_delay : Req -> bytes -> duration).
  Fixpoint play (m : request_manager Req) (w : W) (d : list bytes) (cs : list (rm_call Req))
    : option (list (rm_call Req * rm_resp Req) * request_manager Req * W * list bytes) :=
    match cs with
    | [] => Some ([], m, w, d)
    | c :: cs =>
        match rm_exec post now fresh_id handling_delay m (w, d) c with
        | Val (m, (w, d), a) =>
            match play m w d cs with
            | Some (h, m, w, d) => Some ((c, a) :: h, m, w, d)
            | None => None
            end
        | Panic => None
        end
    end.
  Lemma play_run m w d cs h m' w' d' : play m w d cs = Some (h, m', w', d') -> rm_run post now fresh_id handling_delay m d h m' d'.
  Proof.
    revert m w d h. induction cs as [|c cs IH]; intros m w d h; cbn; [intros [= <- <- _ <-]; constructor|].
    destruct (rm_exec _ _ _ _ _ _ c) as [[[m1 [w1 d1]] a]|] eqn:E; [|done].
    destruct (play m1 w1 d1 cs) as [[[[h1 m2] w2] d2]|] eqn:E2; [|done]. intros [= <- <- <- <-]. econstructor; [exact E|eauto].
  Qed.
End play.

(** Requests are numbers; posting request 9 fails for good, and the queues are full when the world (a
    counter, and the clock) is between 20 and 25. The three mixnodes of a session are chosen in turn,
    and asking for any other mixnode is a panic. *)
Definition ex_post (w : N) (i : session_index) (dest : option mixnode_index) (id : bytes) (r : N)
  : outcome (N * option mixnode_index * result request_metrics post_err) :=
  if r =? 9 then Val (w, dest, Err PeTooManyFragments)
  else if (20 <=? w) && (w <=? 25) then Val (w + 1, dest, Err PeNotEnoughSpaceInQueue)
  else let x := default (w mod 3) dest in
       if x <? 3 then Val (w + 1, Some x, Ok (RequestMetrics 4 2 3 1)) else Panic.
Definition ex_now (w : N) : instant * N := (w, w + 1).
Definition ex_fresh (w : N) : bytes * N := (w :: replicate 15 0, w + 1).
Definition ex_delay (r : N) (id : bytes) : duration := N.min r 100.
Lemma ex_law : post_law (fun _ x => x < 3) ex_post.
Proof.
  intros w i dest id r w' dest' res. unfold ex_post. destruct (r =? 9); [by intros [= <- <- <-]|].
  destruct (_ && _); [by intros [= <- <- <-]|]. cbv zeta. destruct (N.ltb_spec (default (w mod 3) dest) 3) as [Hx|]; [|done].
  intros [= <- <- <-]. eexists. split; [done|]. split; [destruct dest; auto|done].
Qed.
(** In this world nothing panics. *)
Lemma ex_no_trouble w : ~ trouble ex_post ex_now ex_fresh ex_delay (fun _ x => x < 3) w.
Proof.
  intros (w' & _ & i & dest & id & r & Hv & H). unfold ex_post in H.
  assert (Hx : default (w' mod 3) dest < 3).
  { destruct dest as [x|]; cbn; [by apply Hv|]. apply N.mod_lt. done. }
  apply N.ltb_lt in Hx. cbv zeta in H. rewrite Hx in H.
  destruct (r =? 9); [by destruct H as [?|(? & ? & ? & ? & _)]|]. destruct (_ && _); [by destruct H as [?|(? & ? & ? & ? & _)]|].
  destruct H as [?|(? & ? & ? & [= <- <- <-] & H)]; [done|]. revert H. unfold estimate_rtt.
  change (dur_mul _ _) with (Val 8 : outcome duration). cbn [out_bind rqm_forwarding_delay rqm_authored_packet_queue_delay].
  change (dur_add 3 1) with (Val 4 : outcome duration). cbn [out_bind].
  change (dur_add 4 8) with (Val 12 : outcome duration). cbn [out_bind]. unfold dur_add, ex_delay.
  destruct (N.ltb_spec (12 + N.min r 100) DURATION_LIMIT) as [|Hl]; [done|]. exfalso.
  assert (112 < DURATION_LIMIT) by done. lia.
Qed.
Definition ex_cf : rm_config := RmConfig 3 2 2 2.
Definition ex_start : request_manager N := (rqm_new ex_now ex_cf 0).1.
Definition ex_calls : list (rm_call N) :=
  [RmUpdate (SessionStatus 1 PRequestsToCurrent); RmInsert 1; RmInsert 9; RmInsert 2; RmChanged; RmInsert 3;
   RmPop; RmUpdate (SessionStatus 2 PCoverToCurrent); RmProcess; RmPop; RmPop].
Definition ex_later : list (rm_call N) :=
  [RmPop; RmRemove (12 :: replicate 15 0); RmChanged; RmProcess; RmProcess; RmProcess; RmPop; RmPop; RmPop; RmPop; RmPop; RmPop;
   RmUpdate (SessionStatus 2 PRequestsToCurrent); RmInsert 5].
Definition id16 (x : N) : bytes := x :: replicate 15 0.
Notation ex_reach := (rm_reach ex_post ex_now ex_fresh ex_delay ex_cf).
Lemma ex_play cs h m w d : play ex_post ex_now ex_fresh ex_delay ex_start 1 [] cs = Some (h, m, w, d) -> ex_reach h m d.
Proof. intros H. exists 0. by eapply play_run. Qed.
Definition ex_result (cs : list (rm_call N)) : list (rm_call N * rm_resp N) * request_manager N * N * list bytes :=
  default ([], ex_start, 0, []) (play ex_post ex_now ex_fresh ex_delay ex_start 1 [] cs).
Definition ex_h cs := (ex_result cs).1.1.1.
Definition ex_m cs := (ex_result cs).1.1.2.
Definition ex_d cs := (ex_result cs).2.
Lemma ex_reached : ex_reach (ex_h ex_calls) (ex_m ex_calls) (ex_d ex_calls).
Proof. apply (ex_play ex_calls _ _ 22). by vm_compute. Qed.
Lemma ex_later_reached : ex_reach (ex_h (ex_calls ++ ex_later)) (ex_m (ex_calls ++ ex_later)) (ex_d (ex_calls ++ ex_later)).
Proof. apply (ex_play (ex_calls ++ ex_later) _ _ 52). by vm_compute. Qed.

(** Five requests: one is still managed, one was removed, one could not be posted and two reached
    the retry limit. *)
Example C42_example :
  let h := ex_h (ex_calls ++ ex_later) in let m := ex_m (ex_calls ++ ex_later) in
  ex_reach h m (ex_d (ex_calls ++ ex_later)) /\
  inserted h = [1; 9; 2; 3; 5] /\ map rst_request (managed m) = [5] /\ removed h = [3] /\
  post_errs (rqm_log m) = [9] /\ limits (rqm_log m) = [1; 2].
Proof. split; [exact ex_later_reached|]. by vm_compute. Qed.
Example C42_remove_example :
  (exists m' w', rm_exec ex_post ex_now ex_fresh ex_delay (ex_m ex_calls) (22, ex_d ex_calls) (RmRemove (id16 12))
                 = Val (m', w', RmRemoved (Some 3))) /\
  rm_exec ex_post ex_now ex_fresh ex_delay (ex_m ex_calls) (22, ex_d ex_calls) (RmRemove (id16 13))
  = Val (ex_m ex_calls, (22, ex_d ex_calls), RmRemoved None).
Proof. split; [eexists _, _|]; by vm_compute. Qed.
(** The manager is full. *)
Example C43_example : ex_reach (ex_h ex_calls) (ex_m ex_calls) (ex_d ex_calls) /\
  length (managed (ex_m ex_calls)) = 3%nat /\ rqm_has_space (ex_m ex_calls) = false.
Proof. split; [exact ex_reached|]. by vm_compute. Qed.
(** Request 2 was posted as often as the configuration allows. *)
Example C44_example :
  let h := ex_h (ex_calls ++ ex_later) in let m := ex_m (ex_calls ++ ex_later) in
  ex_reach h m (ex_d (ex_calls ++ ex_later)) /\
  posts (fun r => r =? 2) (rqm_log m) = 8 /\ count (fun r => r =? 2) (inserted h) = 1 /\ pops h = 9%nat.
Proof. split; [exact ex_later_reached|]. by vm_compute. Qed.
(** Requests 1 and 2 reached the limit, so they were posted as often as allowed. *)
Example C44_all_posts_example :
  let h := ex_h (ex_calls ++ ex_later) in let m := ex_m (ex_calls ++ ex_later) in let f r := (r =? 1) || (r =? 2) in
  ex_reach h m (ex_d (ex_calls ++ ex_later)) /\
  count f (removed h) = 0 /\ count f (post_errs (rqm_log m)) = 0 /\ count f (map rst_request (managed m)) = 0 /\
  count f (inserted h) = 2 /\ posts f (rqm_log m) = 16.
Proof. split; [exact ex_later_reached|]. by vm_compute. Qed.
(** Request 1 was posted to destination 2 with one message ID and to destination 0 with another. *)
Example C45_example :
  let m := ex_m (ex_calls ++ ex_later) in
  ex_reach (ex_h (ex_calls ++ ex_later)) m (ex_d (ex_calls ++ ex_later)) /\ NoDup (ex_d (ex_calls ++ ex_later)) /\
  EvPosted 1 (id16 1) 1 (Some 2) 3 13 ∈ rqm_log m /\ EvPosted 1 (id16 1) 1 (Some 2) 18 13 ∈ rqm_log m /\
  EvPosted 1 (id16 22) 1 (Some 0) 31 13 ∈ rqm_log m.
Proof.
  split; [exact ex_later_reached|].
  split; [apply (bool_decide_unpack (NoDup (ex_d (ex_calls ++ ex_later)))); by vm_compute|].
  split; [|split].
  - apply elem_of_list_lookup. exists 0%nat. by vm_compute.
  - apply elem_of_list_lookup. exists 7%nat. by vm_compute.
  - apply elem_of_list_lookup. exists 15%nat. by vm_compute.
Qed.
Example C46_example :
  let m := ex_m ex_calls in
  ex_reach (ex_h ex_calls) m (ex_d ex_calls) /\ NoDup (ex_d ex_calls) /\
  next_retry_deadline m = Some 33 /\
  (exists st, rqm_retry_queue m = [st] /\ rst_message_id st = id16 1 /\ rst_retry_deadline st = 33) /\
  EvPosted 1 (id16 1) 1 (Some 2) 20 13 ∈ rqm_log m.
Proof.
  split; [exact ex_reached|].
  split; [apply (bool_decide_unpack (NoDup (ex_d ex_calls))); by vm_compute|].
  split; [by vm_compute|]. split; [eexists; by vm_compute|].
  apply elem_of_list_lookup. exists 8%nat. by vm_compute.
Qed.
(** An insertion that changes the deadline raises the flag, which is then lowered. *)
Example C46_signalled_example :
  let m := ex_m ex_calls in
  exists h m1 d1 m2 w2, rm_run ex_post ex_now ex_fresh ex_delay m (ex_d ex_calls) h m1 d1 /\
    map fst h = [RmPop; RmProcess] /\ next_retry_deadline m <> next_retry_deadline m1 /\
    rm_exec ex_post ex_now ex_fresh ex_delay m1 (0, d1) RmChanged = Val (m2, w2, RmFlag true).
Proof.
  destruct (play ex_post ex_now ex_fresh ex_delay (ex_m ex_calls) 22 (ex_d ex_calls) [RmPop; RmProcess]) as [[[[h m1] w1] d1]|] eqn:E;
    [|by vm_compute in E].
  exists h, m1, d1. eexists _, _. split; [by eapply play_run|]. vm_compute in E. injection E as <- <- <- <-.
  split; [done|]. split; [by vm_compute|]. by vm_compute.
Qed.
(** A request waits for the previous session, another has been bound to no session. *)
Example C47_example :
  let m := ex_m (ex_calls ++ [RmPop]) in
  ex_reach (ex_h (ex_calls ++ [RmPop])) m (ex_d (ex_calls ++ [RmPop])) /\
  rqm_status m = SessionStatus 2 PCoverToCurrent /\
  map (fun st => (rst_request st, rst_session_index st)) (pq_prev (rqm_post_queues m)) = [(2, Some 1); (3, Some 1)] /\
  map (fun st => (rst_request st, rst_session_index st)) (pq_default (rqm_post_queues m)) = [(1, None)].
Proof. split; [apply (ex_play (ex_calls ++ [RmPop]) _ _ 23); by vm_compute|]. by vm_compute. Qed.
(** No call panics in this world. *)
Example C47_panics_example w c : (forall r, c <> RmInsert r) ->
  exists m' w' d' a, rm_exec ex_post ex_now ex_fresh ex_delay (ex_m ex_calls) (w, ex_d ex_calls) c = Val (m', (w', d'), a).
Proof.
  intros Hc. destruct (C47_panics _ _ _ _ _ ex_law _ _ _ _ w c ex_reached) as [(m' & w' & d' & a & E & _)|[_ H]];
    [done|done|by intros r ->; destruct (Hc r)|by eauto|]. by destruct (ex_no_trouble w).
Qed.

Print Assumptions world_post_law.
Print Assumptions C42_conservation.
Print Assumptions C42_remove.
Print Assumptions C43_has_space.
Print Assumptions C43_capacity.
Print Assumptions C44_posts.
Print Assumptions C44_all_posts.
Print Assumptions C44_retries.
Print Assumptions C45_one_destination.
Print Assumptions C45_managed.
Print Assumptions C46_not_early.
Print Assumptions C46_earliest.
Print Assumptions C46_signalled.
Print Assumptions C47_queues.
Print Assumptions C47_panics.
