(** Concrete cases for C59. *)
From Verif Require Import PTurn PRequestsEx.
Local Open Scope N_scope.
Notation ex_exec := (rm_exec ex_post ex_now ex_fresh ex_delay).

(** Requests 2 and 3 wait for session 1, and so does request 1, which is bound to no session. *)
Definition ex_queue : request_manager N := ex_m (ex_calls ++ [RmPop]).
Definition said (o : outcome (request_manager N * (N * list bytes) * rm_resp N)) : list (rm_event N) :=
  match o with Val (m, _, _) => drop (length (rqm_log ex_queue)) (rqm_log m) | Panic => [] end.

(** All get their turns, request 2 before request 3; request 1 joins the end of their queue after its
    first post. *)
Example C59_in_turn_example :
  map rst_request (pq_default (rqm_post_queues ex_queue)) = [1] /\
  map rst_request (pq_prev (rqm_post_queues ex_queue)) = [2; 3] /\
  (exists m' w', ex_exec ex_queue (40, []) RmProcess = Val (m', w', RmUnit)) /\
  map about (said (ex_exec ex_queue (40, []) RmProcess)) = [1; 2; 3; 1; 2; 3].
Proof.
  split; [by vm_compute|]. split; [by vm_compute|]. split; [|by vm_compute].
  eexists _, _. by vm_compute.
Qed.
(** With no room in the authored packet queue nobody passes. *)
Example C59_in_turn_full_example :
  said (ex_exec ex_queue (22, []) RmProcess) = [EvNoSpace 1; EvNoSpace 2] /\
  exists m' w', ex_exec ex_queue (22, []) RmProcess = Val (m', w', RmUnit) /\
    map rst_request (pq_prev (rqm_post_queues m')) = [2; 3].
Proof.
  split; [by vm_compute|]. destruct (ex_exec ex_queue (22, []) RmProcess) as [[[m' w'] a]|] eqn:E; [|by vm_compute in E].
  exists m', w'. vm_compute in E. injection E as <- <- <-. split; [done|]. by vm_compute.
Qed.

(** Request 1 is removed and request 5 inserted: it has to wait, though there is room. *)
Definition ex_removed : request_manager N := ex_m (ex_calls ++ [RmPop; RmRemove (id16 22)]).
Example C59_waits_example :
  map rst_request (pq_default (rqm_post_queues ex_removed)) = [] /\
  map rst_request (pq_prev (rqm_post_queues ex_removed)) = [2; 3] /\
  exists m' w', ex_exec ex_removed (40, []) (RmInsert 5) = Val (m', w', RmUnit) /\
    rqm_log m' = rqm_log ex_removed /\ map rst_request (pq_default (rqm_post_queues m')) = [5].
Proof.
  split; [by vm_compute|]. split; [by vm_compute|].
  destruct (ex_exec ex_removed (40, []) (RmInsert 5)) as [[[m' w'] a]|] eqn:E; [|by vm_compute in E].
  exists m', w'. vm_compute in E. injection E as <- <- <-. split; [done|]. split; by vm_compute.
Qed.
(** A request that is retried with empty queues is posted at once. *)
Example C59_tried_example :
  let m := ex_m [RmUpdate (SessionStatus 1 PRequestsToCurrent); RmInsert 1; RmInsert 2] in
  map rst_request (rqm_retry_queue m) = [1; 2] /\
  exists m' w', ex_exec m (40, []) RmPop = Val (m', w', RmPopped true) /\
    map about (drop (length (rqm_log m)) (rqm_log m')) = [1; 1].
Proof.
  intros m. split; [by vm_compute|].
  destruct (ex_exec m (40, []) RmPop) as [[[m' w'] a]|] eqn:E; [|by vm_compute in E].
  exists m', w'. vm_compute in E. injection E as <- <- <-. split; [done|]. by vm_compute.
Qed.

Print Assumptions C59_admission.
Print Assumptions C59_in_turn.
