(** Model of src/request_manager/{mod,config,post_queues}.rs.

    The manager is modelled over an abstract world [W]: posting to the mixnet, reading the clock and
    generating random message IDs are functions of the world ([post], [now], [fresh_id]). They are
    instantiated with the model of [Mixnet] in [MManagers.v]. The type [Req] of requests is abstract
    too ([Request::with_data] and [Request::num_surbs] are part of [post]). *)
From Verif Require Export MMixnet.
Local Open Scope N_scope.

(** request_manager/config.rs:23-37 *)
Record rm_config := RmConfig {
  rmc_capacity : N;
  rmc_num_destinations : N;
  rmc_num_attempts_per_destination : N;
  rmc_num_posts_per_attempt : N
}.

(** request_manager/config.rs:39-49 *)
Definition default_rm_config : rm_config := {|
  rmc_capacity := 20; rmc_num_destinations := 3; rmc_num_attempts_per_destination := 2;
  rmc_num_posts_per_attempt := 2
|}.

(** request_manager/mod.rs:62-75 *)
Record request_state (Req : Type) := RequestState {
  rst_request : Req;
  rst_destinations_remaining : N;
  rst_attempts_remaining : N;
  rst_posts_remaining : N;
  rst_message_id : bytes;
  rst_session_index : option session_index;
  rst_destination_index : option mixnode_index;
  rst_retry_deadline : instant
}.
Global Arguments RequestState {Req}.
Global Arguments rst_request {Req}.
Global Arguments rst_destinations_remaining {Req}.
Global Arguments rst_attempts_remaining {Req}.
Global Arguments rst_posts_remaining {Req}.
Global Arguments rst_message_id {Req}.
Global Arguments rst_session_index {Req}.
Global Arguments rst_destination_index {Req}.
Global Arguments rst_retry_deadline {Req}.

(** post_queues.rs:24-32 *)
Record post_queues (T : Type) := PostQueues {
  pq_current : list T;
  pq_prev : list T;
  pq_default : list T
}.
Global Arguments PostQueues {T}.
Global Arguments pq_current {T}.
Global Arguments pq_prev {T}.
Global Arguments pq_default {T}.

(** post_queues.rs:52-72 *)
Definition pq_get {T} (q : post_queues T) (i : option rel_session_index) : list T :=
  match i with
  | Some RCurrent => pq_current q
  | Some RPrev => pq_prev q
  | None => pq_default q
  end.
Definition pq_set {T} (q : post_queues T) (i : option rel_session_index) (l : list T) : post_queues T :=
  match i with
  | Some RCurrent => PostQueues l (pq_prev q) (pq_default q)
  | Some RPrev => PostQueues (pq_current q) l (pq_default q)
  | None => PostQueues (pq_current q) (pq_prev q) l
  end.

(** Observable effects of the manager on its environment, in order. Not a field in the Rust code:
    this is the log of the calls the manager makes to [Mixnet::post_request] (with their result, and
    for a success the clock read just after it and the estimated round-trip time) and to the two
    callbacks of the [Request] trait. *)
Inductive rm_event (Req : Type) :=
| EvPosted (r : Req) (id : bytes) (s : session_index) (dest : option mixnode_index)
    (at_time : instant) (rtt : duration)
| EvNoSpace (r : Req)
| EvPostErr (r : Req) (e : post_err)
| EvRetryLimit (r : Req).
Global Arguments EvPosted {Req}.
Global Arguments EvNoSpace {Req}.
Global Arguments EvPostErr {Req}.
Global Arguments EvRetryLimit {Req}.

(** request_manager/mod.rs:101-112, with the log *)
Record request_manager (Req : Type) := RequestManager {
  rqm_config : rm_config;
  rqm_created_at : instant;
  rqm_status : session_status;
  rqm_post_queues : post_queues (request_state Req);
  rqm_retry_queue : list (request_state Req);
  rqm_deadline_changed : bool;
  rqm_log : list (rm_event Req)
}.
Global Arguments RequestManager {Req}.
Global Arguments rqm_config {Req}.
Global Arguments rqm_created_at {Req}.
Global Arguments rqm_status {Req}.
Global Arguments rqm_post_queues {Req}.
Global Arguments rqm_retry_queue {Req}.
Global Arguments rqm_deadline_changed {Req}.
Global Arguments rqm_log {Req}.

Section updates.
  Context {Req : Type}.
  Implicit Types m : request_manager Req.
  Definition rqm_set_queues m q : request_manager Req :=
    RequestManager (rqm_config m) (rqm_created_at m) (rqm_status m) q (rqm_retry_queue m)
                   (rqm_deadline_changed m) (rqm_log m).
  Definition rqm_set_retry m l (changed : bool) : request_manager Req :=
    RequestManager (rqm_config m) (rqm_created_at m) (rqm_status m) (rqm_post_queues m) l
                   changed (rqm_log m).
  Definition rqm_set_status m s : request_manager Req :=
    RequestManager (rqm_config m) (rqm_created_at m) s (rqm_post_queues m) (rqm_retry_queue m)
                   (rqm_deadline_changed m) (rqm_log m).
  Definition rqm_emit m e : request_manager Req :=
    RequestManager (rqm_config m) (rqm_created_at m) (rqm_status m) (rqm_post_queues m)
                   (rqm_retry_queue m) (rqm_deadline_changed m) (rqm_log m ++ [e]).
End updates.

Section request_manager.
  Context {W Req : Type}.
  (** [Mixnet::post_request] for a request: session, [*destination_index], message ID. Returns the
      world, the new value of [*destination_index] and the result. *)
  Context (post : W -> session_index -> option mixnode_index -> bytes -> Req ->
                  outcome (W * option mixnode_index * result request_metrics post_err)).
  (** [Instant::now()] *)
  Context (now : W -> instant * W).
  (** [rand::thread_rng().fill_bytes(&mut message_id)] *)
  Context (fresh_id : W -> bytes * W).
  (** [Request::handling_delay] *)
  Context (handling_delay : Req -> bytes -> duration).

  Implicit Types (m : request_manager Req) (st : request_state Req) (w : W).

  (** request_manager/mod.rs:79-94 *)
  Definition new_destination st (past : instant) w : request_state Req * W :=
    let '(id, w) := fresh_id w in
    (RequestState (rst_request st) (rst_destinations_remaining st) (rst_attempts_remaining st)
                  (rst_posts_remaining st) id None None past, w).

  (** request_manager/mod.rs:116-126 *)
  Definition rqm_new (cf : rm_config) w : request_manager Req * W :=
    let '(t, w) := now w in
    (RequestManager cf t {| st_current_index := 0; st_phase := PCoverToCurrent |}
                    (PostQueues [] [] []) [] false [], w).

  (** request_manager/mod.rs:173-177 *)
  Definition rqm_len m : N :=
    N.of_nat (length (pq_current (rqm_post_queues m)) + length (pq_prev (rqm_post_queues m)) +
              length (pq_default (rqm_post_queues m)) + length (rqm_retry_queue m)).
  Definition rqm_has_space m : bool := rqm_len m <? rmc_capacity (rqm_config m).

  (** [VecDeque::partition_point] on a queue partitioned by [p] (it is sorted by deadline) *)
  Fixpoint partition_point {A} (p : A -> bool) (l : list A) : nat :=
    match l with
    | [] => 0%nat
    | x :: l' => if p x then S (partition_point p l') else 0%nat
    end.

  (** request_manager/mod.rs:289-295 *)
  Definition retry_insert m st : request_manager Req :=
    let i := partition_point (fun s => rst_retry_deadline s <? rst_retry_deadline st)
                             (rqm_retry_queue m) in
    let l := (take i (rqm_retry_queue m) ++ [st] ++ drop i (rqm_retry_queue m))%list in
    rqm_set_retry m l (if decide (i = 0%nat) then true else rqm_deadline_changed m).

  (** request_manager/mod.rs:275-298: a successful post. [st] has the new destination index. *)
  Definition post_ok m (rel_or_default : rel_session_index) (index_or_default : session_index) st
      (metrics : request_metrics) w : outcome (request_manager Req * W) :=
    rtt ← estimate_rtt metrics (handling_delay (rst_request st) (rst_message_id st));
    let '(t, w) := now w in
    let m := rqm_emit m (EvPosted (rst_request st) (rst_message_id st) index_or_default
                                  (rst_destination_index st) t rtt) in
    let deadline := N.max (rst_retry_deadline st) (t + rtt) in
    match checked_sub (rst_posts_remaining st) 1 with
    | Some posts_remaining =>
        let st := RequestState (rst_request st) (rst_destinations_remaining st)
                    (rst_attempts_remaining st) posts_remaining (rst_message_id st)
                    (Some index_or_default) (rst_destination_index st) deadline in
        let q := rqm_post_queues m in
        Val (rqm_set_queues m (pq_set q (Some rel_or_default)
                                 (pq_get q (Some rel_or_default) ++ [st])%list), w)
    | None =>
        let st := RequestState (rst_request st) (rst_destinations_remaining st)
                    (rst_attempts_remaining st) (rst_posts_remaining st) (rst_message_id st)
                    (Some index_or_default) (rst_destination_index st) deadline in
        Val (retry_insert m st, w)
    end.

  (** request_manager/mod.rs:256-307. The [while] loop, with fuel: [Panic] when it runs out, which is
      shown not to happen with the fuel used below. *)
  Fixpoint post_loop (fuel : nat) (rel : option rel_session_index)
      (rel_or_default : rel_session_index) (index : option session_index)
      (index_or_default : session_index) m w : outcome (request_manager Req * W) :=
    match fuel with
    | O => Panic
    | S fuel =>
        match pq_get (rqm_post_queues m) rel with
        | [] => Val (m, w)
        | st :: rest =>
            let m := rqm_set_queues m (pq_set (rqm_post_queues m) rel rest) in
            _ ← assert_or_panic (bool_decide (rst_session_index st = index));
            '(w, dest, res) ← post w index_or_default (rst_destination_index st)
                                   (rst_message_id st) (rst_request st);
            let st := RequestState (rst_request st) (rst_destinations_remaining st)
                        (rst_attempts_remaining st) (rst_posts_remaining st) (rst_message_id st)
                        (rst_session_index st) dest (rst_retry_deadline st) in
            match res with
            | Ok metrics =>
                '(m, w) ← post_ok m rel_or_default index_or_default st metrics w;
                post_loop fuel rel rel_or_default index index_or_default m w
            | Err PeNotEnoughSpaceInQueue =>
                let m := rqm_emit m (EvNoSpace (rst_request st)) in
                Val (rqm_set_queues m (pq_set (rqm_post_queues m) rel
                                         (st :: pq_get (rqm_post_queues m) rel)), w)
            | Err e =>
                post_loop fuel rel rel_or_default index index_or_default
                  (rqm_emit m (EvPostErr (rst_request st) e)) w
            end
        end
    end.

  (** Iterations the loop can make: each one consumes a post of a request in the queue. *)
  Definition post_fuel (l : list (request_state Req)) : nat :=
    S (sum_list_with (fun st => S (N.to_nat (rst_posts_remaining st))) l).

  (** request_manager/mod.rs:233-308 *)
  Definition process_post_queue (rel : option rel_session_index) m w
    : outcome (request_manager Req * W) :=
    let rel_or_default := default (default_request_session (st_phase (rqm_status m))) rel in
    if bool_decide (rel_or_default = RPrev) && (st_current_index (rqm_status m) =? 0) then
      _ ← assert_or_panic (bool_decide (pq_prev (rqm_post_queues m) = []));
      Val (m, w)
    else
      index ← match rel with
              | Some rel => i ← rsi_add rel (st_current_index (rqm_status m)); Val (Some i)
              | None => Val None
              end;
      index_or_default ← rsi_add rel_or_default (st_current_index (rqm_status m));
      post_loop (post_fuel (pq_get (rqm_post_queues m) rel)) rel rel_or_default index
                index_or_default m w.

  (** request_manager/mod.rs:314-325 *)
  Definition process_post_queues m w : outcome (request_manager Req * W) :=
    '(m, w) ← process_post_queue None m w;
    '(m, w) ← process_post_queue (Some RCurrent) m w;
    process_post_queue (Some RPrev) m w.

  (** request_manager/mod.rs:327-338 *)
  Definition session_post_queues_empty m (rel : option rel_session_index) : bool :=
    let is_empty l := bool_decide (l = [] :> list (request_state Req)) in
    if negb (is_empty (pq_get (rqm_post_queues m) rel)) then false
    else
      let dflt := default_request_session (st_phase (rqm_status m)) in
      match rel with
      | Some rel => if decide (rel = dflt) then is_empty (pq_default (rqm_post_queues m)) else true
      | None => is_empty (pq_get (rqm_post_queues m) (Some dflt))
      end.

  (** request_manager/mod.rs:340-393 *)
  Definition rqm_retry m st w : outcome (request_manager Req * W) :=
    _ ← assert_or_panic (rst_posts_remaining st =? 0);
    next ←
      match checked_sub (rst_attempts_remaining st) 1 with
      | Some attempts =>
          Val (Some (RequestState (rst_request st) (rst_destinations_remaining st) attempts
                       (rst_posts_remaining st) (rst_message_id st) (rst_session_index st)
                       (rst_destination_index st) (rst_retry_deadline st), w))
      | None =>
          match checked_sub (rst_destinations_remaining st) 1 with
          | None => Val None
          | Some destinations =>
              attempts ← sub_or_panic (rmc_num_attempts_per_destination (rqm_config m)) 1;
              Val (Some (new_destination
                           (RequestState (rst_request st) destinations attempts
                              (rst_posts_remaining st) (rst_message_id st) (rst_session_index st)
                              (rst_destination_index st) (rst_retry_deadline st))
                           (rqm_created_at m) w))
          end
      end;
    match next with
    | None => Val (rqm_emit m (EvRetryLimit (rst_request st)), w)
    | Some (st, w) =>
        posts ← sub_or_panic (rmc_num_posts_per_attempt (rqm_config m)) 1;
        let st := RequestState (rst_request st) (rst_destinations_remaining st)
                    (rst_attempts_remaining st) posts (rst_message_id st)
                    (rst_session_index st) (rst_destination_index st) (rst_retry_deadline st) in
        let '(rel, st, w) :=
          match rst_session_index st with
          | None => (None, st, w)
          | Some index =>
              let rel := rsi_from_session_index index (st_current_index (rqm_status m)) in
              let allowed :=
                match rel with
                | Some rel => allow_requests_and_replies (st_phase (rqm_status m)) rel
                | None => false
                end in
              if negb allowed
              then let '(st, w) := new_destination st (rqm_created_at m) w in (None, st, w)
              else (rel, st, w)
          end in
        let empty := session_post_queues_empty m rel in
        let q := rqm_post_queues m in
        let m := rqm_set_queues m (pq_set q rel (pq_get q rel ++ [st])%list) in
        if empty : bool then
          '(m, w) ← process_post_queue rel m w;
          match rel with
          | None =>
              process_post_queue (Some (default_request_session (st_phase (rqm_status m)))) m w
          | Some _ => Val (m, w)
          end
        else Val (m, w)
    end.

  (** request_manager/mod.rs:190-212 *)
  Definition rqm_insert m (r : Req) w : outcome (request_manager Req * W) :=
    _ ← assert_or_panic (rqm_has_space m);
    rqm_retry m (RequestState r (rmc_num_destinations (rqm_config m)) 0 0
                              (replicate MESSAGE_ID_SIZE 0) None None (rqm_created_at m)) w.

  (** Removal of the first element satisfying [p], with its position *)
  Fixpoint remove_first {A} (p : A -> bool) (l : list A) : option (nat * A * list A) :=
    match l with
    | [] => None
    | x :: l' =>
        if p x then Some (0%nat, x, l')
        else match remove_first p l' with
             | Some (i, y, l'') => Some (S i, y, x :: l'')
             | None => None
             end
    end.

  (** request_manager/mod.rs:216-231 *)
  Definition rqm_remove m (id : bytes) : request_manager Req * option Req :=
    let p st := bool_decide (rst_message_id st = id) in
    let q := rqm_post_queues m in
    match remove_first p (pq_current q) with
    | Some (_, st, l) => (rqm_set_queues m (pq_set q (Some RCurrent) l), Some (rst_request st))
    | None =>
        match remove_first p (pq_prev q) with
        | Some (_, st, l) => (rqm_set_queues m (pq_set q (Some RPrev) l), Some (rst_request st))
        | None =>
            match remove_first p (pq_default q) with
            | Some (_, st, l) => (rqm_set_queues m (pq_set q None l), Some (rst_request st))
            | None =>
                match remove_first p (rqm_retry_queue m) with
                | Some (i, st, l) =>
                    (rqm_set_retry m l (if decide (i = 0%nat) then true else rqm_deadline_changed m),
                     Some (rst_request st))
                | None => (m, None)
                end
            end
        end
    end.

  (** request_manager/mod.rs:161-163 *)
  Fixpoint new_destinations (l : list (request_state Req)) (past : instant) w
    : list (request_state Req) * W :=
    match l with
    | [] => ([], w)
    | st :: l' =>
        let '(st, w) := new_destination st past w in
        let '(l', w) := new_destinations l' past w in
        (st :: l', w)
    end.

  (** request_manager/mod.rs:143-159: the queues after the session change, before new destinations
      are assigned *)
  Definition shift_queues (q : post_queues (request_state Req)) (old new : session_status)
    : post_queues (request_state Req) :=
    let q :=
      if st_current_index old =? st_current_index new then q
      else
        let q := PostQueues (pq_current q) [] (pq_default q ++ pq_prev q)%list in
        if saturating_sub (st_current_index new) (st_current_index old) =? 1
        then PostQueues (pq_prev q) (pq_current q) (pq_default q)
        else PostQueues [] (pq_prev q) (pq_default q ++ pq_current q)%list in
    let q := if negb (allow_requests_and_replies (st_phase new) RCurrent)
             then PostQueues [] (pq_prev q) (pq_default q ++ pq_current q)%list else q in
    if negb (allow_requests_and_replies (st_phase new) RPrev)
    then PostQueues (pq_current q) [] (pq_default q ++ pq_prev q)%list else q.

  (** request_manager/mod.rs:130-170. [status] is [mixnet.session_status()]. *)
  Definition update_session_status m (status : session_status) w
    : outcome (request_manager Req * W) :=
    if decide (rqm_status m = status) then Val (m, w)
    else
      let prev_default_len := length (pq_default (rqm_post_queues m)) in
      let q := shift_queues (rqm_post_queues m) (rqm_status m) status in
      let '(moved, w) :=
        new_destinations (drop prev_default_len (pq_default q)) (rqm_created_at m) w in
      let q := pq_set q None (take prev_default_len (pq_default q) ++ moved)%list in
      process_post_queues (rqm_set_status (rqm_set_queues m q) status) w.

  (** request_manager/mod.rs:397-399 *)
  Definition next_retry_deadline m : option instant :=
    rst_retry_deadline <$> head (rqm_retry_queue m).

  (** request_manager/mod.rs:404-417 *)
  Definition pop_next_retry m w : outcome (request_manager Req * W * bool) :=
    match rqm_retry_queue m with
    | [] => Val (m, w, false)
    | st :: rest =>
        '(m, w) ← rqm_retry (rqm_set_retry m rest true) st w;
        Val (m, w, true)
    end.

  (** request_manager/mod.rs:421-425 *)
  Definition next_retry_deadline_changed m : request_manager Req * bool :=
    (rqm_set_retry m (rqm_retry_queue m) false, rqm_deadline_changed m).
End request_manager.
