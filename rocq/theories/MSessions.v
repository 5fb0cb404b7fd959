(** Model of src/core/sessions.rs. [fmt::Display] implementations are not modelled. *)
From Verif Require Export MTopology MPacketQueues MReplayFilter.

(** sessions.rs:33-47 *)
Record session := Session {
  se_kx_pair : kx_pair;
  se_topology : topology;
  se_authored : authored_queue;
  se_mean_period : duration;
  se_filter : replay_filter
}.

(** sessions.rs:50 *)
Notation session_index := N (only parsing).

(** sessions.rs:54-59 *)
Inductive rel_session_index := RCurrent | RPrev.
Global Instance rel_session_index_eq_dec : EqDecision rel_session_index.
Proof. solve_decision. Defined.

(** sessions.rs:64-73 *)
Definition rsi_from_session_index (index current : session_index) : option rel_session_index :=
  match checked_sub current index with
  | Some 0%N => Some RCurrent
  | Some 1%N => Some RPrev
  | _ => None
  end.

(** sessions.rs:76-85 *)
Definition rsi_add (rel : rel_session_index) (other : session_index) : outcome session_index :=
  match rel with
  | RCurrent => Val other
  | RPrev => expect (checked_sub other 1)
  end.

(** sessions.rs:87-93 *)
Inductive session_slot :=
| SlEmpty
| SlKxPair (k : kx_pair)
| SlDisabled
| SlFull (s : session).

(** sessions.rs:96-98 *)
Definition slot_is_empty (s : session_slot) : bool := match s with SlEmpty => true | _ => false end.
(** sessions.rs:100-112 *)
Definition slot_as_option (s : session_slot) : option session :=
  match s with SlFull s => Some s | _ => None end.

(** sessions.rs:115-118 *)
Record sessions := Sessions { ss_current : session_slot; ss_prev : session_slot }.

(** sessions.rs:121-123 *)
Definition ss_is_empty (s : sessions) : bool :=
  slot_is_empty (ss_current s) && slot_is_empty (ss_prev s).

(** sessions.rs:125-129 *)
Definition ss_iter (s : sessions) : list session :=
  omap slot_as_option [ss_current s; ss_prev s].

(** sessions.rs:132-136 *)
Definition ss_enumerate (s : sessions) : list (rel_session_index * session) :=
  omap (fun '(i, sl) => pair i <$> slot_as_option sl)
       [(RCurrent, ss_current s); (RPrev, ss_prev s)].

(** sessions.rs:139-157 *)
Definition ss_get (s : sessions) (rel : rel_session_index) : session_slot :=
  match rel with RCurrent => ss_current s | RPrev => ss_prev s end.
Definition ss_set (s : sessions) (rel : rel_session_index) (sl : session_slot) : sessions :=
  match rel with
  | RCurrent => {| ss_current := sl; ss_prev := ss_prev s |}
  | RPrev => {| ss_current := ss_current s; ss_prev := sl |}
  end.

(** sessions.rs:161-173, with the derived order *)
Inductive session_phase :=
| PCoverToCurrent
| PRequestsToCurrent
| PCoverToPrev
| PDisconnectFromPrev.
Global Instance session_phase_eq_dec : EqDecision session_phase.
Proof. solve_decision. Defined.

Definition phase_rank (p : session_phase) : nat :=
  match p with
  | PCoverToCurrent => 0
  | PRequestsToCurrent => 1
  | PCoverToPrev => 2
  | PDisconnectFromPrev => 3
  end.

(** sessions.rs:177-179 *)
Definition need_prev (p : session_phase) : bool :=
  bool_decide (phase_rank p < phase_rank PDisconnectFromPrev).

(** sessions.rs:183-188 *)
Definition allow_requests_and_replies (p : session_phase) (rel : rel_session_index) : bool :=
  match rel with
  | RPrev => bool_decide (phase_rank p < phase_rank PCoverToPrev)
  | RCurrent => bool_decide (phase_rank PRequestsToCurrent ≤ phase_rank p)
  end.

(** sessions.rs:191-197 *)
Definition default_request_session (p : session_phase) : rel_session_index :=
  if bool_decide (phase_rank PRequestsToCurrent ≤ phase_rank p) then RCurrent else RPrev.

(** sessions.rs:213-218 *)
Record session_status := SessionStatus {
  st_current_index : session_index;
  st_phase : session_phase
}.
Global Instance session_status_eq_dec : EqDecision session_status.
Proof. solve_decision. Defined.
