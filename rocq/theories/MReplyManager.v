(** Model of src/reply_manager.rs. Posting a reply to the mixnet ([post]), the clock ([now]) and the
    random reply message ID ([fresh_id]) are functions of an abstract world [W], instantiated with
    the model of [Mixnet] in [MManagers.v]. Logging is omitted. *)
From Verif Require Export MMixnet.

(** reply_manager.rs:33-47 (without [log_target]) *)
Record ym_config := YmConfig {
  ymc_capacity : N;
  ymc_max_posts : nat;
  ymc_cooldown : duration
}.

(** reply_manager.rs:49-58 *)
Definition default_ym_config : ym_config :=
  {| ymc_capacity := 400; ymc_max_posts := 2; ymc_cooldown := (10 * NANOS_PER_SEC)%N |}.

(** reply_manager.rs:60-64 *)
Record reply := Reply { ry_message_id : bytes; ry_data : bytes }.

(** reply_manager.rs:75-80 *)
Record reply_context := ReplyContext {
  rc_session_index : session_index;
  rc_message_id : bytes;
  rc_surbs : list bytes
}.

(** reply_manager.rs:105-110 *)
Inductive reply_state :=
| YPending
| YComplete (r : reply) (last_post : instant).

(** reply_manager.rs:113-116 *)
Record reply_manager := ReplyManager {
  ym_cfg : ym_config;
  ym_states : lhm bytes reply_state
}.

Section reply_manager.
  Context {W : Type}.
  (** [Mixnet::post_reply]: SURBs, session, message ID, data. Returns the world, the SURBs left and
      the result. *)
  Context (post : W -> list bytes -> session_index -> bytes -> bytes ->
                  outcome (W * list bytes * result unit post_err)).
  Context (now : W -> instant * W).
  Context (fresh_id : W -> bytes * W).

  Implicit Types (m : reply_manager) (w : W).

  (** reply_manager.rs:66-72 *)
  Definition reply_new (data : bytes) w : reply * W :=
    let '(id, w) := fresh_id w in ({| ry_message_id := id; ry_data := data |}, w).

  (** reply_manager.rs:88-102: [n] iterations of the loop *)
  Fixpoint post_reply_n (n : nat) (c : reply_context) (r : reply) w : outcome (reply_context * W) :=
    match n with
    | O => Val (c, w)
    | S n' =>
        '(w, surbs, res) ← post w (rc_surbs c) (rc_session_index c) (ry_message_id r) (ry_data r);
        let c := {| rc_session_index := rc_session_index c; rc_message_id := rc_message_id c;
                    rc_surbs := surbs |} in
        match res with
        | Err _ => Val (c, w)
        | Ok _ => post_reply_n n' c r w
        end
    end.

  (** reply_manager.rs:120-126 *)
  Definition ym_new (cf : ym_config) : reply_manager := {| ym_cfg := cf; ym_states := [] |}.

  Definition ym_set m (s : lhm bytes reply_state) : reply_manager :=
    {| ym_cfg := ym_cfg m; ym_states := s |}.

  (** reply_manager.rs:128-133 *)
  Definition ym_maybe_evict m : outcome reply_manager :=
    if (ymc_capacity (ym_cfg m) <? N.of_nat (length (ym_states m)))%N then
      let m := ym_set m (snd (lhm_pop_front (ym_states m))) in
      _ ← assert_or_panic (N.of_nat (length (ym_states m)) =? ymc_capacity (ym_cfg m))%N;
      Val m
    else Val m.

  (** reply_manager.rs:143-180 *)
  Definition ym_insert m (msg : request_message) w
    : outcome (reply_manager * W * option (reply_context * bytes)) :=
    let c := {| rc_session_index := rq_session_index msg; rc_message_id := rq_id msg;
                rc_surbs := rq_surbs msg |} in
    match lhm_get (ym_states m) (rq_id msg) with
    | Some YPending => Val (m, w, None)
    | Some (YComplete r last_post) =>
        let '(t, w) := now w in
        let since_last := saturating_sub t last_post in
        if (since_last <? ymc_cooldown (ym_cfg m))%N then Val (m, w, None)
        else
          let m := ym_set m (lhm_set (ym_states m) (rq_id msg) (YComplete r t)) in
          '(_, w) ← post_reply_n (ymc_max_posts (ym_cfg m)) c r w;
          Val (m, w, None)
    | None =>
        m ← ym_maybe_evict (ym_set m (lhm_push_back (ym_states m) (rq_id msg) YPending));
        Val (m, w, Some (c, rq_data msg))
    end.

  (** reply_manager.rs:185-198 *)
  Definition ym_abandon m (c : reply_context) : reply_manager :=
    match lhm_get (ym_states m) (rc_message_id c) with
    | Some YPending => ym_set m (lhm_remove (ym_states m) (rc_message_id c))
    | _ => m
    end.

  (** reply_manager.rs:201-225 *)
  Definition ym_complete m (c : reply_context) (data : bytes) w : outcome (reply_manager * W) :=
    match lhm_get (ym_states m) (rc_message_id c) with
    | Some (YComplete _ _) => Val (m, w)
    | other =>
        let m := match other with
                 | None => ym_set m (lhm_push_back (ym_states m) (rc_message_id c) YPending)
                 | Some _ => m
                 end in
        let '(r, w) := reply_new data w in
        '(_, w) ← post_reply_n (ymc_max_posts (ym_cfg m)) c r w;
        let '(t, w) := now w in
        m ← ym_maybe_evict (ym_set m (lhm_set (ym_states m) (rc_message_id c) (YComplete r t)));
        Val (m, w)
    end.
End reply_manager.
