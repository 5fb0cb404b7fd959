(** The managers connected to the model of [Mixnet]. *)
From Verif Require Export MRequestManager MReplyManager.

(** What a manager call sees of the outside world: the mixnet, the network status, one arbitrary
    random tape per use of [rand::thread_rng()], and the clock, whose successive readings are
    arbitrary. *)
Record world := World {
  w_mixnet : mixnet;
  w_ns : network_status;
  w_rng : nat -> rng;
  w_rng_uses : nat;
  w_clock : nat -> instant;
  w_ticks : nat
}.

(** [Instant::now()] *)
Definition w_now (w : world) : instant * world :=
  (w_clock w (w_ticks w),
   World (w_mixnet w) (w_ns w) (w_rng w) (w_rng_uses w) (w_clock w) (S (w_ticks w))).

(** [rand::thread_rng().fill_bytes(&mut message_id)] *)
Definition w_fresh_id (w : world) : bytes * world :=
  (fst (rng_fill MESSAGE_ID_SIZE (w_rng w (w_rng_uses w))),
   World (w_mixnet w) (w_ns w) (w_rng w) (S (w_rng_uses w)) (w_clock w) (w_ticks w)).

(** The world after a call into the mixnet that used randomness *)
Definition w_set_mixnet (w : world) (m : mixnet) : world :=
  World m (w_ns w) (w_rng w) (S (w_rng_uses w)) (w_clock w) (w_ticks w).

(** A request as seen through the [Request] trait (request_manager/mod.rs:42-60): the data passed by
    [with_data], [num_surbs] and [handling_delay]. [rqt_tag] identifies the request. *)
Record user_request := UserRequest {
  rqt_tag : N;
  rqt_data : scattered N;
  rqt_num_surbs : N;
  rqt_handling_delay : bytes -> duration
}.

Section managers.
  Context (pr : prims).

  (** request_manager/mod.rs:260-272 *)
  Definition w_post_request (w : world) (index : session_index) (dest : option mixnode_index)
      (id : bytes) (r : user_request)
    : outcome (world * option mixnode_index * result request_metrics post_err) :=
    '(m, dest, res) ← post_request pr (w_mixnet w) index dest id (rqt_data r) (rqt_num_surbs r)
                                   (w_ns w) (w_rng w (w_rng_uses w));
    Val (w_set_mixnet w m, dest, res).

  (** reply_manager.rs:90-95 *)
  Definition w_post_reply (w : world) (surbs : list bytes) (index : session_index) (id : bytes)
      (data : bytes) : outcome (world * list bytes * result unit post_err) :=
    '(m, surbs, res) ← post_reply pr (w_mixnet w) surbs index id (sc_from_slice data);
    Val (w_set_mixnet w m, surbs, res).
End managers.
