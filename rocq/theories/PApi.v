(** Histories of API calls on a node, and the invariant of all reachable states. *)
From Verif Require Export PPost.

(** ** Calls

    The public functions of [Mixnet] (mod.rs:304-866) with their arguments and the outcomes of their
    random choices. [next_forward_packet_deadline], [next_authored_packet_delay], [reserved_peers]
    and [session_status] read the state only and are not listed. *)
Inductive call :=
| CallSetStatus (st : session_status)
| CallSetMixnodes (rel : rel_session_index) (mixnodes : result (list mixnode) mixnodes_err) (r : rng)
| CallNextKx (r : rng)
| CallHandle (p : bytes) (now : instant)
| CallPopForward (tie : N)
| CallPopAuthored (ns : network_status) (r : rng)
| CallPostRequest (index : session_index) (dest : option mixnode_index) (id : bytes)
    (data : scattered N) (num_surbs : N) (ns : network_status) (r : rng)
| CallPostReply (surbs : list bytes) (index : session_index) (id : bytes) (data : scattered N)
| CallTakeEvents.

(** What a call returns. *)
Inductive resp :=
| RespUnit
| RespCalled (called : bool)
| RespKx (public : bytes)
| RespMessage (msg : option message)
| RespPacket (p : option addressed_packet)
| RespPost (dest : option mixnode_index) (res : result request_metrics post_err)
| RespReply (surbs : list bytes) (res : result unit post_err)
| RespEvents (e : events).

Definition exec (pr : prims) (m : mixnet) (c : call) : outcome (mixnet * resp) :=
  match c with
  | CallSetStatus st => Val (set_session_status m st, RespUnit)
  | CallSetMixnodes rel mixnodes r =>
      '(m, b) ← maybe_set_mixnodes pr m rel mixnodes r; Val (m, RespCalled b)
  | CallNextKx r => let '(m, k) := next_kx_public pr m r in Val (m, RespKx k)
  | CallHandle p now => '(m, msg) ← handle_packet pr m p now; Val (m, RespMessage msg)
  | CallPopForward tie => let '(m, p) := pop_next_forward_packet m tie in Val (m, RespPacket p)
  | CallPopAuthored ns r => '(m, p) ← pop_next_authored_packet pr m ns r; Val (m, RespPacket p)
  | CallPostRequest index dest id data num_surbs ns r =>
      '(m, d, res) ← post_request pr m index dest id data num_surbs ns r; Val (m, RespPost d res)
  | CallPostReply surbs index id data =>
      '(m, surbs, res) ← post_reply pr m surbs index id data; Val (m, RespReply surbs res)
  | CallTakeEvents => let '(m, e) := take_events m in Val (m, RespEvents e)
  end.

(** The sizes that the argument types impose. *)
Definition mixnode_ok (n : mixnode) : Prop := length (mn_kx_public n) = 32 /\ length (mn_peer_id n) = 32.
Definition call_ok (c : call) : Prop :=
  match c with
  | CallSetMixnodes _ (Ok ns) _ => Forall mixnode_ok ns
  | CallHandle p _ => length p = N.to_nat 2252
  | CallPopAuthored ns _ => length (ns_local_peer_id ns) = 32
  | CallPostRequest _ dest id data num_surbs ns _ =>
      args_ok id data num_surbs /\ length (ns_local_peer_id ns) = 32 /\
      (forall d, dest = Some d -> (d <= 65279)%N)
  | CallPostReply surbs _ id data => args_ok id data 0 /\ Forall (fun s => length s = 222) surbs
  | _ => True
  end.

(** [run pr m hist m']: a sequence of calls, none of which panics, takes [m] to [m']. *)
Inductive run (pr : prims) : mixnet -> list (call * resp) -> mixnet -> Prop :=
| RunNil m : run pr m [] m
| RunCons m c a m1 hist m2 :
    call_ok c -> exec pr m c = Val (m1, a) -> run pr m1 hist m2 -> run pr m ((c, a) :: hist) m2.

(** The states of a node. The number of hops is at most 6 (an [expect] would fail otherwise). *)
Definition config_ok (cf : config) : Prop :=
  cf_num_hops cf ≤ 6 /\ (forall k, cf_session_0_kx_secret cf = Some k -> length k = 32).
Definition reachable (pr : prims) (cf : config) (hist : list (call * resp)) (m : mixnet) : Prop :=
  config_ok cf /\ exists m0, mx_new pr cf = Val m0 /\ run pr m0 hist m.
