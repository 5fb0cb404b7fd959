(** Model of src/core/request_builder.rs and src/core/cover.rs. *)
From Verif Require Export MTopology MBuild MPacketQueues.

(** request_builder.rs:35-38 *)
Record route_metrics := RouteMetrics { rm_num_hops : nat; rm_forwarding_delay : delay }.

(** request_builder.rs:40-43 *)
Record request_builder := RequestBuilder {
  rb_route_generator : route_generator;
  rb_destination_index : mixnode_index
}.

(** util.rs:23-25: [default_boxed_array] for a packet *)
Definition default_packet : bytes := replicate PACKET_SIZE 0%N.

Section builder.
  Context (pr : prims).

  (** request_builder.rs:46-58 *)
  Definition rb_new (t : topology) (ns : network_status) (destination_index : option mixnode_index)
      (r : rng) : route_result request_builder :=
    g ← rg_new t ns;
    '(destination, r) ←?
      match destination_index with
      | Some index => Val (Ok (index, r))
      | None => choose_destination_index g r
      end;
    Val (Ok ({| rb_route_generator := g; rb_destination_index := destination |}, r)).

  (** request_builder.rs:64-92. [write_payload_data] is the closure, with the variables it captures
      mutably as explicit state [S]; the state after the call is returned whatever the result. *)
  Definition rb_build_packet {S : Type} (rb : request_builder)
      (write_payload_data : S -> bytes -> rng -> outcome (S * result (bytes * rng) topology_err))
      (num_hops : nat) (s : S) (r : rng)
    : outcome (S * result (addressed_packet * route_metrics * rng) topology_err) :=
    route_res ← gen_route (rb_route_generator rb) (RkToMixnode (rb_destination_index rb)) num_hops r;
    match route_res with
    | Err e => Val (s, Err e)
    | Ok (route, r) =>
        match tp_index_to_peer_id (rg_topology (rb_route_generator rb)) (rt_first route) with
        | Err e => Val (s, Err e)
        | Ok peer_id =>
            let packet := default_packet in
            '(s, written) ← write_payload_data s (get_payload_data packet) r;
            match written with
            | Err e => Val (s, Err e)
            | Ok (data, r) =>
                let packet := set_payload_data packet data in
                '(packet, forwarding_delay, r) ←
                  complete_request_packet pr packet (rt_targets route) (rt_kx_publics route) r;
                Val (s, Ok ({| ap_peer_id := peer_id; ap_packet := packet |},
                            {| rm_num_hops := length (rt_kx_publics route);
                               rm_forwarding_delay := forwarding_delay |}, r))
            end
        end
    end.

  (** request_builder.rs:94-125. [surb] and [keys] are the initial contents; the new contents are
      returned on success (on failure they are unchanged). *)
  Definition rb_build_surb (rb : request_builder) (surb : bytes) (keys : list bytes) (id : bytes)
      (num_hops : nat) (r : rng) : route_result (bytes * list bytes * route_metrics) :=
    '(route, r) ←?
      gen_route (rb_route_generator rb) (RkFromMixnode (rb_destination_index rb)) num_hops r;
    '(surb, keys, forwarding_delay, r) ←
      build_surb pr surb keys (rt_first route) (rt_targets route) (rt_kx_publics route) id r;
    Val (Ok ((surb, keys, {| rm_num_hops := length (rt_kx_publics route);
                             rm_forwarding_delay := forwarding_delay |}), r)).

  (** cover.rs:33-36 *)
  Inductive cover_kind := CkDrop | CkLoop.

  (** cover.rs:38-67 *)
  Definition gen_cover_packet (t : topology) (ns : network_status) (kind : cover_kind)
      (num_hops : nat) (r : rng) : outcome (result addressed_packet topology_err) :=
    g ← rg_new t ns;
    '(rkind, r) ←?
      match kind with
      | CkDrop => '(i, r) ←? choose_destination_index g r; Val (Ok (RkToMixnode i, r))
      | CkLoop => Val (Ok (RkLoop, r))
      end;
    '(route, r) ←? gen_route g rkind num_hops r;
    match tp_index_to_peer_id t (rt_first route) with
    | Err e => Val (Err e)
    | Ok peer_id =>
        '(packet, _, _) ←
          build_cover_packet pr default_packet (rt_targets route) (rt_kx_publics route) None r;
        Val (Ok {| ap_peer_id := peer_id; ap_packet := packet |})
    end.
End builder.
