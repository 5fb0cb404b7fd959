(** Model of src/core/mod.rs and src/core/config.rs.

    Every API function is a function of the state. Sources of non-determinism are arguments: the
    random tape [r] for [rand::thread_rng()] in that call, [now] for [Instant::now()], a tie-break
    for the binary heap, an arbitrary number for [rand_distr::Exp1]. Logging is omitted. *)
From Verif Require Export MPeel MFragment MSurbKeystore MRequestBuilder MSessions.

(** config.rs:32-42 *)
Record session_config := SessionConfig {
  sc_authored : apq_config;
  sc_mean_period : duration
}.

(** config.rs:46-92 (without [log_target]) *)
Record config := Config {
  cf_num_gateway_mixnodes : N;
  cf_session_0_kx_secret : option bytes;
  cf_mixnode_session : session_config;
  cf_non_mixnode_session : option session_config;
  cf_forward_capacity : N;
  cf_mean_forwarding_delay : duration;
  cf_per_hop_net_delay : duration;
  cf_loop_cover_proportion : f64;
  cf_gen_cover_packets : bool;
  cf_num_hops : nat;
  cf_surb_keystore_capacity : N;
  cf_max_incomplete_messages : N;
  cf_max_incomplete_fragments : N;
  cf_max_fragments_per_message : N
}.

(** config.rs:94-137 *)
Definition default_config : config := {|
  cf_num_gateway_mixnodes := 3;
  cf_session_0_kx_secret := None;
  cf_mixnode_session :=
    {| sc_authored := {| apc_capacity := 50; apc_multiple_messages := true |};
       sc_mean_period := (100 * 1000000)%N |};
  cf_non_mixnode_session := Some
    {| sc_authored := {| apc_capacity := 25; apc_multiple_messages := false |};
       sc_mean_period := (1000 * 1000000)%N |};
  cf_forward_capacity := 300;
  cf_mean_forwarding_delay := NANOS_PER_SEC;
  cf_per_hop_net_delay := (300 * 1000000)%N;
  cf_loop_cover_proportion := f_lit 1 4;
  cf_gen_cover_packets := true;
  cf_num_hops := MAX_HOPS;
  cf_surb_keystore_capacity := 200;
  cf_max_incomplete_messages := 2000;
  cf_max_incomplete_fragments := 2000;
  cf_max_fragments_per_message := 25
|}.

(** mod.rs:80-85 *)
Inductive mixnodes_err := MeTransient | MePermanent.

(** mod.rs:89-99 *)
Record request_message := RequestMessage {
  rq_session_index : session_index;
  rq_id : bytes;
  rq_data : bytes;
  rq_surbs : list bytes
}.
(** mod.rs:103-108 *)
Record reply_message := ReplyMessage { rp_request_id : bytes; rp_data : bytes }.
(** mod.rs:112-117 *)
Inductive message :=
| MRequest (m : request_message)
| MReply (m : reply_message).

(** mod.rs:121-146 *)
Inductive post_err :=
| PeTooManyFragments
| PeSessionNoLongerActive (i : session_index)
| PeSessionNotActiveYet (i : session_index)
| PeSessionMixnodesNotKnown (i : session_index)
| PeSessionDisabled (i : session_index)
| PeNotEnoughSpaceInQueue
| PeTopology (e : topology_err)
| PeBadSurb.

(** mod.rs:148-173. Returns the relative index with the session, so that the caller can store the
    session back. *)
Definition post_session (ss : sessions) (status : session_status) (index : session_index)
  : result (rel_session_index * session) post_err :=
  match rsi_from_session_index index (st_current_index status) with
  | None =>
      Err (if (index <? st_current_index status)%N then PeSessionNoLongerActive index
           else PeSessionNotActiveYet index)
  | Some rel =>
      if negb (allow_requests_and_replies (st_phase status) rel) then
        Err (match rel with
             | RPrev => PeSessionNoLongerActive index
             | RCurrent => PeSessionNotActiveYet index
             end)
      else
        match ss_get ss rel with
        | SlEmpty | SlKxPair _ => Err (PeSessionMixnodesNotKnown index)
        | SlDisabled => Err (PeSessionDisabled index)
        | SlFull s => Ok (rel, s)
        end
  end.

(** mod.rs:175-182 *)
Definition post_err_of_check_space (e : check_space_err) : post_err :=
  match e with
  | CseCapacity => PeTooManyFragments
  | CseLen => PeNotEnoughSpaceInQueue
  end.

(** mod.rs:223-231: the estimate as a function of periods and lengths *)
Definition gamma_estimate (request_period : duration) (request_len : N) (reply_period : duration)
    (reply_len : N) : outcome duration :=
  let '(s, n, m, rs) :=
    if (reply_period <? request_period)%N
    then (request_period, request_len, reply_len, reply_period)
    else (reply_period, reply_len, request_len, request_period) in
  let n := f_of_N n in
  let m := f_of_N m in
  let r := f_div (as_secs_f64 rs) (as_secs_f64 s) in
  mul_f64 s
    (f_add (f_add (f_add (f_lit 492582 100000)
                     (f_mul (f_lit 387809 100000)
                        (f_sqrt (f_add n (f_mul (f_mul (f_mul r r) r) m)))))
              n)
       (f_mul r m)).

(** mod.rs:187-232 *)
Definition estimate_authored_packet_queue_delay (cf : config) (se : session) : outcome duration :=
  let rate_mul := f_mul (f_lit 1 2) (f_sub f_one (cf_loop_cover_proportion cf)) in
  request_period ← div_f64 (se_mean_period se) rate_mul;
  let request_len := aq_len (se_authored se) in
  reply_period ← div_f64 (sc_mean_period (cf_mixnode_session cf)) rate_mul;
  let reply_len := apc_capacity (sc_authored (cf_mixnode_session cf)) in
  gamma_estimate request_period request_len reply_period reply_len.

(** mod.rs:235-247 *)
Record request_metrics := RequestMetrics {
  rqm_num_hops : nat;
  rqm_per_hop_net_delay : duration;
  rqm_forwarding_delay : duration;
  rqm_authored_packet_queue_delay : duration
}.

(** mod.rs:253-256. [as u32] truncates; additions and the multiplication panic on overflow. *)
Definition estimate_rtt (m : request_metrics) (handling_delay : duration) : outcome duration :=
  net_delay ← dur_mul (rqm_per_hop_net_delay m) (N.of_nat (rqm_num_hops m) mod 2 ^ 32);
  a ← dur_add (rqm_forwarding_delay m) (rqm_authored_packet_queue_delay m);
  b ← dur_add a net_delay;
  dur_add b handling_delay.

(** mod.rs:259-275 *)
Record events := Events {
  ev_reserved_peers : bool;
  ev_forward_deadline : bool;
  ev_authored_deadline : bool;
  ev_space : bool
}.
Definition ev_empty : events := Events false false false false.
Definition ev_or (a b : events) : events :=
  Events (ev_reserved_peers a || ev_reserved_peers b)
         (ev_forward_deadline a || ev_forward_deadline b)
         (ev_authored_deadline a || ev_authored_deadline b)
         (ev_space a || ev_space b).
Definition RESERVED_PEERS_CHANGED : events := Events true false false false.
Definition NEXT_FORWARD_PACKET_DEADLINE_CHANGED : events := Events false true false false.
Definition NEXT_AUTHORED_PACKET_DEADLINE_CHANGED : events := Events false false true false.
Definition SPACE_IN_AUTHORED_PACKET_QUEUE : events := Events false false false true.

(** mod.rs:279-300 *)
Record mixnet := Mixnet {
  mx_config : config;
  mx_status : session_status;
  mx_sessions : sessions;
  mx_next_kx_pair : option kx_pair;
  mx_forward : forward_queue;
  mx_keystore : surb_keystore;
  mx_assembler : fragment_assembler;
  mx_events : events
}.

(** Field updates *)
Definition mx_set_sessions (m : mixnet) (s : sessions) : mixnet :=
  Mixnet (mx_config m) (mx_status m) s (mx_next_kx_pair m) (mx_forward m) (mx_keystore m)
         (mx_assembler m) (mx_events m).
Definition mx_set_status (m : mixnet) (s : session_status) : mixnet :=
  Mixnet (mx_config m) s (mx_sessions m) (mx_next_kx_pair m) (mx_forward m) (mx_keystore m)
         (mx_assembler m) (mx_events m).
Definition mx_set_next_kx_pair (m : mixnet) (k : option kx_pair) : mixnet :=
  Mixnet (mx_config m) (mx_status m) (mx_sessions m) k (mx_forward m) (mx_keystore m)
         (mx_assembler m) (mx_events m).
Definition mx_set_forward (m : mixnet) (q : forward_queue) : mixnet :=
  Mixnet (mx_config m) (mx_status m) (mx_sessions m) (mx_next_kx_pair m) q (mx_keystore m)
         (mx_assembler m) (mx_events m).
Definition mx_set_keystore (m : mixnet) (k : surb_keystore) : mixnet :=
  Mixnet (mx_config m) (mx_status m) (mx_sessions m) (mx_next_kx_pair m) (mx_forward m) k
         (mx_assembler m) (mx_events m).
Definition mx_set_assembler (m : mixnet) (a : fragment_assembler) : mixnet :=
  Mixnet (mx_config m) (mx_status m) (mx_sessions m) (mx_next_kx_pair m) (mx_forward m)
         (mx_keystore m) a (mx_events m).
Definition mx_or_events (m : mixnet) (e : events) : mixnet :=
  Mixnet (mx_config m) (mx_status m) (mx_sessions m) (mx_next_kx_pair m) (mx_forward m)
         (mx_keystore m) (mx_assembler m) (ev_or (mx_events m) e).

(** Updates of the fields of a session *)
Definition se_set_authored (s : session) (q : authored_queue) : session :=
  Session (se_kx_pair s) (se_topology s) q (se_mean_period s) (se_filter s).
Definition se_set_filter (s : session) (f : replay_filter) : session :=
  Session (se_kx_pair s) (se_topology s) (se_authored s) (se_mean_period s) f.

(** Storing a session back in its slot *)
Definition mx_put_session (m : mixnet) (rel : rel_session_index) (s : session) : mixnet :=
  mx_set_sessions m (ss_set (mx_sessions m) rel (SlFull s)).

Section mixnet.
  Context (pr : prims).

  (** mod.rs:304-335 *)
  Definition mx_new (cf : config) : outcome mixnet :=
    let ss := {| ss_current := match cf_session_0_kx_secret cf with
                               | None => SlEmpty
                               | Some secret => SlKxPair (kx_pair_from pr secret)
                               end;
                 ss_prev := SlDisabled |} in
    keystore ← sk_new (cf_surb_keystore_capacity cf);
    Val {| mx_config := cf;
           mx_status := {| st_current_index := 0%N; st_phase := PCoverToCurrent |};
           mx_sessions := ss;
           mx_next_kx_pair := None;
           mx_forward := fq_new (cf_forward_capacity cf);
           mx_keystore := keystore;
           mx_assembler := fa_new (cf_max_incomplete_messages cf) (cf_max_incomplete_fragments cf)
                                  (cf_max_fragments_per_message cf);
           mx_events := ev_empty |}.

  (** mod.rs:350-372 *)
  Definition shift_sessions (m : mixnet) (new_index : session_index) : mixnet :=
    if (st_current_index (mx_status m) =? new_index)%N then m
    else
      let next_session := match mx_next_kx_pair m with None => SlEmpty | Some k => SlKxPair k end in
      let ss := mx_sessions m in
      let ss :=
        match saturating_sub new_index (st_current_index (mx_status m)) with
        | 1%N => {| ss_current := next_session; ss_prev := ss_current ss |}
        | 2%N => {| ss_current := SlEmpty; ss_prev := next_session |}
        | _ => if negb (ss_is_empty ss) || negb (slot_is_empty next_session)
               then {| ss_current := SlEmpty; ss_prev := SlEmpty |}
               else ss
        end in
      mx_set_sessions (mx_set_next_kx_pair m None) ss.

  (** mod.rs:344-388 *)
  Definition set_session_status (m : mixnet) (status : session_status) : mixnet :=
    if decide (mx_status m = status) then m
    else
      let m := shift_sessions m (st_current_index status) in
      let m := if negb (need_prev (st_phase status)) || (st_current_index status =? 0)%N
               then mx_set_sessions m {| ss_current := ss_current (mx_sessions m);
                                         ss_prev := SlDisabled |}
               else m in
      let m := mx_or_events m (ev_or RESERVED_PEERS_CHANGED NEXT_AUTHORED_PACKET_DEADLINE_CHANGED) in
      mx_set_status m status.

  (** mod.rs:400-473. [mixnodes] is what the callback returns if it is called; the second component
      tells whether it was called. *)
  Definition maybe_set_mixnodes (m : mixnet) (rel : rel_session_index)
      (mixnodes : result (list mixnode) mixnodes_err) (r : rng) : outcome (mixnet * bool) :=
    let slot := ss_get (mx_sessions m) rel in
    match slot with
    | SlDisabled | SlFull _ => Val (m, false)
    | SlEmpty | SlKxPair _ =>
        _ ← rsi_add rel (st_current_index (mx_status m));
        match mixnodes with
        | Err MePermanent => Val (mx_set_sessions m (ss_set (mx_sessions m) rel SlDisabled), true)
        | Err MeTransient => Val (m, true)
        | Ok mixnodes =>
            let max_mixnodes := N.to_nat (MAX_MIXNODE_INDEX + 1) in
            let mixnodes :=
              if decide (max_mixnodes < length mixnodes) then take max_mixnodes mixnodes
              else mixnodes in
            let '(kx_pair, r) :=
              match slot with
              | SlKxPair k => (k, r)
              | _ => kx_pair_gen pr r
              end in
            '(topology, r) ← tp_new mixnodes (kp_public kx_pair)
                                   (cf_num_gateway_mixnodes (mx_config m)) r;
            match (if tp_is_mixnode topology then Some (cf_mixnode_session (mx_config m))
                   else cf_non_mixnode_session (mx_config m)) with
            | None => Val (mx_set_sessions m (ss_set (mx_sessions m) rel SlDisabled), true)
            | Some scf =>
                let '(filter, r) := rf_new r in
                let s := {| se_kx_pair := kx_pair;
                            se_topology := topology;
                            se_authored := aq_new (sc_authored scf);
                            se_mean_period := sc_mean_period scf;
                            se_filter := filter |} in
                Val (mx_or_events (mx_put_session m rel s)
                       (ev_or RESERVED_PEERS_CHANGED NEXT_AUTHORED_PACKET_DEADLINE_CHANGED), true)
            end
        end
    end.

  (** mod.rs:476-480 *)
  Definition next_kx_public (m : mixnet) (r : rng) : mixnet * bytes :=
    match mx_next_kx_pair m with
    | Some k => (m, kp_public k)
    | None => let '(k, _) := kx_pair_gen pr r in (mx_set_next_kx_pair m (Some k), kp_public k)
    end.

  (** mod.rs:483-485 *)
  Fixpoint reserved_peers_of (l : list session) : outcome (list mixnode) :=
    match l with
    | [] => Val []
    | s :: l' =>
        ps ← tp_reserved_peers (se_topology s);
        qs ← reserved_peers_of l';
        Val (ps ++ qs)
    end.
  Definition reserved_peers (m : mixnet) : outcome (list mixnode) :=
    reserved_peers_of (ss_iter (mx_sessions m)).

  (** Result of the [find_map] of [handle_packet]. *)
  Inductive try_peel_result :=
  | TpNone
  | TpErr
  | TpOk (out : bytes) (a : action) (rel : rel_session_index) (s : session) (tag : replay_tag).

  (** mod.rs:491-506 *)
  Fixpoint try_peel (out packet : bytes) (l : list (rel_session_index * session)) : try_peel_result :=
    match l with
    | [] => TpNone
    | (rel, s) :: l' =>
        let kx_shared_secret := kx_pair_exchange pr (se_kx_pair s) (kx_public packet) in
        let tag := rf_tag pr (se_filter s) kx_shared_secret in
        if rf_contains (se_filter s) tag then TpErr
        else
          match peel pr out packet kx_shared_secret with
          | (out, Err PeMac) => try_peel out packet l'
          | (_, Err _) => TpErr
          | (out, Ok a) => TpOk out a rel s tag
          end
    end.

  (** mod.rs:489-623 *)
  Definition handle_packet (m : mixnet) (packet : bytes) (now : instant)
    : outcome (mixnet * option message) :=
    match try_peel (replicate PACKET_SIZE 0%N) packet (ss_enumerate (mx_sessions m)) with
    | TpNone | TpErr => Val (m, None)
    | TpOk out a rel s tag =>
        match a with
        | AForwardTo tgt d =>
            if negb (tp_is_mixnode (se_topology s)) then Val (m, None)
            else if negb (fq_has_space (mx_forward m)) then Val (m, None)
            else
              let m := mx_put_session m rel (se_set_filter s (rf_insert (se_filter s) tag)) in
              match tp_target_to_peer_id (se_topology s) tgt with
              | Ok peer_id =>
                  dur ← delay_to_duration d (cf_mean_forwarding_delay (mx_config m));
                  let deadline := (now + dur)%N in
                  '(q, changed) ← fq_insert (mx_forward m) deadline
                                    {| ap_peer_id := peer_id; ap_packet := out |};
                  let m := mx_set_forward m q in
                  Val (if changed : bool then mx_or_events m NEXT_FORWARD_PACKET_DEADLINE_CHANGED
                       else m, None)
              | Err _ => Val (m, None)
              end
        | ADeliverRequest =>
            let payload_data := slice out 0 PAYLOAD_DATA_SIZE in
            if negb (tp_is_mixnode (se_topology s)) then Val (m, None)
            else
              let m := mx_put_session m rel (se_set_filter s (rf_insert (se_filter s) tag)) in
              '(fa, msg) ← fa_insert (mx_assembler m) payload_data;
              let m := mx_set_assembler m fa in
              match msg with
              | None => Val (m, None)
              | Some g =>
                  index ← rsi_add rel (st_current_index (mx_status m));
                  Val (m, Some (MRequest {| rq_session_index := index; rq_id := gm_id g;
                                            rq_data := gm_data g; rq_surbs := gm_surbs g |}))
              end
        | ADeliverReply surb_id =>
            let payload := slice out 0 PAYLOAD_SIZE in
            match sk_entry (mx_keystore m) surb_id with
            | None => Val (m, None)
            | Some v =>
                let '(payload, res) := decrypt_reply_payload pr payload (sv_keys v) in
                let m := mx_set_keystore m (sk_remove (mx_keystore m) surb_id) in
                match res with
                | Err _ => Val (m, None)
                | Ok _ =>
                    '(fa, msg) ← fa_insert (mx_assembler m) (slice payload 0 PAYLOAD_DATA_SIZE);
                    let m := mx_set_assembler m fa in
                    Val (m, (fun g => MReply {| rp_request_id := sv_message_id v;
                                                rp_data := gm_data g |}) <$> msg)
                end
            end
        | ADeliverCover _ => Val (m, None)
        end
    end.

  (** mod.rs:628-630 *)
  Definition next_forward_packet_deadline (m : mixnet) : option instant :=
    fq_next_deadline (mx_forward m).

  (** mod.rs:634-637 *)
  Definition pop_next_forward_packet (m : mixnet) (tie : N) : mixnet * option addressed_packet :=
    let m := mx_or_events m NEXT_FORWARD_PACKET_DEADLINE_CHANGED in
    let '(q, p) := fq_pop (mx_forward m) tie in
    (mx_set_forward m q, p).

  (** mod.rs:643-662: the mean period, in seconds *)
  Definition mean_authored_period (m : mixnet) : option f64 :=
    match map (fun s => as_secs_f64 (se_mean_period s)) (ss_iter (mx_sessions m)) with
    | [m0; m1] => Some (f_div (f_mul (f_mul f_two m0) m1) (f_add m0 m1))
    | [mean] => Some (if need_prev (st_phase (mx_status m)) then f_mul f_two mean else mean)
    | _ => None
    end.

  (** mod.rs:641-668. [exp1] is the sample of [rand_distr::Exp1]. *)
  Definition next_authored_packet_delay (m : mixnet) (exp1 : f64) : outcome (option duration) :=
    match mean_authored_period m with
    | None => Val None
    | Some mean => d ← from_secs_f64 (f_mul (f_min exp1 f_ten) mean); Val (Some d)
    end.

  (** mod.rs:682-705 *)
  Definition pick_session (m : mixnet) (r : rng)
    : outcome (option (rel_session_index * session) * rng) :=
    match ss_enumerate (mx_sessions m) with
    | [s0; s1] =>
        let p0 := as_secs_f64 (se_mean_period s0.2) in
        let p1 := as_secs_f64 (se_mean_period s1.2) in
        '(b, r) ← gen_bool (f_div p1 (f_add p0 p1)) r;
        Val (Some (if b : bool then s0 else s1), r)
    | [s] => Val (Some s, r)
    | _ => Val (None, r)
    end.

  (** mod.rs:675-749 *)
  Definition pop_next_authored_packet (m : mixnet) (ns : network_status) (r : rng)
    : outcome (mixnet * option addressed_packet) :=
    '(picked, r) ← pick_session m r;
    match picked with
    | None => Val (m, None)
    | Some (rel, s) =>
        let m := mx_or_events m NEXT_AUTHORED_PACKET_DEADLINE_CHANGED in
        '(is_loop, r) ← gen_bool (cf_loop_cover_proportion (mx_config m)) r;
        let kind := if is_loop : bool then CkLoop else CkDrop in
        let '(m, packet) :=
          if negb is_loop && allow_requests_and_replies (st_phase (mx_status m)) rel then
            let '(q, packet, space) := aq_pop (se_authored s) in
            let m := mx_put_session m rel (se_set_authored s q) in
            (if space : bool then mx_or_events m SPACE_IN_AUTHORED_PACKET_QUEUE else m, packet)
          else (m, None) in
        match packet with
        | Some p => Val (m, Some p)
        | None =>
            if negb (cf_gen_cover_packets (mx_config m)) then Val (m, None)
            else
              res ← gen_cover_packet pr (se_topology s) ns kind (cf_num_hops (mx_config m)) r;
              match res with
              | Ok p => Val (m, Some p)
              | Err _ => Val (m, None)
              end
        end
    end.

  (** State captured by the closure of mod.rs:786-799. *)
  Record surb_state := SurbState {
    sst_keystore : surb_keystore;
    sst_reply_hops : nat;
    sst_reply_delay : delay
  }.

  (** mod.rs:788-797: write a SURB at each of the given offsets of the fragment *)
  Fixpoint write_surbs (cf : config) (rb : request_builder) (message_id : bytes)
      (offsets : list nat) (st : surb_state) (fragment : bytes) (r : rng)
    : outcome (surb_state * result (bytes * rng) topology_err) :=
    match offsets with
    | [] => Val (st, Ok (fragment, r))
    | off :: rest =>
        '(ks, id, r) ← sk_insert (sst_keystore st) message_id r;
        res ← rb_build_surb pr rb (slice fragment off SURB_SIZE) [] id (cf_num_hops cf) r;
        match res with
        | Err e => Val (SurbState ks (sst_reply_hops st) (sst_reply_delay st), Err e)
        | Ok ((surb, keys, metrics), r) =>
            delay ← delay_max (sst_reply_delay st) (rm_forwarding_delay metrics);
            write_surbs cf rb message_id rest
              {| sst_keystore := sk_set_keys ks id keys;
                 sst_reply_hops := Nat.max (sst_reply_hops st) (rm_num_hops metrics);
                 sst_reply_delay := delay |}
              (put fragment off surb) r
        end
    end.

  (** mod.rs:786-799 *)
  Definition write_fragment (cf : config) (rb : request_builder) (message_id : bytes)
      (b : fragment_blueprint) (st : surb_state) (fragment : bytes) (r : rng)
    : outcome (surb_state * result (bytes * rng) topology_err) :=
    fragment ← fb_write_except_surbs b fragment;
    write_surbs cf rb message_id (fb_surb_offsets b) st fragment r.

  (** Variables of the loop of [post_request]. *)
  Record post_state := PostState {
    pst_surb : surb_state;
    pst_queue : authored_queue;
    pst_request_hops : nat;
    pst_request_delay : delay
  }.

  (** mod.rs:783-805 *)
  Fixpoint post_request_loop (cf : config) (rb : request_builder) (message_id : bytes)
      (bs : list fragment_blueprint) (st : post_state) (r : rng)
    : outcome (post_state * result unit topology_err) :=
    match bs with
    | [] => Val (st, Ok tt)
    | b :: rest =>
        '(sst, res) ← rb_build_packet pr rb (write_fragment cf rb message_id b) (cf_num_hops cf)
                        (pst_surb st) r;
        match res with
        | Err e => Val (PostState sst (pst_queue st) (pst_request_hops st) (pst_request_delay st),
                        Err e)
        | Ok (packet, metrics, r) =>
            q ← aq_push (pst_queue st) packet;
            delay ← delay_max (pst_request_delay st) (rm_forwarding_delay metrics);
            post_request_loop cf rb message_id rest
              {| pst_surb := sst;
                 pst_queue := q;
                 pst_request_hops := Nat.max (pst_request_hops st) (rm_num_hops metrics);
                 pst_request_delay := delay |} r
        end
    end.

  (** mod.rs:754-821. Returns the new state, the new value of [*destination_index] and the result. *)
  Definition post_request (m : mixnet) (index : session_index)
      (destination_index : option mixnode_index) (message_id : bytes) (data : scattered N)
      (num_surbs : N) (ns : network_status) (r : rng)
    : outcome (mixnet * option mixnode_index * result request_metrics post_err) :=
    bs ← fragment_blueprints message_id data num_surbs;
    match bs with
    | None => Val (m, destination_index, Err PeTooManyFragments)
    | Some bs =>
        if (cf_max_fragments_per_message (mx_config m) <? N.of_nat (length bs))%N
        then Val (m, destination_index, Err PeTooManyFragments)
        else
          match post_session (mx_sessions m) (mx_status m) index with
          | Err e => Val (m, destination_index, Err e)
          | Ok (rel, s) =>
              match aq_check_space (se_authored s) (N.of_nat (length bs)) with
              | Err e => Val (m, destination_index, Err (post_err_of_check_space e))
              | Ok _ =>
                  rb_res ← rb_new (se_topology s) ns destination_index r;
                  match rb_res with
                  | Err e => Val (m, destination_index, Err (PeTopology e))
                  | Ok (rb, r) =>
                      '(st, res) ← post_request_loop (mx_config m) rb message_id bs
                                     {| pst_surb := SurbState (mx_keystore m) 0 delay_zero;
                                        pst_queue := se_authored s;
                                        pst_request_hops := 0;
                                        pst_request_delay := delay_zero |} r;
                      let s := se_set_authored s (pst_queue st) in
                      let m := mx_put_session (mx_set_keystore m (sst_keystore (pst_surb st))) rel s in
                      match res with
                      | Err e => Val (m, destination_index, Err (PeTopology e))
                      | Ok _ =>
                          forwarding_delay ←
                            delay_to_duration
                              (delay_add (pst_request_delay st) (sst_reply_delay (pst_surb st)))
                              (cf_mean_forwarding_delay (mx_config m));
                          queue_delay ← estimate_authored_packet_queue_delay (mx_config m) s;
                          Val (m, Some (rb_destination_index rb),
                               Ok {| rqm_num_hops :=
                                       pst_request_hops st + sst_reply_hops (pst_surb st);
                                     rqm_per_hop_net_delay := cf_per_hop_net_delay (mx_config m);
                                     rqm_forwarding_delay := forwarding_delay;
                                     rqm_authored_packet_queue_delay := queue_delay |})
                      end
                  end
              end
          end
    end.

  (** [Vec::pop] *)
  Definition vec_pop {A} (l : list A) : option (A * list A) :=
    match list.last l with
    | Some x => Some (x, take (length l - 1) l)
    | None => None
    end.

  (** mod.rs:846-856. The state is the SURBs left and the queue. *)
  Fixpoint post_reply_loop (t : topology) (bs : list fragment_blueprint) (surbs : list bytes)
      (q : authored_queue) : outcome (list bytes * authored_queue * result unit post_err) :=
    match bs with
    | [] => Val (surbs, q, Ok tt)
    | b :: rest =>
        let packet := default_packet in
        data ← fb_write_except_surbs b (get_payload_data packet);
        let packet := set_payload_data packet data in
        '(surb, surbs) ← expect (vec_pop surbs);
        match complete_reply_packet pr packet surb with
        | (_, None) => Val (surbs, q, Err PeBadSurb)
        | (packet, Some index) =>
            match tp_index_to_peer_id t index with
            | Err e => Val (surbs, q, Err (PeTopology e))
            | Ok peer_id =>
                q ← aq_push q {| ap_peer_id := peer_id; ap_packet := packet |};
                post_reply_loop t rest surbs q
            end
        end
    end.

  (** mod.rs:825-859. Returns the new state, the SURBs left and the result. *)
  Definition post_reply (m : mixnet) (surbs : list bytes) (index : session_index)
      (message_id : bytes) (data : scattered N)
    : outcome (mixnet * list bytes * result unit post_err) :=
    bs ← fragment_blueprints message_id data 0;
    match bs with
    | None => Val (m, surbs, Err PeTooManyFragments)
    | Some bs =>
        if (N.min (cf_max_fragments_per_message (mx_config m)) (N.of_nat (length surbs))
            <? N.of_nat (length bs))%N
        then Val (m, surbs, Err PeTooManyFragments)
        else
          match post_session (mx_sessions m) (mx_status m) index with
          | Err e => Val (m, surbs, Err e)
          | Ok (rel, s) =>
              match aq_check_space (se_authored s) (N.of_nat (length bs)) with
              | Err e => Val (m, surbs, Err (post_err_of_check_space e))
              | Ok _ =>
                  '(surbs, q, res) ← post_reply_loop (se_topology s) bs surbs (se_authored s);
                  Val (mx_put_session m rel (se_set_authored s q), surbs, res)
              end
          end
    end.

  (** mod.rs:862-866 *)
  Definition take_events (m : mixnet) : mixnet * events :=
    (Mixnet (mx_config m) (mx_status m) (mx_sessions m) (mx_next_kx_pair m) (mx_forward m)
            (mx_keystore m) (mx_assembler m) ev_empty, mx_events m).
End mixnet.
