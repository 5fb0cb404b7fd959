(** Model of src/core/topology.rs. [fmt::Display] (lines 159-176) is not modelled. *)
From Verif Require Export MPacket MCrypto.

(** topology.rs:36-43. The extra data is opaque; modelled by a number. *)
Record mixnode := Mixnode { mn_kx_public : bytes; mn_peer_id : bytes; mn_extra : N }.

(** topology.rs:45-51 *)
Inductive local_node :=
| LMixnode (i : mixnode_index)
| LNonMixnode (gateways : list mixnode_index).

(** topology.rs:55-65 *)
Inductive topology_err :=
| TeBadMixnodeIndex (i : mixnode_index)
| TeTooFewMixnodes
| TeNoConnectedGatewayMixnodes.

(** topology.rs:67-71 *)
Record topology := Topology {
  tp_mixnodes : list mixnode;
  tp_local_kx_public : bytes;
  tp_local_node : local_node
}.

(** [iter().position(|x| x >= / == ...)] *)
Fixpoint list_position {A} (p : A -> bool) (l : list A) : option nat :=
  match l with
  | [] => None
  | x :: l' => if p x then Some 0 else S <$> list_position p l'
  end.

(** [iter().map(|index| index.try_into().expect(..)).collect()] *)
Fixpoint expect_indices (l : list N) : outcome (list mixnode_index) :=
  match l with
  | [] => Val []
  | x :: l' => i ← expect (mixnode_index_try_from x); is ← expect_indices l'; Val (i :: is)
  end.

(** topology.rs:75-125 *)
Definition tp_new (mixnodes : list mixnode) (local_kx_public : bytes) (num_gateway_mixnodes : N)
    (r : rng) : outcome (topology * rng) :=
  _ ← assert_or_panic (N.of_nat (length mixnodes) <=? MAX_MIXNODE_INDEX + 1)%N;
  '(local, r) ←
    match list_position (fun m => bool_decide (mn_kx_public m = local_kx_public)) mixnodes with
    | None =>
        let len := N.of_nat (length mixnodes) in
        '(indices, r) ← rng_sample len (N.min num_gateway_mixnodes len) r;
        gateways ← expect_indices indices;
        Val (LNonMixnode gateways, r)
    | Some index =>
        i ← expect (mixnode_index_try_from (N.of_nat index));
        Val (LMixnode i, r)
    end;
  Val ({| tp_mixnodes := mixnodes; tp_local_kx_public := local_kx_public; tp_local_node := local |}, r).

(** topology.rs:127-129 *)
Definition tp_is_mixnode (t : topology) : bool :=
  match tp_local_node t with LMixnode _ => true | LNonMixnode _ => false end.

(** the range [a..b] *)
Definition n_range (a b : N) : list N := map (fun k => (a + N.of_nat k)%N) (seq 0 (N.to_nat (b - a))).

(** [self.mixnodes\[index\]] *)
Definition tp_mixnode_at (t : topology) (i : mixnode_index) : outcome mixnode :=
  expect (tp_mixnodes t !! N.to_nat i).

Fixpoint tp_mixnodes_at (t : topology) (is : list mixnode_index) : outcome (list mixnode) :=
  match is with
  | [] => Val []
  | i :: is' => m ← tp_mixnode_at t i; ms ← tp_mixnodes_at t is'; Val (m :: ms)
  end.

(** topology.rs:131-142 *)
Definition tp_reserved_peers (t : topology) : outcome (list mixnode) :=
  let indices :=
    match tp_local_node t with
    | LMixnode local_index =>
        let num := (N.of_nat (length (tp_mixnodes t)) mod 65536)%N in
        n_range 0 local_index ++ n_range (local_index + 1) num
    | LNonMixnode gateways => gateways
    end in
  tp_mixnodes_at t indices.

(** topology.rs:144-149 *)
Definition tp_index_to_peer_id (t : topology) (i : mixnode_index) : result bytes topology_err :=
  match tp_mixnodes t !! N.to_nat i with
  | Some m => Ok (mn_peer_id m)
  | None => Err (TeBadMixnodeIndex i)
  end.

(** topology.rs:151-156 *)
Definition tp_target_to_peer_id (t : topology) (tgt : target) : result bytes topology_err :=
  match tgt with
  | TMixnodeIndex i => tp_index_to_peer_id t i
  | TPeerId p => Ok p
  end.

(** topology.rs:179-184 *)
Record network_status := NetworkStatus {
  ns_local_peer_id : bytes;
  ns_is_connected : bytes -> bool
}.

(** topology.rs:186 *)
Definition MAX_CONNECTED_GATEWAY_INDICES : nat := 5.

(** topology.rs:188-195 *)
Inductive route_kind :=
| RkToMixnode (i : mixnode_index)
| RkFromMixnode (i : mixnode_index)
| RkLoop.

(** topology.rs:197-202 *)
Notation used_indices := (list N) (only parsing).
Definition USED_INDICES_CAPACITY : nat := MAX_HOPS + 1.

(** topology.rs:204-212; [ArrayVec::insert]/[push] panic when full *)
Definition ui_insert (u : used_indices) (index : mixnode_index) : outcome used_indices :=
  match list_position (fun used => (index <=? used)%N) u with
  | Some i =>
      x ← expect (u !! i);
      if (x =? index)%N then Val u
      else if decide (length u < USED_INDICES_CAPACITY)
           then Val (take i u ++ [index] ++ drop i u) else Panic
  | None => av_push USED_INDICES_CAPACITY u index
  end.

(** topology.rs:218-221 *)
Definition ui_as_option (u : used_indices) : outcome (option mixnode_index) :=
  _ ← assert_or_panic (bool_decide (length u ≤ 1));
  Val (head u).

(** topology.rs:224-230 *)
Record route_generator := RouteGenerator {
  rg_topology : topology;
  rg_local_peer_id : bytes;
  rg_connected : list mixnode_index
}.

(** topology.rs:239-247: [filter], [take] and [collect]. The iterator stops after
    [MAX_CONNECTED_GATEWAY_INDICES] matches; here all gateways are looked up (which can only panic
    more). *)
Fixpoint connected_gateways (t : topology) (ns : network_status) (gateways : list mixnode_index)
  : outcome (list mixnode_index) :=
  match gateways with
  | [] => Val []
  | g :: gs =>
      m ← tp_mixnode_at t g;
      rest ← connected_gateways t ns gs;
      Val (if ns_is_connected ns (mn_peer_id m) then g :: rest else rest)
  end.

(** topology.rs:233-251 *)
Definition rg_new (t : topology) (ns : network_status) : outcome route_generator :=
  connected ←
    match tp_local_node t with
    | LMixnode _ => Val []
    | LNonMixnode gateways =>
        c ← connected_gateways t ns gateways;
        Val (take MAX_CONNECTED_GATEWAY_INDICES c)
    end;
  Val {| rg_topology := t; rg_local_peer_id := ns_local_peer_id ns; rg_connected := connected |}.

(** topology.rs:276-280. [u16] overflow of [chosen] is caught by the assertion that follows. *)
Fixpoint skip_excluded (chosen : N) (exclude : list mixnode_index) : N :=
  match exclude with
  | [] => chosen
  | e :: rest => skip_excluded (if (e <=? chosen)%N then chosen + 1 else chosen)%N rest
  end.

Notation route_result A := (outcome (result (A * rng) topology_err)).

(** topology.rs:260-286 *)
Definition choose_mixnode_index (g : route_generator) (exclude : list mixnode_index) (r : rng)
  : route_result mixnode_index :=
  let len := N.of_nat (length (tp_mixnodes (rg_topology g))) in
  num_allowed ← expect (checked_sub len (N.of_nat (length exclude)));
  let num_allowed := (num_allowed mod 65536)%N in
  if (num_allowed =? 0)%N then Val (Err TeTooFewMixnodes)
  else
    '(chosen, r) ← rng_range num_allowed r;
    let chosen := skip_excluded chosen exclude in
    _ ← assert_or_panic (chosen <? len)%N;
    i ← expect (mixnode_index_try_from chosen);
    Val (Ok (i, r)).

(** topology.rs:289-304 *)
Definition choose_destination_index (g : route_generator) (r : rng) : route_result mixnode_index :=
  let exclude :=
    match tp_local_node (rg_topology g) with
    | LMixnode local_index => [local_index]
    | LNonMixnode _ =>
        match rg_connected g with
        | [gateway_index] => [gateway_index]
        | _ => []
        end
    end in
  choose_mixnode_index g exclude r.

(** topology.rs:306-328 *)
Definition choose_connected_gateway_index (g : route_generator)
    (try_exclude_index : option mixnode_index) (r : rng) : route_result mixnode_index :=
  let from_exclude : option mixnode_index * rng :=
    match try_exclude_index with
    | None => (None, r)
    | Some try_exclude =>
        if negb (existsb (fun i => (i =? try_exclude)%N) (rg_connected g)) then (None, r)
        else
          match rg_connected g with
          | [] => (None, r)
          | first :: rest =>
              match rng_choose rest r with
              | (None, r) => (Some first, r)
              | (Some chosen, r) =>
                  (Some (if (chosen =? try_exclude)%N then first else chosen), r)
              end
          end
    end in
  let '(chosen, r) :=
    match from_exclude with
    | (Some i, r) => (Some i, r)
    | (None, r) => rng_choose (rg_connected g) r
    end in
  match chosen with
  | Some i => Val (Ok (i, r))
  | None => Val (Err TeNoConnectedGatewayMixnodes)
  end.

(** The variables of the hop loop of [gen_route]. *)
Record route_state := RouteState {
  rs_used : used_indices;
  rs_targets : list target;
  rs_kx_publics : list bytes;
  rs_first : option mixnode_index
}.

Definition is_some {A} (o : option A) : bool := match o with Some _ => true | None => false end.

(** topology.rs:403-421 *)
Definition hop_index (g : route_generator) (kind : route_kind)
    (special_first special_penultimate : option mixnode_index) (i remaining : nat)
    (used : used_indices) (r : rng) : route_result (option mixnode_index * used_indices) :=
  match i, remaining, special_first, special_penultimate with
  | 0, _, Some index, _ => Val (Ok ((Some index, used), r))
  | _, 2, _, Some index => Val (Ok ((Some index, used), r))
  | _, 1, _, _ =>
      let index := match kind with RkToMixnode index => Some index | _ => None end in
      Val (Ok ((index, used), r))
  | _, _, _, _ =>
      '(index, r) ←? choose_mixnode_index g used r;
      used ← ui_insert used index;
      Val (Ok ((Some index, used), r))
  end.

(** topology.rs:400-446: [remaining] is [num_hops - i] *)
Fixpoint route_loop (g : route_generator) (kind : route_kind)
    (special_first special_penultimate : option mixnode_index) (i remaining : nat)
    (st : route_state) (r : rng) : route_result route_state :=
  match remaining with
  | O => Val (Ok (st, r))
  | S remaining' =>
      '((index, used), r) ←?
        hop_index g kind special_first special_penultimate i remaining (rs_used st) r;
      kx_public ←
        match index with
        | Some index => m ← tp_mixnode_at (rg_topology g) index; Val (mn_kx_public m)
        | None => Val (tp_local_kx_public (rg_topology g))
        end;
      kx_publics ← av_push MAX_HOPS (rs_kx_publics st) kx_public;
      let index :=
        match index, tp_local_node (rg_topology g) with
        | None, LMixnode local_index => Some local_index
        | _, _ => index
        end in
      st ←
        (if decide (i = 0) then
           _ ← assert_or_panic (is_some index);
           Val {| rs_used := used; rs_targets := rs_targets st; rs_kx_publics := kx_publics;
                  rs_first := index |}
         else
           targets ← av_push (MAX_HOPS - 1) (rs_targets st)
                       (match index with
                        | Some index => TMixnodeIndex index
                        | None => TPeerId (rg_local_peer_id g)
                        end);
           Val {| rs_used := used; rs_targets := targets; rs_kx_publics := kx_publics;
                  rs_first := rs_first st |});
      route_loop g kind special_first special_penultimate (S i) remaining' st r
  end.

(** topology.rs:363-381: choose a special hop if [wanted] *)
Definition special_hop (g : route_generator) (wanted : bool) (used : used_indices) (r : rng)
  : route_result (option mixnode_index * used_indices) :=
  match tp_local_node (rg_topology g) with
  | LNonMixnode _ =>
      if wanted then
        try_exclude ← ui_as_option used;
        '(index, r) ←? choose_connected_gateway_index g try_exclude r;
        used ← ui_insert used index;
        Val (Ok ((Some index, used), r))
      else Val (Ok ((None, used), r))
  | LMixnode _ => Val (Ok ((None, used), r))
  end.

(** topology.rs:383-396 *)
Definition min_hops (special_first special_penultimate : option mixnode_index) : nat :=
  Nat.b2n (is_some special_first) +
  Nat.b2n (is_some special_first && bool_decide (special_first = special_penultimate)) +
  Nat.b2n (is_some special_penultimate) +
  1.

Record route := Route {
  rt_first : mixnode_index;
  rt_targets : list target;
  rt_kx_publics : list bytes
}.

(** topology.rs:332-449. [targets] and [their_kx_publics] are empty on entry at every call site; they
    are returned. *)
Definition gen_route (g : route_generator) (kind : route_kind) (num_hops : nat) (r : rng)
  : route_result route :=
  '(used, from_local, to_local) ←
    match kind with
    | RkToMixnode index => u ← ui_insert [] index; Val (u, true, false)
    | RkFromMixnode index => u ← ui_insert [] index; Val (u, false, true)
    | RkLoop => Val ([], true, true)
    end;
  used ← match tp_local_node (rg_topology g) with
         | LMixnode index => ui_insert used index
         | LNonMixnode _ => Val used
         end;
  '((special_first, used), r) ←? special_hop g from_local used r;
  '((special_penultimate, used), r) ←? special_hop g to_local used r;
  let num_hops := Nat.max num_hops (min_hops special_first special_penultimate) in
  '(st, r) ←? route_loop g kind special_first special_penultimate 0 num_hops
                {| rs_used := used; rs_targets := []; rs_kx_publics := []; rs_first := None |} r;
  first ← expect (rs_first st);
  Val (Ok ({| rt_first := first; rt_targets := rs_targets st;
              rt_kx_publics := rs_kx_publics st |}, r)).
