# Formal model of paritytech/mixnet in Coq 8.16

Everything is under `rocq/theories` (logical name `Verif`). Nothing of /repo is executed: the tie to
the code is that every definition of the model cites the file and lines it models.
`properties.jsonl` lists the properties, `MANIFEST.json` the theorems proving each of them.

## Files

| layer | files | content |
|---|---|---|
| base | `Base.v`, `LBase.v` | outcomes (`Val`/`Panic`), results, bytes, slices, checked writes, little endian, RNG tape, linked hash maps |
| third party | `Prims.v` | record `prims` of the third-party primitives (Blake2b MAC, ChaCha20, Lioness, Curve25519, Exp1 sampler); record `prims_ok` of the laws assumed of them |
| model | `M*.v`, one per Rust module | definitions only |
| lemmas | `L*.v` | floats, durations, packet building, random tapes, posting |
| specifications and theorems | `P*.v` | each starts with the specification its theorems use (section "Specification"), then the proofs, then the theorems `Cnn_...`, then examples showing that the hypotheses can be met, and `Print Assumptions` |
| examples | `Toy.v`, `PExample.v`, `P*Ex.v` | a concrete instance of `prims` satisfying `prims_ok`; networks and managers run inside the model; the counterexamples |

Tools, not part of the proofs: `tools/props.py` writes `properties.jsonl`, `tools/manifest.py` writes
`MANIFEST.json`, `tools/mutate.py` applies the edits of `seeded/mutants.json` to a scratch copy and
reports which proofs fail, `tools/mutlog.py` adds its reports to `seeded/LOG.jsonl`;
`tools/automut.py` makes single-token edits of all model definitions and reports those no proof notices.

## Modelling conventions

* A function that takes `&mut` returns the new value. `Option` and `Result` stay data.
* A panic (`expect`, slice out of range, `ArrayVec` overflow, failing `assert!`) is the outcome
  `Panic`. `debug_assert!` is modelled as a panic too (as in a debug build); a proof that `Panic` is
  unreachable therefore covers debug and release builds at once.
* Bytes are `N`, arrays are lists with their length tracked in hypotheses. Machine integers are `N`
  with the wrap, saturation or overflow check written out where the code has one. Lengths are `nat`.
* Randomness is an explicit argument: a tape `nat -> N` of arbitrary numbers and a read position.
  `gen_range(0..n)` is `draw mod n`, `fill_bytes` takes `draw mod 256`, so theorems hold for every
  possible random choice. Where a chance is meant (C27, C60, C62, C82, C83) it is stated as a share of
  the possible draws, a bijection with them, or a sum, not with a theory of probability.
* Time is an explicit argument (`now`, nanoseconds in `N`). `f64` is the standard library's
  `spec_float` (IEEE binary64 arithmetic), `Duration` is `N` nanoseconds.
* `LinkedHashMap` is a list of key/value pairs in link order with unique keys, `VecDeque` a list,
  `BinaryHeap` a list from which `pop` takes any element that is greatest (the choice between ties is
  an explicit argument).
* Logging and `Display` are dropped. `Mixnode::extra` is an opaque number.
* A node's API calls are the type `call`; `exec` runs one; `reachable cf hist m` says that state `m` is
  the result of history `hist` from `Mixnet::new(cf)` (`PApi.v`). `call_ok` says what the Rust types
  say of the arguments (array lengths, ranges of integers). Many theorems assume the invariant `mx_ok`
  (`PInv.v`); theorem `reachable_ok` provides it for every reachable state, so together they quantify
  over all reachable states.

## What is modelled

All of `src/`: `core/{mod,config,cover,fragment,kx_pair,packet_queues,replay_filter,request_builder,`
`scattered,sessions,surb_keystore,topology,util}.rs`, `core/sphinx/*.rs`, `request_manager/*.rs` and
`reply_manager.rs`, function by function. Left out: tests, `fmt::Display`, logging, trivial accessors
(`session_status`, `KxPair::public`, `RequestBuilder::destination_index`, `RouteGenerator::topology`,
`PostQueues::iter` and the like, which are record fields), and the `Distribution<ReplayTag>` instance
(used by a test only).

Simplifications, each stated again in a comment at the definition:
* the third-party crates are the abstract record `prims` (below); `rand` is the tape; `rand_distr`'s
  `Exp1` is an arbitrary function of the seed;
* adding a `Duration` to an `Instant` does not overflow;
* counters bounded by memory (fragments held) do not wrap; `with_capacity` has no effect;
* the managers are modelled over an abstract world (posting function, clock, random ids) and then
  instantiated with the model of `Mixnet` (`MManagers.v`); handler callbacks are recorded in a trace;
* the network of C40 and C41 is a map from peer ids to nodes and a multiset of packets in flight
  (`PNet.v`); this part has no counterpart in the crate, which leaves networking to its user.

Not expressible in this model: statistical indistinguishability of cover and real traffic, timing side
channels (constant-time comparison), zeroisation of secrets in memory, distributions of delays.

## Trusted base

* Coq 8.16.1's kernel, including `vm_compute` (used in examples and in a few closed computations).
* The reading of the code documented by the citations.
* `prims_ok` (`Prims.v`): output lengths; Lioness encryption and decryption are inverse to each other on
  payloads; scalar multiples of the base point compose by multiplying the scalars, which count modulo
  the order of the base point, as for Curve25519. These are hypotheses of the theorems that need them,
  not axioms; `toy_prims_ok` shows that they are satisfiable. No cryptographic hardness is assumed: C16
  is stated up to an explicit MAC forgery.
* `exp1_ok` (`LFloat.v`), in C51-C53, C58, C61, C69, C70, C74 and C76 only: the sampler of the exponential distribution returns a number
  that is not NaN and not negative (infinity is allowed; the code caps the delay at ten means).
* Axioms. Of the theorems in `MANIFEST.json`, `C51_metrics`, `C51_no_panic`, `C52_pick`, `C52_delay`,
  `C52_no_panic`, `C53_no_panic`, `C58_no_panic`, `C58_node`, `C61_forwarding_delay`, `C69_on_time`, `C70_patient`, `C74_no_panic`, `C74_estimate`, `C74_sent`, `C76_request`, `C76_reply`, `C60_average`, `C60_seven_million`, `C60_at_least`, `C60_one_percent`, `C82_rates`, `C83_wait`, `C83_default`, `C83_seldom`, `C83_same` and `C83_seldom_client` use those of the standard library's real numbers, which they need
  to compare binary64 numbers (through Flocq) or, in C60, C82 and C83, for probabilities: `ClassicalDedekindReals.sig_not_dec`,
  `ClassicalDedekindReals.sig_forall_dec`, `FunctionalExtensionality.functional_extensionality_dep`,
  `Classical_Prop.classic`. For all the others `Print Assumptions` prints "Closed under the global
  context". (Listing all constants of all loaded libraries also shows the opaque module parameters of
  `Coq.ssr.ssrunder`, part of the standard library and used by no theorem here.)

## Properties

For each: what of the code is involved, and how it is proved. "Invariant" means: shown for the initial
state and preserved by every call, by induction over histories.

| property | modelled | proved |
|---|---|---|
| C01 | `fragment.rs`: planning, writing, assembler (`MFragment.v`) | refinement of the byte format to (id, index, count, data, SURBs) (`PFragWire.v`), of the assembler to a spec state (`PFragAsm.v`); induction over arrival orders; also interleaved with other fragments (`PFragment.v`) |
| C02 | planning arithmetic in `N` with saturation at 2^64 | against an independent packing specification: no list of pieces that carries the message is shorter (`PFragPlan.v`) |
| C03 C04 | `FragmentAssembler::insert` | invariant over sequences of arbitrary 2048-byte fragments; C04 with an independent definition of a bad fragment, and the converse |
| C05 | same | ghost list of received fragments, invariant |
| C06 | same | simulation between the runs with and without the other messages; order by last touch |
| C07 | `scattered.rs` | refinement to list concatenation, induction over any sequence of splits (`PScattered.v`) |
| C08 C09 C10 | `sphinx/{build,peel,crypto}.rs` byte for byte | induction over the hops with an explicit layout of the header (`PHeader.v`, `PPeel.v`, `PSphinx.v`); `C10_no_effect` about nodes (`PCalls.v`) |
| C11 | `delay.rs`, total delay in `build.rs` | same induction, delays as binary64 |
| C12 C13 C16 | `peel` with its output buffer | case analysis over the layout; C16 gives the forged MAC explicitly |
| C14 | `crypto.rs`, key exchange | induction over hops using commutativity |
| C15 | `build` | no checked write is out of range; `C15_two_peer_ids`: with two peer ids it panics, so the bound is exact |
| C17 | `replay_filter.rs`, words as a function of the index | invariant over insertions, against the set of bit positions of a tag (`PReplayFilter.v`) |
| C18 C19 | `handle_packet` in a node | invariants over histories of all API calls (`PSess.v`, `PNode.v`) |
| C20 | `surb_keystore.rs` | history of created SURBs, the store is its tail without the removed (`PKeystore.v`) |
| C21 C22 | forward queue | multiset invariant; flag invariant over histories (`PQueues.v`, `PNode.v`) |
| C23 C24 | authored queue | ghost lists of pushed and popped packets; over node histories (`PQueues.v`, `PSess.v`) |
| C25 C26 C29 | `topology.rs`, route generation | induction over the hops, for every tape (`PRoute.v`) |
| C27 C28 | index choice, reserved peers | bijection on index lists (`PTopology.v`) |
| C30 | session choice in `post_*` | decision table against independent relations `in_time`, `usable`, `unusable` (`PPost.v`) |
| C31 | key pairs identified by their secrets, places in the state, ghost list of draws | invariant over histories in which the drawn secrets differ (`PKeys.v`) |
| C32 C33 C34 | sessions, events | invariants over histories (`PInv.v`, `PNode.v`, `PCalls.v`) |
| C35 | `post_request` | exact description of the state after; refusal leaves it unchanged (`LPost.v`, `PPost.v`). Proof that generation cannot fail after the first fragment uses C29 |
| C36 | same | the desirable property is false: `C36_refuted` gives a reachable node and a call that panics; `C36_not_accepted`: no such call is accepted |
| C37 | `post_reply` | exact description; all-or-nothing is false, `C37_refuted` |
| C38 C39 | `handle_packet`, `pop_next_authored_packet` | case analysis against specs `content_of`, `reads` (`PHandle.v`, `PCalls.v`) |
| C40 C41 | networks of nodes | see below |
| C42-C47 | request manager over an abstract world | ghost traces of posts and handler calls, invariant over all histories, the world changing arbitrarily between calls (`PReqMgr.v`, `PRequests.v`); `world_post_law` shows that `Mixnet::post_request` is an instance |
| C48-C50 | reply manager over an abstract world | same (`PReplies.v`); `world_takes_from_end` is the instance |
| C51 | metrics of requests | every packet and SURB below, and some attain them; each has as many hops as configured; order of binary64 without NaN (`PMetrics.v`) |
| C52 | session choice and dispatch period | binary64 error bounds against exact rational shares and periods (`PRate.v`) |
| C53 | all API calls | for configurations within the bounds `sane` the only panics are C36's and equal SURB ids among the bytes drawn (`PMetrics.v`, `PRate.v`); outside of the bounds there are others: a loop cover proportion of 1 or zero periods |
| C54 | networks of nodes, `cover.rs` | trips as for C40, from the route generated for the cover packet (`PCover.v`); concrete loop and drop cover packets carried to their ends in `PCoverEx.v` |
| C55 | request manager running on a node | invariant over all interleavings of calls on the two: a queue of the manager is empty, or the session it is for is busy, or there is news of room (`PWake.v`); the manager must be told of a status change before anything else happens, as its documentation asks; concrete run in `PWakeEx.v` |
| C56 | the whole state of a node | the invariant of `PInv.v` and the assembler's history (`node_assembler`), put together as one statement on the state (`PProvenance.v`) |
| C57 | `handle_packet` with the assembler | the assembler of a node is the result of inserting fragments taken out of handled packets (`node_assembler`), then C05. `C57_replies_only_refuted`: requests and replies share one assembler, so anybody who knows the ID of a reply can supply part of it in request packets (`PProvenanceEx.v`) |
| C58 | request manager running on a node | invariant over all interleavings (`PManaged.v`, on top of `LManager.v`, which treats the manager with an arbitrary node): every destination the manager keeps is a mixnode of its session as long as the node knows that session; termination of the posting loop as in C54; the posts of one call form a history of the node, so that C53 and C51 apply to them. `C58_backwards_refuted`: with a session index that goes back and returns, `pop_next_retry` panics (`PManagedEx.v`). The API documentation does not ask for a nondecreasing index |
| C59 | request manager over an abstract world | what each loop over a queue does to the log and the other queues, by induction on the loop (`PTurn.v`); any manager state, reachable or not; cases in `PTurnEx.v` |
| C60 | replay filter | counting (`PReplayCount.v`): the first two numbers a tag is mapped to determine the tag, and each is one of at most 512 n; the bound is not tight, since it uses two of a tag's eight bits. It holds for all lists of tags, however they are distributed. On average (`PAverage.v`): the share of all lists of n tags and of all tags looked up, counted exactly over the 2^64 tags, for which the filter reports the tag. Induction over n, for all sets of at most eight bits; one tag sets two given bits with probability at most 2^-44, which bounds how much the bits of a tag depend on each other. A tag whose increment is divisible by 2^24 has fewer different bits, hence the last term. `PAtLeast.v` bounds the same share from below, so that the estimate is accurate. That tags are spread evenly is a property of the keyed hash and is not modelled |
| C61 | posting, building, peeling, forwarding, delays | the trips of C40 and C41 with the delay each hop reads from the packet (`PEnd.v`), and an error analysis of the floating-point sum and of the conversions to durations (`PTiming.v`): rounding steps with relative error 2^-53 and absolute error 2^-1000 each, half a nanosecond per conversion. The time between a packet's deadline and its dispatch, and network delays, are not included (they are other entries of the metrics); case in `PTimingEx.v` |
| C62 | route generation, destination choice, choice of gateways | `PUniform.v`: `uniform m ks P` says that `m` draws one number below each of `ks` and that each element of `P` is the result for exactly one choice of these numbers. It is preserved by sequencing when the later result determines the earlier one; shown for the choice of a mixnode (from C27), of a gateway with and without exclusion, the hop loop by induction over the free hops, and `gen_route`. `P` is stated with the conclusions of C25, C26 and C29 only. The rejection sampling inside `gen_range` and `choose` is not modelled: a draw below `k` is a number of the tape modulo `k`. `PGateways.v`: the same for `Topology::new`, by induction over the number of gateways; that `rand::seq::index::sample` gives every list of different indices the same chance is assumed by its model (repeatedly taking one of those left), what is proved is that the node passes it the right numbers and keeps all it returns |
| C63 | key derivation, MACs, replay tags, clamping | `PDerive.v`: `source` names for each purpose and byte the call of the hash and the position in its output, written down independently of the code; `C63_derived` shows that the code takes the byte from there, `C63_separate` that `source` is injective, with calls compared as the hash sees them (salt and personalisation filled up with zeros). That hash outputs are bytes (below 256) is a hypothesis, `byte_hash`, needed since `prims_ok` says nothing about values. Clamping is arithmetic on the first and last byte. `PDeriveNode.v` shows that the lengths `C63_derived` asks for hold of every packet at every reachable node (`C63_node`). How hard the hash is to invert is outside the model |
| C64 | request manager on a node, in a network | `PMatch.v`: `hosted` interleaves calls on the node (by the application, or by the network) with calls on the manager that posts to it, with arbitrary random numbers, clock and network status in each. `exec_safe` (`LManager.v`) is instantiated with an invariant that relates the accepted posts of the node with the log of the manager. `C64_matched` composes C57 (a reply is reported for the SURB it came with), C19 (every SURB key stems from an accepted post), `C64_posts` and C45 (one request per id); `C64_once` is an invariant on the small steps of the manager. `C64_network` turns a manager call into a history of posts of `PNet.v`, so that C40, C41, C54 and C61 apply to managed requests. Clashes of drawn ids, which have 16 random bytes, are excluded by `NoDup`; replies to posts under ids that the application has chosen itself are excluded by hypothesis |
| C65 | events | `PEvents.v`: for each event the calls that cause it, as predicates on the state before and after the call (`session_changes`, `forward_changes`, `authored_changes`, `space_made`), independent of the flags; both directions by induction over the history since the last `take_events` |
| C66 | a node and a reply manager together | `PServe.v`: histories of calls on both, with the requests and reply contexts that the caller owns (given away once, as Rust's ownership ensures); invariant: SURBs used, in owned contexts and in owned requests are a sub-multiset of those returned; `C66_returned` composes with C41 |
| C67 | two nodes, request manager, reply manager and the network | `PCarry.v`: the posts of a manager call are events of the network (C64_network), each of which meets the hypotheses of C41 and `C66_returned` (`answered_back`); `C67_removed` from the invariant on ids of C45 |
| C68 | posting and session slots | `PTruth.v`: spec is `forwards` (the status moves on), `sets_up` and `gives_up` (what happens to a session, by index), `posts` (a post and its result). `slot_at` follows the slot of a session index through the shifts; `run_changes` relates it to the history by induction; C68_post reads the answers of `post_session` from it, C68_lasting compares two posts. `C68_backwards_refuted` (`PTruthEx.v`): a phase that goes back makes the previous session look disabled. |
| C69 | the node (C11), the network (C40) and `RequestMetrics::estimate_rtt` | `POnTime.v`: spec is a history with times (`clocked`), packets that move on time (`punctual`) and what the application gets (`returned`). The time each stage of a trip is handled is bounded by induction over the trip (`on_time`), the number of hops and the delays by the maxima in the metrics (`legs_bound`, `PTiming.v`), on top of the round trip of `PEnd.v`; the rest is the error bound of C61 |
| C70 | the request manager (C42) on a node (C58) in a network (C40) | `PPatient.v`: spec is `waited_for`. Composes C64 (the events of the manager tell of the posts of the node, with the estimate made from what posting returned: `told`), C69 and C46 |
| C71 | all calls on a node | `PHide.v`: a statement about two histories (`history`, `common`), whose calls are the same apart from private ones (`own`). The proof is a simulation: the relation `alike` compares everything except authored packet queues, SURB keystore, fragment assembler and the event for room in the queue; a private call does not leave it and a common call preserves it. The two histories use the same random numbers call by call (each call of the model has its own tape). `C71_without_cover_refuted` is a node that lost its gateways; cases in `PHideEx.v` |
| C72 | all calls on a node | `PVeil.v`: a statement about two runs side by side (`pair_run`, `same_shape`, `same_look`). The proof is a simulation with relation `twin`: queued packets agree on peer and header (`outside`), keystores on everything but message ids, assemblers on nothing; `rel_out` carries it through the functions, panics included. The payload transformations are never opened: only the lengths of payloads matter. `C72_number_refuted` and the case are in `PVeilEx.v` |
| C73 | all calls on a node; networks | `PKept.v`: invariant `held` (the entry is in the keystore with at most j newer ones) over `step`, where j grows with the SURBs made since; `project` turns a history of the network into one of the node. `C73_network` joins it to C41. `C73_first_lost_refuted` and the case are in `PKeptEx.v` |
| C74 | nodes and managers with their default configurations | `PDefault.v`: `stock` is the default with any key for session 0; the limits are written as numbers (25 packets of 2025 bytes, 9 SURBs of 222 bytes to a packet, 200 keys, 2252 bytes to a packet), so that they are checked against the constants in the code and against each other; `pack_data`, `needs_surbs` count what fits; gateways, estimates and cover in `PStock.v`. Cases in `PDefaultEx.v`, `PStockEx.v` |
| C75 | all calls on a node; networks | `PLeave.v`: `turn` is stated with the two random choices `pick_session` and `gen_bool` and the phase; `turn_step` (from C39) and `other_step` by cases of `step`, then induction over the history. `C75_sent` by projection to the node's calls. The case is in `PLeaveEx.v` |
| C76 | networks of nodes | `PArrive.v`: the history is built. `drain` empties forward queues (sending is always possible by C53, hence `exp1_ok` and sane configurations), `leave` gives the sender as many turns as its queue has packets before the last of the message (`pick_aged`, `turn_aged`: the same draw is a turn again), `hop` and `travel` carry one packet from queue to wire to queue using `passes_on` of C40, `journeys` all of them one after the other; at the end `alone_run` (with `PFragment.interleave`) shows that fragments arriving in order, with nothing else, give the message. `way_clear` asks that a packet's tag is not in the filters, counting those that the earlier packets of the message add (`noting`). The case is in `PArriveEx.v` |
| C77 | all calls on a node | `PFrame.v`: the parts of the state (`part`, `same_part`) and what each call is about (`about`, `packet_about`), then the cases of `step` (every call is one, `exec_step`); `C77_session` with `session_step` of C18/C23; `C77_untouched` by induction over the history. The case is in `PFrameEx.v` |
| C78 | networks as for C40; the assembler | `PCrowd.v`: `C78_request` and `C78_reply` are C40 and C41 with `undisturbed` replaced by `own_only` (no one else uses the id), `few_between` (fragments of at most `c` messages between two of its packets) and `limits_fit`; the invariant of `crowd_run` is that the messages touched after this one are among those `c` (`behind`), so that by the sizes it is not the one evicted. `C78_limit` by induction over the fragments. The cases are in `PCrowdEx.v` (two requests, and a request and a reply, mixed) and `PFloodEx.v` |
| C79 | `peel`, `decrypt_reply_payload`, `handle_packet` | `PAlter.v`: `altered` (same first 188 bytes, different rest) is kept by `peel`, because the header functions do not read the payload and the payload cipher is a permutation (`prims_ok`); `C79_route` by induction over the hops, `C79_reply` over the keys, `C79_node` through `handle_packet_spec` of `PHandle.v`. The cases in `PAlterEx.v` change a byte of the request and of the reply of `PExample.v` |
| C80 | all of `request_manager.rs` on a node (the system of C55) | `PFinish.v`: `meanwhile` and `turns` say what may happen; every request has a value, the posts and attempts it has left, that no call raises; a turn lowers the sum, because with nothing to dispatch `process_post_queues` leaves only requests that wait for a retry (C55_served) and `pop_next_retry` takes one of them up or gives it back. `C80_concluded` by induction over the turns; where each request went is followed in the log. `PFinishEx.v` plays sixteen turns |
| C81 | `Mixnet` (all calls), route generation, both packet queues | `PWhom.v`: `meant_for` lists the reasons for which a node's own packet may be addressed to a peer; a snoc induction over the calls shows one of them for every queued packet (the steps of `PInv.v`, with C25 for the first hop of a route, which for a mixnode is another mixnode by `ro_away`), and a cover packet is made when it is sent. `C81_reserved` compares with `reserved_peers` (C28). `C81_passed` matches the packets passed on and still waiting one to one with positions in the history. `PWhomEx.v` |
| C82 | `pop_next_authored_packet`, `next_authored_packet_delay` | `PShare.v`: from C52_pick (the threshold of the choice between sessions, the same for all draws), the threshold of `gen_bool` and C39_pop; the rates are the shares of draws over the mean of `mean_spec`, which C52_delay shows the delay to be a multiple of. `PShareEx.v` |
| C83 | `estimate_authored_packet_queue_delay`, `post_request` | `PWait.v`: the spec is a formula in reals that is symmetric in the two queues; a calculus of numbers that differ by a power of 1 + 10^-6 (`wi`, `fl`) follows the floating point operations, and the two branches of the code are the two cases of the maximum (`estimate_max`). The comment in the code calls the formula an approximation to the 99.995th percentile: for the default configuration the theorems bound the probability that packets take longer, by 51 in a million at a mixnode (`late`, the Poisson distribution, `PLate.v`) and by 70 in a million elsewhere, where the own packets and those of the far end are sent at different rates. There the probability is stated by Kolmogorov's backward equations, which are shown to have one solution (by integration) and to give the Poisson distribution at equal rates (`PSlow.v`). A comparison lemma for these equations bounds it by counting ticks of a clock with the larger rate; the resulting sums are evaluated, with rounding in the safe direction, for each of the 26 and 51 possible queue lengths (`PTail.v`). `PWaitEx.v`, `PSlowEx.v` |
| C84 | header building, peeling | `PPosition.v`: `write_header` is what `build_header` does once the secrets are known (`C84_built`). `C84_uniform` (with `uniform` of C62): its draws correspond one to one to the headers that work (`seen`, from `PHeader.v`); shown by going along the path once, a header being determined by the bytes that the last hop finds behind its action and the padding, which is determined by the earlier secrets. `C84_request`, `C84_reply`, `C84_cover`: what has been peeled by any number of hops is a header that works for the rest of the path, so it is made by `write_header` for the rest of the path with the bytes that are found at its end. Not claimed: that the padding, a keystream, is indistinguishable from random bytes; that is up to ChaCha20 |
| C85 | posting of requests, cover packets, new sessions | `PFresh.v`: `fresh r vs` says that the strings `vs` are output of the generator `r` at places that do not overlap; the theorems follow the generator through the calls, by induction over the SURBs of a packet and the packets of a request. That the secrets shared with the hops are computed from the drawn secret is `agreed`; what they are is C14. `PFreshEx.v` |
| C86 | posting of requests, cover packets | `PPaths.v`: `choice ks f P` says that `f` maps the values below `ks` one to one onto the objects with `P`; from C62_uniform (`uniform_choice`). `packet_place` and `surb_place` are the places in the random output, `apart` that they do not overlap, `packet_drawn` what is found at them, and `goes` says, with the journeys of C14-C16, that the packet is accepted along the path. By induction over SURBs and packets; that headers take the same number of random bytes for every permitted path is `room_same`. `PPathsCover.v`: for cover packets `alike i r r'` says that two generators agree on the next `i` outputs, which decide session, kind and (for `i + 1`) destination; everything behind these may differ. `PPathsEx.v` |

C40 and C41 quantify over all histories of a network in which nodes make arbitrary API calls, and the
wire delivers packets in any order, and may deliver packets that it made up or had delivered before.
`C40_request`: after an accepted `post_request` there are trips (sequences of packets, each with the key
that reads it), one per fragment, whose first packets are those queued, such that in every history that
carries them (`conveyed`: sent by the author; at its first handling each packet meets a node that has
the session, has not seen the packet, and, on the way, has room; none still under way at the end), if
the destination held no fragments under that id before, and those that arrive are not evicted or
mixed with others of the same id until the last arrives (`undisturbed`), then the last arrival, and no other, returns
the message. Packets handled again later are dropped by C18 and C19. `C41_reply` continues: replies made
by whoever holds the SURBs of the returned message, with any non-empty part of them, come back likewise,
if the author still has the keys of the SURBs used. `PEndEx.v` shows a network where all this happens.
