{"id": "C01", "title": "A message survives fragmentation and reassembly in any arrival order", "statement": "If a message (16-byte id, data, list of SURBs) is split into fragments and the fragments are handed to an assembler in any order, the assembler returns nothing until the last one arrives and then returns exactly the original id, data and SURBs (in order); afterwards it holds nothing for that message.", "quantifier": "every message id, every data length and content, every number and content of SURBs that fits in 65536 fragments, every permutation of the fragments, every assembler state with room for the message", "why_tests_cant": "Data lengths, SURB counts and permutations are unbounded; a test samples a few shuffles of one size.", "anchors": ["src/core/fragment.rs: fragment_blueprints, FragmentBlueprint::write_except_surbs, FragmentBlueprint::surbs, FragmentAssembler::insert, GenericMessage::from_fragments"]}
{"id": "C02", "title": "Fragment planning: exact capacity, minimality and no arithmetic overflow", "statement": "Planning a message never panics or underflows for any 64-bit sizes; it is refused exactly when more than 65536 fragments would be needed; the number of fragments planned is the least number of fragments that could carry that data and that many SURBs; an empty message still takes one fragment; planned fragments always fit their payload.", "quantifier": "every data length and SURB count representable in 64 bits", "why_tests_cant": "The arithmetic saturates only near 2^64; no test can allocate such inputs, and minimality quantifies over all packings.", "anchors": ["src/core/fragment.rs: fragment_blueprints, div_ceil"]}
{"id": "C03", "title": "The assembler never exceeds its memory limits and never panics", "statement": "After any sequence of arbitrary 2048-byte fragments the assembler holds at most max_incomplete_messages messages and at most max_incomplete_fragments fragments, its fragment counter equals the number of fragments actually held, every held message has at least one and not all of its fragments, and no panic or failed debug assertion occurs.", "quantifier": "every finite sequence of (possibly hostile) fragments, every limit configuration", "why_tests_cant": "The input is attacker controlled and the history is unbounded.", "anchors": ["src/core/fragment.rs: FragmentAssembler::insert, maybe_evict, need_eviction, IncompleteMessage::insert"]}
{"id": "C04", "title": "Bad fragments are ignored without side effects", "statement": "A fragment with an out-of-range index, an oversize payload, more fragments than allowed, a fragment count inconsistent with the message already held, or one already held, produces no message and leaves the assembler unchanged.", "quantifier": "every assembler state reachable by any history and every such fragment", "why_tests_cant": "Needs all byte patterns and all states.", "anchors": ["src/core/fragment.rs: check_fragment, FragmentAssembler::insert"]}
{"id": "C05", "title": "Messages are only ever assembled from received fragments of the same id", "statement": "Whenever the assembler returns a message, its data and SURBs are the concatenation, in index order, of one received fragment for every index 0..n-1, each valid, each carrying that message id and the same count n, all of them received in the past (the last being the current one).", "quantifier": "every history of fragments for any mixture of messages", "why_tests_cant": "Soundness over all interleavings.", "anchors": ["src/core/fragment.rs: FragmentAssembler::insert, GenericMessage::from_fragments"]}
{"id": "C06", "title": "Interleaving with other messages does not disturb reassembly", "statement": "Inserting fragments of other messages, in any interleaving, does not change the outcome for a message as long as no eviction occurs; evictions remove the least recently touched message only.", "quantifier": "every interleaving of fragments of any number of messages", "why_tests_cant": "Exponentially many interleavings.", "anchors": ["src/core/fragment.rs: FragmentAssembler::insert, maybe_evict"]}
{"id": "C07", "title": "Scattered slices behave as one contiguous slice", "statement": "For a scattered buffer: length, emptiness, to_vec and copy_to_slice agree with the concatenation of its parts; split_at at any valid position yields two scattered buffers whose contents are the two halves of the contents, and can be repeated indefinitely; an out-of-range split panics.", "quantifier": "every list of slices (including empty ones) and every sequence of split positions", "why_tests_cant": "Unbounded number of slices and splits.", "anchors": ["src/core/scattered.rs: Scattered::split_at, copy_to_slice, to_vec, From"]}
{"id": "C08", "title": "A request packet peels correctly along every path", "statement": "A request packet built for any path of 1..6 hops with at most one peer-id hop is accepted by each hop in turn using that hop's own secret key: hop i obtains exactly the i-th target, and the last hop obtains exactly the payload data; no other outcome is possible.", "quantifier": "every path length, every target list, every key set, every payload, every randomness", "why_tests_cant": "Byte-level layout with padding must work for all target mixes, keys and random strings; the unit test picks random 5- or 6-hop paths.", "anchors": ["src/core/sphinx/build.rs: build_header, complete_request_packet", "src/core/sphinx/peel.rs: peel", "src/core/sphinx/crypto.rs: gen_kx_public_and_shared_secrets, blind_kx_public"]}
{"id": "C09", "title": "A reply sent through a SURB comes back to its creator intact", "statement": "A reply packet completed with a SURB built for any path of 1..6 hops (at most one peer id) has the SURB's first hop as its destination, is forwarded by each hop to the right target, is delivered as a reply carrying the SURB id, and decrypts with the SURB's stored keys to exactly the payload data.", "quantifier": "every path, key set, SURB id, reply payload and randomness", "why_tests_cant": "Same as C08 plus the layered key schedule.", "anchors": ["src/core/sphinx/build.rs: build_surb, complete_reply_packet", "src/core/sphinx/peel.rs: peel, decrypt_reply_payload"]}
{"id": "C10", "title": "Cover packets reach the end of their path and have no effect there", "statement": "A cover packet built for any path peels to the right target at each hop and to \"cover\" (with its optional id) at the last hop; a node receiving such a delivery returns no message and its state is unchanged.", "quantifier": "every path, key set, cover id and randomness, every receiving node state", "why_tests_cant": "All paths and states.", "anchors": ["src/core/sphinx/build.rs: build_cover_packet", "src/core/sphinx/peel.rs: peel", "src/core/mod.rs: Mixnet::handle_packet"]}
{"id": "C11", "title": "The sender's total delay is exactly the sum of the delays applied by the hops", "statement": "The total forwarding delay returned when a packet or SURB is built equals, bit for bit, the floating-point sum, in hop order starting from zero, of the delays each forwarding hop derives when peeling it.", "quantifier": "every path, key set and randomness", "why_tests_cant": "Floating point addition is not associative, so agreement is only right if both sides sum in the same order, for all values.", "anchors": ["src/core/sphinx/build.rs: build_header", "src/core/sphinx/peel.rs: peel", "src/core/sphinx/delay.rs: Delay::exp, Add"]}
{"id": "C12", "title": "Packets keep their size and carry nothing from the output buffer", "statement": "A forwarded packet has exactly the fixed packet size, and every byte of it is determined by the incoming packet and the shared secret, never by the previous contents of the output buffer.", "quantifier": "every incoming packet accepted for forwarding, every shared secret, every buffer contents", "why_tests_cant": "Buffer reuse bugs depend on the action kind and on offsets; tests use a zeroed buffer.", "anchors": ["src/core/sphinx/peel.rs: peel"]}
{"id": "C13", "title": "Peeling is total and classifies every packet", "statement": "Peeling any 2252-byte string with any secret terminates without panic: it fails with a MAC error exactly when the MAC does not match, fails with an action error exactly when the MAC matches and the action code is a reserved one (0xff05..0xffff), fails with a payload tag error only for request deliveries whose decrypted tag is nonzero, and otherwise yields the action encoded in the header; a mixnode-index target is always at most 0xfeff.", "quantifier": "every byte string of packet length, every secret", "why_tests_cant": "Attacker-controlled input space of size 256^2252.", "anchors": ["src/core/sphinx/peel.rs: peel, check_payload_tag", "src/core/sphinx/target.rs: MixnodeIndex::try_from"]}
{"id": "C14", "title": "Both ends of the key exchange agree at every hop", "statement": "The i-th shared secret computed by the packet author equals the secret that hop i derives from the packet's (successively blinded) public key and its own secret key, for every hop; and the public key in the packet as it reaches hop i is the i-th blinded key.", "quantifier": "every number of hops, every author secret, every hop secret", "why_tests_cant": "Algebraic identity over all keys and hop counts.", "anchors": ["src/core/sphinx/crypto.rs: gen_kx_public_and_shared_secrets, blind_kx_public, derive_kx_shared_secret, derive_kx_public"]}
{"id": "C15", "title": "Building packets never panics on permitted paths", "statement": "Building a request, SURB or cover packet for any path of 1..6 hops with at most one peer-id target never panics (no slice out of range, no array overflow).", "quantifier": "every permitted path and randomness; also shows the documented limit of one peer id is needed", "why_tests_cant": "Buffer sizes fit exactly in the worst case; all target mixes must be covered.", "anchors": ["src/core/sphinx/build.rs: build_header, mut_arr_at", "src/core/sphinx/packet.rs: ACTIONS_SIZE"]}
{"id": "C16", "title": "Tampering with an accepted header is detected", "statement": "If a packet is accepted by a node, then any other packet with the same public key whose MAC or routing bytes differ is rejected with a MAC error, unless it exhibits a MAC forgery under the same key; a request payload is only delivered if it decrypts to data followed by an all-zero tag.", "quantifier": "every accepted packet and every modification", "why_tests_cant": "All modifications of all packets.", "anchors": ["src/core/sphinx/peel.rs: peel", "src/core/sphinx/crypto.rs: mac_ok, compute_mac"]}
{"id": "C17", "title": "The replay filter has no false negatives and is lazily allocated", "statement": "Once a tag has been inserted, the filter reports it as contained forever, whatever else is inserted; an unused filter contains nothing and a lookup never inserts; a tag is reported only if every one of its bits was set by some inserted tag.", "quantifier": "every sequence of insertions of 32-bit tags (including wrap-around and zero increments)", "why_tests_cant": "2^64 tags and unbounded histories; wrap-around in u32.", "anchors": ["src/core/replay_filter.rs: ReplayFilter::insert, contains, tag"]}
{"id": "C18", "title": "A node acts at most once on a packet", "statement": "In any history of API calls, a given session of a node forwards or delivers as request at most one packet with a given key-exchange public key; later packets with that key are ignored (no message, no queueing, no state change) for as long as the session exists, including after it becomes the previous session.", "quantifier": "every history of API calls and every packet, including modified copies that keep the public key", "why_tests_cant": "Replay at any later point of any history.", "anchors": ["src/core/mod.rs: Mixnet::handle_packet, set_session_status", "src/core/replay_filter.rs: ReplayFilter"]}
{"id": "C19", "title": "A SURB is usable at most once", "statement": "For each SURB id, in any history at most one incoming reply packet is decrypted with its keys, whether or not decryption succeeds; later replies for the id are dropped without effect.", "quantifier": "every history of posts and incoming packets", "why_tests_cant": "All histories.", "anchors": ["src/core/mod.rs: Mixnet::handle_packet", "src/core/surb_keystore.rs: SurbKeystore::entry, Entry::remove"]}
{"id": "C20", "title": "The SURB keystore is bounded and evicts oldest first", "statement": "With positive capacity the keystore never holds more than capacity entries, ids are unique, entries are in creation order, and creating a SURB when full discards exactly the oldest entry.", "quantifier": "every sequence of insertions and removals, every capacity > 0", "why_tests_cant": "Unbounded histories.", "anchors": ["src/core/surb_keystore.rs: SurbKeystore::insert, entry"]}
{"id": "C21", "title": "The forward queue is bounded, loses nothing and releases packets in deadline order", "statement": "The forward queue never holds more than its capacity; next_forward_packet_deadline is the minimum deadline; pop returns a packet with the minimum deadline; the packets in the queue are always exactly those inserted and not yet popped.", "quantifier": "every history of handle_packet and pop calls, whatever the tie-breaking between equal deadlines", "why_tests_cant": "Histories and ties are unbounded.", "anchors": ["src/core/packet_queues.rs: ForwardPacketQueue", "src/core/mod.rs: pop_next_forward_packet, next_forward_packet_deadline"]}
{"id": "C22", "title": "Deadline-changed events are never missed (forward queue)", "statement": "Over any sequence of API calls without take_events, if next_forward_packet_deadline differs between start and end then NEXT_FORWARD_PACKET_DEADLINE_CHANGED is set at the end.", "quantifier": "every history", "why_tests_cant": "A missed wake-up only shows on particular schedules.", "anchors": ["src/core/mod.rs: handle_packet, pop_next_forward_packet, take_events", "src/core/packet_queues.rs: ForwardPacketQueue::insert"]}
{"id": "C23", "title": "The authored packet queue is bounded and FIFO", "statement": "Packets come out of a session's authored queue in the order they were pushed; the queue never exceeds its capacity in any history of posts and pops; with multiple_messages disabled a message is only accepted when the queue is empty.", "quantifier": "every history of post_request/post_reply/pop_next_authored_packet", "why_tests_cant": "Unbounded histories.", "anchors": ["src/core/packet_queues.rs: AuthoredPacketQueue", "src/core/mod.rs: post_request, post_reply, pop_next_authored_packet"]}
{"id": "C24", "title": "Space events are never missed (authored queue)", "statement": "If a post of some size was refused for lack of space before popping an authored packet and would be accepted after it, then the SPACE_IN_AUTHORED_PACKET_QUEUE event is set by that pop; and a \"too large\" refusal never turns into acceptance.", "quantifier": "every queue state, every message size, every configuration", "why_tests_cant": "Lost wake-ups depend on state.", "anchors": ["src/core/packet_queues.rs: AuthoredPacketQueue::pop, check_space", "src/core/mod.rs: pop_next_authored_packet"]}
{"id": "C25", "title": "Routes are well formed", "statement": "A generated route has at most 6 hops and at least the requested number; it starts at a mixnode, which for a non-mixnode sender is one of its connected gateways, and for a mixnode another mixnode unless the route has a single hop; it ends at the requested mixnode, or at the local node; a non-mixnode recipient is reached through one of its connected gateways; at most one target is a peer id and it is the local one, in the last position; the public keys are those of the hops.", "quantifier": "every topology, connectivity, destination, requested hop count 0..6 and randomness", "why_tests_cant": "All topologies and random choices.", "anchors": ["src/core/topology.rs: RouteGenerator::gen_route, choose_connected_gateway_index"]}
{"id": "C26", "title": "Routes do not revisit mixnodes", "statement": "No mixnode appears twice in a route and the local mixnode never appears as an intermediate hop, except that when exactly one gateway is connected it may serve as both ends of a loop, or coincide with an explicitly requested destination.", "quantifier": "every topology, connectivity, destination, hop count and randomness", "why_tests_cant": "All random choices.", "anchors": ["src/core/topology.rs: gen_route, UsedIndices, choose_mixnode_index"]}
{"id": "C27", "title": "Random mixnode choice is uniform over exactly the allowed mixnodes", "statement": "Choosing a mixnode with a sorted list of excluded indices is a bijection between the draws 0..(n - excluded) and the non-excluded indices below n: excluded ones are never chosen, every other one is chosen by exactly one draw, and it fails exactly when nothing is allowed.", "quantifier": "every mixnode count, every sorted exclusion list, every draw", "why_tests_cant": "All lists and draws.", "anchors": ["src/core/topology.rs: choose_mixnode_index, choose_destination_index"]}
{"id": "C28", "title": "Reserved peers are the right peers", "statement": "For a mixnode, the reserved peers of a session are all mixnodes of that session but itself, each once; for a non-mixnode they are min(num_gateway_mixnodes, n) distinct mixnodes, fixed for the session.", "quantifier": "every mixnode list up to 65280 entries, every randomness", "why_tests_cant": "All sizes and samples.", "anchors": ["src/core/topology.rs: Topology::new, reserved_peers", "src/core/mod.rs: Mixnet::reserved_peers"]}
{"id": "C29", "title": "Route generation fails exactly when it must", "statement": "Route generation never panics for valid destinations, returns NoConnectedGatewayMixnodes exactly when the local node is not a mixnode and no gateway is connected, returns TooFewMixnodes exactly when there are fewer unused mixnodes than intermediate hops needed, independently of the random choices.", "quantifier": "every topology, connectivity, route kind, hop count and randomness", "why_tests_cant": "All random choices must agree.", "anchors": ["src/core/topology.rs: gen_route"]}
{"id": "C30", "title": "Posting is allowed exactly in the right sessions and phases", "statement": "post_request and post_reply for a session succeed in finding a usable session exactly when: it is the current session and the phase is at least RequestsToCurrent, or it is the previous one and the phase is before CoverToPrev, and its mixnodes are set; otherwise the error says which of \"no longer active\", \"not active yet\", \"mixnodes not known\", \"disabled\" applies.", "quantifier": "every session index, status and slot state", "why_tests_cant": "Decision table over all u32 indices and phases.", "anchors": ["src/core/mod.rs: post_session", "src/core/sessions.rs: RelSessionIndex::from_session_index, SessionPhase::allow_requests_and_replies"]}
{"id": "C31", "title": "Session keys are handed over correctly and never reused", "statement": "The public key returned by next_kx_public while session i is current is stable until the index changes and is the key the node uses in session i+1 if the index advances by one (or by two, as the previous session); any other index change discards it; no key pair ever serves two sessions, and once a session is left behind its secret is no longer in the state.", "quantifier": "every history of API calls", "why_tests_cant": "Depends on arbitrary session-change histories.", "anchors": ["src/core/mod.rs: set_session_status, next_kx_public, maybe_set_mixnodes", "src/core/kx_pair.rs: KxPair"]}
{"id": "C32", "title": "There is never an active previous session at index 0, and delivery never underflows", "statement": "In every reachable state with current index 0 the previous session slot is disabled; hence handle_packet and maybe_set_mixnodes never hit the \"session index underflow\" panic; every delivered request carries the index of the session whose key decrypted it.", "quantifier": "every history of API calls", "why_tests_cant": "All histories.", "anchors": ["src/core/mod.rs: set_session_status, handle_packet, maybe_set_mixnodes", "src/core/sessions.rs: RelSessionIndex Add"]}
{"id": "C33", "title": "Reserved-peer changes are never missed", "statement": "Over any sequence of API calls without take_events, if the reserved peers differ between start and end then RESERVED_PEERS_CHANGED is set at the end; likewise NEXT_AUTHORED_PACKET_DEADLINE_CHANGED if the set of active sessions or the halving of the rate changed.", "quantifier": "every history", "why_tests_cant": "Lost wake-ups depend on schedules.", "anchors": ["src/core/mod.rs: set_session_status, maybe_set_mixnodes, take_events"]}
{"id": "C34", "title": "Mixnodes for a session are set once", "statement": "Setting mixnodes affects only an empty slot: once a session is established or disabled further calls change nothing (and do not query the mixnodes); a transient failure leaves the state unchanged; a permanent one disables the slot until the session index changes; a non-mixnode without non-mixnode configuration is disabled, and with it gets the configured number of gateways, or as many as there are mixnodes; excess mixnodes are dropped.", "quantifier": "every state and mixnode list", "why_tests_cant": "All states.", "anchors": ["src/core/mod.rs: maybe_set_mixnodes"]}
{"id": "C35", "title": "Posting a request is all-or-nothing", "statement": "post_request with a valid destination either returns an error and leaves the node state and the caller's destination untouched, or succeeds, in which case exactly the planned number of packets is appended to the session's authored queue, exactly num_surbs keystore entries are created for the message id and the destination is reported. What is accepted fits in the queue and is within the configured number of fragments. In particular it never fails after queueing some fragments.", "quantifier": "every node state, message, SURB count, destination, connectivity and randomness", "why_tests_cant": "Failure part-way through a multi-fragment post depends on topology and random choices.", "anchors": ["src/core/mod.rs: post_request", "src/core/request_builder.rs: RequestBuilder"]}
{"id": "C36", "title": "An out-of-range explicit destination panics (violation)", "statement": "post_request with a destination index outside the session's mixnode list should be rejected with an error; in the code it panics.", "quantifier": "every destination index", "why_tests_cant": "The tests only use random destinations.", "anchors": ["src/core/mod.rs: post_request", "src/core/topology.rs: gen_route"]}
{"id": "C37", "title": "Replies consume SURBs exactly and are only partly atomic", "statement": "A successful post_reply consumes exactly one SURB per fragment, from the end of the list, and queues exactly that many packets addressed to the SURBs' first hops; a refusal before packet generation changes nothing; a bad SURB part-way leaves the earlier fragments queued and the SURBs consumed (so post_reply is not all-or-nothing).", "quantifier": "every SURB list (possibly hostile), data and node state", "why_tests_cant": "All hostile SURB lists.", "anchors": ["src/core/mod.rs: post_reply", "src/core/sphinx/build.rs: complete_reply_packet"]}
{"id": "C38", "title": "Non-mixnodes never forward or accept requests", "statement": "A node that is not a mixnode in the session that decrypts the packet neither queues it for forwarding nor returns a request message, and does not allocate its replay filter; a forward packet arriving at a full queue is dropped with no state change.", "quantifier": "every state and packet", "why_tests_cant": "All states and packets.", "anchors": ["src/core/mod.rs: handle_packet"]}
{"id": "C39", "title": "Authored packet dispatch respects phases and prefers real packets only over drop cover", "statement": "pop_next_authored_packet only takes queued packets from a session in which requests and replies are allowed; if the random choice is a loop cover packet or the queue is empty, a cover packet (or nothing, if disabled or impossible) is returned and no queue changes; a queued packet is lost only through session changes.", "quantifier": "every history and randomness", "why_tests_cant": "All histories.", "anchors": ["src/core/mod.rs: pop_next_authored_packet", "src/core/cover.rs: gen_cover_packet"]}
{"id": "C40", "title": "End-to-end request delivery", "statement": "If a request is posted successfully and each of its packets is carried through honest mixnodes (with room in their queues, and which have not seen the packet before), in any order, then the destination mixnode returns exactly one request message with the posted id, data and number of SURBs, upon receiving the last fragment.", "quantifier": "every topology of honest nodes, message, randomness and delivery order", "why_tests_cant": "Whole-system property over all topologies and schedules.", "anchors": ["src/core/mod.rs: post_request, handle_packet", "src/core/fragment.rs", "src/core/sphinx/build.rs", "src/core/sphinx/peel.rs", "src/core/topology.rs"]}
{"id": "C41", "title": "End-to-end reply delivery", "statement": "If the destination answers a delivered request with post_reply using its SURBs and the packets are carried through honest mixnodes in any order, the original sender returns exactly one reply message with the request's id and exactly the reply data.", "quantifier": "every topology of honest nodes, reply data, randomness and delivery order", "why_tests_cant": "Whole-system property.", "anchors": ["src/core/mod.rs: post_reply, handle_packet", "src/core/surb_keystore.rs"]}
{"id": "C42", "title": "The request manager never loses or duplicates a request", "statement": "In any history of request manager calls every inserted request is, at any time, in exactly one of: managed; returned by remove; passed to handle_post_err; passed to handle_retry_limit_reached - each at most once.", "quantifier": "every history and every behaviour of the mixnet underneath", "why_tests_cant": "All histories and posting outcomes.", "anchors": ["src/request_manager/mod.rs: RequestManager::insert, remove, retry, process_post_queue, update_session_status, pop_next_retry"]}
{"id": "C43", "title": "The request manager respects its capacity", "statement": "If insert is only called when has_space is true, the number of managed requests never exceeds capacity; has_space is true exactly when fewer than capacity requests are managed.", "quantifier": "every history", "why_tests_cant": "All histories.", "anchors": ["src/request_manager/mod.rs: has_space, insert"]}
{"id": "C44", "title": "Retries are bounded", "statement": "A request is successfully posted at most num_destinations * num_attempts_per_destination * num_posts_per_attempt times in any history, and exactly that often if it reached the retry limit; pop_next_retry brings it to handle_retry_limit_reached after finitely many retries.", "quantifier": "every history, every configuration with nonzero parameters", "why_tests_cant": "All histories including session changes.", "anchors": ["src/request_manager/mod.rs: retry, process_post_queue"]}
{"id": "C45", "title": "A message id is only ever sent to one destination", "statement": "All successful posts made under the same message id go to the same session and the same destination mixnode; the id is replaced whenever the destination is abandoned.", "quantifier": "every history, given message ids drawn without repetition", "why_tests_cant": "All histories of retries and session changes.", "anchors": ["src/request_manager/mod.rs: RequestState::new_destination, retry, update_session_status, process_post_queue"]}
{"id": "C46", "title": "The retry deadline is right and its changes are signalled", "statement": "The retry queue is always sorted, so next_retry_deadline is the earliest deadline of all requests awaiting retry; a request's deadline is never earlier than the time of its last post plus the estimated round-trip time; and next_retry_deadline_changed reports true whenever the deadline changed since the last call.", "quantifier": "every history", "why_tests_cant": "All histories.", "anchors": ["src/request_manager/mod.rs: next_retry_deadline, next_retry_deadline_changed, remove, process_post_queue"]}
{"id": "C47", "title": "Request manager calls terminate and keep queues consistent", "statement": "Every request manager call terminates; requests waiting in the current (previous) queue always belong to the current (previous) session; those in the default queue have no session or destination yet; the previous queue is empty at session index 0 or when the phase disallows it, and likewise the current queue; no debug assertion fires.", "quantifier": "every history and mixnet behaviour", "why_tests_cant": "The posting loop re-queues requests on the queue it is draining.", "anchors": ["src/request_manager/mod.rs: process_post_queue, update_session_status", "src/request_manager/post_queues.rs"]}
{"id": "C48", "title": "The reply manager is bounded and evicts oldest first", "statement": "The reply manager never remembers more than capacity requests; when over the limit exactly the oldest entry is discarded.", "quantifier": "every history, every capacity (including 0)", "why_tests_cant": "All histories.", "anchors": ["src/reply_manager.rs: insert, complete, abandon, maybe_evict"]}
{"id": "C49", "title": "A request is handed to the handler at most once while remembered", "statement": "After insert returns a context for a request id, insert returns nothing for that id until the entry is abandoned or evicted, in any interleaving with other calls; after completion, repeats are answered from the cache.", "quantifier": "every history", "why_tests_cant": "All interleavings.", "anchors": ["src/reply_manager.rs: ReplyManager::insert, abandon, complete"]}
{"id": "C50", "title": "Repeated requests get the identical reply, at most once per cooldown", "statement": "All replies posted for a remembered request carry the same reply message id and data; two postings triggered by repeats are at least cooldown apart; each posting makes at most max_posts copies and consumes SURBs only of the request it answers.", "quantifier": "every history with a monotonic clock", "why_tests_cant": "All histories and timings.", "anchors": ["src/reply_manager.rs: insert, complete, ReplyContext::post_reply"]}
{"id": "C51", "title": "Request metrics bound every fragment and SURB", "statement": "The num_hops and forwarding delay reported for a successful request are at least the hop count and total delay of each of its packets plus those of each of its SURBs, and no larger than some packet and SURB require; each packet and SURB has at least the configured number of hops and at most six; delays are never NaN so comparing them never panics; the timeout estimate is at least the sum of its components.", "quantifier": "every request, topology and randomness", "why_tests_cant": "Floating point over all values.", "anchors": ["src/core/mod.rs: post_request, RequestMetrics::estimate_rtt", "src/core/sphinx/delay.rs: Delay"]}
{"id": "C52", "title": "Choosing between sessions never panics and the dispatch rate is sane", "statement": "With two active sessions with positive periods the probability passed to the random choice is always within [0,1], so pop_next_authored_packet does not panic; next_authored_packet_delay is None exactly when no session is active.", "quantifier": "every pair of positive durations", "why_tests_cant": "Floating-point rounding over all durations.", "anchors": ["src/core/mod.rs: next_authored_packet_delay, pop_next_authored_packet"]}
{"id": "C53", "title": "No call panics except in two named cases", "statement": "With positive periods of ordinary size, at most 99% loop cover and a bounded mean forwarding delay, no sequence of API calls makes a node panic, except a request to an explicitly given mixnode index outside the topology, or two equal 16-byte SURB ids among the random bytes that the request draws.", "quantifier": "every configuration within the stated bounds, every history, every call and all randomness", "why_tests_cant": "Needs all histories, all packets and all floating-point values at once.", "anchors": ["src/core/mod.rs: all public functions of Mixnet"]}
{"id": "C54", "title": "Cover packets travel the network and vanish", "statement": "A packet given to the network by pop_next_authored_packet is either the oldest queued one of a session or, if cover packets are enabled, a cover packet whose trip leads through one to six nodes of that session back to the node itself (loop) or to a mixnode other than it (drop). Carried along its trip, every node handles it without reporting anything, every node but the last passes on exactly the next packet, and the last is left unchanged.", "quantifier": "every network history, every node state reached, all randomness", "why_tests_cant": "Spans all routes, several nodes and all interleavings.", "anchors": ["src/core/mod.rs: pop_next_authored_packet, handle_packet", "src/core/cover.rs: gen_cover_packet"]}
{"id": "C55", "title": "No waiting request is forgotten", "statement": "In a node with a request manager that is told of every change of the session status: whenever a request waits for room in the authored packet queue of a session, that session is one the phase allows requests to and still has packets queued, or the event SPACE_IN_AUTHORED_PACKET_QUEUE is pending, or it has been taken and process_post_queues has not been called since, or the session is the (nonexistent) one before session 0. After a call of process_post_queues only the first and last cases are left. And when process_post_queues is called while a request waits for a session without queued packets, some request waiting for that session is posted to it or reported as impossible to post.", "quantifier": "every interleaving of calls on the node and on the manager, all configurations, randomness, clocks and network states", "why_tests_cant": "A lost wakeup needs one particular interleaving of dispatch, events, session changes and manager calls.", "anchors": ["src/request_manager/mod.rs: process_post_queue, process_post_queues, session_post_queues_empty, retry, update_session_status", "src/core/mod.rs: post_request, pop_next_authored_packet, take_events", "src/core/packet_queues.rs: AuthoredPacketQueue::check_space, pop"]}
{"id": "C56", "title": "The memory a node uses is bounded by its configuration", "statement": "In every state a node reaches, the forward packet queue, the SURB keystore, the incomplete messages, the fragments held for them in all and the slots of each of them are within the limits of the configuration, which never changes; each session has at most the configured number of packets queued; every queued packet is 2252 bytes and every held fragment 2048; and a session in which the node is not a mixnode has no replay filter bits.", "quantifier": "every configuration and every history of calls, with arbitrary packets", "why_tests_cant": "Unbounded adversarial histories.", "anchors": ["src/core/mod.rs: Mixnet::new, all public functions", "src/core/fragment.rs: FragmentAssembler::insert", "src/core/packet_queues.rs: AuthoredPacketQueue, ForwardPacketQueue", "src/core/surb_keystore.rs: SurbKeystore::insert", "src/core/sessions.rs: Session"]}
{"id": "C57", "title": "A reported message is made of fragments that were received", "statement": "The message reported by handle_packet is made of fragments that the node has taken out of packets it handled, one for each position, all with the ID of the message and the same fragment count, the last of them in the packet just handled; its data is theirs in order. The stronger statement that a message reported as a reply is made only of fragments that came as replies is false: requests and replies share one assembler.", "quantifier": "every configuration and every history of calls, with arbitrary packets", "why_tests_cant": "Unbounded adversarial histories.", "anchors": ["src/core/mod.rs: handle_packet", "src/core/fragment.rs: FragmentAssembler::insert"]}
{"id": "C58", "title": "A request manager on a node does not panic", "statement": "A node and a request manager that posts to it, with rates and delays within the bounds of C53 and hop delays of at most 2^50 seconds, at least one attempt and one post, requests of at most the size and SURB count posting allows with handling delays of at most 2^62 seconds, insertion only when there is space, and a session index that never decreases: a call on the manager panics only if two equal 16-byte ids are among the random bytes that one post of a request with SURBs draws. Every state the node reaches this way is one it reaches in a history of its own. Without the condition on the session index this is false: a request keeps the mixnode index it was posted to with its session index, and if that session comes back with fewer mixnodes the next attempt panics.", "quantifier": "every interleaving of calls on the node and on the manager, all requests, configurations within the bounds, randomness, clocks and network states; the manager may be told anything about the session status", "why_tests_cant": "The panic needs the session index to go back and return between two attempts of one request.", "anchors": ["src/request_manager/mod.rs: RequestManager, all functions", "src/core/mod.rs: post_request, set_session_status, maybe_set_mixnodes", "src/core/sessions.rs: Sessions, RelSessionIndex::from_session_index"]}
{"id": "C59", "title": "Requests to a session are served in turn", "statement": "An inserted or retried request is posted at once only if no request waits for the session it goes to, in the queue of that session or in the queue of requests bound to no session when that is the session new requests go to. Otherwise it is put at the end of its queue, nothing is posted and the other queues are unchanged; the only other outcome is that it is given up at the retry limit. When process_post_queues is called, the requests waiting in each queue are tried in order, each once before any is posted a second time, until all had a turn or there is no room in the authored packet queue; those left over then stay in the same order, before any others. All posts go to the session of the queue.", "quantifier": "every state of the manager, every behaviour of the mixnet, clocks and randomness", "why_tests_cant": "Overtaking is visible only with several requests in several queues and particular phases.", "anchors": ["src/request_manager/mod.rs: insert, retry, pop_next_retry, session_post_queues_empty, process_post_queue, process_post_queues"]}
{"id": "C60", "title": "A replay filter reports few tags by mistake", "statement": "After any n tags were inserted in a new replay filter, whoever chose them and whatever key the filter drew, at most (512 n)^2 of the 2^64 tags are reported as contained. In particular, after 2^20 insertions at most 1 of 64 tags is reported. If the inserted tags and the tag looked up are evenly distributed and independent, the latter is reported with probability at most (1 - (1 - 8/2^26)^n)^8 + n/2^38 + 1/2^24 and at least (1 - (1 - 8/2^26)^n)^8 - n/2^37; for up to 7 million insertions this is at most 1.06%, and for 7 million at least 1.04%, as the comment in the code says (\"~1% with 7m packets\").", "quantifier": "every key, every list of inserted tags of any length", "why_tests_cant": "The count is over 2^64 tags; a unit test can only sample a few of them.", "anchors": ["src/core/replay_filter.rs: ReplayFilter::new, insert, contains, tag"]}
{"id": "C61", "title": "The reported forwarding delay is the time packets are kept on the way", "statement": "When a request is accepted, every packet of it travels a path on which each mixnode keeps it for a fixed time, and every reply made with one of its SURBs travels back likewise. If all mixnodes use the mean forwarding delay of the sender, the time a packet is kept in total, alone or together with the time any reply is kept, is at most the forwarding delay in the returned metrics, and some packet and reply take that long; both up to a relative error of 2^-48 and 8 nanoseconds, from rounding.", "quantifier": "every node state, message, random numbers, topology and mean forwarding delay up to 2^50 seconds; every state of the forwarding nodes", "why_tests_cant": "The sum is made in floating point by the sender, in integer nanoseconds by the hops, which never compare.", "anchors": ["src/core/mod.rs: handle_packet, post_request", "src/core/sphinx/delay.rs: Delay::exp, to_duration, add", "src/core/sphinx/build.rs: build_header", "src/core/sphinx/peel.rs: peel"]}
{"id": "C62", "title": "Every permitted route is generated, for exactly one choice of random draws", "statement": "Given a usable topology with a connected gateway and enough mixnodes, route generation makes a fixed number of draws with fixed bounds, independent of the values drawn, and returns a route that is well formed (C25), has the prescribed number of hops (C29) and does not revisit a mixnode unless a single gateway must serve twice (C26). Conversely, every such route is the result for exactly one choice of the draws, so uniformly distributed draws give uniformly distributed routes. Likewise a destination left open is any mixnode but the local node and the only connected gateway, each for exactly one draw. And a node that is not a mixnode takes every selection of the prescribed number of different gateways, in every order, for exactly one choice of the draws.", "quantifier": "every topology, list of mixnodes, number of gateways, set of connected gateways, route kind, number of hops up to six, and all random numbers", "why_tests_cant": "Uniformity is about the set of all outcomes; a test can only sample routes, and a bias towards or against a few of them stays unnoticed.", "anchors": ["src/core/topology.rs: Topology::new, gen_route, choose_mixnode_index, choose_connected_gateway_index, choose_destination_index, UsedIndices"]}
{"id": "C63", "title": "Secrets for different purposes, hops and packets come from different hash outputs", "statement": "Every byte of a MAC key, actions encryption key, delay seed, payload encryption key, blinding factor and replay tag is one byte of one call of the hash, with the secret as key; the sizes are as declared and no call is beyond the limits of the hash, so its constructor does not fail. No byte of an output is used for two purposes, positions or secrets, even though the hash fills up salt and personalisation with zeros, and no MAC is computed with a call used for derivation. All points are multiplied by integers that are multiples of 8 between 2^254 and 2^255 with the remaining 251 bits taken from the secret. Whatever has happened to a node, the filters of its sessions have keys of 32 bytes, so this applies to all it derives from any packet it gets.", "quantifier": "every shared secret, public key and filter key, for any hash and group; every history of calls and every packet", "why_tests_cant": "Reused hash output breaks no exchange of packets; it is visible only to an attacker.", "anchors": ["src/core/sphinx/crypto.rs: derive_kx_public, derive_kx_blinding_factor, blind_kx_public, derive_kx_shared_secret, derive_secret, SmallDerivedSecrets, derive_payload_encryption_key, compute_mac, mac_ok", "src/core/replay_filter.rs: ReplayFilter::tag"]}
{"id": "C64", "title": "A reply is matched with the request it answers, and once", "statement": "A node with a request manager: every request the node has accepted was posted by the application itself or by the manager, and the manager has told of exactly its posts, with the message id, session, destination, data and number of SURBs given to the node; in a network a manager call is a sequence of posts by the node, and nothing else changes. If the node returns a reply with a message id that the application did not use itself, then the manager has told of a post of some request under this id, and removing this id from the manager, at any later time, gives exactly that request, or nothing, the latter only if no managed request has the id any more. For each id a request is handed back at most once.", "quantifier": "every configuration, every history of calls on node and manager with any random numbers and clocks in which the drawn message ids differ, every packet that yields a reply, every later history", "why_tests_cant": "The chain passes through the random choices of the manager, the keystore, the network and the fragment assembler; tests look at one of them at a time.", "anchors": ["src/request_manager/post_queues.rs: RequestManager::insert, remove, process_post_queues, pop_next_retry", "src/core/mod.rs: Mixnet::post_request, handle_packet", "src/core/surb_keystore.rs: SurbKeystore"]}
{"id": "C65", "title": "Events are raised for a reason, and returned once", "statement": "take_events returns an event exactly if some call since the last take_events (or since the start) caused it: RESERVED_PEERS_CHANGED if the status became a different one or the mixnodes of a session became known; NEXT_FORWARD_PACKET_DEADLINE_CHANGED if a packet was asked for or if a received packet changed the deadline; NEXT_AUTHORED_PACKET_DEADLINE_CHANGED in the same cases as the first, and if a packet was asked for while some session was active; SPACE_IN_AUTHORED_PACKET_QUEUE if a packet left the queue of a session and other messages may be in the queue or it became empty.", "quantifier": "every node and every history, every position of take_events calls in it", "why_tests_cant": "Tests look for the events that are expected; a superfluous event, or one that comes back after it was taken, makes the service loop spin but breaks no test.", "anchors": ["src/core/mod.rs: Events, take_events, set_session_status, maybe_set_mixnodes, handle_packet, pop_next_forward_packet, pop_next_authored_packet", "src/core/packet_queues.rs: ForwardPacketQueue::insert, AuthoredPacketQueue::pop"]}
{"id": "C66", "title": "Replies use the SURBs of the request they answer, each of them once", "statement": "A node and a reply manager that posts to it: every post of the manager is a post_reply call on the node; the SURBs that the manager uses are, counted with repetitions, among those in the requests that the node has returned; each reply is posted in the session and with SURBs of one such request, with the data given in reply to a request of the same id; no call of the manager panics; and if the request was posted by a node in a network, the reply that the manager posts is carried back to that node and returned by it as the reply to that request.", "quantifier": "every configuration, every interleaving of calls on the node and on the manager, every clock and random number, every network history", "why_tests_cant": "The tests call the manager with hand-made requests, without a node. Whether a SURB is used twice after retransmissions, evictions and abandoned requests depends on the whole interleaving.", "anchors": ["src/reply_manager.rs: ReplyContext::post_reply, ReplyManager::insert, abandon, complete, maybe_evict", "src/core/mod.rs: post_reply, handle_packet"]}
{"id": "C67", "title": "Managed requests are carried to their destination and their replies back to them", "statement": "When a call of a request manager, whose node is part of a network, posts requests, then each post is an event of the network in which the node queues packets that honest nodes carry to the destination chosen, where the request is returned with its id and data; the replies that a reply manager there posts to it are carried back and returned under the same id; and under that id the request manager gives back that very request, or nothing if it is not managed under it any more.", "quantifier": "every configuration, every history of the node and of both managers, every network, every clock and random number", "why_tests_cant": "It is a property of two nodes, two managers and the network between them over unbounded histories; the tests of the crate exercise the managers with a stub and the network with single messages.", "anchors": ["src/request_manager/mod.rs: process_post_queues, remove", "src/core/mod.rs: post_request, post_reply, handle_packet", "src/reply_manager.rs: insert, complete"]}
{"id": "C68", "title": "What posting says about a session is true, and stays true", "statement": "If the session status only moves on (the index grows, or stays with a later phase), then a post to a session answers according to what has happened to that session since the node was made, whichever slot it was in meanwhile: disabled exactly if its mixnodes were said to be unavailable for good or the node was none of them and is configured not to take part; mixnodes not known exactly if neither that has happened nor the session was set up; anything else (success, no space, topology and SURB errors) only if the session was set up and not given up; not active yet or no longer active according to the status alone. Later posts agree: no longer active stays so for ever, disabled stays so until no longer active, and a session once usable is never again not yet active, unknown or disabled. If a phase may go backwards, \"disabled\" can be wrong (mod.rs:168-169 says otherwise).", "quantifier": "every configuration, every history of calls with a status that moves on, every session index, every request and reply posted, every later history", "why_tests_cant": "Sessions move between the slots as the index changes and slots are reused; a test sees the errors in a handful of situations, not that they agree with the whole history.", "anchors": ["src/core/mod.rs: post_session, set_session_status, maybe_set_mixnodes", "src/core/sessions.rs: Sessions, SessionSlot, SessionPhase"]}
{"id": "C69", "title": "A reply comes within the estimated round-trip time", "statement": "When a request is accepted at time T, the metrics returned give an estimate of the round-trip time for the time h that the recipient needs. If all mixnodes use the mean forwarding delay of the sender, every hop takes at most the per-hop network delay in the metrics after the packet was dispatched or became due, the packets of the request and of the reply wait in the queues of their authors for no longer together than the authored packet queue delay in the metrics, and the recipient posts its reply within h, then the reply is returned to the application of the sender at most the estimate after T, up to a relative error of 2^-48 and 8 nanoseconds, from rounding.", "quantifier": "every network of nodes, message, topology, random numbers, mean forwarding delay up to 2^50 seconds; every timed history of the network, with any other traffic, in which the packets are conveyed on time", "why_tests_cant": "The estimate is made from maxima over packets and SURBs separately before anything is sent; it is compared with what actually happens on seven or so nodes, in any interleaving and for every subset of the SURBs used.", "anchors": ["src/core/mod.rs: RequestMetrics::estimate_rtt, post_request, handle_packet", "src/core/sphinx/delay.rs: Delay::to_duration, add", "src/core/mod.rs: pop_next_authored_packet, pop_next_forward_packet"]}
{"id": "C70", "title": "A request is not due for another attempt before its reply can have come", "statement": "Take a node with a request manager in a network, and a request that the manager posts. If the packets of the request and of a reply to it are carried on time as in C69, and the recipient replies within the handling delay given for the request, then the reply comes back to the application not later than the retry deadline of the request, for as long as the manager keeps it under that id, whatever else is done with the node and the manager meanwhile; up to a relative error of 2^-48 and 8 nanoseconds.", "quantifier": "every history of a node with its request manager (with at least one attempt per destination and one post per attempt), every call on the manager, every later history, every network and clock as in C69", "why_tests_cant": "The deadline is the largest of several posts, made from an estimate that is computed before anything is sent, and the request is moved between queues; the time of the reply is decided by other nodes.", "anchors": ["src/request_manager/mod.rs: process_post_queue, next_retry_deadline, remove, Request::handling_delay", "src/core/mod.rs: RequestMetrics::estimate_rtt, post_request"]}
{"id": "C71", "title": "What a node says and hears does not show in when it sends and what it forwards", "statement": "Take two histories of a node, with the same calls and random numbers except that the messages of the node itself differ: posted requests and replies, and received packets that the node neither forwards nor reads as a request (replies to it, cover packets, packets it cannot read). Then the two look the same from outside. The delay until the next packet of its own is the same at every point, and so are the deadline for the next packet to be sent on, the packets sent on, the reserved peers, the public keys and the events about them. Each call for the next packet of its own sends a packet in both histories or in neither, provided a drop cover packet can be made. Without that proviso this is false. Every history has such a companion in which the node has no messages of its own.", "quantifier": "every configuration and every pair of histories of any length from the start of the node, with arbitrary posts and packets", "why_tests_cant": "It is a statement about pairs of executions. A test runs one, and a leak in timing shows only when runs with and without messages are compared at every call.", "anchors": ["src/core/mod.rs: next_authored_packet_delay, pop_next_authored_packet, post_request, post_reply, handle_packet, set_session_status, maybe_set_mixnodes", "src/core/packet_queues.rs: AuthoredPacketQueue, ForwardPacketQueue"]}
{"id": "C72", "title": "What is said shows only in the payloads of packets", "statement": "Take two histories from the same state, with the same calls and random numbers, except that requests and replies are posted with other contents and other ids of messages, of any length that takes as many fragments, and that packets come in with the same header and another payload (if the packet is a request to this node, both payloads are genuine or neither is). Then the same calls send packets, to the same peers and with the same 188 bytes of header. Posting gives the same result, with the same metrics and used SURBs, and so does every other call apart from the messages that come to the application; the views of the node are the same, and a call panics in both or in neither. The number of fragments can show.", "quantifier": "every configuration and reachable state, every pair of histories of any length, arbitrary contents and payloads", "why_tests_cant": "It is a statement about pairs of executions over all contents. A test compares no two runs, and a length, an id or a byte of data that leaks into a header or a choice of route looks like any other random byte.", "anchors": ["src/core/mod.rs: post_request, post_reply, handle_packet, pop_next_authored_packet, pop_next_forward_packet", "src/core/sphinx/build.rs: build_header, complete_request_packet, build_surb, complete_reply_packet", "src/core/fragment.rs: fragment_blueprints", "src/core/surb_keystore.rs: SurbKeystore::insert"]}
{"id": "C73", "title": "A SURB is good until it is used, or as many SURBs as the keystore holds were made after it", "statement": "After a request with k SURBs is accepted, the keys for the i-th of them stay in the keystore of the node that made them, whatever calls follow and whatever the network does, as long as no reply made with that SURB has been handled by the node and fewer than the keystore's capacity of SURBs were made after it (the later ones of the same request included). A reply with it therefore comes back as C41 describes. A request with more SURBs than the keystore holds is accepted all the same, and then exactly the first k - capacity of its SURBs have no keys from the moment it is posted: a reply with one of them is lost.", "quantifier": "all reachable nodes, requests, numbers of SURBs, and all later histories of the node and of the network, of any length", "why_tests_cant": "A test posts a few requests against a keystore of 200 entries and never reaches the point where an entry is displaced; the claim is about every later history, and about which entry goes first.", "anchors": ["src/core/surb_keystore.rs:60-103", "src/core/mod.rs:585-625", "src/core/mod.rs:754-823"]}
{"id": "C74", "title": "The default configuration fits together", "statement": "With the default configuration (and any key for session 0): a request without SURBs is refused as too long exactly when it has more than 50625 bytes (25 packets), in any session; with a usable session it is otherwise refused only for lack of room (the queue would exceed 50 packets in a mixnode's session; in another node's, the queue is not empty) or of mixnodes. What is accepted is never too long for another default node. A reply of up to 50625 bytes with 25 SURBs is not refused either. All of up to 200 SURBs of a request are good when it leaves; a request takes up to 225, and the first of more than 200 are not. Mixnodes send every 100 ms on average and others every second, each half as often while there are two sessions, and a quarter of that is loop cover; something is sent each time unless there is no route. A node that is no mixnode has three different gateways, or as many as there are mixnodes. The packets and SURBs of a request make six hops each, and the time estimated for it is 1.8 s, or 3.6 s with SURBs, plus the longest delays drawn, at a mean of one second a hop, plus the time in the queue and for handling. A node holds less than five million bytes of packets and fragments, at most 300 packets to forward and 200 SURB keys. The only panics are those of C53. The request manager holds at most 20 requests and posts each at most 12 times, and exactly 12 times before giving up; the reply manager remembers at most 400 requests, posts at most two copies at a time, and not again within ten seconds.", "quantifier": "all reachable states of a node with the default configuration, all calls; all histories of the managers with their default configurations", "why_tests_cant": "The constants are spread over four files and are only right relative to each other; tests use the defaults with small messages and never reach the limits.", "anchors": ["src/core/config.rs:94-137", "src/request_manager/config.rs:39-49", "src/reply_manager.rs:49-58", "src/core/mod.rs:754-860"]}
{"id": "C75", "title": "A queued packet leaves in its turn", "statement": "Call it a turn of a session when the node is to send a packet, picks that session, does not choose a loop cover packet, and the phase allows messages in the session. Then whatever happens in between, every turn of a session with queued packets sends exactly its oldest one, and nothing but a turn takes a packet out of the queue: after n turns the first n packets queued at the start have been sent, in order, and if nothing more was queued the queue has lost exactly those. A packet with i packets before it thus leaves the queue, and is sent, at the (i+1)-th turn. In a network, once a request (or reply) is accepted, as many turns as there are packets in the queue send all of its packets, which is what C40 and C41 ask of the sender.", "quantifier": "all reachable nodes, all histories of calls during which the session is kept, of any length; all histories of networks", "why_tests_cant": "Whether packets starve depends on every later call in combination: drop a turn, send cover in its place, pop from the wrong end or the wrong session, and a test with one packet in the queue still passes.", "anchors": ["src/core/mod.rs:675-747", "src/core/packet_queues.rs:124-175"]}
{"id": "C76", "title": "What is accepted can be delivered", "statement": "When a node accepts a request, then the network can bring it to its destination by nothing but sending queued packets and handling those sent: there is a continuation in which the node sends its packets, every node on the way handles and sends on what it gets, and the destination returns the request with its id, contents and SURBs, and no node returns anything else. It is enough that the nodes on the way have the session with the keys in the topology, have a forward queue, and have not noted one of its packets (or others with the same tag positions); that the session can have a turn at the sender; that configurations are sane; and that the destination holds nothing with this id and takes messages of that many fragments. What waits in the forward queues or in the queue of the session, and how full the assembler is, does not matter. The same holds for a reply that was accepted, if its SURBs are different ones and their keys are still there.", "quantifier": "every network of reachable nodes, every accepted request and reply of any length, every queue content, whatever happened before", "why_tests_cant": "C40 and C41 say what comes of a history in which all packets are carried; that there always is such a history is an existence statement over all states, which no test of single messages can show: a state from which some accepted message cannot be delivered any more looks like lost packets.", "anchors": ["src/core/mod.rs: post_request, post_reply, handle_packet, pop_next_authored_packet, pop_next_forward_packet", "src/core/packet_queues.rs: ForwardPacketQueue, AuthoredPacketQueue", "src/core/fragment.rs: FragmentAssembler", "src/core/replay_filter.rs: ReplayFilter"]}
{"id": "C77", "title": "A call changes nothing but what it is about", "statement": "Of the configuration, the status, the two sessions, the key for the next session, the forward queue, the keystore, the assembler and the events, a call changes only those it is about: a received packet changes the session that reads it and the forward queue (or the assembler), or the keystore and the assembler if it is a reply, and nothing if no session reads it or it is cover; a post changes the session it is for, and the keystore if it has SURBs; sending changes a queue with a packet in it and the events; and so on for every call. No call but a change of status changes both sessions. Within a session, keys, topology, rate and settings never change as long as it is kept; received packets change only its replay filter, posts and sending only its queue. A part that no call of a history is about is the same after it.", "quantifier": "all reachable nodes, all calls with valid arguments, all histories of any length", "why_tests_cant": "A test looks at what should have changed. That everything else has not changed is a statement about the whole state after every call.", "anchors": ["src/core/mod.rs: every method of Mixnet", "src/core/sessions.rs: Sessions, Session", "src/core/packet_queues.rs: ForwardPacketQueue, AuthoredPacketQueue"]}
{"id": "C78", "title": "A message on its way is lost to other messages only if there are as many as the limits allow", "statement": "A request or reply whose packets are carried to their destination is returned there, whatever other messages arrive in between, as long as between two of its packets fragments of at most c other messages arrive, where c+1 is within max_incomplete_messages and c+1 messages with all but one fragment each are within max_incomplete_fragments, and no one else uses its id. Nothing is asked of how many fragments the others send, whether they ever complete, or what arrived before the first packet and after the last. The limit is as it is: one fragment each of max_incomplete_messages new messages pushes out every message held before.", "quantifier": "all networks and histories as in C40 and C41; all numbers of other messages and fragments, all configurations", "why_tests_cant": "Tests use one or two messages. What an attacker or a busy network can push out depends on every sequence of fragments, and on the order of eviction after any history.", "anchors": ["src/core/fragment.rs: FragmentAssembler::insert, need_eviction, maybe_evict", "src/core/mod.rs: handle_packet"]}
{"id": "C79", "title": "A payload changed on the way takes the same route and never comes out as the original", "statement": "If packets p and p' have the same header and different payloads, then every node does the same with both: it rejects both for the header, takes both as cover, finds the same reply keys for both, or forwards both to the same peer after the same delay, and what it forwards still differs in the payload only. Over any number of hops the changed packet therefore takes the route of the original with its delays, and at the end a request is either rejected for its payload tag or read as other than the original's 2048 bytes; so is a reply, whatever the number of keys. A node that takes a fragment out of each takes different ones.", "quantifier": "all cryptographic functions subject to the stated laws; all packets, secrets, numbers of hops, reply keys, node states and times", "why_tests_cant": "That the header does not depend on the payload, and the payload is a permutation at every hop, so that no change is undone on the way, holds for every packet and change; tests change a byte or two, if any.", "anchors": ["src/core/sphinx/peel.rs: peel, decrypt_reply_payload", "src/core/sphinx/crypto.rs: encrypt_payload, decrypt_payload", "src/core/mod.rs: handle_packet"]}
{"id": "C80", "title": "A request manager is done with its requests after a number of turns known in advance", "statement": "Let a request manager with D destinations per request, A attempts per destination and P posts per attempt hold k requests, and call a turn: process_post_queues at a time when no session messages may be sent in has packets left to dispatch, and later pop_next_retry; before, between and after these the node and the manager may be called in any way, except that no request is inserted. After k * D * A * (P + 1) turns the manager holds nothing, and each of the k requests was, exactly once, removed by the user, given back with the error of its post, or given back because the limit of its attempts was reached.", "quantifier": "all cryptographic functions subject to the stated laws; all configurations of node and manager; all reachable states of the two; all calls, clocks, random choices and sessions during the turns", "why_tests_cant": "The number of turns, and that no order of calls, session change or lost retry makes a request stay for longer or disappear without a report, is about all sequences of calls; tests run a few.", "anchors": ["src/request_manager/mod.rs: process_post_queues, pop_next_retry, update_session_status, remove", "src/core/mod.rs: post_request, pop_next_authored_packet"]}
{"id": "C81", "title": "A node sends packets only to peers that are meant to get them, and passes on no more than it was given", "statement": "A packet that pop_next_authored_packet returns is addressed, by the topology of a session the node holds, to another mixnode if the node is a mixnode there; to one of its gateways, which the caller said to be connected when the packet was made, if it is not; to the node itself only with routes of at most one hop; or to the mixnode named by a SURB given to post_reply. So without replies, and with at least two hops, it is addressed to a peer that reserved_peers names. And the packets that pop_next_forward_packet ever returned, with those still waiting, each stem from a different call of handle_packet with a packet which the node, a mixnode in that session, decrypted to exactly that packet for exactly that peer; none of them is lost, repeated or altered while it waits.", "quantifier": "all cryptographic functions subject to the stated laws; all configurations; all sequences of calls, random choices and network states", "why_tests_cant": "That no sequence of calls, session change or choice of route makes a node send to itself, to a mixnode that is no gateway of its, or send something twice, is about all executions; tests look at a few routes.", "anchors": ["src/core/mod.rs: pop_next_authored_packet, pop_next_forward_packet, handle_packet, post_request, post_reply, reserved_peers", "src/core/topology.rs: RouteGenerator, reserved_peers, target_to_peer_id", "src/core/packet_queues.rs"]}
{"id": "C82", "title": "Each session, and each kind of packet, is sent at the configured rate", "statement": "For which session a packet of the node itself is made is decided by one random draw, and whether it is a loop cover packet by another; otherwise it is a queued packet, or drop cover. The numbers of values of the draws that lead to each are such that, called with the mean time between packets that next_authored_packet_delay uses, each session sends at the rate configured for it if it is the only one that is needed, and at half of it if there are two or should be two, and the configured proportion of that is loop cover; up to the total rate times 2^-47, from rounding.", "quantifier": "every sane configuration, reachable state with an active session, and all random numbers", "why_tests_cant": "The rate is a number of draws out of 2^64 or 2^128; a test can only sample, and the way two sessions share their rates with rounding is not seen in samples.", "anchors": ["src/core/mod.rs: next_authored_packet_delay, pop_next_authored_packet", "src/core/config.rs"]}
{"id": "C83", "title": "The estimated time in the queues is what the packets take at half the rate, with a margin", "statement": "The time in queues that the metrics of an accepted request report is, up to one part in 10^4, the mean time in which the session's packets queued after posting, and then a full queue of a mixnode, are sent at half the configured rates and without the packets replaced by loop cover, plus a margin of 4.92582 times the longer of the two mean gaps and 3.87809 times the root of the sum of the cubes of all gaps over the longer one. With the default configuration, n packets in the queue of a mixnode are given 4/15 s times (n + 54.92582 + 3.87809 sqrt(n + 50)), and those of another node 8/3 s times (n + 9.92582 + 3.87809 sqrt(n + 1/20)). In the first case, if packets are sent independently of each other, one in 4/15 s on average, it takes longer than that to send n + 50 of them with a probability of at most 51 in a million, so that the time is the 99.995th percentile that the comment in the code calls for. In the second case, if the node sends one packet in 8/3 s on average, and the mixnode at the far end one in 4/15 s, it takes longer to send first the n and then the 50 of them with a probability of at most 70 in a million.", "quantifier": "every sane configuration with periods of a millisecond or more, every reachable state, request and random source", "why_tests_cant": "The formula is evaluated in floating point with a change of variables that depends on which period is longer; a test sees a few configurations, and a wrong length, rate or branch still gives a plausible time.", "anchors": ["src/core/mod.rs:187-232 estimate_authored_packet_queue_delay", "src/core/mod.rs: post_request"]}
{"id": "C84", "title": "A hop cannot tell how far on its path a packet is", "statement": "For given secrets shared with the hops, building a header draws a number of random bytes that depends only on the path and the kind of packet, and makes every header that takes a packet along this path (MACs and routing actions accepted by all hops in turn) for exactly one choice of these bytes: nothing in it is fixed but what the hops must find. Whatever hop a packet has got to, what it is then - for a request all of it, for replies and cover the header - is what a sender makes whose path begins at this hop, for the secrets of the remaining hops and some choice of the random bytes. In particular the last hop gets nothing that it could not have got from a sender with a path of one hop, so it cannot determine the path length.", "quantifier": "every path of up to six hops with at most one peer id, all keys, kinds of packet, payloads, random numbers, contents of the buffer, and every hop", "why_tests_cant": "The random bytes behind the last action have no effect on delivery: without them all packets still arrive and all tests pass, but the last hop can count the zeros.", "anchors": ["src/core/sphinx/build.rs: build_header, complete_request_packet, build_surb, build_cover_packet", "src/core/sphinx/peel.rs: peel"]}
{"id": "C85", "title": "Whatever must be unpredictable is drawn anew", "statement": "When a request is posted, the 32-byte secret behind the key of each of its packets, and for each of its SURBs the 16-byte id under which its keys are kept, the 32-byte secret of its header and the 32-byte secret for the first layer of the reply (from which the kept keys are derived) are output of the random number generator, each from a place of its own that no other of them shares. So are the secret and all 2064 bytes of payload of every cover packet, the key pair of a new session (unless it was generated before; then the one generated ahead is) and the key of its replay filter.", "quantifier": "every state (with a keystore in order, as every reachable state has), configuration, request, number of SURBs, network status and random source", "why_tests_cant": "A constant or repeated secret encrypts and decrypts as well as a fresh one: all packets arrive and all replies are read, but anyone may compute the keys or link packets to each other.", "anchors": ["src/core/sphinx/build.rs: complete_request_packet, build_surb, build_cover_packet", "src/core/sphinx/crypto.rs: gen_kx_public_and_shared_secrets", "src/core/surb_keystore.rs: insert", "src/core/mod.rs: post_request, pop_next_authored_packet, maybe_set_mixnodes, next_kx_public", "src/core/replay_filter.rs: new"]}
{"id": "C86", "title": "The path of every packet and of every SURB is drawn separately", "statement": "For a request posted to a given destination there are fixed places in the output of the random number generator, which depend on the state and the request but not on that output, one for the path of each packet and of each SURB, and others for the ids and secrets, no two of which overlap. Whatever the output is, each packet of the request, once accepted, goes along the path chosen by the numbers in its place, and any reply made with a SURB goes along the path chosen by those in its own and arrives with the id found in its place; these numbers are as many as the path needs, and each permitted path (C62) is chosen by exactly one value of them. So the paths are independent of each other, and each is equally likely. If no destination is given, it is drawn before everything else, and what follows is the same as if it had been given. Likewise for cover packets: at most two outputs decide the session and the kind; then, at places of their own, come for drop cover the destination, and the path, the secret and the payload.", "quantifier": "every reachable state of every sane configuration, usable session, request, number of SURBs, network status and random source with which the request is accepted or a cover packet is sent", "why_tests_cant": "A path used for all packets of a request, or for a SURB as well, is a permitted path: everything arrives, and only the statistics over many requests show that packets are linked.", "anchors": ["src/core/request_builder.rs: build_packet, build_surb", "src/core/cover.rs: gen_cover_packet", "src/core/mod.rs: post_request, pop_next_authored_packet", "src/core/topology.rs: gen_route, choose_destination_index"]}
