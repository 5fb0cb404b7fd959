#!/usr/bin/env python3
"""Source of /verif/properties.jsonl (run to regenerate)."""
import json, os
P = []
def p(id, title, statement, quantifier, why, anchors):
    P.append(dict(id=id, title=title, statement=statement, quantifier=quantifier,
                  why_tests_cant=why, anchors=anchors))

F='src/core/fragment.rs'; S='src/core/scattered.rs'; B='src/core/sphinx/build.rs'; PE='src/core/sphinx/peel.rs'
CR='src/core/sphinx/crypto.rs'; DL='src/core/sphinx/delay.rs'; PK='src/core/sphinx/packet.rs'; TG='src/core/sphinx/target.rs'
RF='src/core/replay_filter.rs'; SK='src/core/surb_keystore.rs'; PQ='src/core/packet_queues.rs'; TP='src/core/topology.rs'
SE='src/core/sessions.rs'; M='src/core/mod.rs'; RB='src/core/request_builder.rs'; CV='src/core/cover.rs'
RM='src/request_manager/mod.rs'; RQ='src/request_manager/post_queues.rs'; RP='src/reply_manager.rs'; KX='src/core/kx_pair.rs'

p('C01','A message survives fragmentation and reassembly in any arrival order',
  'If a message (16-byte id, data, list of SURBs) is split into fragments and the fragments are handed to an assembler in any order, the assembler returns nothing until the last one arrives and then returns exactly the original id, data and SURBs (in order); afterwards it holds nothing for that message.',
  'every message id, every data length and content, every number and content of SURBs that fits in 65536 fragments, every permutation of the fragments, every assembler state with room for the message',
  'Data lengths, SURB counts and permutations are unbounded; a test samples a few shuffles of one size.',
  [f'{F}: fragment_blueprints, FragmentBlueprint::write_except_surbs, FragmentBlueprint::surbs, FragmentAssembler::insert, GenericMessage::from_fragments'])
p('C02','Fragment planning: exact capacity, minimality and no arithmetic overflow',
  'Planning a message never panics or underflows for any 64-bit sizes; it is refused exactly when more than 65536 fragments would be needed; the number of fragments planned is the least number of fragments that could carry that data and that many SURBs; an empty message still takes one fragment; planned fragments always fit their payload.',
  'every data length and SURB count representable in 64 bits',
  'The arithmetic saturates only near 2^64; no test can allocate such inputs, and minimality quantifies over all packings.',
  [f'{F}: fragment_blueprints, div_ceil'])
p('C03','The assembler never exceeds its memory limits and never panics',
  'After any sequence of arbitrary 2048-byte fragments the assembler holds at most max_incomplete_messages messages and at most max_incomplete_fragments fragments, its fragment counter equals the number of fragments actually held, every held message has at least one and not all of its fragments, and no panic or failed debug assertion occurs.',
  'every finite sequence of (possibly hostile) fragments, every limit configuration',
  'The input is attacker controlled and the history is unbounded.',
  [f'{F}: FragmentAssembler::insert, maybe_evict, need_eviction, IncompleteMessage::insert'])
p('C04','Bad fragments are ignored without side effects',
  'A fragment with an out-of-range index, an oversize payload, more fragments than allowed, a fragment count inconsistent with the message already held, or one already held, produces no message and leaves the assembler unchanged.',
  'every assembler state reachable by any history and every such fragment',
  'Needs all byte patterns and all states.',
  [f'{F}: check_fragment, FragmentAssembler::insert'])
p('C05','Messages are only ever assembled from received fragments of the same id',
  'Whenever the assembler returns a message, its data and SURBs are the concatenation, in index order, of one received fragment for every index 0..n-1, each valid, each carrying that message id and the same count n, all of them received in the past (the last being the current one).',
  'every history of fragments for any mixture of messages',
  'Soundness over all interleavings.',
  [f'{F}: FragmentAssembler::insert, GenericMessage::from_fragments'])
p('C06','Interleaving with other messages does not disturb reassembly',
  'Inserting fragments of other messages, in any interleaving, does not change the outcome for a message as long as no eviction occurs; evictions remove the least recently touched message only.',
  'every interleaving of fragments of any number of messages',
  'Exponentially many interleavings.',
  [f'{F}: FragmentAssembler::insert, maybe_evict'])
p('C07','Scattered slices behave as one contiguous slice',
  'For a scattered buffer: length, emptiness, to_vec and copy_to_slice agree with the concatenation of its parts; split_at at any valid position yields two scattered buffers whose contents are the two halves of the contents, and can be repeated indefinitely; an out-of-range split panics.',
  'every list of slices (including empty ones) and every sequence of split positions',
  'Unbounded number of slices and splits.',
  [f'{S}: Scattered::split_at, copy_to_slice, to_vec, From'])
p('C08','A request packet peels correctly along every path',
  'A request packet built for any path of 1..6 hops with at most one peer-id hop is accepted by each hop in turn using that hop\'s own secret key: hop i obtains exactly the i-th target, and the last hop obtains exactly the payload data; no other outcome is possible.',
  'every path length, every target list, every key set, every payload, every randomness',
  'Byte-level layout with padding must work for all target mixes, keys and random strings; the unit test picks random 5- or 6-hop paths.',
  [f'{B}: build_header, complete_request_packet', f'{PE}: peel', f'{CR}: gen_kx_public_and_shared_secrets, blind_kx_public'])
p('C09','A reply sent through a SURB comes back to its creator intact',
  'A reply packet completed with a SURB built for any path of 1..6 hops (at most one peer id) has the SURB\'s first hop as its destination, is forwarded by each hop to the right target, is delivered as a reply carrying the SURB id, and decrypts with the SURB\'s stored keys to exactly the payload data.',
  'every path, key set, SURB id, reply payload and randomness',
  'Same as C08 plus the layered key schedule.',
  [f'{B}: build_surb, complete_reply_packet', f'{PE}: peel, decrypt_reply_payload'])
p('C10','Cover packets reach the end of their path and have no effect there',
  'A cover packet built for any path peels to the right target at each hop and to "cover" (with its optional id) at the last hop; a node receiving such a delivery returns no message and its state is unchanged.',
  'every path, key set, cover id and randomness, every receiving node state',
  'All paths and states.',
  [f'{B}: build_cover_packet', f'{PE}: peel', f'{M}: Mixnet::handle_packet'])
p('C11','The sender\'s total delay is exactly the sum of the delays applied by the hops',
  'The total forwarding delay returned when a packet or SURB is built equals, bit for bit, the floating-point sum, in hop order starting from zero, of the delays each forwarding hop derives when peeling it.',
  'every path, key set and randomness',
  'Floating point addition is not associative, so agreement is only right if both sides sum in the same order, for all values.',
  [f'{B}: build_header', f'{PE}: peel', f'{DL}: Delay::exp, Add'])
p('C12','Packets keep their size and carry nothing from the output buffer',
  'A forwarded packet has exactly the fixed packet size, and every byte of it is determined by the incoming packet and the shared secret, never by the previous contents of the output buffer.',
  'every incoming packet accepted for forwarding, every shared secret, every buffer contents',
  'Buffer reuse bugs depend on the action kind and on offsets; tests use a zeroed buffer.',
  [f'{PE}: peel'])
p('C13','Peeling is total and classifies every packet',
  'Peeling any 2252-byte string with any secret terminates without panic: it fails with a MAC error exactly when the MAC does not match, fails with an action error exactly when the MAC matches and the action code is a reserved one (0xff05..0xffff), fails with a payload tag error only for request deliveries whose decrypted tag is nonzero, and otherwise yields the action encoded in the header; a mixnode-index target is always at most 0xfeff.',
  'every byte string of packet length, every secret',
  'Attacker-controlled input space of size 256^2252.',
  [f'{PE}: peel, check_payload_tag', f'{TG}: MixnodeIndex::try_from'])
p('C14','Both ends of the key exchange agree at every hop',
  'The i-th shared secret computed by the packet author equals the secret that hop i derives from the packet\'s (successively blinded) public key and its own secret key, for every hop; and the public key in the packet as it reaches hop i is the i-th blinded key.',
  'every number of hops, every author secret, every hop secret',
  'Algebraic identity over all keys and hop counts.',
  [f'{CR}: gen_kx_public_and_shared_secrets, blind_kx_public, derive_kx_shared_secret, derive_kx_public'])
p('C15','Building packets never panics on permitted paths',
  'Building a request, SURB or cover packet for any path of 1..6 hops with at most one peer-id target never panics (no slice out of range, no array overflow).',
  'every permitted path and randomness; also shows the documented limit of one peer id is needed',
  'Buffer sizes fit exactly in the worst case; all target mixes must be covered.',
  [f'{B}: build_header, mut_arr_at', f'{PK}: ACTIONS_SIZE'])
p('C16','Tampering with an accepted header is detected',
  'If a packet is accepted by a node, then any other packet with the same public key whose MAC or routing bytes differ is rejected with a MAC error, unless it exhibits a MAC forgery under the same key; a request payload is only delivered if it decrypts to data followed by an all-zero tag.',
  'every accepted packet and every modification',
  'All modifications of all packets.',
  [f'{PE}: peel', f'{CR}: mac_ok, compute_mac'])
p('C17','The replay filter has no false negatives and is lazily allocated',
  'Once a tag has been inserted, the filter reports it as contained forever, whatever else is inserted; an unused filter contains nothing and a lookup never inserts; a tag is reported only if every one of its bits was set by some inserted tag.',
  'every sequence of insertions of 32-bit tags (including wrap-around and zero increments)',
  '2^64 tags and unbounded histories; wrap-around in u32.',
  [f'{RF}: ReplayFilter::insert, contains, tag'])
p('C18','A node acts at most once on a packet',
  'In any history of API calls, a given session of a node forwards or delivers as request at most one packet with a given key-exchange public key; later packets with that key are ignored (no message, no queueing, no state change) for as long as the session exists, including after it becomes the previous session.',
  'every history of API calls and every packet, including modified copies that keep the public key',
  'Replay at any later point of any history.',
  [f'{M}: Mixnet::handle_packet, set_session_status', f'{RF}: ReplayFilter'])
p('C19','A SURB is usable at most once',
  'For each SURB id, in any history at most one incoming reply packet is decrypted with its keys, whether or not decryption succeeds; later replies for the id are dropped without effect.',
  'every history of posts and incoming packets',
  'All histories.',
  [f'{M}: Mixnet::handle_packet', f'{SK}: SurbKeystore::entry, Entry::remove'])
p('C20','The SURB keystore is bounded and evicts oldest first',
  'With positive capacity the keystore never holds more than capacity entries, ids are unique, entries are in creation order, and creating a SURB when full discards exactly the oldest entry.',
  'every sequence of insertions and removals, every capacity > 0',
  'Unbounded histories.',
  [f'{SK}: SurbKeystore::insert, entry'])
p('C21','The forward queue is bounded, loses nothing and releases packets in deadline order',
  'The forward queue never holds more than its capacity; next_forward_packet_deadline is the minimum deadline; pop returns a packet with the minimum deadline; the packets in the queue are always exactly those inserted and not yet popped.',
  'every history of handle_packet and pop calls, whatever the tie-breaking between equal deadlines',
  'Histories and ties are unbounded.',
  [f'{PQ}: ForwardPacketQueue', f'{M}: pop_next_forward_packet, next_forward_packet_deadline'])
p('C22','Deadline-changed events are never missed (forward queue)',
  'Over any sequence of API calls without take_events, if next_forward_packet_deadline differs between start and end then NEXT_FORWARD_PACKET_DEADLINE_CHANGED is set at the end.',
  'every history',
  'A missed wake-up only shows on particular schedules.',
  [f'{M}: handle_packet, pop_next_forward_packet, take_events', f'{PQ}: ForwardPacketQueue::insert'])
p('C23','The authored packet queue is bounded and FIFO',
  'Packets come out of a session\'s authored queue in the order they were pushed; the queue never exceeds its capacity in any history of posts and pops; with multiple_messages disabled a message is only accepted when the queue is empty.',
  'every history of post_request/post_reply/pop_next_authored_packet',
  'Unbounded histories.',
  [f'{PQ}: AuthoredPacketQueue', f'{M}: post_request, post_reply, pop_next_authored_packet'])
p('C24','Space events are never missed (authored queue)',
  'If a post of some size was refused for lack of space before popping an authored packet and would be accepted after it, then the SPACE_IN_AUTHORED_PACKET_QUEUE event is set by that pop; and a "too large" refusal never turns into acceptance.',
  'every queue state, every message size, every configuration',
  'Lost wake-ups depend on state.',
  [f'{PQ}: AuthoredPacketQueue::pop, check_space', f'{M}: pop_next_authored_packet'])
p('C25','Routes are well formed',
  'A generated route has at most 6 hops and at least the requested number; it starts at a mixnode, which for a non-mixnode sender is one of its connected gateways, and for a mixnode another mixnode unless the route has a single hop; it ends at the requested mixnode, or at the local node; a non-mixnode recipient is reached through one of its connected gateways; at most one target is a peer id and it is the local one, in the last position; the public keys are those of the hops.',
  'every topology, connectivity, destination, requested hop count 0..6 and randomness',
  'All topologies and random choices.',
  [f'{TP}: RouteGenerator::gen_route, choose_connected_gateway_index'])
p('C26','Routes do not revisit mixnodes',
  'No mixnode appears twice in a route and the local mixnode never appears as an intermediate hop, except that when exactly one gateway is connected it may serve as both ends of a loop, or coincide with an explicitly requested destination.',
  'every topology, connectivity, destination, hop count and randomness',
  'All random choices.',
  [f'{TP}: gen_route, UsedIndices, choose_mixnode_index'])
p('C27','Random mixnode choice is uniform over exactly the allowed mixnodes',
  'Choosing a mixnode with a sorted list of excluded indices is a bijection between the draws 0..(n - excluded) and the non-excluded indices below n: excluded ones are never chosen, every other one is chosen by exactly one draw, and it fails exactly when nothing is allowed.',
  'every mixnode count, every sorted exclusion list, every draw',
  'All lists and draws.',
  [f'{TP}: choose_mixnode_index, choose_destination_index'])
p('C28','Reserved peers are the right peers',
  'For a mixnode, the reserved peers of a session are all mixnodes of that session but itself, each once; for a non-mixnode they are min(num_gateway_mixnodes, n) distinct mixnodes, fixed for the session.',
  'every mixnode list up to 65280 entries, every randomness',
  'All sizes and samples.',
  [f'{TP}: Topology::new, reserved_peers', f'{M}: Mixnet::reserved_peers'])
p('C29','Route generation fails exactly when it must',
  'Route generation never panics for valid destinations, returns NoConnectedGatewayMixnodes exactly when the local node is not a mixnode and no gateway is connected, returns TooFewMixnodes exactly when there are fewer unused mixnodes than intermediate hops needed, independently of the random choices.',
  'every topology, connectivity, route kind, hop count and randomness',
  'All random choices must agree.',
  [f'{TP}: gen_route'])
p('C30','Posting is allowed exactly in the right sessions and phases',
  'post_request and post_reply for a session succeed in finding a usable session exactly when: it is the current session and the phase is at least RequestsToCurrent, or it is the previous one and the phase is before CoverToPrev, and its mixnodes are set; otherwise the error says which of "no longer active", "not active yet", "mixnodes not known", "disabled" applies.',
  'every session index, status and slot state',
  'Decision table over all u32 indices and phases.',
  [f'{M}: post_session', f'{SE}: RelSessionIndex::from_session_index, SessionPhase::allow_requests_and_replies'])
p('C31','Session keys are handed over correctly and never reused',
  'The public key returned by next_kx_public while session i is current is stable until the index changes and is the key the node uses in session i+1 if the index advances by one (or by two, as the previous session); any other index change discards it; no key pair ever serves two sessions, and once a session is left behind its secret is no longer in the state.',
  'every history of API calls',
  'Depends on arbitrary session-change histories.',
  [f'{M}: set_session_status, next_kx_public, maybe_set_mixnodes', f'{KX}: KxPair'])
p('C32','There is never an active previous session at index 0, and delivery never underflows',
  'In every reachable state with current index 0 the previous session slot is disabled; hence handle_packet and maybe_set_mixnodes never hit the "session index underflow" panic; every delivered request carries the index of the session whose key decrypted it.',
  'every history of API calls',
  'All histories.',
  [f'{M}: set_session_status, handle_packet, maybe_set_mixnodes', f'{SE}: RelSessionIndex Add'])
p('C33','Reserved-peer changes are never missed',
  'Over any sequence of API calls without take_events, if the reserved peers differ between start and end then RESERVED_PEERS_CHANGED is set at the end; likewise NEXT_AUTHORED_PACKET_DEADLINE_CHANGED if the set of active sessions or the halving of the rate changed.',
  'every history',
  'Lost wake-ups depend on schedules.',
  [f'{M}: set_session_status, maybe_set_mixnodes, take_events'])
p('C34','Mixnodes for a session are set once',
  'Setting mixnodes affects only an empty slot: once a session is established or disabled further calls change nothing (and do not query the mixnodes); a transient failure leaves the state unchanged; a permanent one disables the slot until the session index changes; a non-mixnode without non-mixnode configuration is disabled, and with it gets the configured number of gateways, or as many as there are mixnodes; excess mixnodes are dropped.',
  'every state and mixnode list',
  'All states.',
  [f'{M}: maybe_set_mixnodes'])
p('C35','Posting a request is all-or-nothing',
  'post_request with a valid destination either returns an error and leaves the node state and the caller\'s destination untouched, or succeeds, in which case exactly the planned number of packets is appended to the session\'s authored queue, exactly num_surbs keystore entries are created for the message id and the destination is reported. What is accepted fits in the queue and is within the configured number of fragments. In particular it never fails after queueing some fragments.',
  'every node state, message, SURB count, destination, connectivity and randomness',
  'Failure part-way through a multi-fragment post depends on topology and random choices.',
  [f'{M}: post_request', f'{RB}: RequestBuilder'])
p('C36','An out-of-range explicit destination panics (violation)',
  'post_request with a destination index outside the session\'s mixnode list should be rejected with an error; in the code it panics.',
  'every destination index',
  'The tests only use random destinations.',
  [f'{M}: post_request', f'{TP}: gen_route'])
p('C37','Replies consume SURBs exactly and are only partly atomic',
  'A successful post_reply consumes exactly one SURB per fragment, from the end of the list, and queues exactly that many packets addressed to the SURBs\' first hops; a refusal before packet generation changes nothing; a bad SURB part-way leaves the earlier fragments queued and the SURBs consumed (so post_reply is not all-or-nothing).',
  'every SURB list (possibly hostile), data and node state',
  'All hostile SURB lists.',
  [f'{M}: post_reply', f'{B}: complete_reply_packet'])
p('C38','Non-mixnodes never forward or accept requests',
  'A node that is not a mixnode in the session that decrypts the packet neither queues it for forwarding nor returns a request message, and does not allocate its replay filter; a forward packet arriving at a full queue is dropped with no state change.',
  'every state and packet',
  'All states and packets.',
  [f'{M}: handle_packet'])
p('C39','Authored packet dispatch respects phases and prefers real packets only over drop cover',
  'pop_next_authored_packet only takes queued packets from a session in which requests and replies are allowed; if the random choice is a loop cover packet or the queue is empty, a cover packet (or nothing, if disabled or impossible) is returned and no queue changes; a queued packet is lost only through session changes.',
  'every history and randomness',
  'All histories.',
  [f'{M}: pop_next_authored_packet', f'{CV}: gen_cover_packet'])
p('C40','End-to-end request delivery',
  'If a request is posted successfully and each of its packets is carried through honest mixnodes (with room in their queues, and which have not seen the packet before), in any order, then the destination mixnode returns exactly one request message with the posted id, data and number of SURBs, upon receiving the last fragment.',
  'every topology of honest nodes, message, randomness and delivery order',
  'Whole-system property over all topologies and schedules.',
  [f'{M}: post_request, handle_packet', f'{F}', f'{B}', f'{PE}', f'{TP}'])
p('C41','End-to-end reply delivery',
  'If the destination answers a delivered request with post_reply using its SURBs and the packets are carried through honest mixnodes in any order, the original sender returns exactly one reply message with the request\'s id and exactly the reply data.',
  'every topology of honest nodes, reply data, randomness and delivery order',
  'Whole-system property.',
  [f'{M}: post_reply, handle_packet', f'{SK}'])
p('C42','The request manager never loses or duplicates a request',
  'In any history of request manager calls every inserted request is, at any time, in exactly one of: managed; returned by remove; passed to handle_post_err; passed to handle_retry_limit_reached - each at most once.',
  'every history and every behaviour of the mixnet underneath',
  'All histories and posting outcomes.',
  [f'{RM}: RequestManager::insert, remove, retry, process_post_queue, update_session_status, pop_next_retry'])
p('C43','The request manager respects its capacity',
  'If insert is only called when has_space is true, the number of managed requests never exceeds capacity; has_space is true exactly when fewer than capacity requests are managed.',
  'every history',
  'All histories.',
  [f'{RM}: has_space, insert'])
p('C44','Retries are bounded',
  'A request is successfully posted at most num_destinations * num_attempts_per_destination * num_posts_per_attempt times in any history, and exactly that often if it reached the retry limit; pop_next_retry brings it to handle_retry_limit_reached after finitely many retries.',
  'every history, every configuration with nonzero parameters',
  'All histories including session changes.',
  [f'{RM}: retry, process_post_queue'])
p('C45','A message id is only ever sent to one destination',
  'All successful posts made under the same message id go to the same session and the same destination mixnode; the id is replaced whenever the destination is abandoned.',
  'every history, given message ids drawn without repetition',
  'All histories of retries and session changes.',
  [f'{RM}: RequestState::new_destination, retry, update_session_status, process_post_queue'])
p('C46','The retry deadline is right and its changes are signalled',
  'The retry queue is always sorted, so next_retry_deadline is the earliest deadline of all requests awaiting retry; a request\'s deadline is never earlier than the time of its last post plus the estimated round-trip time; and next_retry_deadline_changed reports true whenever the deadline changed since the last call.',
  'every history',
  'All histories.',
  [f'{RM}: next_retry_deadline, next_retry_deadline_changed, remove, process_post_queue'])
p('C47','Request manager calls terminate and keep queues consistent',
  'Every request manager call terminates; requests waiting in the current (previous) queue always belong to the current (previous) session; those in the default queue have no session or destination yet; the previous queue is empty at session index 0 or when the phase disallows it, and likewise the current queue; no debug assertion fires.',
  'every history and mixnet behaviour',
  'The posting loop re-queues requests on the queue it is draining.',
  [f'{RM}: process_post_queue, update_session_status', f'{RQ}'])
p('C48','The reply manager is bounded and evicts oldest first',
  'The reply manager never remembers more than capacity requests; when over the limit exactly the oldest entry is discarded.',
  'every history, every capacity (including 0)',
  'All histories.',
  [f'{RP}: insert, complete, abandon, maybe_evict'])
p('C49','A request is handed to the handler at most once while remembered',
  'After insert returns a context for a request id, insert returns nothing for that id until the entry is abandoned or evicted, in any interleaving with other calls; after completion, repeats are answered from the cache.',
  'every history',
  'All interleavings.',
  [f'{RP}: ReplyManager::insert, abandon, complete'])
p('C50','Repeated requests get the identical reply, at most once per cooldown',
  'All replies posted for a remembered request carry the same reply message id and data; two postings triggered by repeats are at least cooldown apart; each posting makes at most max_posts copies and consumes SURBs only of the request it answers.',
  'every history with a monotonic clock',
  'All histories and timings.',
  [f'{RP}: insert, complete, ReplyContext::post_reply'])
p('C51','Request metrics bound every fragment and SURB',
  'The num_hops and forwarding delay reported for a successful request are at least the hop count and total delay of each of its packets plus those of each of its SURBs, and no larger than some packet and SURB require; each packet and SURB has at least the configured number of hops and at most six; delays are never NaN so comparing them never panics; the timeout estimate is at least the sum of its components.',
  'every request, topology and randomness',
  'Floating point over all values.',
  [f'{M}: post_request, RequestMetrics::estimate_rtt', f'{DL}: Delay'])
p('C52','Choosing between sessions never panics and the dispatch rate is sane',
  'With two active sessions with positive periods the probability passed to the random choice is always within [0,1], so pop_next_authored_packet does not panic; next_authored_packet_delay is None exactly when no session is active.',
  'every pair of positive durations',
  'Floating-point rounding over all durations.',
  [f'{M}: next_authored_packet_delay, pop_next_authored_packet'])
p('C53','No call panics except in two named cases',
  'With positive periods of ordinary size, at most 99% loop cover and a bounded mean forwarding delay, no sequence of API calls makes a node panic, except a request to an explicitly given mixnode index outside the topology, or two equal 16-byte SURB ids among the random bytes that the request draws.',
  'every configuration within the stated bounds, every history, every call and all randomness',
  'Needs all histories, all packets and all floating-point values at once.',
  [f'{M}: all public functions of Mixnet'])
p('C54','Cover packets travel the network and vanish',
  'A packet given to the network by pop_next_authored_packet is either the oldest queued one of a session or, if cover packets are enabled, a cover packet whose trip leads through one to six nodes of that session back to the node itself (loop) or to a mixnode other than it (drop). Carried along its trip, every node handles it without reporting anything, every node but the last passes on exactly the next packet, and the last is left unchanged.',
  'every network history, every node state reached, all randomness',
  'Spans all routes, several nodes and all interleavings.',
  [f'{M}: pop_next_authored_packet, handle_packet', f'{CV}: gen_cover_packet'])
p('C55','No waiting request is forgotten',
  'In a node with a request manager that is told of every change of the session status: whenever a request waits for room in the authored packet queue of a session, that session is one the phase allows requests to and still has packets queued, or the event SPACE_IN_AUTHORED_PACKET_QUEUE is pending, or it has been taken and process_post_queues has not been called since, or the session is the (nonexistent) one before session 0. After a call of process_post_queues only the first and last cases are left. And when process_post_queues is called while a request waits for a session without queued packets, some request waiting for that session is posted to it or reported as impossible to post.',
  'every interleaving of calls on the node and on the manager, all configurations, randomness, clocks and network states',
  'A lost wakeup needs one particular interleaving of dispatch, events, session changes and manager calls.',
  [f'{RM}: process_post_queue, process_post_queues, session_post_queues_empty, retry, update_session_status', f'{M}: post_request, pop_next_authored_packet, take_events', f'{PQ}: AuthoredPacketQueue::check_space, pop'])
p('C56','The memory a node uses is bounded by its configuration',
  'In every state a node reaches, the forward packet queue, the SURB keystore, the incomplete messages, the fragments held for them in all and the slots of each of them are within the limits of the configuration, which never changes; each session has at most the configured number of packets queued; every queued packet is 2252 bytes and every held fragment 2048; and a session in which the node is not a mixnode has no replay filter bits.',
  'every configuration and every history of calls, with arbitrary packets',
  'Unbounded adversarial histories.',
  [f'{M}: Mixnet::new, all public functions', f'{F}: FragmentAssembler::insert', f'{PQ}: AuthoredPacketQueue, ForwardPacketQueue', f'{SK}: SurbKeystore::insert', f'{SE}: Session'])
p('C57','A reported message is made of fragments that were received',
  'The message reported by handle_packet is made of fragments that the node has taken out of packets it handled, one for each position, all with the ID of the message and the same fragment count, the last of them in the packet just handled; its data is theirs in order. The stronger statement that a message reported as a reply is made only of fragments that came as replies is false: requests and replies share one assembler.',
  'every configuration and every history of calls, with arbitrary packets',
  'Unbounded adversarial histories.',
  [f'{M}: handle_packet', f'{F}: FragmentAssembler::insert'])
p('C58','A request manager on a node does not panic',
  'A node and a request manager that posts to it, with rates and delays within the bounds of C53 and hop delays of at most 2^50 seconds, at least one attempt and one post, requests of at most the size and SURB count posting allows with handling delays of at most 2^62 seconds, insertion only when there is space, and a session index that never decreases: a call on the manager panics only if two equal 16-byte ids are among the random bytes that one post of a request with SURBs draws. Every state the node reaches this way is one it reaches in a history of its own. Without the condition on the session index this is false: a request keeps the mixnode index it was posted to with its session index, and if that session comes back with fewer mixnodes the next attempt panics.',
  'every interleaving of calls on the node and on the manager, all requests, configurations within the bounds, randomness, clocks and network states; the manager may be told anything about the session status',
  'The panic needs the session index to go back and return between two attempts of one request.',
  [f'{RM}: RequestManager, all functions', f'{M}: post_request, set_session_status, maybe_set_mixnodes', f'{SE}: Sessions, RelSessionIndex::from_session_index'])
p('C59','Requests to a session are served in turn',
  'An inserted or retried request is posted at once only if no request waits for the session it goes to, in the queue of that session or in the queue of requests bound to no session when that is the session new requests go to. Otherwise it is put at the end of its queue, nothing is posted and the other queues are unchanged; the only other outcome is that it is given up at the retry limit. When process_post_queues is called, the requests waiting in each queue are tried in order, each once before any is posted a second time, until all had a turn or there is no room in the authored packet queue; those left over then stay in the same order, before any others. All posts go to the session of the queue.',
  'every state of the manager, every behaviour of the mixnet, clocks and randomness',
  'Overtaking is visible only with several requests in several queues and particular phases.',
  [f'{RM}: insert, retry, pop_next_retry, session_post_queues_empty, process_post_queue, process_post_queues'])
p('C60','A replay filter reports few tags by mistake',
  'After any n tags were inserted in a new replay filter, whoever chose them and whatever key the filter drew, at most (512 n)^2 of the 2^64 tags are reported as contained. In particular, after 2^20 insertions at most 1 of 64 tags is reported. If the inserted tags and the tag looked up are evenly distributed and independent, the latter is reported with probability at most (1 - (1 - 8/2^26)^n)^8 + n/2^38 + 1/2^24 and at least (1 - (1 - 8/2^26)^n)^8 - n/2^37; for up to 7 million insertions this is at most 1.06%, and for 7 million at least 1.04%, as the comment in the code says ("~1% with 7m packets").',
  'every key, every list of inserted tags of any length',
  'The count is over 2^64 tags; a unit test can only sample a few of them.',
  [f'{RF}: ReplayFilter::new, insert, contains, tag'])
p('C61','The reported forwarding delay is the time packets are kept on the way',
  'When a request is accepted, every packet of it travels a path on which each mixnode keeps it for a fixed time, and every reply made with one of its SURBs travels back likewise. If all mixnodes use the mean forwarding delay of the sender, the time a packet is kept in total, alone or together with the time any reply is kept, is at most the forwarding delay in the returned metrics, and some packet and reply take that long; both up to a relative error of 2^-48 and 8 nanoseconds, from rounding.',
  'every node state, message, random numbers, topology and mean forwarding delay up to 2^50 seconds; every state of the forwarding nodes',
  'The sum is made in floating point by the sender, in integer nanoseconds by the hops, which never compare.',
  [f'{M}: handle_packet, post_request', f'{DL}: Delay::exp, to_duration, add', f'{B}: build_header', f'{PE}: peel'])
p('C62','Every permitted route is generated, for exactly one choice of random draws',
  'Given a usable topology with a connected gateway and enough mixnodes, route generation makes a fixed number of draws with fixed bounds, independent of the values drawn, and returns a route that is well formed (C25), has the prescribed number of hops (C29) and does not revisit a mixnode unless a single gateway must serve twice (C26). Conversely, every such route is the result for exactly one choice of the draws, so uniformly distributed draws give uniformly distributed routes. Likewise a destination left open is any mixnode but the local node and the only connected gateway, each for exactly one draw. And a node that is not a mixnode takes every selection of the prescribed number of different gateways, in every order, for exactly one choice of the draws.',
  'every topology, list of mixnodes, number of gateways, set of connected gateways, route kind, number of hops up to six, and all random numbers',
  'Uniformity is about the set of all outcomes; a test can only sample routes, and a bias towards or against a few of them stays unnoticed.',
  [f'{TP}: Topology::new, gen_route, choose_mixnode_index, choose_connected_gateway_index, choose_destination_index, UsedIndices'])
p('C63','Secrets for different purposes, hops and packets come from different hash outputs',
  'Every byte of a MAC key, actions encryption key, delay seed, payload encryption key, blinding factor and replay tag is one byte of one call of the hash, with the secret as key; the sizes are as declared and no call is beyond the limits of the hash, so its constructor does not fail. No byte of an output is used for two purposes, positions or secrets, even though the hash fills up salt and personalisation with zeros, and no MAC is computed with a call used for derivation. All points are multiplied by integers that are multiples of 8 between 2^254 and 2^255 with the remaining 251 bits taken from the secret. Whatever has happened to a node, the filters of its sessions have keys of 32 bytes, so this applies to all it derives from any packet it gets.',
  'every shared secret, public key and filter key, for any hash and group; every history of calls and every packet',
  'Reused hash output breaks no exchange of packets; it is visible only to an attacker.',
  [f'{CR}: derive_kx_public, derive_kx_blinding_factor, blind_kx_public, derive_kx_shared_secret, derive_secret, SmallDerivedSecrets, derive_payload_encryption_key, compute_mac, mac_ok', f'{RF}: ReplayFilter::tag'])
p('C64','A reply is matched with the request it answers, and once',
  'A node with a request manager: every request the node has accepted was posted by the application itself or by the manager, and the manager has told of exactly its posts, with the message id, session, destination, data and number of SURBs given to the node; in a network a manager call is a sequence of posts by the node, and nothing else changes. If the node returns a reply with a message id that the application did not use itself, then the manager has told of a post of some request under this id, and removing this id from the manager, at any later time, gives exactly that request, or nothing, the latter only if no managed request has the id any more. For each id a request is handed back at most once.',
  'every configuration, every history of calls on node and manager with any random numbers and clocks in which the drawn message ids differ, every packet that yields a reply, every later history',
  'The chain passes through the random choices of the manager, the keystore, the network and the fragment assembler; tests look at one of them at a time.',
  [f'{RQ}: RequestManager::insert, remove, process_post_queues, pop_next_retry', f'{M}: Mixnet::post_request, handle_packet', f'{SK}: SurbKeystore'])
p('C65','Events are raised for a reason, and returned once',
  'take_events returns an event exactly if some call since the last take_events (or since the start) caused it: RESERVED_PEERS_CHANGED if the status became a different one or the mixnodes of a session became known; NEXT_FORWARD_PACKET_DEADLINE_CHANGED if a packet was asked for or if a received packet changed the deadline; NEXT_AUTHORED_PACKET_DEADLINE_CHANGED in the same cases as the first, and if a packet was asked for while some session was active; SPACE_IN_AUTHORED_PACKET_QUEUE if a packet left the queue of a session and other messages may be in the queue or it became empty.',
  'every node and every history, every position of take_events calls in it',
  'Tests look for the events that are expected; a superfluous event, or one that comes back after it was taken, makes the service loop spin but breaks no test.',
  [f'{M}: Events, take_events, set_session_status, maybe_set_mixnodes, handle_packet, pop_next_forward_packet, pop_next_authored_packet', f'{PQ}: ForwardPacketQueue::insert, AuthoredPacketQueue::pop'])
p('C66','Replies use the SURBs of the request they answer, each of them once',
  'A node and a reply manager that posts to it: every post of the manager is a post_reply call on the node; the SURBs that the manager uses are, counted with repetitions, among those in the requests that the node has returned; each reply is posted in the session and with SURBs of one such request, with the data given in reply to a request of the same id; no call of the manager panics; and if the request was posted by a node in a network, the reply that the manager posts is carried back to that node and returned by it as the reply to that request.',
  'every configuration, every interleaving of calls on the node and on the manager, every clock and random number, every network history',
  'The tests call the manager with hand-made requests, without a node. Whether a SURB is used twice after retransmissions, evictions and abandoned requests depends on the whole interleaving.',
  [f'{RP}: ReplyContext::post_reply, ReplyManager::insert, abandon, complete, maybe_evict', f'{M}: post_reply, handle_packet'])
p('C67','Managed requests are carried to their destination and their replies back to them',
  'When a call of a request manager, whose node is part of a network, posts requests, then each post is an event of the network in which the node queues packets that honest nodes carry to the destination chosen, where the request is returned with its id and data; the replies that a reply manager there posts to it are carried back and returned under the same id; and under that id the request manager gives back that very request, or nothing if it is not managed under it any more.',
  'every configuration, every history of the node and of both managers, every network, every clock and random number',
  'It is a property of two nodes, two managers and the network between them over unbounded histories; the tests of the crate exercise the managers with a stub and the network with single messages.',
  [f'{RM}: process_post_queues, remove', f'{M}: post_request, post_reply, handle_packet', f'{RP}: insert, complete'])
p('C68','What posting says about a session is true, and stays true',
  'If the session status only moves on (the index grows, or stays with a later phase), then a post to a session answers according to what has happened to that session since the node was made, whichever slot it was in meanwhile: disabled exactly if its mixnodes were said to be unavailable for good or the node was none of them and is configured not to take part; mixnodes not known exactly if neither that has happened nor the session was set up; anything else (success, no space, topology and SURB errors) only if the session was set up and not given up; not active yet or no longer active according to the status alone. Later posts agree: no longer active stays so for ever, disabled stays so until no longer active, and a session once usable is never again not yet active, unknown or disabled. If a phase may go backwards, "disabled" can be wrong (mod.rs:168-169 says otherwise).',
  'every configuration, every history of calls with a status that moves on, every session index, every request and reply posted, every later history',
  'Sessions move between the slots as the index changes and slots are reused; a test sees the errors in a handful of situations, not that they agree with the whole history.',
  [f'{M}: post_session, set_session_status, maybe_set_mixnodes', f'{SE}: Sessions, SessionSlot, SessionPhase'])
p('C69','A reply comes within the estimated round-trip time',
  'When a request is accepted at time T, the metrics returned give an estimate of the round-trip time for the time h that the recipient needs. If all mixnodes use the mean forwarding delay of the sender, every hop takes at most the per-hop network delay in the metrics after the packet was dispatched or became due, the packets of the request and of the reply wait in the queues of their authors for no longer together than the authored packet queue delay in the metrics, and the recipient posts its reply within h, then the reply is returned to the application of the sender at most the estimate after T, up to a relative error of 2^-48 and 8 nanoseconds, from rounding.',
  'every network of nodes, message, topology, random numbers, mean forwarding delay up to 2^50 seconds; every timed history of the network, with any other traffic, in which the packets are conveyed on time',
  'The estimate is made from maxima over packets and SURBs separately before anything is sent; it is compared with what actually happens on seven or so nodes, in any interleaving and for every subset of the SURBs used.',
  [f'{M}: RequestMetrics::estimate_rtt, post_request, handle_packet', f'{DL}: Delay::to_duration, add', f'{M}: pop_next_authored_packet, pop_next_forward_packet'])
p('C70','A request is not due for another attempt before its reply can have come',
  'Take a node with a request manager in a network, and a request that the manager posts. If the packets of the request and of a reply to it are carried on time as in C69, and the recipient replies within the handling delay given for the request, then the reply comes back to the application not later than the retry deadline of the request, for as long as the manager keeps it under that id, whatever else is done with the node and the manager meanwhile; up to a relative error of 2^-48 and 8 nanoseconds.',
  'every history of a node with its request manager (with at least one attempt per destination and one post per attempt), every call on the manager, every later history, every network and clock as in C69',
  'The deadline is the largest of several posts, made from an estimate that is computed before anything is sent, and the request is moved between queues; the time of the reply is decided by other nodes.',
  [f'{RM}: process_post_queue, next_retry_deadline, remove, Request::handling_delay', f'{M}: RequestMetrics::estimate_rtt, post_request'])
p('C71','What a node says and hears does not show in when it sends and what it forwards',
  'Take two histories of a node, with the same calls and random numbers except that the messages of the node itself differ: posted requests and replies, and received packets that the node neither forwards nor reads as a request (replies to it, cover packets, packets it cannot read). Then the two look the same from outside. The delay until the next packet of its own is the same at every point, and so are the deadline for the next packet to be sent on, the packets sent on, the reserved peers, the public keys and the events about them. Each call for the next packet of its own sends a packet in both histories or in neither, provided a drop cover packet can be made. Without that proviso this is false. Every history has such a companion in which the node has no messages of its own.',
  'every configuration and every pair of histories of any length from the start of the node, with arbitrary posts and packets',
  'It is a statement about pairs of executions. A test runs one, and a leak in timing shows only when runs with and without messages are compared at every call.',
  [f'{M}: next_authored_packet_delay, pop_next_authored_packet, post_request, post_reply, handle_packet, set_session_status, maybe_set_mixnodes', f'{PQ}: AuthoredPacketQueue, ForwardPacketQueue'])
p('C72','What is said shows only in the payloads of packets',
  'Take two histories from the same state, with the same calls and random numbers, except that requests and replies are posted with other contents and other ids of messages, of any length that takes as many fragments, and that packets come in with the same header and another payload (if the packet is a request to this node, both payloads are genuine or neither is). Then the same calls send packets, to the same peers and with the same 188 bytes of header. Posting gives the same result, with the same metrics and used SURBs, and so does every other call apart from the messages that come to the application; the views of the node are the same, and a call panics in both or in neither. The number of fragments can show.',
  'every configuration and reachable state, every pair of histories of any length, arbitrary contents and payloads',
  'It is a statement about pairs of executions over all contents. A test compares no two runs, and a length, an id or a byte of data that leaks into a header or a choice of route looks like any other random byte.',
  [f'{M}: post_request, post_reply, handle_packet, pop_next_authored_packet, pop_next_forward_packet', f'{B}: build_header, complete_request_packet, build_surb, complete_reply_packet', f'{F}: fragment_blueprints', f'{SK}: SurbKeystore::insert'])
p("C73","A SURB is good until it is used, or as many SURBs as the keystore holds were made after it",
"After a request with k SURBs is accepted, the keys for the i-th of them stay in the keystore of the node that made them, whatever calls follow and whatever the network does, as long as no reply made with that SURB has been handled by the node and fewer than the keystore's capacity of SURBs were made after it (the later ones of the same request included). A reply with it therefore comes back as C41 describes. A request with more SURBs than the keystore holds is accepted all the same, and then exactly the first k - capacity of its SURBs have no keys from the moment it is posted: a reply with one of them is lost.",
"all reachable nodes, requests, numbers of SURBs, and all later histories of the node and of the network, of any length",
"A test posts a few requests against a keystore of 200 entries and never reaches the point where an entry is displaced; the claim is about every later history, and about which entry goes first.",
[SK+":60-103", M+":585-625", M+":754-823"])
p("C74","The default configuration fits together",
"With the default configuration (and any key for session 0): a request without SURBs is refused as too long exactly when it has more than 50625 bytes (25 packets), in any session; with a usable session it is otherwise refused only for lack of room (the queue would exceed 50 packets in a mixnode's session; in another node's, the queue is not empty) or of mixnodes. What is accepted is never too long for another default node. A reply of up to 50625 bytes with 25 SURBs is not refused either. All of up to 200 SURBs of a request are good when it leaves; a request takes up to 225, and the first of more than 200 are not. Mixnodes send every 100 ms on average and others every second, each half as often while there are two sessions, and a quarter of that is loop cover; something is sent each time unless there is no route. A node that is no mixnode has three different gateways, or as many as there are mixnodes. The packets and SURBs of a request make six hops each, and the time estimated for it is 1.8 s, or 3.6 s with SURBs, plus the longest delays drawn, at a mean of one second a hop, plus the time in the queue and for handling. A node holds less than five million bytes of packets and fragments, at most 300 packets to forward and 200 SURB keys. The only panics are those of C53. The request manager holds at most 20 requests and posts each at most 12 times, and exactly 12 times before giving up; the reply manager remembers at most 400 requests, posts at most two copies at a time, and not again within ten seconds.",
"all reachable states of a node with the default configuration, all calls; all histories of the managers with their default configurations",
"The constants are spread over four files and are only right relative to each other; tests use the defaults with small messages and never reach the limits.",
["src/core/config.rs:94-137","src/request_manager/config.rs:39-49",RP+":49-58",M+":754-860"])
p("C75","A queued packet leaves in its turn",
"Call it a turn of a session when the node is to send a packet, picks that session, does not choose a loop cover packet, and the phase allows messages in the session. Then whatever happens in between, every turn of a session with queued packets sends exactly its oldest one, and nothing but a turn takes a packet out of the queue: after n turns the first n packets queued at the start have been sent, in order, and if nothing more was queued the queue has lost exactly those. A packet with i packets before it thus leaves the queue, and is sent, at the (i+1)-th turn. In a network, once a request (or reply) is accepted, as many turns as there are packets in the queue send all of its packets, which is what C40 and C41 ask of the sender.",
"all reachable nodes, all histories of calls during which the session is kept, of any length; all histories of networks",
"Whether packets starve depends on every later call in combination: drop a turn, send cover in its place, pop from the wrong end or the wrong session, and a test with one packet in the queue still passes.",
[M+":675-747", PQ+":124-175"])
p("C76","What is accepted can be delivered",
"When a node accepts a request, then the network can bring it to its destination by nothing but sending queued packets and handling those sent: there is a continuation in which the node sends its packets, every node on the way handles and sends on what it gets, and the destination returns the request with its id, contents and SURBs, and no node returns anything else. It is enough that the nodes on the way have the session with the keys in the topology, have a forward queue, and have not noted one of its packets (or others with the same tag positions); that the session can have a turn at the sender; that configurations are sane; and that the destination holds nothing with this id and takes messages of that many fragments. What waits in the forward queues or in the queue of the session, and how full the assembler is, does not matter. The same holds for a reply that was accepted, if its SURBs are different ones and their keys are still there.",
"every network of reachable nodes, every accepted request and reply of any length, every queue content, whatever happened before",
"C40 and C41 say what comes of a history in which all packets are carried; that there always is such a history is an existence statement over all states, which no test of single messages can show: a state from which some accepted message cannot be delivered any more looks like lost packets.",
[M+": post_request, post_reply, handle_packet, pop_next_authored_packet, pop_next_forward_packet", PQ+": ForwardPacketQueue, AuthoredPacketQueue", F+": FragmentAssembler", RF+": ReplayFilter"])
p("C77","A call changes nothing but what it is about",
"Of the configuration, the status, the two sessions, the key for the next session, the forward queue, the keystore, the assembler and the events, a call changes only those it is about: a received packet changes the session that reads it and the forward queue (or the assembler), or the keystore and the assembler if it is a reply, and nothing if no session reads it or it is cover; a post changes the session it is for, and the keystore if it has SURBs; sending changes a queue with a packet in it and the events; and so on for every call. No call but a change of status changes both sessions. Within a session, keys, topology, rate and settings never change as long as it is kept; received packets change only its replay filter, posts and sending only its queue. A part that no call of a history is about is the same after it.",
"all reachable nodes, all calls with valid arguments, all histories of any length",
"A test looks at what should have changed. That everything else has not changed is a statement about the whole state after every call.",
[M+": every method of Mixnet", SE+": Sessions, Session", PQ+": ForwardPacketQueue, AuthoredPacketQueue"])
p("C78","A message on its way is lost to other messages only if there are as many as the limits allow",
"A request or reply whose packets are carried to their destination is returned there, whatever other messages arrive in between, as long as between two of its packets fragments of at most c other messages arrive, where c+1 is within max_incomplete_messages and c+1 messages with all but one fragment each are within max_incomplete_fragments, and no one else uses its id. Nothing is asked of how many fragments the others send, whether they ever complete, or what arrived before the first packet and after the last. The limit is as it is: one fragment each of max_incomplete_messages new messages pushes out every message held before.",
"all networks and histories as in C40 and C41; all numbers of other messages and fragments, all configurations",
"Tests use one or two messages. What an attacker or a busy network can push out depends on every sequence of fragments, and on the order of eviction after any history.",
[F+": FragmentAssembler::insert, need_eviction, maybe_evict", M+": handle_packet"])
p("C79","A payload changed on the way takes the same route and never comes out as the original",
"If packets p and p' have the same header and different payloads, then every node does the same with both: it rejects both for the header, takes both as cover, finds the same reply keys for both, or forwards both to the same peer after the same delay, and what it forwards still differs in the payload only. Over any number of hops the changed packet therefore takes the route of the original with its delays, and at the end a request is either rejected for its payload tag or read as other than the original's 2048 bytes; so is a reply, whatever the number of keys. A node that takes a fragment out of each takes different ones.",
"all cryptographic functions subject to the stated laws; all packets, secrets, numbers of hops, reply keys, node states and times",
"That the header does not depend on the payload, and the payload is a permutation at every hop, so that no change is undone on the way, holds for every packet and change; tests change a byte or two, if any.",
[PE+": peel, decrypt_reply_payload", CR+": encrypt_payload, decrypt_payload", M+": handle_packet"])
p("C80","A request manager is done with its requests after a number of turns known in advance",
"Let a request manager with D destinations per request, A attempts per destination and P posts per attempt hold k requests, and call a turn: process_post_queues at a time when no session messages may be sent in has packets left to dispatch, and later pop_next_retry; before, between and after these the node and the manager may be called in any way, except that no request is inserted. After k * D * A * (P + 1) turns the manager holds nothing, and each of the k requests was, exactly once, removed by the user, given back with the error of its post, or given back because the limit of its attempts was reached.",
"all cryptographic functions subject to the stated laws; all configurations of node and manager; all reachable states of the two; all calls, clocks, random choices and sessions during the turns",
"The number of turns, and that no order of calls, session change or lost retry makes a request stay for longer or disappear without a report, is about all sequences of calls; tests run a few.",
[RM+": process_post_queues, pop_next_retry, update_session_status, remove", M+": post_request, pop_next_authored_packet"])
p("C81","A node sends packets only to peers that are meant to get them, and passes on no more than it was given",
"A packet that pop_next_authored_packet returns is addressed, by the topology of a session the node holds, to another mixnode if the node is a mixnode there; to one of its gateways, which the caller said to be connected when the packet was made, if it is not; to the node itself only with routes of at most one hop; or to the mixnode named by a SURB given to post_reply. So without replies, and with at least two hops, it is addressed to a peer that reserved_peers names. And the packets that pop_next_forward_packet ever returned, with those still waiting, each stem from a different call of handle_packet with a packet which the node, a mixnode in that session, decrypted to exactly that packet for exactly that peer; none of them is lost, repeated or altered while it waits.",
"all cryptographic functions subject to the stated laws; all configurations; all sequences of calls, random choices and network states",
"That no sequence of calls, session change or choice of route makes a node send to itself, to a mixnode that is no gateway of its, or send something twice, is about all executions; tests look at a few routes.",
[M+": pop_next_authored_packet, pop_next_forward_packet, handle_packet, post_request, post_reply, reserved_peers", TP+": RouteGenerator, reserved_peers, target_to_peer_id", PQ])
p("C82","Each session, and each kind of packet, is sent at the configured rate",
"For which session a packet of the node itself is made is decided by one random draw, and whether it is a loop cover packet by another; otherwise it is a queued packet, or drop cover. The numbers of values of the draws that lead to each are such that, called with the mean time between packets that next_authored_packet_delay uses, each session sends at the rate configured for it if it is the only one that is needed, and at half of it if there are two or should be two, and the configured proportion of that is loop cover; up to the total rate times 2^-47, from rounding.",
"every sane configuration, reachable state with an active session, and all random numbers",
"The rate is a number of draws out of 2^64 or 2^128; a test can only sample, and the way two sessions share their rates with rounding is not seen in samples.",
[M+": next_authored_packet_delay, pop_next_authored_packet", "src/core/config.rs"])
p("C83","The estimated time in the queues is what the packets take at half the rate, with a margin",
"The time in queues that the metrics of an accepted request report is, up to one part in 10^4, the mean time in which the session's packets queued after posting, and then a full queue of a mixnode, are sent at half the configured rates and without the packets replaced by loop cover, plus a margin of 4.92582 times the longer of the two mean gaps and 3.87809 times the root of the sum of the cubes of all gaps over the longer one. With the default configuration, n packets in the queue of a mixnode are given 4/15 s times (n + 54.92582 + 3.87809 sqrt(n + 50)), and those of another node 8/3 s times (n + 9.92582 + 3.87809 sqrt(n + 1/20)). In the first case, if packets are sent independently of each other, one in 4/15 s on average, it takes longer than that to send n + 50 of them with a probability of at most 51 in a million, so that the time is the 99.995th percentile that the comment in the code calls for. In the second case, if the node sends one packet in 8/3 s on average, and the mixnode at the far end one in 4/15 s, it takes longer to send first the n and then the 50 of them with a probability of at most 70 in a million.",
"every sane configuration with periods of a millisecond or more, every reachable state, request and random source",
"The formula is evaluated in floating point with a change of variables that depends on which period is longer; a test sees a few configurations, and a wrong length, rate or branch still gives a plausible time.",
[M+":187-232 estimate_authored_packet_queue_delay", M+": post_request"])
p('C84','A hop cannot tell how far on its path a packet is',
  'For given secrets shared with the hops, building a header draws a number of random bytes that depends only on the path and the kind of packet, and makes every header that takes a packet along this path (MACs and routing actions accepted by all hops in turn) for exactly one choice of these bytes: nothing in it is fixed but what the hops must find. Whatever hop a packet has got to, what it is then - for a request all of it, for replies and cover the header - is what a sender makes whose path begins at this hop, for the secrets of the remaining hops and some choice of the random bytes. In particular the last hop gets nothing that it could not have got from a sender with a path of one hop, so it cannot determine the path length.',
  'every path of up to six hops with at most one peer id, all keys, kinds of packet, payloads, random numbers, contents of the buffer, and every hop',
  'The random bytes behind the last action have no effect on delivery: without them all packets still arrive and all tests pass, but the last hop can count the zeros.',
  [f'{B}: build_header, complete_request_packet, build_surb, build_cover_packet', f'{PE}: peel'])
p('C85','Whatever must be unpredictable is drawn anew',
  'When a request is posted, the 32-byte secret behind the key of each of its packets, and for each of its SURBs the 16-byte id under which its keys are kept, the 32-byte secret of its header and the 32-byte secret for the first layer of the reply (from which the kept keys are derived) are output of the random number generator, each from a place of its own that no other of them shares. So are the secret and all 2064 bytes of payload of every cover packet, the key pair of a new session (unless it was generated before; then the one generated ahead is) and the key of its replay filter.',
  'every state (with a keystore in order, as every reachable state has), configuration, request, number of SURBs, network status and random source',
  'A constant or repeated secret encrypts and decrypts as well as a fresh one: all packets arrive and all replies are read, but anyone may compute the keys or link packets to each other.',
  [f'{B}: complete_request_packet, build_surb, build_cover_packet', f'{CR}: gen_kx_public_and_shared_secrets', f'{SK}: insert', f'{M}: post_request, pop_next_authored_packet, maybe_set_mixnodes, next_kx_public', f'{RF}: new'])
p('C86','The path of every packet and of every SURB is drawn separately',
  'For a request posted to a given destination there are fixed places in the output of the random number generator, which depend on the state and the request but not on that output, one for the path of each packet and of each SURB, and others for the ids and secrets, no two of which overlap. Whatever the output is, each packet of the request, once accepted, goes along the path chosen by the numbers in its place, and any reply made with a SURB goes along the path chosen by those in its own and arrives with the id found in its place; these numbers are as many as the path needs, and each permitted path (C62) is chosen by exactly one value of them. So the paths are independent of each other, and each is equally likely. If no destination is given, it is drawn before everything else, and what follows is the same as if it had been given. Likewise for cover packets: at most two outputs decide the session and the kind; then, at places of their own, come for drop cover the destination, and the path, the secret and the payload.',
  'every reachable state of every sane configuration, usable session, request, number of SURBs, network status and random source with which the request is accepted or a cover packet is sent',
  'A path used for all packets of a request, or for a SURB as well, is a permitted path: everything arrives, and only the statistics over many requests show that packets are linked.',
  [f'{RB}: build_packet, build_surb', f'{CV}: gen_cover_packet', f'{M}: post_request, pop_next_authored_packet', f'{TP}: gen_route, choose_destination_index'])
out = os.path.join(os.path.dirname(os.path.dirname(os.path.abspath(__file__))), 'properties.jsonl')
with open(out,'w') as f:
    for x in P: f.write(json.dumps(x)+'\n')
print(len(P))
