{
 "claims": [
  {
   "property": "C01",
   "status": "proved",
   "theorems": [
    "C01_round_trip",
    "C01_round_trip_interleaved"
   ],
   "note": ""
  },
  {
   "property": "C02",
   "status": "proved",
   "theorems": [
    "C02_total",
    "C02_minimal",
    "C02_blueprints"
   ],
   "note": ""
  },
  {
   "property": "C03",
   "status": "proved",
   "theorems": [
    "C03_no_panic",
    "C03_bounds"
   ],
   "note": ""
  },
  {
   "property": "C04",
   "status": "proved",
   "theorems": [
    "C04_bad_ignored",
    "C04_good_not_ignored"
   ],
   "note": ""
  },
  {
   "property": "C05",
   "status": "proved",
   "theorems": [
    "C05_sound"
   ],
   "note": ""
  },
  {
   "property": "C06",
   "status": "proved",
   "theorems": [
    "C06_step",
    "C06_interleaving",
    "C06_room",
    "C06_recency"
   ],
   "note": ""
  },
  {
   "property": "C07",
   "status": "proved",
   "theorems": [
    "C07_split_at",
    "C07_split_at_out_of_range",
    "C07_copy_to_slice",
    "C07_to_vec",
    "C07_len",
    "C07_from",
    "C07_splits"
   ],
   "note": ""
  },
  {
   "property": "C08",
   "status": "proved",
   "theorems": [
    "C08_request"
   ],
   "note": "for every instance of the third-party primitives satisfying prims_ok (Prims.v)"
  },
  {
   "property": "C09",
   "status": "proved",
   "theorems": [
    "C09_reply"
   ],
   "note": "for every instance of the third-party primitives satisfying prims_ok (Prims.v)"
  },
  {
   "property": "C10",
   "status": "proved",
   "theorems": [
    "C10_cover",
    "C10_no_effect"
   ],
   "note": "for every instance of the third-party primitives satisfying prims_ok (Prims.v)"
  },
  {
   "property": "C11",
   "status": "proved",
   "theorems": [
    "C11_request",
    "C11_cover",
    "C11_surb"
   ],
   "note": "for every instance of the third-party primitives satisfying prims_ok (Prims.v)"
  },
  {
   "property": "C12",
   "status": "proved",
   "theorems": [
    "C12_forwarded",
    "C12_delivered"
   ],
   "note": "for every instance of the third-party primitives satisfying prims_ok (Prims.v)"
  },
  {
   "property": "C13",
   "status": "proved",
   "theorems": [
    "C13_classification"
   ],
   "note": "for every instance of the third-party primitives satisfying prims_ok (Prims.v)"
  },
  {
   "property": "C14",
   "status": "proved",
   "theorems": [
    "C14_key_agreement",
    "C14_packet_key"
   ],
   "note": "for every instance of the third-party primitives satisfying prims_ok (Prims.v)"
  },
  {
   "property": "C15",
   "status": "proved",
   "theorems": [
    "C15_no_panic",
    "C15_exact",
    "C15_two_peer_ids"
   ],
   "note": "for every instance of the third-party primitives satisfying prims_ok (Prims.v)"
  },
  {
   "property": "C16",
   "status": "proved",
   "theorems": [
    "C16_tamper",
    "C16_mac_changed",
    "C16_payload_tag"
   ],
   "note": "for every instance of the third-party primitives satisfying prims_ok (Prims.v)"
  },
  {
   "property": "C17",
   "status": "proved",
   "theorems": [
    "C17_insert",
    "C17_contains",
    "C17_history",
    "C17_no_false_negative",
    "C17_tag_ok"
   ],
   "note": ""
  },
  {
   "property": "C18",
   "status": "proved",
   "theorems": [
    "C18_once"
   ],
   "note": "for every instance of the third-party primitives satisfying prims_ok (Prims.v); over all reachable node states (reachable_ok gives the invariant the statements assume)"
  },
  {
   "property": "C19",
   "status": "proved",
   "theorems": [
    "C19_once",
    "C19_origin"
   ],
   "note": "for every instance of the third-party primitives satisfying prims_ok (Prims.v); over all reachable node states (reachable_ok gives the invariant the statements assume)"
  },
  {
   "property": "C20",
   "status": "proved",
   "theorems": [
    "C20_new",
    "C20_insert",
    "C20_set_keys",
    "C20_remove",
    "C20_history"
   ],
   "note": ""
  },
  {
   "property": "C21",
   "status": "proved",
   "theorems": [
    "C21_next_deadline",
    "C21_insert",
    "C21_pop",
    "C21_pop_any",
    "C21_history",
    "C21_step",
    "C21_node"
   ],
   "note": "for every instance of the third-party primitives satisfying prims_ok (Prims.v); over all reachable node states (reachable_ok gives the invariant the statements assume)"
  },
  {
   "property": "C22",
   "status": "proved",
   "theorems": [
    "C22_deadline"
   ],
   "note": "for every instance of the third-party primitives satisfying prims_ok (Prims.v); over all reachable node states (reachable_ok gives the invariant the statements assume)"
  },
  {
   "property": "C23",
   "status": "proved",
   "theorems": [
    "C23_check_space",
    "C23_push",
    "C23_pop",
    "C23_no_panic",
    "C23_history",
    "C23_fifo"
   ],
   "note": "for every instance of the third-party primitives satisfying prims_ok (Prims.v); over all reachable node states (reachable_ok gives the invariant the statements assume)"
  },
  {
   "property": "C24",
   "status": "proved",
   "theorems": [
    "C24_space_event",
    "C24_not_spurious",
    "C24_too_large",
    "C24_history"
   ],
   "note": "for every instance of the third-party primitives satisfying prims_ok (Prims.v); over all reachable node states (reachable_ok gives the invariant the statements assume)"
  },
  {
   "property": "C25",
   "status": "proved",
   "theorems": [
    "C25_generator",
    "C25_route"
   ],
   "note": ""
  },
  {
   "property": "C26",
   "status": "proved",
   "theorems": [
    "C26_no_revisit",
    "C26_forced"
   ],
   "note": ""
  },
  {
   "property": "C27",
   "status": "proved",
   "theorems": [
    "C27_choose"
   ],
   "note": ""
  },
  {
   "property": "C28",
   "status": "proved",
   "theorems": [
    "C28_new",
    "C28_reserved_peers"
   ],
   "note": ""
  },
  {
   "property": "C29",
   "status": "proved",
   "theorems": [
    "C29_route",
    "C29_destination"
   ],
   "note": ""
  },
  {
   "property": "C30",
   "status": "proved",
   "theorems": [
    "C30_post_session",
    "C30_post_request",
    "C30_post_reply"
   ],
   "note": "for every instance of the third-party primitives satisfying prims_ok (Prims.v); over all reachable node states (reachable_ok gives the invariant the statements assume)"
  },
  {
   "property": "C31",
   "status": "proved",
   "theorems": [
    "C31_stable",
    "C31_handover",
    "C31_used",
    "C31_one_session",
    "C31_dropped",
    "C31_left_behind"
   ],
   "note": "for every instance of the third-party primitives satisfying prims_ok (Prims.v); over all reachable node states (reachable_ok gives the invariant the statements assume)"
  },
  {
   "property": "C32",
   "status": "proved",
   "theorems": [
    "C32_prev",
    "C32_index",
    "C32_set_mixnodes",
    "C32_handle",
    "C32_delivered"
   ],
   "note": "for every instance of the third-party primitives satisfying prims_ok (Prims.v); over all reachable node states (reachable_ok gives the invariant the statements assume)"
  },
  {
   "property": "C33",
   "status": "proved",
   "theorems": [
    "C33_events"
   ],
   "note": "for every instance of the third-party primitives satisfying prims_ok (Prims.v); over all reachable node states (reachable_ok gives the invariant the statements assume)"
  },
  {
   "property": "C34",
   "status": "proved",
   "theorems": [
    "C34_kept",
    "C34_set",
    "C34_once",
    "C34_disabled"
   ],
   "note": "for every instance of the third-party primitives satisfying prims_ok (Prims.v); over all reachable node states (reachable_ok gives the invariant the statements assume)"
  },
  {
   "property": "C35",
   "status": "proved",
   "theorems": [
    "C35_post_request"
   ],
   "note": "for every instance of the third-party primitives satisfying prims_ok (Prims.v); over all reachable node states (reachable_ok gives the invariant the statements assume)"
  },
  {
   "property": "C36",
   "status": "proved",
   "theorems": [
    "C36_refuted",
    "C36_not_accepted"
   ],
   "note": "the desired behaviour is refuted: a reachable node panics; such a request is never accepted either"
  },
  {
   "property": "C37",
   "status": "proved",
   "theorems": [
    "C37_post_reply",
    "C37_counts",
    "C37_refuted"
   ],
   "note": "all-or-nothing is refuted (C37_refuted); the rest proved. for every instance of the third-party primitives satisfying prims_ok (Prims.v); over all reachable node states (reachable_ok gives the invariant the statements assume)"
  },
  {
   "property": "C38",
   "status": "proved",
   "theorems": [
    "C38_non_mixnode",
    "C38_queue_full",
    "C38_unreadable"
   ],
   "note": "for every instance of the third-party primitives satisfying prims_ok (Prims.v); over all reachable node states (reachable_ok gives the invariant the statements assume)"
  },
  {
   "property": "C39",
   "status": "proved",
   "theorems": [
    "C39_pop",
    "C23_fifo"
   ],
   "note": "for every instance of the third-party primitives satisfying prims_ok (Prims.v); over all reachable node states (reachable_ok gives the invariant the statements assume)"
  },
  {
   "property": "C40",
   "status": "proved",
   "theorems": [
    "C40_request"
   ],
   "note": "over all histories of a network of any number of nodes running the code, in which the wire may reorder, replay and inject packets; concrete case in PEndEx.v"
  },
  {
   "property": "C41",
   "status": "proved",
   "theorems": [
    "C41_reply"
   ],
   "note": "over all histories of a network of any number of nodes running the code, in which the wire may reorder, replay and inject packets; concrete case in PEndEx.v"
  },
  {
   "property": "C42",
   "status": "proved",
   "theorems": [
    "C42_conservation",
    "C42_remove",
    "world_post_law"
   ],
   "note": "over all histories of the request manager, with the world changing arbitrarily between calls, for every posting function satisfying post_law; world_post_law: Mixnet::post_request does"
  },
  {
   "property": "C43",
   "status": "proved",
   "theorems": [
    "C43_has_space",
    "C43_capacity"
   ],
   "note": "over all histories of the request manager, with the world changing arbitrarily between calls, for every posting function satisfying post_law; world_post_law: Mixnet::post_request does"
  },
  {
   "property": "C44",
   "status": "proved",
   "theorems": [
    "C44_posts",
    "C44_all_posts",
    "C44_retries"
   ],
   "note": "over all histories of the request manager, with the world changing arbitrarily between calls, for every posting function satisfying post_law; world_post_law: Mixnet::post_request does"
  },
  {
   "property": "C45",
   "status": "proved",
   "theorems": [
    "C45_one_destination",
    "C45_managed"
   ],
   "note": "over all histories of the request manager, with the world changing arbitrarily between calls, for every posting function satisfying post_law; world_post_law: Mixnet::post_request does; message IDs drawn without repetition"
  },
  {
   "property": "C46",
   "status": "proved",
   "theorems": [
    "C46_not_early",
    "C46_earliest",
    "C46_signalled"
   ],
   "note": "over all histories of the request manager, with the world changing arbitrarily between calls, for every posting function satisfying post_law; world_post_law: Mixnet::post_request does"
  },
  {
   "property": "C47",
   "status": "proved",
   "theorems": [
    "C47_queues",
    "C47_panics"
   ],
   "note": "over all histories of the request manager, with the world changing arbitrarily between calls, for every posting function satisfying post_law; world_post_law: Mixnet::post_request does; only a panic of post_request or of the round-trip estimate can make a call panic"
  },
  {
   "property": "C48",
   "status": "proved",
   "theorems": [
    "C48_bounded",
    "C48_order",
    "C48_panics",
    "C48_mixnet_panics"
   ],
   "note": "over all histories of the reply manager, with the world changing arbitrarily between calls"
  },
  {
   "property": "C49",
   "status": "proved",
   "theorems": [
    "C49_once",
    "C49_remembered",
    "C49_handed"
   ],
   "note": "over all histories of the reply manager, with the world changing arbitrarily between calls"
  },
  {
   "property": "C50",
   "status": "proved",
   "theorems": [
    "C50_same_reply",
    "C50_reply_data",
    "C50_cooldown",
    "C50_answered",
    "C50_copies",
    "C50_surbs",
    "world_takes_from_end"
   ],
   "note": "over all histories of the reply manager, with the world changing arbitrarily between calls; C50_cooldown with a monotonic clock"
  },
  {
   "property": "C51",
   "status": "proved",
   "theorems": [
    "C51_metrics",
    "C51_rtt",
    "C51_no_panic"
   ],
   "note": "Every packet and SURB is covered by the metrics, which are also attained; the round trip estimate is the exact sum; a request to an existing mixnode panics only on equal random SURB ids, and only if it has SURBs."
  },
  {
   "property": "C52",
   "status": "proved",
   "theorems": [
    "C52_pick",
    "C52_delay",
    "C52_no_panic"
   ],
   "note": "Share of each session within 2^-48, delay within 1 ns and 2^-48 relative, no panics."
  },
  {
   "property": "C53",
   "status": "proved",
   "theorems": [
    "C53_no_panic"
   ],
   "note": "All calls of all histories, for configurations within stated bounds."
  },
  {
   "property": "C54",
   "status": "proved",
   "theorems": [
    "C54_cover"
   ],
   "note": "over the same network histories as C40; concrete loop and drop cover packets in PCoverEx.v"
  },
  {
   "property": "C55",
   "status": "proved",
   "theorems": [
    "C55_wakeup",
    "C55_process",
    "C55_served"
   ],
   "note": "node model and request manager model run together; concrete run in PWakeEx.v"
  },
  {
   "property": "C56",
   "status": "proved",
   "theorems": [
    "C56_memory"
   ],
   "note": "all histories of a node; concrete state in PProvenanceEx.v"
  },
  {
   "property": "C57",
   "status": "proved",
   "theorems": [
    "C57_reported",
    "C57_replies_only_refuted"
   ],
   "note": "all histories of a node; the stronger statement for replies is refuted by a concrete history"
  },
  {
   "property": "C58",
   "status": "proved",
   "theorems": [
    "C58_no_panic",
    "C58_node",
    "C58_backwards_refuted"
   ],
   "note": "All interleavings of a node and a manager with a nondecreasing session index; without that condition refuted by a concrete history."
  },
  {
   "property": "C59",
   "status": "proved",
   "theorems": [
    "C59_admission",
    "C59_in_turn"
   ],
   "note": "Every manager state and world; concrete cases in PTurnEx.v"
  },
  {
   "property": "C60",
   "status": "proved",
   "theorems": [
    "C60_false_positives",
    "C60_million",
    "C60_average",
    "C60_seven_million",
    "C60_at_least",
    "C60_one_percent"
   ],
   "note": "All lists of inserted tags; a concrete set of mistaken tags in C60_example. The others have no hypotheses but the number of insertions (any, up to 7 million, or 7 million); they use the axioms of the standard library's real numbers."
  },
  {
   "property": "C61",
   "status": "proved",
   "theorems": [
    "C61_forwarding_delay"
   ],
   "note": "World of nodes; same hypotheses as C40 and C41, and exp1_ok; concrete case C61_example."
  },
  {
   "property": "C62",
   "status": "proved",
   "theorems": [
    "C62_uniform",
    "C62_destination",
    "C62_gateways"
   ],
   "note": "Bijection between the draws and the permitted routes or selections of gateways; concrete cases ex_uniform, ex_destination and ex_gateways."
  },
  {
   "property": "C63",
   "status": "proved",
   "theorems": [
    "C63_derived",
    "C63_separate",
    "C63_mac",
    "C63_clamped",
    "C63_blinded",
    "C63_node"
   ],
   "note": "Which hash outputs are used, not how strong the hash is; concrete cases ex_derived, ex_clamped and C63_node_example."
  },
  {
   "property": "C64",
   "status": "proved",
   "theorems": [
    "C64_posts",
    "C64_network",
    "C64_matched",
    "C64_once"
   ],
   "note": "Assumes at least one attempt and one post per attempt, as C47 and C58 do, and that the drawn message ids differ; concrete case C64_example."
  },
  {
   "property": "C65",
   "status": "proved",
   "theorems": [
    "C65_causes"
   ],
   "note": "With C22, C24 and C33, which say that no change is missed; concrete case C65_example."
  },
  {
   "property": "C66",
   "status": "proved",
   "theorems": [
    "C66_posts",
    "C66_surbs_once",
    "C66_answers",
    "C66_no_panic",
    "C66_returned"
   ],
   "note": "Composes C48-C50 with C41; concrete cases C66_example (PServeEx.v) and C66_returned_example (PServeNetEx.v)."
  },
  {
   "property": "C67",
   "status": "proved",
   "theorems": [
    "C67_round_trip",
    "C67_removed"
   ],
   "note": "Composes C64, C66, C40 and C41; concrete case C67_example."
  },
  {
   "property": "C68",
   "status": "proved",
   "theorems": [
    "C68_post",
    "C68_lasting",
    "C68_backwards_refuted"
   ],
   "note": "For statuses that only move on; without that hypothesis the claim about disabled sessions is refuted. Concrete case C68_example."
  },
  {
   "property": "C69",
   "status": "proved",
   "theorems": [
    "C69_on_time"
   ],
   "note": "World of nodes with a clock; same hypotheses as C40, C41 and C61. Concrete case C69_example."
  },
  {
   "property": "C70",
   "status": "proved",
   "theorems": [
    "C70_patient"
   ],
   "note": "World of nodes with a clock, one node with a request manager; same hypotheses as C67 and C69. Concrete case C70_example."
  },
  {
   "property": "C71",
   "status": "proved",
   "theorems": [
    "C71_unobservable",
    "C71_silent",
    "C71_without_cover_refuted"
   ],
   "note": "Relational: two histories of one node with the same calls and random numbers apart from posts and received replies. A packet is sent in both or neither when a drop cover packet can be made (steady); C71_without_cover_refuted shows that this condition is needed. Concrete case C71_example."
  },
  {
   "property": "C72",
   "status": "proved",
   "theorems": [
    "C72_contents",
    "C72_panics",
    "C72_number_refuted"
   ],
   "note": "Relational: two histories from one reachable state with the same calls and random numbers up to message contents, message ids and payloads. C72_number_refuted shows that the number of fragments does show (a node without gateways sends one packet or two). Concrete case C72_example."
  },
  {
   "property": "C73",
   "status": "proved",
   "theorems": [
    "C73_kept",
    "C73_too_many",
    "C73_network",
    "C73_first_lost_refuted"
   ],
   "note": "C73_network ties the keys kept to the SURBs that the recipient of the request gets, through C41. C73_first_lost_refuted: with a keystore for one SURB, a request with two is accepted and delivered, and the reply with the first comes to nothing (with the default configuration: 225 SURBs fit in a request, the keystore holds 200). Concrete case C73_example."
  },
  {
   "property": "C74",
   "status": "proved",
   "theorems": [
    "C74_rates",
    "C74_request",
    "C74_accepted",
    "C74_reply",
    "C74_memory",
    "C74_no_panic",
    "C74_gateways",
    "C74_estimate",
    "C74_cover",
    "C74_sent",
    "C74_requests",
    "C74_replies"
   ],
   "note": "Corollaries of C34, C35, C37, C39, C43, C44, C48, C50, C51, C53, C56, C73 and C82 for the constants in the code; C74_request and C74_accepted also say what 25 packets hold. Concrete cases C74_example, C74_requests_example, C74_replies_example, C74_other_example."
  },
  {
   "property": "C75",
   "status": "proved",
   "theorems": [
    "C75_turns",
    "C75_leaves",
    "C75_counted",
    "C75_sent",
    "C75_request"
   ],
   "note": "C75_counted: every history in which the session is kept has some number of turns, so the others apply to all of them. C75_sent and C75_request discharge the hypothesis ca_sent of C40 and C41. Concrete case C75_example (three packets sent: two turns and a loop cover packet between them)."
  },
  {
   "property": "C76",
   "status": "proved",
   "theorems": [
    "C76_request",
    "C76_reply"
   ],
   "note": "Existence of a delivering history from every state in which nothing is in the way (way_clear); complements C40, C41 and C75, which speak of given histories. Concrete case C76_example, in which both the request (two packets) and the reply can arrive."
  },
  {
   "property": "C77",
   "status": "proved",
   "theorems": [
    "C77_frame",
    "C77_one_session",
    "C77_session",
    "C77_untouched"
   ],
   "note": "For every reachable state; which calls are about which parts is the definition about in PFrame.v. Concrete case C77_example."
  },
  {
   "property": "C78",
   "status": "proved",
   "theorems": [
    "C78_request",
    "C78_reply",
    "C78_assembler",
    "C78_limit"
   ],
   "note": "Same networks and histories as C40 and C41, with the condition that what is held for the message is not disturbed replaced by a bound on how many other messages arrive in between. C78_limit shows that the bound on messages cannot be dropped. Concrete cases C78_request_example, C78_reply_example, C78_assembler_example, C78_limit_example."
  },
  {
   "property": "C79",
   "status": "proved",
   "theorems": [
    "C79_peel",
    "C79_route",
    "C79_reply",
    "C79_node"
   ],
   "note": "One hop, any number of hops, the reply keys of a SURB, and a node's handle_packet. Concrete cases C79_peel_example, C79_route_example, C79_reply_example, C79_node_example."
  },
  {
   "property": "C80",
   "status": "proved",
   "theorems": [
    "C80_concluded"
   ],
   "note": "For every state of a node and its request manager reachable by the calls of PWake.v, and all turns from it. Concrete case C80_example: two requests, sixteen turns."
  },
  {
   "property": "C81",
   "status": "proved",
   "theorems": [
    "C81_sent",
    "C81_reserved",
    "C81_passed"
   ],
   "note": "For every reachable state. Concrete cases C81_example (a mixnode and a node that is none) and C81_passed_example."
  },
  {
   "property": "C82",
   "status": "proved",
   "theorems": [
    "C82_rates"
   ],
   "note": "Real-number axioms of the standard library. Concrete case C82_example: two sessions, loop cover a quarter."
  },
  {
   "property": "C83",
   "status": "proved",
   "theorems": [
    "C83_wait",
    "C83_default",
    "C83_seldom",
    "C83_same",
    "C83_seldom_client"
   ],
   "note": "Real-number axioms of the standard library. That the equations by which C83_seldom_client states the probability have a solution is waiting_exists. Concrete case C83_example: a mixnode and another node with the default configuration, with the values in wt_values; ex_slow."
  },
  {
   "property": "C84",
   "status": "proved",
   "theorems": [
    "C84_uniform",
    "C84_built",
    "C84_request",
    "C84_reply",
    "C84_cover"
   ],
   "note": "That the secrets of different hops look unrelated is a matter of the third-party primitives and not claimed; concrete cases ex_position and ex_alone_all."
  },
  {
   "property": "C85",
   "status": "proved",
   "theorems": [
    "C85_request",
    "C85_cover",
    "C85_session",
    "C85_next"
   ],
   "note": "That the generator is unpredictable is a matter of the rand crate; every call of the API reads its own output. Concrete cases ex_fresh and ex_fresh_session."
  },
  {
   "property": "C86",
   "status": "proved",
   "theorems": [
    "C86_paths",
    "C86_open",
    "C86_cover"
   ],
   "note": "Concrete cases ex_paths: a request of two packets, which go to different nodes first, and ex_cover_paths."
  }
 ]
}