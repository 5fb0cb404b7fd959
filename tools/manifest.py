#!/usr/bin/env python3
"""Source of /verif/MANIFEST.json (run to regenerate)."""
import json
C = []
def c(prop, status, theorems, note=""):
    C.append(dict(property=prop, status=status, theorems=theorems.split(), note=note))

c("C01", "proved", "C01_round_trip C01_round_trip_interleaved")
c("C02", "proved", "C02_total C02_minimal C02_blueprints")
c("C03", "proved", "C03_no_panic C03_bounds")
c("C04", "proved", "C04_bad_ignored C04_good_not_ignored")
c("C05", "proved", "C05_sound")
c("C06", "proved", "C06_step C06_interleaving C06_room C06_recency")
c("C07", "proved", "C07_split_at C07_split_at_out_of_range C07_copy_to_slice C07_to_vec C07_len C07_from C07_splits")
P = "for every instance of the third-party primitives satisfying prims_ok (Prims.v)"
c("C08", "proved", "C08_request", P)
c("C09", "proved", "C09_reply", P)
c("C11", "proved", "C11_request C11_cover C11_surb", P)
c("C12", "proved", "C12_forwarded C12_delivered", P)
c("C13", "proved", "C13_classification", P)
c("C14", "proved", "C14_key_agreement C14_packet_key", P)
c("C15", "proved", "C15_no_panic C15_exact C15_two_peer_ids", P)
c("C16", "proved", "C16_tamper C16_mac_changed C16_payload_tag", P)
c("C17", "proved", "C17_insert C17_contains C17_history C17_no_false_negative C17_tag_ok")
c("C20", "proved", "C20_new C20_insert C20_set_keys C20_remove C20_history")
c("C25", "proved", "C25_generator C25_route")
c("C26", "proved", "C26_no_revisit C26_forced")
c("C27", "proved", "C27_choose")
c("C28", "proved", "C28_new C28_reserved_peers")
c("C29", "proved", "C29_route C29_destination")
c("C10", "proved", "C10_cover C10_no_effect", P)
R = P + "; over all reachable node states (reachable_ok gives the invariant the statements assume)"
c("C18", "proved", "C18_once", R)
c("C19", "proved", "C19_once C19_origin", R)
c("C21", "proved", "C21_next_deadline C21_insert C21_pop C21_pop_any C21_history C21_step C21_node", R)
c("C22", "proved", "C22_deadline", R)
c("C23", "proved", "C23_check_space C23_push C23_pop C23_no_panic C23_history C23_fifo", R)
c("C24", "proved", "C24_space_event C24_not_spurious C24_too_large C24_history", R)
c("C30", "proved", "C30_post_session C30_post_request C30_post_reply", R)
c("C31", "proved", "C31_stable C31_handover C31_used C31_one_session C31_dropped C31_left_behind", R)
c("C32", "proved", "C32_prev C32_index C32_set_mixnodes C32_handle C32_delivered", R)
c("C33", "proved", "C33_events", R)
c("C34", "proved", "C34_kept C34_set C34_once C34_disabled", R)
c("C35", "proved", "C35_post_request", R)
c("C36", "proved", "C36_refuted C36_not_accepted", "the desired behaviour is refuted: a reachable node panics; such a request is never accepted either")
c("C37", "proved", "C37_post_reply C37_counts C37_refuted", "all-or-nothing is refuted (C37_refuted); the rest proved. " + R)
c("C38", "proved", "C38_non_mixnode C38_queue_full C38_unreadable", R)
c("C39", "proved", "C39_pop C23_fifo", R)
M = "over all histories of the request manager, with the world changing arbitrarily between calls, for every posting function satisfying post_law; world_post_law: Mixnet::post_request does"
N = "over all histories of a network of any number of nodes running the code, in which the wire may reorder, replay and inject packets; concrete case in PEndEx.v"
c("C40", "proved", "C40_request", N)
c("C41", "proved", "C41_reply", N)
c("C42", "proved", "C42_conservation C42_remove world_post_law", M)
c("C43", "proved", "C43_has_space C43_capacity", M)
c("C44", "proved", "C44_posts C44_all_posts C44_retries", M)
c("C45", "proved", "C45_one_destination C45_managed", M + "; message IDs drawn without repetition")
c("C46", "proved", "C46_not_early C46_earliest C46_signalled", M)
c("C47", "proved", "C47_queues C47_panics", M + "; only a panic of post_request or of the round-trip estimate can make a call panic")
Y = "over all histories of the reply manager, with the world changing arbitrarily between calls"
c("C48", "proved", "C48_bounded C48_order C48_panics C48_mixnet_panics", Y)
c("C49", "proved", "C49_once C49_remembered C49_handed", Y)
c("C50", "proved", "C50_same_reply C50_reply_data C50_cooldown C50_answered C50_copies C50_surbs world_takes_from_end", Y + "; C50_cooldown with a monotonic clock")
c("C51","proved","C51_metrics C51_rtt C51_no_panic","Every packet and SURB is covered by the metrics, which are also attained; the round trip estimate is the exact sum; a request to an existing mixnode panics only on equal random SURB ids, and only if it has SURBs.")
c("C52","proved","C52_pick C52_delay C52_no_panic","Share of each session within 2^-48, delay within 1 ns and 2^-48 relative, no panics.")
c("C53","proved","C53_no_panic","All calls of all histories, for configurations within stated bounds.")
c("C54","proved","C54_cover","over the same network histories as C40; concrete loop and drop cover packets in PCoverEx.v")
c("C55","proved","C55_wakeup C55_process C55_served","node model and request manager model run together; concrete run in PWakeEx.v")
c("C56","proved","C56_memory","all histories of a node; concrete state in PProvenanceEx.v")
c("C57","proved","C57_reported C57_replies_only_refuted","all histories of a node; the stronger statement for replies is refuted by a concrete history")
c("C58","proved","C58_no_panic C58_node C58_backwards_refuted","All interleavings of a node and a manager with a nondecreasing session index; without that condition refuted by a concrete history.")
c("C59","proved","C59_admission C59_in_turn","Every manager state and world; concrete cases in PTurnEx.v")
c("C60","proved","C60_false_positives C60_million C60_average C60_seven_million C60_at_least C60_one_percent","All lists of inserted tags; a concrete set of mistaken tags in C60_example. The others have no hypotheses but the number of insertions (any, up to 7 million, or 7 million); they use the axioms of the standard library's real numbers.")
c("C61","proved","C61_forwarding_delay","World of nodes; same hypotheses as C40 and C41, and exp1_ok; concrete case C61_example.")
c("C62","proved","C62_uniform C62_destination C62_gateways","Bijection between the draws and the permitted routes or selections of gateways; concrete cases ex_uniform, ex_destination and ex_gateways.")
c("C63","proved","C63_derived C63_separate C63_mac C63_clamped C63_blinded C63_node","Which hash outputs are used, not how strong the hash is; concrete cases ex_derived, ex_clamped and C63_node_example.")
c("C64","proved","C64_posts C64_network C64_matched C64_once","Assumes at least one attempt and one post per attempt, as C47 and C58 do, and that the drawn message ids differ; concrete case C64_example.")
c("C65","proved","C65_causes","With C22, C24 and C33, which say that no change is missed; concrete case C65_example.")
c("C66","proved","C66_posts C66_surbs_once C66_answers C66_no_panic C66_returned","Composes C48-C50 with C41; concrete cases C66_example (PServeEx.v) and C66_returned_example (PServeNetEx.v).")
c("C67","proved","C67_round_trip C67_removed","Composes C64, C66, C40 and C41; concrete case C67_example.")
c("C68","proved","C68_post C68_lasting C68_backwards_refuted","For statuses that only move on; without that hypothesis the claim about disabled sessions is refuted. Concrete case C68_example.")
c("C69","proved","C69_on_time","World of nodes with a clock; same hypotheses as C40, C41 and C61. Concrete case C69_example.")
c("C70","proved","C70_patient","World of nodes with a clock, one node with a request manager; same hypotheses as C67 and C69. Concrete case C70_example.")
c("C71","proved","C71_unobservable C71_silent C71_without_cover_refuted","Relational: two histories of one node with the same calls and random numbers apart from posts and received replies. A packet is sent in both or neither when a drop cover packet can be made (steady); C71_without_cover_refuted shows that this condition is needed. Concrete case C71_example.")
c("C72","proved","C72_contents C72_panics C72_number_refuted","Relational: two histories from one reachable state with the same calls and random numbers up to message contents, message ids and payloads. C72_number_refuted shows that the number of fragments does show (a node without gateways sends one packet or two). Concrete case C72_example.")
c("C73","proved","C73_kept C73_too_many C73_network C73_first_lost_refuted","C73_network ties the keys kept to the SURBs that the recipient of the request gets, through C41. C73_first_lost_refuted: with a keystore for one SURB, a request with two is accepted and delivered, and the reply with the first comes to nothing (with the default configuration: 225 SURBs fit in a request, the keystore holds 200). Concrete case C73_example.")
c("C74","proved","C74_rates C74_request C74_accepted C74_reply C74_memory C74_no_panic C74_gateways C74_estimate C74_cover C74_sent C74_requests C74_replies","Corollaries of C34, C35, C37, C39, C43, C44, C48, C50, C51, C53, C56, C73 and C82 for the constants in the code; C74_request and C74_accepted also say what 25 packets hold. Concrete cases C74_example, C74_requests_example, C74_replies_example, C74_other_example.")
c("C75","proved","C75_turns C75_leaves C75_counted C75_sent C75_request","C75_counted: every history in which the session is kept has some number of turns, so the others apply to all of them. C75_sent and C75_request discharge the hypothesis ca_sent of C40 and C41. Concrete case C75_example (three packets sent: two turns and a loop cover packet between them).")
c("C76","proved","C76_request C76_reply","Existence of a delivering history from every state in which nothing is in the way (way_clear); complements C40, C41 and C75, which speak of given histories. Concrete case C76_example, in which both the request (two packets) and the reply can arrive.")
c("C77","proved","C77_frame C77_one_session C77_session C77_untouched","For every reachable state; which calls are about which parts is the definition about in PFrame.v. Concrete case C77_example.")
c("C78","proved","C78_request C78_reply C78_assembler C78_limit","Same networks and histories as C40 and C41, with the condition that what is held for the message is not disturbed replaced by a bound on how many other messages arrive in between. C78_limit shows that the bound on messages cannot be dropped. Concrete cases C78_request_example, C78_reply_example, C78_assembler_example, C78_limit_example.")
c("C79","proved","C79_peel C79_route C79_reply C79_node","One hop, any number of hops, the reply keys of a SURB, and a node's handle_packet. Concrete cases C79_peel_example, C79_route_example, C79_reply_example, C79_node_example.")
c("C80","proved","C80_concluded","For every state of a node and its request manager reachable by the calls of PWake.v, and all turns from it. Concrete case C80_example: two requests, sixteen turns.")
c("C81","proved","C81_sent C81_reserved C81_passed","For every reachable state. Concrete cases C81_example (a mixnode and a node that is none) and C81_passed_example.")
c("C82","proved","C82_rates","Real-number axioms of the standard library. Concrete case C82_example: two sessions, loop cover a quarter.")
c("C83","proved","C83_wait C83_default C83_seldom C83_same C83_seldom_client","Real-number axioms of the standard library. That the equations by which C83_seldom_client states the probability have a solution is waiting_exists. Concrete case C83_example: a mixnode and another node with the default configuration, with the values in wt_values; ex_slow.")
c("C84","proved","C84_uniform C84_built C84_request C84_reply C84_cover","That the secrets of different hops look unrelated is a matter of the third-party primitives and not claimed; concrete cases ex_position and ex_alone_all.")
c("C85","proved","C85_request C85_cover C85_session C85_next","That the generator is unpredictable is a matter of the rand crate; every call of the API reads its own output. Concrete cases ex_fresh and ex_fresh_session.")
c("C86","proved","C86_paths C86_open C86_cover","Concrete cases ex_paths: a request of two packets, which go to different nodes first, and ex_cover_paths.")
C.sort(key=lambda d: d["property"])
json.dump({"claims": C}, open("/verif/MANIFEST.json", "w"), indent=1)
