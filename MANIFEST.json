{
 "claims": [
  {
   "property": "C01",
   "status": "proved",
   "theorems": [
    "C01_scalar_arithmetic"
   ],
   "note": ""
  },
  {
   "property": "C02",
   "status": "proved",
   "theorems": [
    "C02_division",
    "C02_division_panics",
    "C02_inversion",
    "C02_inversion_of_zero"
   ],
   "note": "Includes the exact panic conditions."
  },
  {
   "property": "C03",
   "status": "proved",
   "theorems": [
    "C03_scalar_encoding",
    "C03_scalar_decoding_fails_iff",
    "C03_scalar_encoding_injective"
   ],
   "note": ""
  },
  {
   "property": "C04",
   "status": "proved",
   "theorems": [
    "C04_scalar_decoding_canonical_refuted",
    "C04_ambiguous_strings"
   ],
   "note": "REFUTED as a property of the code: decoding is not canonical (witness 0 and N). C04_ambiguous_strings gives the exact set of ambiguous strings."
  },
  {
   "property": "C05",
   "status": "proved",
   "theorems": [
    "C05_decodes_iff",
    "C05_decoded_point",
    "C05_never_panics"
   ],
   "note": ""
  },
  {
   "property": "C06",
   "status": "proved",
   "theorems": [
    "C06_point_roundtrip",
    "C06_point_encoding_injective"
   ],
   "note": ""
  },
  {
   "property": "C07",
   "status": "proved",
   "theorems": [
    "C07_marshal_fails_iff_off_curve",
    "C07_marshal_never_panics",
    "C07_identity_not_encodable"
   ],
   "note": ""
  },
  {
   "property": "C08",
   "status": "proved",
   "theorems": [
    "C08_point_decoding_canonical_refuted",
    "C08_only_ambiguity"
   ],
   "note": "REFUTED as a property of the code: decoding is not canonical (witness x=1 and x=p+1). C08_only_ambiguity characterises all ambiguity."
  },
  {
   "property": "C09",
   "status": "proved",
   "theorems": [
    "C09_abelian_group",
    "C09_chord",
    "C09_tangent",
    "C09_negation"
   ],
   "note": "Full group laws for the functions of point.go including the associativity proof, and the geometric chord/tangent characterisation."
  },
  {
   "property": "C10",
   "status": "proved",
   "theorems": [
    "C10_scalar_action",
    "C10_cyclic_of_order_N",
    "C10_nil_is_the_base_point"
   ],
   "note": "Includes that the group is cyclic of prime order N (proved in Order.v, no assumption about the curve order)."
  },
  {
   "property": "C11",
   "status": "proved",
   "theorems": [
    "C11_key_pairs_sound",
    "C11_distinct_keys",
    "C11_zero_key_unusable"
   ],
   "note": ""
  },
  {
   "property": "C12",
   "status": "proved",
   "theorems": [
    "C12_valid_public_key_iff"
   ],
   "note": ""
  },
  {
   "property": "C13",
   "status": "proved",
   "theorems": [
    "C13_valid_means_onchain_usable_refuted",
    "C13_onchain_usable_is_valid"
   ],
   "note": "REFUTED as a property of the code: ValidPublicKey does not imply x < half_q (witness 2G)."
  },
  {
   "property": "C14",
   "status": "proved",
   "theorems": [
    "C14_embed_roundtrip",
    "C14_embed_panics_iff",
    "C14_data_spec"
   ],
   "note": "For every length-preserving stream cipher."
  },
  {
   "property": "C15",
   "status": "proved",
   "theorems": [
    "C15_long_roundtrip",
    "C15_long_unmarshal_iff",
    "C15_long_unmarshal_never_panics",
    "C15_set_coordinates"
   ],
   "note": ""
  },
  {
   "property": "C16",
   "status": "proved",
   "theorems": [
    "C16_address_agrees",
    "C16_bad_key_has_zero_address"
   ],
   "note": ""
  },
  {
   "property": "C17",
   "status": "proved",
   "theorems": [
    "C17_roundtrips",
    "C17_parses_iff",
    "C17_failure_keeps_receiver"
   ],
   "note": ""
  },
  {
   "property": "C18",
   "status": "proved",
   "theorems": [
    "C18_scalar_pick",
    "C18_point_pick",
    "C18_generate",
    "C18_generate_returns"
   ],
   "note": "Random streams are arbitrary state machines; loops are fuelled, None meaning not yet returned."
  },
  {
   "property": "C19",
   "status": "proved",
   "theorems": [
    "C19_represents_scalar_range_refuted",
    "C19_exactly_below_N",
    "C19_range_for_nonnegative"
   ],
   "note": "REFUTED as a property of the code: true for negative integers (witness -1). Exact: true iff i < N."
  },
  {
   "property": "C20",
   "status": "proved",
   "theorems": [
    "C20_new_by_type_refuted",
    "C20_new_only_for_nil_type"
   ],
   "note": "REFUTED as a property of the code: New on the scalar/point types returns nil; only the nil reflect.Type yields an object."
  },
  {
   "property": "C21",
   "status": "proved",
   "theorems": [
    "C21_foreign_key",
    "C21_signers",
    "C21_signatures_verify",
    "C21_any_nonce"
   ],
   "note": "For every hash function and every stream."
  },
  {
   "property": "C22",
   "status": "proved",
   "theorems": [
    "C22_verify_iff",
    "C22_verify_total",
    "C22_nil_signature_panics"
   ],
   "note": ""
  },
  {
   "property": "C23",
   "status": "proved",
   "theorems": [
    "C23_sign_rejects_bad_messages_refuted",
    "C23_bad_message_signed_but_unverifiable"
   ],
   "note": "REFUTED as a property of the code: Sign accepts every integer message; what it signs outside uint256 never verifies."
  },
  {
   "property": "C24",
   "status": "proved",
   "theorems": [
    "C24_challenge_is_hash_of_input",
    "C24_input_injective",
    "C24_sign_not_bound"
   ],
   "note": ""
  },
  {
   "property": "C25",
   "status": "proved",
   "theorems": [
    "C25_onchain_parity_refuted",
    "C25_agree_iff_large",
    "C25_smaller_messages_hash_shorter_strings"
   ],
   "note": "REFUTED as a property of the code: inputs agree iff msg >= 2^248."
  },
  {
   "property": "C26",
   "status": "proved",
   "theorems": [
    "C26_nonce_reuse_reveals_key",
    "C26_signature_formula"
   ],
   "note": ""
  },
  {
   "property": "C27",
   "status": "proved",
   "theorems": [
    "C27_second_response_is_a_collision"
   ],
   "note": "Reduction to an explicit collision of the hash tail."
  },
  {
   "property": "C28",
   "status": "proved",
   "theorems": [
    "C28_verify_pure"
   ],
   "note": "The coordinates are reduced, as those of every point the API makes are (C81)."
  },
  {
   "property": "C29",
   "status": "proved",
   "theorems": [
    "C29_commitments_have_polynomials",
    "C29_accepted_iff",
    "C29_collected_partials_correct",
    "C29_session_binds"
   ],
   "note": "The polynomials behind the commitments always exist (C29_commitments_have_polynomials)."
  },
  {
   "property": "C30",
   "status": "proved",
   "theorems": [
    "C30_honest_partial_accepted",
    "C30_partial_available"
   ],
   "note": "Both DSS may have made any calls before."
  },
  {
   "property": "C31",
   "status": "proved",
   "theorems": [
    "C31_signature_verifies"
   ],
   "note": "Any call sequence, any map iteration order; T at least the number of commitments on both sides."
  },
  {
   "property": "C32",
   "status": "proved",
   "theorems": [
    "C32_same_signature"
   ],
   "note": "Any two call sequences, own thresholds and qualified sets."
  },
  {
   "property": "C33",
   "status": "proved",
   "theorems": [
    "C33_rejected_changes_nothing",
    "C33_accepted_is_new",
    "C33_call_sequences",
    "C33_own_index_twice_refuted"
   ],
   "note": "REFUTED in one corner: an own-index partial processed before the first PartialSig is counted twice (C33_own_index_twice_refuted). Uniqueness proved for all other sequences; the remaining parts for all sequences."
  },
  {
   "property": "C34",
   "status": "proved",
   "theorems": [
    "C34_available_iff_distinct",
    "C34_enough_iff_signature",
    "C34_enough_but_no_signature_refuted"
   ],
   "note": "REFUTED in the same corner: EnoughPartialSig may hold with too few distinct signers. Exact: Signature succeeds iff there are T distinct indices, and iff T partials were collected when the corner case is excluded."
  },
  {
   "property": "C35",
   "status": "proved",
   "theorems": [
    "C35_partial_idempotent"
   ],
   "note": ""
  },
  {
   "property": "C36",
   "status": "proved",
   "theorems": [
    "C36_negative_index_panics_refuted",
    "C36_panics_iff"
   ],
   "note": "REFUTED: a negative index panics. C36_panics_iff lists every panicking input."
  },
  {
   "property": "C37",
   "status": "proved",
   "theorems": [
    "C37_out_of_range_signed_refuted",
    "C37_out_of_range_signature_rejected"
   ],
   "note": "REFUTED: partials and a signature are produced for every out-of-range message, and Verify rejects every such signature."
  },
  {
   "property": "C38",
   "status": "proved",
   "theorems": [
    "C38_independent_of_contents",
    "C38_fill_total"
   ],
   "note": ""
  },
  {
   "property": "C39",
   "status": "proved",
   "theorems": [
    "C39_consecutive",
    "C39_output",
    "C39_no_reuse",
    "C39_concurrent",
    "C39_concurrent_length"
   ],
   "note": ""
  },
  {
   "property": "C40",
   "status": "proved",
   "theorems": [
    "C40_mismatch_panics_first",
    "C40_match_is_fill",
    "C40_panics_iff"
   ],
   "note": ""
  },
  {
   "property": "C41",
   "status": "proved",
   "theorems": [
    "C41_roundtrip",
    "C41_commits_refused_iff"
   ],
   "note": ""
  },
  {
   "property": "C42",
   "status": "proved",
   "theorems": [
    "C42_decodes_iff",
    "C42_never_panics",
    "C42_decoded_reencodes"
   ],
   "note": ""
  },
  {
   "property": "C43",
   "status": "proved",
   "theorems": [
    "C43_save_load",
    "C43_load_checks"
   ],
   "note": ""
  },
  {
   "property": "C44",
   "status": "proved",
   "theorems": [
    "C44_messages_conserved",
    "C44_messages_conserved_overall",
    "C44_only_late_dropped"
   ],
   "note": "For every protocol, guest and interleaving."
  },
  {
   "property": "C45",
   "status": "proved",
   "theorems": [
    "C45_processed_in_stage",
    "C45_arrival_order"
   ],
   "note": ""
  },
  {
   "property": "C46",
   "status": "proved",
   "theorems": [
    "C46_stages_in_order",
    "C46_all_stages"
   ],
   "note": ""
  },
  {
   "property": "C47",
   "status": "proved",
   "theorems": [
    "C47_timeouts",
    "C47_schedule"
   ],
   "note": "For every delay of the timer; time 0 is the goroutine's own clock reading. C47_timeouts gives the constants for DKG and DSS."
  },
  {
   "property": "C48",
   "status": "proved",
   "theorems": [
    "C48_terminates"
   ],
   "note": ""
  },
  {
   "property": "C49",
   "status": "proved",
   "theorems": [
    "C49_sent_in_stage"
   ],
   "note": ""
  },
  {
   "property": "C50",
   "status": "proved",
   "theorems": [
    "C50_broadcast",
    "C50_multicast",
    "C50_headers"
   ],
   "note": ""
  },
  {
   "property": "C51",
   "status": "proved",
   "theorems": [
    "C51_dkg_dss",
    "C51_abandonment_final",
    "C51_nothing_sent"
   ],
   "note": "C51_nothing_sent is for every protocol meeting the stated discipline; C51_dkg_dss shows DKG and DSS meet it."
  },
  {
   "property": "C52",
   "status": "proved",
   "theorems": [
    "C52_dkg_dss",
    "C52_nothing_after_termination",
    "C52_data_untouched"
   ],
   "note": ""
  },
  {
   "property": "C53",
   "status": "proved",
   "theorems": [
    "C53_sender_bound"
   ],
   "note": "For every key generator."
  },
  {
   "property": "C54",
   "status": "proved",
   "theorems": [
    "C54_only_own_complaints",
    "C54_answers_refused",
    "C54_refuted"
   ],
   "note": "REFUTED as a property of the code: every answer to somebody else's complaint is refused by every receiver (C54_answers_refused); C54_refuted is a concrete run."
  },
  {
   "property": "C55",
   "status": "proved",
   "theorems": [
    "C55_bare_response_crashes",
    "C55_unsigned_partial_crashes",
    "C55_others_handled_dkg",
    "C55_others_handled_dss",
    "C55_refuted"
   ],
   "note": "REFUTED as a property of the code: two message shapes crash the node. Everything else is handled, given that kyber itself does not panic and names members only (kyber_ok) and the document and long-term key are registered (env_ok)."
  },
  {
   "property": "C56",
   "status": "proved",
   "theorems": [
    "C56_signing_runs_removed",
    "C56_each_signal_removes",
    "C56_key_generation_runs_stay",
    "C56_every_run_removed_refuted"
   ],
   "note": "REFUTED for key generation (C56_every_run_removed_refuted is a concrete history; C56_key_generation_runs_stay says it for every history). For signing runs: removed once the queue has been emptied, when the id was requested at most once; and each signal removes exactly once without that hypothesis."
  },
  {
   "property": "C57",
   "status": "proved",
   "theorems": [
    "C57_incoming",
    "C57_queues",
    "C57_removals"
   ],
   "note": "The first theorem is about one incoming message in any reachable state, the others about positions in the trace of any history."
  },
  {
   "property": "C58",
   "status": "proved",
   "theorems": [
    "C58_no_send_or_close_on_closed",
    "C58_told_at_most_once",
    "C58_telling_never_waits",
    "C58_observers_of_listed_runs_told",
    "C58_observers_registered_in_time_told",
    "C58_told_only_after_termination"
   ],
   "note": "Machine over all interleavings of obs_term calls, run termination, table changes and reads; also: no thread ever waits, nobody is told early."
  },
  {
   "property": "C59",
   "status": "proved",
   "theorems": [
    "C59_pop_returns_last_push",
    "C59_second_pop_empty"
   ],
   "note": ""
  },
  {
   "property": "C60",
   "status": "proved",
   "theorems": [
    "C60_nonce_share_stays",
    "C60_signing_leaves_nothing_refuted"
   ],
   "note": "REFUTED as a property of the code: every completed signing run leaves its nonce share among the DKG outputs."
  },
  {
   "property": "C61",
   "status": "proved",
   "theorems": [
    "C61_deny_by_default"
   ],
   "note": "For every history of inputs, calls, goroutine wake-ups and receives, with any delays."
  },
  {
   "property": "C62",
   "status": "proved",
   "theorems": [
    "C62_order_and_multiplicity"
   ],
   "note": "The order in which the lock is obtained is the arrival order."
  },
  {
   "property": "C63",
   "status": "proved",
   "theorems": [
    "C63_buffers_bounded",
    "C63_fresh_allowance_starts_empty"
   ],
   "note": ""
  },
  {
   "property": "C64",
   "status": "proved",
   "theorems": [
    "C64_revocation_complete"
   ],
   "note": ""
  },
  {
   "property": "C65",
   "status": "proved",
   "theorems": [
    "C65_runs_isolated",
    "C65_other_runs_do_not_matter"
   ],
   "note": ""
  },
  {
   "property": "C66",
   "status": "proved",
   "theorems": [
    "C66_fresh_told_each_phase",
    "C66_repeated_changes_nothing",
    "C66_never_blocks"
   ],
   "note": "Assumes that goroutines are scheduled (four wake-ups after the deadlines) for completeness only."
  },
  {
   "property": "C67",
   "status": "proved",
   "theorems": [
    "C67_calls_in_order_at_most_once",
    "C67_every_message_accounted_for",
    "C67_calls_connected_drops_disconnected",
    "C67_reliable_while_connected"
   ],
   "note": "For every failure schedule of the queue consumer/connector machine; also: every accepted message is settled exactly once, held or queued; calls only while connected, drops only while disconnected."
  },
  {
   "property": "C68",
   "status": "proved",
   "theorems": [
    "C68_failed_call_never_repeated",
    "C68_failure_noticed_only_by_next_message",
    "C68_refuted"
   ],
   "note": "REFUTED as written (C68_refuted): the post statement of the loop takes the next message before the error is examined. Also proved: a failed call is never repeated, and the failure is noticed only when another message arrives."
  },
  {
   "property": "C69",
   "status": "proved",
   "theorems": [
    "C69_send_never_waits",
    "C69_queue_bounded",
    "C69_refused_leaves_no_trace"
   ],
   "note": "try_send is one atomic step in every state; bound and no-effect proved over all histories."
  },
  {
   "property": "C70",
   "status": "proved",
   "theorems": [
    "C70_nodes_agree_on_members",
    "C70_member_list",
    "C70_load_fails_iff"
   ],
   "note": "For every pair of correct sorts, stable or not; files and sorting are parameters. Includes the failing case: both panic."
  },
  {
   "property": "C71",
   "status": "proved",
   "theorems": [
    "C71_guests_are_members_with_a_secret",
    "C71_every_secret_finds_its_member",
    "C71_other_secrets_ignored",
    "C71_guest_addresses"
   ],
   "note": "Soundness, completeness (distinct keys), irrelevance of other secrets, and totality with host addresses for compiled configurations."
  },
  {
   "property": "C72",
   "status": "proved",
   "theorems": [
    "C72_compiled_config_parses",
    "C72_members_map_to_their_host",
    "C72_every_queue_exists"
   ],
   "note": "For every list of hosts with distinct key files and every traversal order of the member map."
  },
  {
   "property": "C73",
   "status": "proved",
   "theorems": [
    "C73_unknown_file_becomes_member_0",
    "C73_redirects_member_0",
    "C73_refuted"
   ],
   "note": "REFUTED as a property of the code: unknown names are accepted and become member 0 (C73_refuted is a concrete configuration); the universal forms say what happens for every configuration."
  },
  {
   "property": "C74",
   "status": "proved",
   "theorems": [
    "C74_config_parsed_faithfully",
    "C74_otherwise_panics"
   ],
   "note": "Exact characterisation of the accepted JSON values; entries after the fourth are ignored, everything else panics."
  },
  {
   "property": "C75",
   "status": "proved",
   "theorems": [
    "C75_only_requested_runs",
    "C75_only_requested_documents"
   ],
   "note": "on_request (NodeSpec.v): partial signatures sent and signatures output belong to a DSS instance made with the requested document."
  },
  {
   "property": "C76",
   "status": "proved",
   "theorems": [
    "C76_not_before_start",
    "C76_silent_before"
   ],
   "note": "A run object is made at or after the start time of a request for it, and nothing happens in a run before it is made."
  },
  {
   "property": "C77",
   "status": "proved",
   "theorems": [
    "C77_signing_id",
    "C77_kinds_apart",
    "C77_ids_distinct_refuted",
    "C77_same_millisecond",
    "C77_ids_distinct"
   ],
   "note": "REFUTED in general (C77_ids_distinct_refuted) and within a millisecond; C77_ids_distinct proves it for times whose millisecond numbers have equally many digits."
  },
  {
   "property": "C78",
   "status": "proved",
   "theorems": [
    "C78_not_recreated"
   ],
   "note": "For ids requested at most once."
  },
  {
   "property": "C79",
   "status": "proved",
   "theorems": [
    "C79_round_times",
    "C79_rounds_apart",
    "C79_round_names",
    "C79_node_returns_complete",
    "C79_returned_shares",
    "C79_one_round",
    "C79_failure_panics",
    "C79_round_ids"
   ],
   "note": "For all outcomes of the rounds and all orders in which Go ranges over its maps. C79_node_returns_complete says it of the requests of the node model. The DKG library itself is not modelled."
  },
  {
   "property": "C80",
   "status": "proved",
   "theorems": [
    "C80_triples",
    "C80_outcome",
    "C80_every_document"
   ],
   "note": "Over the words the scanner delivers (bufio and time.Parse are not modelled); big.Int.SetString is."
  },
  {
   "property": "C81",
   "status": "proved",
   "theorems": [
    "C81_aliasing_safe"
   ],
   "note": ""
  },
  {
   "property": "C82",
   "status": "proved",
   "theorems": [
    "C82_duplicate_never_returns",
    "C82_every_request_returns_refuted"
   ],
   "note": "REFUTED as a property of the code: C82_every_request_returns_refuted is a concrete history; C82_duplicate_never_returns says when it happens."
  },
  {
   "property": "C83",
   "status": "proved",
   "theorems": [
    "C83_queues_fifo"
   ],
   "note": "For every reachable state."
  },
  {
   "property": "C84",
   "status": "proved",
   "theorems": [
    "C84_output_verifies",
    "C84_returned_verifies"
   ],
   "note": "Contract on the opaque key generator is the hypothesis well_dealt: the guest's own shares are values of committed polynomials of degree < T (right_share, DkgSpec.v). Nothing is assumed about other members or messages."
  },
  {
   "property": "C85",
   "status": "proved",
   "theorems": [
    "C85_output_finished",
    "C85_returned_finished"
   ],
   "note": "generator_of: a state reached from a generator made for a run of this guest by library calls only; a signing run's nonce share is stored under key generation too (C60), hence 'a run of that guest and id'."
  },
  {
   "property": "C86",
   "status": "proved",
   "theorems": [
    "C86_ended_run_forgets"
   ],
   "note": "The generator object, which kyber also hands the private key, stays with the run (C56)."
  },
  {
   "property": "C87",
   "status": "proved",
   "theorems": [
    "C87_silent_after_return",
    "C87_document_forgotten"
   ],
   "note": "For runs requested once (a duplicate id can have a second run). A late message is dropped or handled as a no-op."
  },
  {
   "property": "C88",
   "status": "proved",
   "theorems": [
    "C88_node_survives",
    "C88_signing_node_survives",
    "C88_any_requests_refuted"
   ],
   "note": "Contract on the opaque key generator: kyber_ok (deals and qualified sets name members; a share has a commitment). Setup: good_setup. REFUTED for an id used for two signing requests: C88_any_requests_refuted is a concrete history in which the first request deregisters the second one's document."
  },
  {
   "property": "C89",
   "status": "proved",
   "theorems": [
    "C89_requests_return",
    "C89_signing_requests_return"
   ],
   "note": "Fairness (fair_to) is a hypothesis about the Go scheduler and timers: each goroutine concerned runs again and again at arbitrarily late times. Assumes at least one guest. C89_requests_return assumes the node does not crash; C89_signing_requests_return proves that for signing nodes from the conditions of C88."
  },
  {
   "property": "C90",
   "status": "proved",
   "theorems": [
    "C90_deadline",
    "C90_none_late",
    "C90_sent_early",
    "C90_in_time"
   ],
   "note": "At the level of runs: arrival is delivery to the run by the queue's consumer, so time spent in queues and in the firewall counts as part of lat. timely: no sleep ends early; punctual d: none ends more than d late. C90_ex shows the bound of 70 ms to be exact."
  },
  {
   "property": "C91",
   "status": "proved",
   "theorems": [
    "C91_partial_sent",
    "C91_enough_partials",
    "C91_same_signature"
   ],
   "note": "At the level of runs. What the members hold when they get ready (SignSpec.v: sound, ready) is the outcome of key and nonce generation, which is kyber's. A forged message naming a ready member as sender is not excluded by the hypotheses: C91_enough_partials needs the real partial signature to be handled, and proves that it counts even then, since a partial is stored only with a valid signature of its sender."
  },
  {
   "property": "C92",
   "status": "proved",
   "theorems": [
    "C92_members_sign"
   ],
   "note": "Combines C90 and C91. Arrival is delivery to the run. C92_ex meets all hypotheses with two members and threshold 2."
  },
  {
   "property": "C93",
   "status": "proved",
   "theorems": [
    "C93_every_run_object",
    "C93_run_is_execution"
   ],
   "note": "Transfers the statements about runs (C44 to C54, C63, C65, C86, C90 to C92) to nodes: lives (ObjSpec.v) is the history of one run object."
  },
  {
   "property": "C94",
   "status": "proved",
   "theorems": [
    "C94_returns_last",
    "C94_returned_once",
    "C94_signature_returned"
   ],
   "note": "The key generation protocol inside a signing run stores its output under another protocol code (C60), so it is not returned."
  },
  {
   "property": "C95",
   "status": "proved",
   "theorems": [
    "C95_nodes_sign"
   ],
   "note": "C92 through C93 and C94, at the level of nodes. Arrival is delivery to the run. That the requests return at all is C89. C95_ex meets all hypotheses with two nodes and threshold 2."
  },
  {
   "property": "C96",
   "status": "proved",
   "theorems": [
    "C96_node_has_firewall",
    "C96_in_order_once",
    "C96_firewall_to_queue",
    "C96_arrivals_reach_run"
   ],
   "note": "C61, C62, C83 and C44 joined for a node: network, firewall, queue, consumer, run. The queue of a protocol and guest is shared by its runs, so a full queue can be another run's doing. C96_ex meets all hypotheses, with messages received, held and waiting."
  },
  {
   "property": "C97",
   "status": "proved",
   "theorems": [
    "C97_processes",
    "C97_queues",
    "C97_arrivals",
    "C97_run_to_run",
    "C97_stage_to_stage"
   ],
   "note": "C67 to C69 and C96 joined for several processes: run, outgoing queue, call, firewall, incoming queue, run. A message's sender is not authenticated by the code, so arrivals from outside in the member's name are excluded by hypothesis. For a key generation the sender must not be member 0, because the signal that removes a finished key generation is a message from sender 0. C97_stage_to_stage is the statement for one stage; that signal is for no stage that takes messages, so it holds for member 0 too. C97_ex: two processes, one message by a call that succeeds, one by a call that fails and comes in later."
  },
  {
   "property": "C98",
   "status": "proved",
   "theorems": [
    "C98_arrives_in_time",
    "C98_cluster_signs"
   ],
   "note": "C95 with its assumption on arrivals replaced by assumptions on calls, firewall and queue: the way of a message is followed through C67, C96 and C97. The assumptions speak of partial signatures under the id only. That the calls succeed, and that the firewall forwards when the messages come in, or buffers them and forwards in time, is assumed of the environment, since the code neither retries nor waits. C98_ex meets all hypotheses with two processes whose clocks differ by 2 ms, threshold 2, where other messages are lost; C98_ex_buffered those of C98_arrives_in_time with a message that comes in while the firewall buffers."
  },
  {
   "property": "C99",
   "status": "proved",
   "theorems": [
    "C99_run_computes",
    "C99_timing_irrelevant"
   ],
   "note": "The data-flow function of FlowSpec (steps and messages of one stage after the other, without clock, buffers or pauses) computes what the run does. C99_ex: the same message during its stage and four stages earlier."
  },
  {
   "property": "C100",
   "status": "proved",
   "theorems": [
    "C100_key_generated"
   ],
   "note": "What kyber's generator is expected to do is the record [works] of HonestSpec; the generator itself is not modelled (section 4). Justifications, complaints and reconstructions do not occur when nobody misbehaves. C100_ex: two members with a generator that keeps account of what it has been given, all messages under way for 10 ms."
  },
  {
   "property": "C101",
   "status": "proved",
   "theorems": [
    "C101_members_sign"
   ],
   "note": "C92 with its readiness assumption discharged by C100's argument. C101_ex: the two members of C100_ex sign with threshold 2, for every hash function of length 32."
  },
  {
   "property": "C102",
   "status": "proved",
   "theorems": [
    "C102_document_found"
   ],
   "note": "Removes from C101 and C103 any assumption about the maps read by st_init: the registration of the document outlives the run. C102_ex: a node of C95_ex, when its run is about to compute its partial signature."
  },
  {
   "property": "C103",
   "status": "proved",
   "theorems": [
    "C103_cluster_signs"
   ],
   "note": "Chains C96, C97 and C98 (network, firewall, queues), C100 (nonce generation), C102 (document and share) and C92/C95 (signing, return). The generator is assumed to work as in C100. C103_ex: two members in two processes generate a nonce and sign; every message between them goes through the network queue, the firewall and the incoming queue, and both requests return."
  },
  {
   "property": "C104",
   "status": "proved",
   "theorems": [
    "C104_secret_names",
    "C104_set_up",
    "C104_long_term_shares",
    "C104_starts_iff",
    "C104_every_threshold"
   ],
   "note": "File system, JSON, gob, time.Parse and listening are fields of the record [world], quantified over. Any number of arguments other than 6 behaves as key generation (C104_set_up: signs iff exactly one follows). Non-vacuity: demo_starts, launch_demo."
  },
  {
   "property": "C105",
   "status": "proved",
   "theorems": [
    "C105_file_names",
    "C105_keygen",
    "C105_generated_key_is_guest"
   ],
   "note": "keygen and the directory layout of signode meet: prefixes, encodings and the match of secret and public key. Non-vacuity: C105_ex."
  },
  {
   "property": "C106",
   "status": "proved",
   "theorems": [
    "C106_deployment"
   ],
   "note": "C106_ex: two hosts, each with the secret of its key file."
  },
  {
   "property": "C107",
   "status": "proved",
   "theorems": [
    "C107_deployed_processes_sign"
   ],
   "note": "C103 with all assumptions about the set-up of the processes derived from how they are launched (C104, C106). C107_ex: the two processes of C103_ex, launched from a configuration, key files, secrets and long-term key files; both requests return the signature."
  },
  {
   "property": "C108",
   "status": "proved",
   "theorems": [
    "C108_cluster_generates"
   ],
   "note": "C103's chain for key generation: C97 and C98 (network, firewall, queues) give the connectedness C100 asks for, and C85 that what is returned is what the run delivered. The generator is assumed to work as in C100. C108_ex: two members in two processes generate a key, every message between them goes through the network queue, the firewall and the incoming queue, and both requests return."
  },
  {
   "property": "C109",
   "status": "proved",
   "theorems": [
    "C109_generated_shares"
   ],
   "note": "C108 with the set-up derived from how the processes are launched (C106), and the loop of run_longterm (C79): the first round is the last. C109_ex: the two processes of C108_ex, launched from a configuration; each returns its member's share."
  },
  {
   "property": "C110",
   "status": "proved",
   "theorems": [
    "C110_generate_then_sign"
   ],
   "note": "C109 followed by save_longterms, load_longterms (C43, C104) and C107. The two deployments may use different generators. C110_ex: the processes of C109_ex, then those of C107_ex with the files of the former."
  },
  {
   "property": "C111",
   "status": "proved",
   "theorems": [
    "C111_stream_roundtrip",
    "C111_reads_what_is_next"
   ],
   "note": "Stream.v models MarshalTo, UnmarshalFrom and io.ReadFull over readers given as lists of chunks. C111_ex: a scalar, a point and a scalar written to a writer with exactly the room, read back from a reader that delivers one byte at a time, two more bytes left."
  },
  {
   "property": "C112",
   "status": "proved",
   "theorems": [
    "C112_short_stream",
    "C112_failed_write"
   ],
   "note": "Same model. C112_ex: a stream that fails after three bytes, a writer with room for three, and the point at infinity."
  },
  {
   "property": "C113",
   "status": "proved",
   "theorems": [
    "C113_reconnects",
    "C113_announcements",
    "C113_not_busy"
   ],
   "note": "Connect.v models the connecting goroutine with its delays and random numbers; handing over the interim nil takes no time, as the consumer waits for it. C113_ex: a peer down for 5 s, all dials and announcements computed."
  },
  {
   "property": "C114",
   "status": "proved",
   "theorems": [
    "C114_prompt_peer",
    "C114_sharp"
   ],
   "note": "Same model. C114_ex: a peer that comes up 2.3 s after the start is met with a connection at 2.304 s."
  },
  {
   "property": "C115",
   "status": "proved",
   "theorems": [
    "C115_prompt_peer_no_drops",
    "C115_same_announcements"
   ],
   "note": "Histories of Net.v whose connectors are those of Connect.v (ConnectSpec.timed). C115_ex: a history with a failing call and a second connector."
  },
  {
   "property": "C116",
   "status": "proved",
   "theorems": [
    "C116_source_is_used",
    "C116_compiled_file",
    "C116_stale_intermediate_file"
   ],
   "note": "Hostcomp.v models expand-config and translate-file on expressions; the reader, the printer and cl-json's text for a symbol are contracts. C116_ex: a source with other forms around it, and three refused ones."
  },
  {
   "property": "C117",
   "status": "proved",
   "theorems": [
    "C117_equal_coordinates",
    "C117_equal_is_equality",
    "C117_equal_public_keys",
    "C117_opposite"
   ],
   "note": "Equal of Secp.v. C117_ex: the base point, its negation and unreduced coordinates."
  },
  {
   "property": "C118",
   "status": "proved",
   "theorems": [
    "C118_nothing_lost",
    "C118_few_messages"
   ],
   "note": "Executions of Cluster.v in which the queue's connectors are those of Connect.v, with the times of the execution (ClockSpec.clocked). C118_ex: two processes; a peer that can be dialled 2.3 s after the start; a message sent by a signing run comes in."
  },
  {
   "property": "C119",
   "status": "proved",
   "theorems": [
    "C119_from_bytes",
    "C119_key_of_point",
    "C119_is_zero",
    "C119_uncompressed",
    "C119_must_hash",
    "C119_scalar_to_hash"
   ],
   "note": "Keys are byte strings (an array of 33 bytes in the code). C119_ex: the key of 2G, its uncompressed text, the zero key, ScalarToHash of 2."
  },
  {
   "property": "C120",
   "status": "proved",
   "theorems": [
    "C120_stages_in_time",
    "C120_ends_in_time",
    "C120_phases_not_early",
    "C120_open_from_buffering",
    "C120_open_when_made",
    "C120_open_while_running"
   ],
   "note": "punctual: each wake-up is late by at most d; the run is one of a node (lives, C93). The upper bounds need no bound on the timers of the firewall: if they are late, it closes later. C120_ex: a member that signs, from 0 to 650 ms; C120_ex_phases: a firewall in which every phase is entered."
  },
  {
   "property": "C121",
   "status": "proved",
   "theorems": [
    "C121_allowance",
    "C121_buffers_when_due",
    "C121_not_before_start",
    "C121_lets_in",
    "C121_cluster_signs",
    "C121_cluster_generates",
    "C121_timers_open"
   ],
   "note": "C121_allowance and C121_buffers_when_due: when buffering is due and that it then begins. open_by: what process j does from a time on is preceded by the end of the initial dropping and the beginning of buffering; comes_before: the messages come in before a time and find the buffer with room. Both are about times and counts only; lets_in, used in C98, C103 and C108, is derived. C121_ex: the two processes of C97, whose clocks differ by 2 ms and whose firewalls are up to 2 ms late. C121_ex_signs: the two members of C103, who sign, meet all assumptions of C121_cluster_signs. C121_ex_generates: the two members of C108 likewise for C121_cluster_generates. C121_timers_open: open_by follows from the events alone (timers_by: the timer of the initial dropping and the goroutine of the allowance have gone on); C121_ex_timers."
  },
  {
   "property": "C122",
   "status": "proved",
   "theorems": [
    "C122_returned_printed",
    "C122_printed_in_order",
    "C122_printed_after_the_runs",
    "C122_only_requests_print",
    "C122_outputs_printed",
    "C122_signature_form",
    "C122_signature_readable",
    "C122_signature_line",
    "C122_signature_line_verifies"
   ],
   "note": "Lines on standard output, each with the number of the request that printed it (the process does not print that number). tells: the lines of some guests for a request. fmt.Println and fmt's form of a pointer to a struct, of an array of bytes and of a big integer are modelled from their documentation; how a key share is printed is a parameter. A signature line names neither run nor guest; C122_signature_line_verifies has the assumptions of C84. C122_ex_verifies: they hold of a node that signs and prints two lines. Warnings, on standard error, are not modelled. C122_ex_sign, C122_ex_generate: the texts printed in the histories of C56; C122_ex_signature: the two members of C103 print their signatures; C122_ex_form."
  },
  {
   "property": "C123",
   "status": "proved",
   "theorems": [
    "C123_hex_form",
    "C123_hex_reads_back",
    "C123_text_forms",
    "C123_point_text",
    "C123_point_text_equal",
    "C123_scalar_text",
    "C123_kinds_differ"
   ],
   "note": "fmt's %x on a big integer is modelled from its documentation with the hexadecimal numerals of the standard library; that the digits denote the integer is proved, and set_string16 is the reader of the documents of C80. nil integers are not modelled. C123_ex: the base point and its negation, whose texts differ; their text in full."
  },
  {
   "property": "C124",
   "status": "proved",
   "theorems": [
    "C124_lengths",
    "C124_fresh",
    "C124_identifiers"
   ],
   "note": "A fresh point, unlike every other group element, fails to encode (see C07). Non-vacuity: C124_ex."
  }
 ]
}