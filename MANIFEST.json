{
 "claims": [
  {
   "property": "C01",
   "status": "proved",
   "theorems": [
    "C01_store_is_a_map"
   ],
   "note": ""
  },
  {
   "property": "C02",
   "status": "proved",
   "theorems": [
    "C02_storage_keys_distinct"
   ],
   "note": ""
  },
  {
   "property": "C03",
   "status": "proved",
   "theorems": [
    "C03_refused_call_changes_nothing",
    "C03_refused_call_changes_nothing_in_any_state"
   ],
   "note": ""
  },
  {
   "property": "C04",
   "status": "partial",
   "theorems": [
    "C04_found_by_string_key_partial",
    "C04_found_exactly",
    "C04_found_by_string_key_refuted"
   ],
   "note": "The text of the key finds the object if and only if it is below 128 bytes (C04_found_exactly); refuted for longer keys: the stored key then keeps part of the length prefix."
  },
  {
   "property": "C05",
   "status": "proved",
   "theorems": [
    "C05_field_encodings_injective",
    "C05_field_encodings_total"
   ],
   "note": ""
  },
  {
   "property": "C06",
   "status": "proved",
   "theorems": [
    "C06_listing_is_exact"
   ],
   "note": ""
  },
  {
   "property": "C07",
   "status": "partial",
   "theorems": [
    "C07_first_criterion_decides_partial",
    "C07_all_criteria_and_range_refuted"
   ],
   "note": "Refuted: only the first match field is used and Start/End are ignored. The _partial theorem says exactly what the code answers: the first criterion decides if every criterion means something, otherwise the call is an error."
  },
  {
   "property": "C08",
   "status": "proved",
   "theorems": [
    "C08_text_query_is_exact",
    "C08_other_text_is_refused",
    "C08_text_as_typed"
   ],
   "note": ""
  },
  {
   "property": "C09",
   "status": "proved",
   "theorems": [
    "C09_scan_meets_only_its_entries"
   ],
   "note": ""
  },
  {
   "property": "C10",
   "status": "partial",
   "theorems": [
    "C10_index_key_roundtrip",
    "C10_index_list_roundtrip",
    "C10_decoded_key_is_complete",
    "C10_decoded_list_is_complete_partial",
    "C10_damage_is_reported_refuted"
   ],
   "note": "Round trips and completeness of decoded keys proved. Refuted for damaged lists (a list cut at an item boundary decodes to the empty list) and for huge lengths (panic)."
  },
  {
   "property": "C11",
   "status": "partial",
   "theorems": [
    "C11_registrable_types_partial",
    "C11_registrable_types_refuted"
   ],
   "note": "Proved for the message's own fields; refuted for nested messages, which are never inspected."
  },
  {
   "property": "C12",
   "status": "proved",
   "theorems": [
    "C12_lookups_agree_with_accepted",
    "C12_second_registration_refused",
    "C12_accepted_names_unique",
    "C12_listings_are_exact"
   ],
   "note": ""
  },
  {
   "property": "C13",
   "status": "proved",
   "theorems": [
    "C13_dependencies"
   ],
   "note": ""
  },
  {
   "property": "C14",
   "status": "proved",
   "theorems": [
    "C14_prefix_iteration"
   ],
   "note": ""
  },
  {
   "property": "C15",
   "status": "proved",
   "theorems": [
    "C15_deliveries_authorized",
    "C15_programs_authorized",
    "C15_transaction_handlers_authorized",
    "C15_refused_create",
    "C15_refused_update",
    "C15_refused_delete",
    "C15_refused_delivery",
    "C15_refused_delivery_without_admission"
   ],
   "note": ""
  },
  {
   "property": "C16",
   "status": "proved",
   "theorems": [
    "C16_stages_in_order",
    "C16_unknown_transition",
    "C16_fuel_irrelevant"
   ],
   "note": ""
  },
  {
   "property": "C17",
   "status": "proved",
   "theorems": [
    "C17_one_handler",
    "C17_registration_answers",
    "C17_admission_in_order",
    "C17_pre_in_order",
    "C17_post_in_order",
    "C17_known_transitions"
   ],
   "note": ""
  },
  {
   "property": "C18",
   "status": "partial",
   "theorems": [
    "C18_errors_surface_refuted",
    "C18_errors_surface_partial",
    "C18_operations_partial",
    "C18_lists_partial"
   ],
   "note": "Refuted: creating an object that exists, an empty or oversize key and some lists panic instead of answering an error. The _partial theorems say what every call after every history answers: success and not found as a map would, everything else ends the process."
  },
  {
   "property": "C19",
   "status": "proved",
   "theorems": [
    "C19_client_identity",
    "C19_application_identity"
   ],
   "note": ""
  },
  {
   "property": "C20",
   "status": "proved",
   "theorems": [
    "C20_names",
    "C20_several_names",
    "C20_union",
    "C20_union_order_independent",
    "C20_union_well_formed",
    "C20_constructors_well_formed",
    "C20_users",
    "C20_listing"
   ],
   "note": ""
  },
  {
   "property": "C21",
   "status": "proved",
   "theorems": [
    "C21_genesis_once",
    "C21_genesis_order"
   ],
   "note": ""
  },
  {
   "property": "C22",
   "status": "proved",
   "theorems": [
    "C22_store_unchanged",
    "C22_answers"
   ],
   "note": ""
  },
  {
   "property": "C23",
   "status": "proved",
   "theorems": [
    "C23_build_succeeds_iff",
    "C23_objects",
    "C23_handlers",
    "C23_handler_lists",
    "C23_other_parts"
   ],
   "note": ""
  },
  {
   "property": "C24",
   "status": "proved",
   "theorems": [
    "C24_start",
    "C24_stop",
    "C24_stop_crash"
   ],
   "note": ""
  },
  {
   "property": "C25",
   "status": "proved",
   "theorems": [
    "C25_codes",
    "C25_errors_never_success"
   ],
   "note": ""
  },
  {
   "property": "C26",
   "status": "proved",
   "theorems": [
    "C26_allows_exactly_what_roles_grant"
   ],
   "note": ""
  },
  {
   "property": "C27",
   "status": "partial",
   "theorems": [
    "C27_roles_of_descriptors_partial",
    "C27_roles_of_the_application",
    "C27_module_may_do_what_it_declares",
    "C27_long_name_refuted"
   ],
   "note": "Proved for every list of descriptors, for modules whose name is below 123 bytes, and for the application. Refuted for longer names: the module is left without a role."
  },
  {
   "property": "C28",
   "status": "proved",
   "theorems": [
    "C28_internal_message_refused",
    "C28_transaction_stops_there"
   ],
   "note": ""
  },
  {
   "property": "C29",
   "status": "proved",
   "theorems": [
    "C29_roles_and_bindings_immutable"
   ],
   "note": ""
  },
  {
   "property": "C30",
   "status": "partial",
   "theorems": [
    "C30_role_admission_partial",
    "C30_identifier_is_new_partial",
    "C30_binding_admission",
    "C30_long_identifier_refuted"
   ],
   "note": "Proved exactly, where an identifier is new if Get finds no role for it; that is the same as no role having it for identifiers below 128 bytes. Refuted for longer ones, which are admitted again. Bindings: proved (an empty role name ends the process, see C65)."
  },
  {
   "property": "C31",
   "status": "partial",
   "theorems": [
    "C31_supply_exists",
    "C31_transfer_conserves_partial",
    "C31_fee_conserves",
    "C31_chain_conserves_partial",
    "C31_supply_refuted",
    "C31_supply_any_length",
    "C31_supply_failed_any_length",
    "C31_failed_transfer_refuted"
   ],
   "note": "Proved for chains whose transfers name receivers below 128 bytes. Refuted for longer receivers: a history of three transfers makes the supply grow. For addresses of any length the change of the supply by one transfer is given exactly (C31_supply_any_length, C31_supply_failed_any_length); a failed transfer can also lose coins."
  },
  {
   "property": "C32",
   "status": "proved",
   "theorems": [
    "C32_transfer_is_affordable",
    "C32_overspending_has_no_effect"
   ],
   "note": ""
  },
  {
   "property": "C33",
   "status": "partial",
   "theorems": [
    "C33_transfer_moves_exactly_partial",
    "C33_failed_transfer_moves_nothing_partial",
    "C33_third_party_refuted",
    "C33_stored_where_looked_for",
    "C33_transfer_any_length",
    "C33_failed_transfer_any_length",
    "C33_shelves_differ"
   ],
   "note": "Proved for addresses below 128 bytes and, for failures, receivers whose balance can be read. Refuted for longer receivers: a third address gets a balance. For addresses of any length the effect of a transfer, successful or failed, is given exactly (C33_transfer_any_length, C33_failed_transfer_any_length). No two addresses share a place (C33_shelves_differ)."
  },
  {
   "property": "C34",
   "status": "partial",
   "theorems": [
    "C34_balance_falls_only_if_named_partial",
    "C34_sender_signs_refuted"
   ],
   "note": "Proved: a balance falls only in an admitted transaction that names the address as payer or sender, by no more than it names. Refuted: the sender need not sign."
  },
  {
   "property": "C35",
   "status": "proved",
   "theorems": [
    "C35_numbers_in_order",
    "C35_numbers_distinct",
    "C35_creation_takes_next_number"
   ],
   "note": ""
  },
  {
   "property": "C36",
   "status": "proved",
   "theorems": [
    "C36_no_replay"
   ],
   "note": ""
  },
  {
   "property": "C37",
   "status": "proved",
   "theorems": [
    "C37_sign_bytes_are_a_sign_doc",
    "C37_sign_bytes_injective"
   ],
   "note": "The hash and the signature scheme are parameters; the bytes to sign are injective in all four parts."
  },
  {
   "property": "C38",
   "status": "proved",
   "theorems": [
    "C38_admission_is_exact"
   ],
   "note": ""
  },
  {
   "property": "C39",
   "status": "partial",
   "theorems": [
    "C39_decodes_exactly",
    "C39_other_bytes_refused_partial",
    "C39_other_bytes_refused_refuted"
   ],
   "note": "The decoder accepts exactly the transaction format; other bytes give an error unless a signer's key has not 33 bytes. Refuted in that case: the decoder panics."
  },
  {
   "property": "C40",
   "status": "proved",
   "theorems": [
    "C40_inadmissible_has_no_effect",
    "C40_undecodable_has_no_effect"
   ],
   "note": ""
  },
  {
   "property": "C41",
   "status": "partial",
   "theorems": [
    "C41_fee_charged_once_partial",
    "C41_payer_signs_refuted",
    "C41_fee_any_length",
    "C41_fee_charged_refuted"
   ],
   "note": "The fee moves exactly once from the payer to the collector, for payers below 128 bytes. Refuted: the payer need not sign. For payers of any length the effect is given exactly (C41_fee_any_length); a payer whose balance is stored under another key makes an admissible transaction that nobody pays for (C41_fee_charged_refuted)."
  },
  {
   "property": "C42",
   "status": "proved",
   "theorems": [
    "C42_sequences_advance_by_one"
   ],
   "note": ""
  },
  {
   "property": "C43",
   "status": "proved",
   "theorems": [
    "C43_height_and_stage_follow_calls"
   ],
   "note": ""
  },
  {
   "property": "C44",
   "status": "proved",
   "theorems": [
    "C44_check_changes_nothing"
   ],
   "note": ""
  },
  {
   "property": "C45",
   "status": "partial",
   "theorems": [
    "C45_set_only_in_two_stages",
    "C45_end_of_block_reports_partial",
    "C45_reported_again_refuted",
    "C45_accepted_exactly"
   ],
   "note": "Accepted in exactly the two stages, stored exactly, reported by the end of the block. Refuted: they are reported again by every later end of block, as nothing removes them."
  },
  {
   "property": "C46",
   "status": "partial",
   "theorems": [
    "C46_transaction_is_its_parts",
    "C46_no_message_effects_refuted"
   ],
   "note": "DeliverTx is admission, fee and then each message in order. Refuted: the effects of messages before the failing one stay."
  },
  {
   "property": "C47",
   "status": "proved",
   "theorems": [
    "C47_written_signature",
    "C47_read_signature",
    "C47_generated_key",
    "C47_key_from_secret",
    "C47_accepted_exactly",
    "C47_twin_refused",
    "C47_chain_refuses"
   ],
   "note": "Model of the pure Go build (secp256k1_nocgo.go). Signatures written and read exactly, accepted signatures characterised, twin refused, generated keys in range, and on the chain transactions with other signatures are refused without effect. Public-key parsing, hash and point arithmetic are parameters."
  },
  {
   "property": "C48",
   "status": "partial",
   "theorems": [
    "C48_get_answers_what_is_stored_partial",
    "C48_other_verbs",
    "C48_every_path",
    "C48_crash_refuted",
    "C48_slash_refuted"
   ],
   "note": "Get answers are the stored object or not-found, other verbs and malformed paths are answered as specified, and no query changes the state. The full claim is refuted twice: a query for an object holding a type URL that the JSON writer cannot resolve (the genesis account of a started node) crashes, and keys containing a slash are cut at the slash."
  },
  {
   "property": "C49",
   "status": "partial",
   "theorems": [
    "C49_get_by_key_partial",
    "C49_get_singleton",
    "C49_list_partial",
    "C49_bad_height",
    "C49_no_effect",
    "C49_reachable",
    "C49_slash_key_refuted",
    "C49_capital_key_refuted"
   ],
   "note": "Keys, singletons and lists are answered exactly as the texts of the request mean, malformed texts are refused. Refuted: height, start and end change nothing (C49_no_effect), only the first selection counts, empty or full lists cannot be asked for, and objects whose key has a slash or whose key name has a capital letter cannot be read (C49_reachable says exactly which can)."
  },
  {
   "property": "C50",
   "status": "partial",
   "theorems": [
    "C50_keyless_account_never_sends_refuted"
   ],
   "note": "Refuted: an account opened by a transfer has no public key and can never sign; proved for every later history."
  },
  {
   "property": "C51",
   "status": "proved",
   "theorems": [
    "C51_addition_exact",
    "C51_addition_overflow",
    "C51_subtraction_exact",
    "C51_subtraction_refused",
    "C51_results_normal",
    "C51_print_parse"
   ],
   "note": ""
  },
  {
   "property": "C52",
   "status": "partial",
   "theorems": [
    "C52_successful_message_is_admitted_partial",
    "C52_refused_message_refuted"
   ],
   "note": "Proved: a message that succeeds would have been admitted. Refuted: a message that admission refuses is run."
  },
  {
   "property": "C53",
   "status": "proved",
   "theorems": [
    "C53_nodes_agree",
    "C53_next_call"
   ],
   "note": "For whole call histories from InitChain on and any two ways of listing each user set: equal answers, equal validator updates and stores that answer alike. Decoded transactions never have a user with an empty name; for sets with one the role module's decision depends on the order (example beside the theorem)."
  },
  {
   "property": "C54",
   "status": "proved",
   "theorems": [
    "C54_messages_read_exactly",
    "C54_text_checked_exactly"
   ],
   "note": ""
  },
  {
   "property": "C55",
   "status": "proved",
   "theorems": [
    "C55_objects_read_back",
    "C55_objects_written",
    "C55_objects_read_exactly",
    "C55_objects_written_as_messages"
   ],
   "note": ""
  },
  {
   "property": "C56",
   "status": "proved",
   "theorems": [
    "C56_addresses_are_texts",
    "C56_addresses_are_short",
    "C56_addresses_identify"
   ],
   "note": "The hash is a parameter with results of 20 bytes."
  },
  {
   "property": "C57",
   "status": "proved",
   "theorems": [
    "C57_signed_is_accepted"
   ],
   "note": "Under curve_ok (group laws, inverses, nonces in range) and points that read back; ECDSA of btcec over those operations is modelled. That secp256k1 meets curve_ok is not proved."
  },
  {
   "property": "C58",
   "status": "partial",
   "theorems": [
    "C58_on_curve",
    "C58_sum",
    "C58_double",
    "C58_defined_exactly",
    "C58_jacobian_sum",
    "C58_jacobian_double",
    "C58_affine",
    "C58_stays_on_curve",
    "C58_commutes",
    "C58_group_refuted",
    "C58_neutral_refuted"
   ],
   "note": "Exact for every odd modulus: Add and Double return the chord's or tangent's point exactly when the slope exists and panic otherwise; Jacobian formulas, closure and commutativity. Refuted: Add panics for a point with itself or its opposite, and (0, 0) is not neutral on secp256k1."
  },
  {
   "property": "C59",
   "status": "partial",
   "theorems": [
    "C59_written_number",
    "C59_reads_back",
    "C59_accepted_exactly",
    "C59_one_text",
    "C59_only_points_refuted",
    "C59_injective_refuted"
   ],
   "note": "Round trip both ways and exact acceptance. Refuted: Unmarshal accepts coordinates off the curve; Marshal loses the sign (and what does not fit)."
  },
  {
   "property": "C60",
   "status": "proved",
   "theorems": [
    "C60_scalar",
    "C60_leading_zeros",
    "C60_sign",
    "C60_recover",
    "C60_verify",
    "C60_sign_then_verify",
    "C60_compressed",
    "C60_compressed_length"
   ],
   "note": "For every behaviour of the C functions called; they are parameters. secp256k1_cgo.go, which would call this package, imports the SDK's internal package and declares its method on another receiver, so it does not build and is not modelled."
  },
  {
   "property": "C61",
   "status": "proved",
   "theorems": [
    "C61_starts",
    "C61_one_object",
    "C61_singleton",
    "C61_many_objects",
    "C61_nowhere_else",
    "C61_reachable"
   ],
   "note": "For every running node, with the answers in terms of what the node reads; objects protojson cannot write abort the connection. C61_reachable says which objects can be asked for. The document about the routes, built at the same time, is C62-C64."
  },
  {
   "property": "C62",
   "status": "proved",
   "theorems": [
    "C62_paths_exact",
    "C62_operations",
    "C62_application"
   ],
   "note": "For all descriptors and orders, and for the application against the served paths of C61."
  },
  {
   "property": "C63",
   "status": "partial",
   "theorems": [
    "C63_schemas_partial",
    "C63_references_partial",
    "C63_types_partial",
    "C63_references_refuted",
    "C63_types_refuted"
   ],
   "note": "For messages not declared within messages and lists whose files differ. Refuted for the application: the list of role bindings is referred to and not described, since the file forged for it has the path of that for roles; 64-bit numbers are said to be integers and sent as texts."
  },
  {
   "property": "C64",
   "status": "partial",
   "theorems": [
    "C64_ends_partial",
    "C64_same_document_partial",
    "C64_recursive_message_refuted",
    "C64_application_refuted"
   ],
   "note": "Ends when no message contains itself; the same document for all orders. Refuted: a message that contains only itself, in every order; the application, in one order."
  },
  {
   "property": "C65",
   "status": "partial",
   "theorems": [
    "C65_init_chain_succeeds",
    "C65_init_chain_succeeds_protobuf",
    "C65_begin_block_succeeds",
    "C65_end_block_succeeds",
    "C65_block_calls_succeed_protobuf",
    "C65_check_tx_answers_partial",
    "C65_check_tx_answers_refuted"
   ],
   "note": "InitChain of a new node, BeginBlock and EndBlock always succeed, unless an object cannot be stored (with protobuf: has 2^63 bytes; the name of the chain must be UTF-8). CheckTx: for transactions whose role bindings name a role; refuted without: a signed MsgBindRole with an empty role ends the process in CheckTx."
  },
  {
   "property": "C66",
   "status": "partial",
   "theorems": [
    "C66_any_length_stops_exactly",
    "C66_short_addresses",
    "C66_deliver_tx_stops_exactly",
    "C66_messages_stop_exactly",
    "C66_fee_answers",
    "C66_deliver_tx_answers_partial",
    "C66_deliver_tx_answers_protobuf_partial",
    "C66_deliver_tx_answers_refuted"
   ],
   "note": "Messages with addresses below 128 bytes end the process exactly when they are fatal (receiver is a module, empty address, existing account, no account), proved in both directions. DeliverTx answers for tame transactions. Refuted: a transaction accepted by CheckTx that pays a module's name ends the process. For addresses of any length the fatal messages are given exactly too (C66_any_length_stops_exactly): a second payment to an address of 128 bytes ends the process. So are the transactions at which DeliverTx ends the process (C66_deliver_tx_stops_exactly)."
  },
  {
   "property": "C67",
   "status": "proved",
   "theorems": [
    "C67_transfer_any_length_is_made",
    "C67_fee_is_paid",
    "C67_payments_are_made",
    "C67_payments_are_made_protobuf"
   ],
   "note": "From every state reachable with orderly balances; unless an object cannot be stored (with protobuf: has 2^63 bytes)."
  },
  {
   "property": "C68",
   "status": "proved",
   "theorems": [
    "C68_node_follows_plain",
    "C68_plain_is_followed"
   ],
   "note": "For all histories, both directions. The plain node is the same model of the runtime and modules on a map (Spec/PlainSpec.v). Programs of the application never list objects, so listing is not compared (C06 covers it)."
  },
  {
   "property": "C69",
   "status": "proved",
   "theorems": [
    "C69_signed_payment_is_read",
    "C69_signed_payment_is_admitted",
    "C69_signed_payment_is_made",
    "C69_sign_is_made",
    "C69_sign_reads_digits",
    "C69_sign_works_once",
    "C69_genesis_account_stays"
   ],
   "note": "Protobuf codec; the private key's operations are parameters (public key of 33 bytes, signatures that verify). The encoding of the SDK's transaction builder is written from knowledge of v0.42.4. Succeeds unless an object has 2^63 bytes. sign.go ignores the error of SetMsgs, which is modelled as not failing."
  },
  {
   "property": "C70",
   "status": "proved",
   "theorems": [
    "C70_deliver_tx_moves_exactly"
   ],
   "note": "Any codec that decodes what it encodes. Receivers of 128 bytes and more are excluded (C04, C31). Stopped processes are C66."
  },
  {
   "property": "C71",
   "status": "proved",
   "theorems": [
    "C71_node_shows_the_book",
    "C71_next_call",
    "C71_deliver_tx_stops_exactly"
   ],
   "note": "Any codec that decodes what it encodes. Coins of at most 255 bits; transactions name addresses below 128 bytes (longer ones: C04, C31). For CheckTx one direction: an accepted one is accepted by the program. Where the program answers, the node may still end if a stored object exceeds the size limit of the database (C66)."
  },
  {
   "property": "C72",
   "status": "partial",
   "theorems": [
    "C72_get_prints_what_is_stored_partial",
    "C72_get_of_any_arguments",
    "C72_too_few_arguments",
    "C72_resources",
    "C72_other_object_refuted"
   ],
   "note": "Proved for arguments without a slash, and exactly what happens for all others. Refuted: a name with a slash prints another object (C72_other_object_refuted); two arguments crash the client (C72_too_few_arguments)."
  },
  {
   "property": "C73",
   "status": "partial",
   "theorems": [
    "C73_accepts",
    "C73_definitions",
    "C73_get_asks_for_the_key_partial",
    "C73_get_of_a_singleton",
    "C73_client_methods",
    "C73_client_set",
    "C73_accessors",
    "C73_application",
    "C73_registrable_refuted",
    "C73_number_key_refuted",
    "C73_plural_refuted",
    "C73_two_files"
   ],
   "note": "Proved: exactly which messages are accepted, the definitions and schemas written, the IDs asked for, the names of the client set, and all of it for the application. Refuted: accepted objects that the registry refuses, number keys and plurals that do not compile, two files in one package. Keys of 128 bytes and more are not found (C04). The Go text is modelled as a list of declarations."
  },
  {
   "property": "C74",
   "status": "partial",
   "theorems": [
    "C74_same_after_restart",
    "C74_passes_after_restart_refuted",
    "C74_hash_refuted",
    "C74_info_refuted"
   ],
   "note": "Proved: the same objects and the same answers ever after. Refuted: a call that ended the process (other than CheckTx) ends every later process too, so a transaction such as the one of C66 stops the chain for good; Commit answers one hash for all states; Info always says height 0."
  },
  {
   "property": "C75",
   "status": "partial",
   "theorems": [
    "C75_public_key_reads_back",
    "C75_public_key_accepted_exactly",
    "C75_public_key_one_text_partial",
    "C75_public_key_one_text_refuted",
    "C75_first_address_partial",
    "C75_address_refuted",
    "C75_verifies_exactly",
    "C75_changed_signature_refuted",
    "C75_own_signature",
    "C75_private_key_accepted_exactly",
    "C75_private_key_reads_back",
    "C75_marshal_to",
    "C75_shown"
   ],
   "note": "Proved over any curve, square root, hash and signature functions (those assumed of them are hypotheses). Refuted: any bytes may follow an accepted signature (also inside the sequence); the address is kept when another name is given or another key is read into the same place; points with second coordinate 0 have two texts (P-256 has none). Noted in the exact statements: private keys 0 and above the order are accepted, a buffer too short is filled without an error, an empty text of expected length 0 panics."
  },
  {
   "property": "C76",
   "status": "partial",
   "theorems": [
    "C76_starts",
    "C76_posts_partial",
    "C76_post_stays",
    "C76_second_post_refuted"
   ],
   "note": "Proved: every sequence of deliveries ends as on a board with room for one post, and what can be read and listed is what is there; a post stays. Refuted: the number is never advanced, so once there is a post every further message that passes admission ends the process. The module alone is modelled, without the runtime and abci modules that a builder adds."
  },
  {
   "property": "C77",
   "status": "proved",
   "theorems": [
    "C77_one_node_or_one_error",
    "C77_commands_ask_the_node",
    "C77_refused_commands_read_nothing",
    "C77_place_of_the_file",
    "C77_get_prints_what_the_node_holds"
   ],
   "note": "The environment, the files, the YAML reader and http.New are parameters that give an error or a value. filepath.Join and Clean are written from knowledge of go1.16. A path is followed by its names, so symbolic links are not seen. sync.Once is modelled for commands run one after the other."
  }
 ]
}