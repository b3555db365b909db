# Formal model of tmos (allinbits/cosmos-sdk-poc) in Rocq

`properties.jsonl` states the properties, `MANIFEST.json` maps each of them to
its theorems, `seeded/LOG.jsonl` records the wrong programs the theorems were
tried against. The first version of this file, with the plan, was committed
before the proofs.

Build: `cd rocq && coq_makefile -f _CoqProject -o Makefile && make -j4`.

## 1. Shape of the model

Everything is total, computable Gallina. A Go function becomes a function
returning `res A = Ok a | Fail e | Panic | OutOfFuel`, together with the
(possibly already modified) state, because the code has no rollback. A Go
`panic` is the value `Panic`. A Go `error` is `Fail e`, where `e` records the
sentinel errors it wraps. Nil pointers are `option`s.

Handlers are an inductive type of *programs*: return, fail, panic, Get, List,
Create, Update, Delete, Deliver, each with a continuation. The runtime is an
interpreter of programs. Theorems about authorization, delivery stages and
routing quantify over all programs, that is over all applications. Theorems
about roles, bank, accounts and blocks are about the application built in
`testapp/app/app.go`, whose handlers are transcribed from the code. Nested
deliveries use fuel; running out of it is an outcome of its own, and theorems
hold for every fuel.

The directories under `rocq/theories`:

| directory | holds |
|---|---|
| Model | the code, function by function, each definition citing file and lines; no proofs |
| Spec | what the theorems speak of, written without the helpers of the model; concrete cases (Demo*) |
| Proofs | lemmas |
| Props | the property theorems only, each with `Print Assumptions` and concrete cases beside it |

The layers of the model, bottom up:

| files in Model | code in /repo |
|---|---|
| Bytes, Strings, Errors | Go strings, errors; strings, strconv; runtime/errors, runtime/orm/errors.go |
| Wire, Proto, Marshal | protobuf as called by the code: wire format, UTF-8, the messages stored and signed |
| KindEncoder, Desc | pkg/protoutils/kindencoder/kindencoder.go, pkg/protoutils/desc |
| Schema | core/schema, core/meta, runtime/orm/schema |
| KV, Objects, Indexes, Orm | runtime/kv/badger.go, runtime/orm/** |
| Users, Services | runtime/authentication/user, runtime/services.go |
| Prog, Router, Runtime, Client | runtime/client, runtime/router.go, runtime/runtime.go, runtime/client.go, runtime/statetransition |
| Module, Builder | runtime/module, runtime/builder.go, runtime/authorization/default.go |
| Universe | the generated types: *.pb.go and *.starport.go of the application |
| CoreModules, Rbac | core/runtime, core/abci, core/rbac |
| Coin, Bank, Authn, Distribution | core/coin, x/bank, x/authn, x/distribution |
| Bech32, TxDecoder, Secp256k1, Curve | x/authn/tx, x/authn/crypto, x/authn/crypto/secp256k1, x/authn/crypto/secp256k1/internal/secp256k1 |
| TestApp, Abci | testapp/app, testapp/module/module.go, runtime/abci.go |
| Query, ApiServer, ApiService | runtime/query.go, core/apiserver/router/server.go and types.go, core/apiserver/module.go |
| OpenApi, ProtoFiles | core/apiserver/router/openapi.go, pkg/protoutils/oas3schema, pkg/protoutils/forge/list.go; the .proto files of the application's messages (generated from them by gen/gen.py) |
| Cli | pkg/client/client.go, pkg/spfcli/get.go and resources.go |
| Codegen, ProtoOptions | pkg/modulecodegen as a function from messages to Go declarations; the options of the application's .proto files |
| Ecdsa | x/authn/crypto/internal/ecdsa; of the library: encoding/asn1 for two numbers, elliptic.MarshalCompressed and UnmarshalCompressed, FillBytes |
| Posts | testdata/testmodule |
| Config | pkg/spfcli/config.go, clicontext.go; filepath.Join and Clean |
| Restart | runtime/abci.go Info and Commit's hash; the store is in memory |
| Sign | testapp/module/sign.go and the encoding of the SDK's transaction builder it calls |
| (Proofs) LedgerFacts | no new code: exact balances after a transaction (C70) |
| (Spec) MachineSpec | no new code: the reference program of C71; MachineFacts and MachineStops prove that the node refines it |
| (Proofs) TotalExec, TotalRun, TotalChain, TotalNode, LiveFacts, LiveProto, LiveInit, ExactSim, PlainFacts | no new code: which of the panics in the above can be reached (C65 to C67), comparison with a plain map of objects (C68) |

The main links between the layers are proved once and used by all properties:

- the byte-level store refines a finite map of objects (`run_refines`);
- a program run on the byte-level store does what it does on the map
  (Proofs/SimFacts.v, AppSim.v);
- a node reached by any history of consensus calls is `tracked` by such a map
  with invariants (Proofs/ChainHist.v, ChainView.v);
- protobuf marshalling and the transaction decoder meet the assumptions `sound`
  of the chain theorems (`protobuf_sound`, Proofs/DecoderFacts.v).

## 2. Properties

Status `partial` means the property as stated is false of the code, or not
proved in full: `..._refuted` theorems give the counterexample and `..._partial`
theorems what does hold. `MANIFEST.json` says for each what is missing.

| id | property | how | status |
|---|---|---|---|
| C01 | Object store behaves as a map keyed by type and primary key | byte-level store refines a finite map (type, encoded key) -> object; simulation over arbitrary lists of calls | proved |
| C02 | Two different objects never share a storage location | injectivity of type prefix, "/" and encoded key for names without "/" | proved |
| C03 | A refused store call changes nothing | byte-level state is returned unchanged, for represented states and for arbitrary ones | proved |
| C04 | An object is found again by the text of its string primary key | proved up to 127 bytes; refuted by a 128-byte key | partial |
| C05 | Field encodings are injective | injectivity per kind from varint injectivity; strings by length argument | proved |
| C06 | Listing by an indexed field returns exactly the live objects with that value | index entries are exactly the fields of live objects: invariant of every call; List characterised by it | proved |
| C07 | Listing honours every match field and the requested range | refuted (second match field and range ignored); exact answer of the code proved | partial |
| C08 | Text queries and typed queries select the same objects | parser/printer round trip and parser soundness for decimal, bool, base64 | proved |
| C09 | Index entries of one query never leak into another | prefix lemma for length-prefixed fields | proved |
| C10 | Index bookkeeping encodings round-trip | round trips; damaged input refuted twice | partial |
| C11 | Only storable types can be registered | decision procedure against declarative predicate; own fields proved, nested ones refuted | partial |
| C12 | The schema registry answers consistently | invariant over registration lists | proved |
| C13 | Collected file dependencies are complete, unique and ordered | depth-first search over acyclic graphs: set, uniqueness, topological order | proved |
| C14 | Prefix iteration visits exactly the keys with the prefix, in order | sortedness + membership of filtered sorted key list | proved |
| C15 | No effect without authorization | ghost trace of authorizer answers and writes, for all applications and handler programs | proved |
| C16 | Delivery runs its stages in order and stops at the first failure | trace shape theorem of deliver for arbitrary handlers | proved |
| C17 | Routing is unambiguous and keeps registration order | invariant over registration lists | proved |
| C18 | Failing store operations surface as errors, not as crashes | which store outcomes are errors; crash witnesses | partial |
| C19 | Modules act under their own name | users of each trace event of any module program | proved |
| C20 | User sets obey set semantics | set algebra | proved |
| C21 | Genesis runs at most once and installs every module in order | state machine of InitGenesis | proved |
| C22 | The read-only client never modifies state | by definition of client over arbitrary call lists | proved |
| C23 | A built application is closed under its declared dependencies | soundness of Build against a declarative closedness predicate | proved |
| C24 | Services start in order and all are asked to stop | induction on the list of services | proved |
| C25 | Error classes map to stable result codes | induction on wrapping | proved |
| C26 | The role-based authorizer allows exactly what the users' roles grant | authorizer decision iff declarative `granted` relation | proved |
| C27 | After genesis module roles grant exactly the declared permissions | roles built from any descriptor list; what the built application's modules may do; refuted for names of 123 bytes and more | partial |
| C28 | Transactions of ordinary accounts cannot run internal transitions | authorizer denies internal messages for users bound to no module, any call history | proved |
| C29 | Roles and role bindings are immutable for outsiders | invariant over call histories | proved |
| C30 | Role creation is admitted only for well-formed roles | iff characterisation of the admission program | partial |
| C31 | Transfers conserve total supply | sum over all balances is invariant over call histories; refuted with receivers of 128 bytes and more | partial |
| C32 | No account can spend more than it holds | symbolic execution of the transfer program | proved |
| C33 | A transfer affects only its two parties | symbolic execution of the transfer program | partial |
| C34 | Coins leave an account only with its owner's consent | history invariant: balances fall only by what an admitted transaction names; refuted: sender need not sign | partial |
| C35 | Account numbers are unique and consecutive | invariant over histories | proved |
| C36 | A signed transaction takes effect at most once | sequences never fall and an admitted transaction raises them: a second delivery of the same bytes is refused | proved |
| C37 | Signatures bind the whole transaction, chain and account | injectivity of the protobuf SignDoc encoding | proved |
| C38 | Transaction limits are enforced at their exact boundaries | admission succeeds iff a declarative list of conditions holds | proved |
| C39 | Malformed transactions are rejected by the decoder | decoder accepts exactly the bytes of an independent format relation; crash on other key lengths refuted | partial |
| C40 | A transaction that fails admission has no effect | frame over decoding and admission failures | proved |
| C41 | The fee is charged exactly once per admitted transaction, to a signer | exact effect of the post-authentication chain; refuted: payer need not be a signer | partial |
| C42 | Each signer's sequence advances by exactly one per admitted transaction | exact effect on accounts, frame | proved |
| C43 | Block height and stage follow the consensus calls | stored height and stage after any call history | proved |
| C44 | CheckTx never changes state | frame theorem | proved |
| C45 | Validator updates are accepted only in the allowed stages and reported once | stage guard; refuted: reported again in each later block | partial |
| C46 | A failed transaction has no message effects | DeliverTx = admission, post-authentication, then each message in order; atomicity refuted | partial |
| C47 | Signature and key formats are canonical and in range | byte formats and ranges by arithmetic; curve operations and hash are parameters; chain refuses other forms | proved |
| C48 | Queries answer with the stored object or an error | answers of Query on every path; crash and slash refuted | partial |
| C49 | HTTP list and get parameters are parsed as documented | answers of the HTTP handlers as functions of request texts and stored objects; unreachable objects and unused bounds refuted | partial |
| C50 | An account that received coins can send transactions | refuted for every later history | partial |
| C51 | Coin arithmetic is exact per denomination | pointwise algebra of coin sets | proved |
| C52 | Transition admission checks guard transaction messages | DeliverTx never runs message admission: witness; what succeeds would have been admitted | partial |
| C53 | Nodes agree regardless of unordered iteration | relational proof over call histories: two nodes with different iteration orders stay observably equal | proved |
| C54 | Protobuf messages and strings are read exactly as the formats say | reader against a grammar of the wire format; UTF-8 check against the table of the Unicode standard | proved |
| C55 | Stored objects read back unchanged | field by field: what the writer writes, the reader reads; reader against a relation between bytes and objects written from the .proto files | proved |
| C56 | The address of a signer determines the hash of their key | Bech32 text read back by an independent reader; injective in the hash | proved |
| C57 | What a private key signs, its public key accepts | ECDSA algebra in an abstract group of prime order | proved |
| C58 | Points of the curve add as in the textbook | field algebra modulo an odd number against chord and tangent; extended Euclid proved for ModInverse | partial |
| C59 | Points are written and read back unchanged | induction over the words of the number; round trip and exact acceptance | partial |
| C60 | The C library gets exactly the numbers the caller means | C functions as parameters; case analysis on lengths | proved |
| C61 | The API server of a running node serves the state of the chain | service model on the tracked map of the running node (iv_modules), then the lemmas of C49 for the 16 types | proved |
| C62 | The Open API document lists exactly the paths that are served | generator as state with the iteration order as a parameter; invariant over added operations; served paths from C61 | proved |
| C63 | The schemas of the document are complete and right | settled-graph invariant of the required messages; every entry of the document against a relation between fields and schemas; refuted for the application | partial |
| C64 | The document is always built, and is always the same | well-founded descriptor graphs; canonical order of the result; orders and messages for which it never ends | partial |
| C65 | InitChain, block calls and CheckTx never end the process | total weakest preconditions of the handlers on the bytes store: every panic but that of an object that cannot be stored is excluded by the invariant of running nodes; the transaction for which CheckTx panics; InitChain by exact simulation with the run on a plain map | partial |
| C66 | No transaction ends the process | as C65; for messages the exact condition for a panic; the accepted transaction for which DeliverTx panics | partial |
| C67 | Covered payments are made | as C65, with the sums of coins (C31, C51) | proved |
| C68 | Storage is transparent: the node is the same program on a plain map of objects | simulation between requests on the bytes and on a map, in both directions: equal answers, traces and objects call by call; the only other outcome is a stop at an object that cannot be stored | proved |
| C69 | What Sign signs, the node reads, admits and pays | the bytes of the SDK's builder are parsed with the field lemmas of the decoder, then admission (exact), liveness of payments and the ledger are combined | proved |
| C70 | A delivered transaction moves its fee and its coins, and nothing else | exact balance equations for one transfer on the map of objects, induction over the messages, transported to the node by refinement | proved |
| C71 | The chain is a small ledger program | executable reference program in Spec/MachineSpec.v; forward simulation from the recorded effects of each call (ChainHist), induction over calls | proved |
| C72 | The command line prints the object that was asked for | the commands composed with the query model of C48; splitting and joining of paths | partial |
| C73 | Generated code describes and reads the objects of its .proto file | the generator as a function from messages to declarations, composed with the schema parser (C11) and the key encoding (C04); case analysis, and computation over the transcribed .proto files | partial |
| C74 | A restarted node gets back to where it was | simulation of two nodes (C53) extended to histories that leave out CheckTx (C44) | partial |
| C75 | ECDSA keys and signatures are read as they were written | DER read and written against a relation on texts (minimal two's complement by minimality of length); the two square roots of a prime field and their parities | partial |
| C76 | Posts are stored once and stay | refinement of the node on bytes, with its secondary index, to a state of at most one message | partial |
| C77 | The client asks the node that is configured | the loop of filepath.Clean on bytes refines following a path by its parts; induction over the sequence of commands | proved |

## 3. Trusted base

- The kernel of Coq 8.16.1, including its `vm_compute` (used in concrete cases
  and refutations; `coqchk` re-checks them without it).
- The transcription of the Go code into `Model/`, with the simplifications
  written there and in section 4.
- The definitions in `Spec/` that give the statements their meaning.
- Libraries: Coq's standard library and std++. Neither brings in an axiom.

No axioms, no section-less variables, no admitted proofs. What the theorems
quantify over instead is visible in their statements:

- the order in which Go iterates over the map of users (any enumeration that
  lists each user once, and may differ at each step);
- marshalling and decoding, for which `sound` is assumed and proved for
  protobuf;
- `verify`, the signature check, any function on bytes, and for C47 and C57 the
  operations of the curve, the parsing of public keys and the hash;
- `hash160`, any function with results of 20 bytes;
- `bits`, the size limit of the SDK's integers;
- fuel.

### What Print Assumptions lists

The following 289 theorems print "Closed under the global context":

C01_store_is_a_map, C02_storage_keys_distinct,
C03_refused_call_changes_nothing,
C03_refused_call_changes_nothing_in_any_state,
C04_found_by_string_key_partial, C04_found_by_string_key_refuted,
C04_found_exactly, C05_field_encodings_injective, C05_field_encodings_total,
C06_listing_is_exact, C07_all_criteria_and_range_refuted,
C07_first_criterion_decides_partial, C08_other_text_is_refused,
C08_text_as_typed, C08_text_query_is_exact, C09_scan_meets_only_its_entries,
C10_damage_is_reported_refuted, C10_decoded_key_is_complete,
C10_decoded_list_is_complete_partial, C10_index_key_roundtrip,
C10_index_list_roundtrip, C11_registrable_types_partial,
C11_registrable_types_refuted, C12_accepted_names_unique,
C12_listings_are_exact, C12_lookups_agree_with_accepted,
C12_second_registration_refused, C13_dependencies, C14_prefix_iteration,
C15_deliveries_authorized, C15_programs_authorized, C15_refused_create,
C15_refused_delete, C15_refused_delivery,
C15_refused_delivery_without_admission, C15_refused_update,
C15_transaction_handlers_authorized, C16_fuel_irrelevant,
C16_stages_in_order, C16_unknown_transition, C17_admission_in_order,
C17_known_transitions, C17_one_handler, C17_post_in_order, C17_pre_in_order,
C17_registration_answers, C18_errors_surface_partial,
C18_errors_surface_refuted, C18_lists_partial, C18_operations_partial,
C19_application_identity, C19_client_identity, C20_constructors_well_formed,
C20_listing, C20_names, C20_several_names, C20_union,
C20_union_order_independent, C20_union_well_formed, C20_users,
C21_genesis_once, C21_genesis_order, C22_answers, C22_store_unchanged,
C23_build_succeeds_iff, C23_handler_lists, C23_handlers, C23_objects,
C23_other_parts, C24_start, C24_stop, C24_stop_crash, C25_codes,
C25_errors_never_success, C26_allows_exactly_what_roles_grant,
C27_long_name_refuted, C27_module_may_do_what_it_declares,
C27_roles_of_descriptors_partial, C27_roles_of_the_application,
C28_internal_message_refused, C28_transaction_stops_there,
C29_roles_and_bindings_immutable, C30_binding_admission,
C30_identifier_is_new_partial, C30_long_identifier_refuted,
C30_role_admission_partial, C31_chain_conserves_partial,
C31_failed_transfer_refuted, C31_fee_conserves, C31_supply_any_length,
C31_supply_exists, C31_supply_failed_any_length, C31_supply_refuted,
C31_transfer_conserves_partial, C32_overspending_has_no_effect,
C32_transfer_is_affordable, C33_failed_transfer_any_length,
C33_failed_transfer_moves_nothing_partial, C33_shelves_differ,
C33_stored_where_looked_for, C33_third_party_refuted,
C33_transfer_any_length, C33_transfer_moves_exactly_partial,
C34_balance_falls_only_if_named_partial, C34_sender_signs_refuted,
C35_creation_takes_next_number, C35_numbers_distinct, C35_numbers_in_order,
C36_no_replay, C37_sign_bytes_are_a_sign_doc, C37_sign_bytes_injective,
C38_admission_is_exact, C39_decodes_exactly, C39_other_bytes_refused_partial,
C39_other_bytes_refused_refuted, C40_inadmissible_has_no_effect,
C40_undecodable_has_no_effect, C41_fee_any_length,
C41_fee_charged_once_partial, C41_fee_charged_refuted,
C41_payer_signs_refuted, C42_sequences_advance_by_one,
C43_height_and_stage_follow_calls, C44_check_changes_nothing,
C45_accepted_exactly, C45_end_of_block_reports_partial,
C45_reported_again_refuted, C45_set_only_in_two_stages,
C46_no_message_effects_refuted, C46_transaction_is_its_parts,
C47_accepted_exactly, C47_chain_refuses, C47_generated_key,
C47_key_from_secret, C47_read_signature, C47_twin_refused,
C47_written_signature, C48_crash_refuted, C48_every_path,
C48_get_answers_what_is_stored_partial, C48_other_verbs, C48_slash_refuted,
C49_bad_height, C49_capital_key_refuted, C49_get_by_key_partial,
C49_get_singleton, C49_list_partial, C49_no_effect, C49_reachable,
C49_slash_key_refuted, C50_keyless_account_never_sends_refuted,
C51_addition_exact, C51_addition_overflow, C51_print_parse,
C51_results_normal, C51_subtraction_exact, C51_subtraction_refused,
C52_refused_message_refuted, C52_successful_message_is_admitted_partial,
C53_next_call, C53_nodes_agree, C54_messages_read_exactly,
C54_text_checked_exactly, C55_objects_read_back, C55_objects_read_exactly,
C55_objects_written, C55_objects_written_as_messages,
C56_addresses_are_short, C56_addresses_are_texts, C56_addresses_identify,
C57_signed_is_accepted, C58_affine, C58_commutes, C58_defined_exactly,
C58_double, C58_group_refuted, C58_jacobian_double, C58_jacobian_sum,
C58_neutral_refuted, C58_on_curve, C58_stays_on_curve, C58_sum,
C59_accepted_exactly, C59_injective_refuted, C59_one_text,
C59_only_points_refuted, C59_reads_back, C59_written_number, C60_compressed,
C60_compressed_length, C60_leading_zeros, C60_recover, C60_scalar, C60_sign,
C60_sign_then_verify, C60_verify, C61_many_objects, C61_nowhere_else,
C61_one_object, C61_reachable, C61_singleton, C61_starts, C62_application,
C62_operations, C62_paths_exact, C63_references_partial,
C63_references_refuted, C63_schemas_partial, C63_types_partial,
C63_types_refuted, C64_application_refuted, C64_ends_partial,
C64_recursive_message_refuted, C64_same_document_partial,
C65_begin_block_succeeds, C65_block_calls_succeed_protobuf,
C65_check_tx_answers_partial, C65_check_tx_answers_refuted,
C65_end_block_succeeds, C65_init_chain_succeeds,
C65_init_chain_succeeds_protobuf, C66_any_length_stops_exactly,
C66_deliver_tx_answers_partial, C66_deliver_tx_answers_protobuf_partial,
C66_deliver_tx_answers_refuted, C66_deliver_tx_stops_exactly,
C66_fee_answers, C66_messages_stop_exactly, C66_short_addresses,
C67_fee_is_paid, C67_payments_are_made, C67_payments_are_made_protobuf,
C67_transfer_any_length_is_made, C68_node_follows_plain,
C68_plain_is_followed, C69_genesis_account_stays, C69_sign_is_made,
C69_sign_reads_digits, C69_sign_works_once, C69_signed_payment_is_admitted,
C69_signed_payment_is_made, C69_signed_payment_is_read,
C70_deliver_tx_moves_exactly, C71_deliver_tx_stops_exactly, C71_next_call,
C71_node_shows_the_book, C72_get_of_any_arguments,
C72_get_prints_what_is_stored_partial, C72_other_object_refuted,
C72_resources, C72_too_few_arguments, C73_accepts, C73_accessors,
C73_application, C73_client_methods, C73_client_set, C73_definitions,
C73_get_asks_for_the_key_partial, C73_get_of_a_singleton,
C73_number_key_refuted, C73_plural_refuted, C73_registrable_refuted,
C73_two_files, C74_hash_refuted, C74_info_refuted,
C74_passes_after_restart_refuted, C74_same_after_restart,
C75_address_refuted, C75_changed_signature_refuted,
C75_first_address_partial, C75_marshal_to, C75_own_signature,
C75_private_key_accepted_exactly, C75_private_key_reads_back,
C75_public_key_accepted_exactly, C75_public_key_one_text_partial,
C75_public_key_one_text_refuted, C75_public_key_reads_back, C75_shown,
C75_verifies_exactly, C76_post_stays, C76_posts_partial,
C76_second_post_refuted, C76_starts, C77_commands_ask_the_node,
C77_get_prints_what_the_node_holds, C77_one_node_or_one_error,
C77_place_of_the_file, C77_refused_commands_read_nothing.

There are no others: no theorem depends on an axiom, not even one of the standard library.


## 4. What is modelled and what is not

### Simplifications in modelled code

- Strings and byte slices are lists of bytes; nil and empty slices are the same.
- The texts of errors and logs are left out; which sentinels an error wraps is
  kept.
- Badger is an ordered finite map with the documented limits of keys and
  values. Failures of the disk, transactions and aliasing of returned slices are
  left out.
- Handlers talk to the runtime only through their client. Authorizers only read.
- Modules are built once; the panics of wrong builds are outcomes of `build`.
- Of proto files only messages, fields and access-control options are kept.
- Of Tendermint's requests only what the code reads is kept apart (height, chain
  id, validator updates); the rest of a header is one string of bytes.
- HTTP: GET requests given as path, query and the height header. gorilla/mux is
  modelled for the routes the server makes.
- JSON output is the object itself; only whether the writer can resolve the
  types inside it is modelled.

### Library code modelled from its documentation

The sources are not in /repo. Modelled are: protobuf-go v1.26.0 (wire format,
unknown fields, UTF-8, Any), the coin type of cosmos-sdk v0.42.4 (parsing,
sorting, addition, subtraction, its limit of 315 bits), its transaction builder
(the bytes of TxRaw, TxBody, AuthInfo and SignDoc), Bech32 of the SDK after
BIP 173, ECDSA of btcec over abstract curve operations, strconv, strings,
base64, math/big (ModInverse, Bits, SetBytes), and path handling of net/http and gorilla/mux v1.8.0. The recursion
limit of protowire for groups is left out.

### Not modelled

- cmd/*, and the transport between client and node.
- The Go text written by pkg/modulecodegen (its declarations are modelled, their
  bodies as far as C73 needs them), pkg/conv, pkg/protoutils/{prototest,ptrprim}, the routes
  /spec and the HTTP listener of core/apiserver/module.go. Of the Open API
  document the comments, descriptions and tags, and its text in JSON or YAML.
- kindencoder/xx_to_support.go (dead code), x/crisis,
  x/authn/authenticator.go (empty shells).
- x/authn/crypto/internal/benchmarking, random key generation of internal/ecdsa,
  and secp256k1_cgo.go, which does not build: it imports the SDK's internal
  package and declares VerifySignature on a private key. The package it should
  import, internal/secp256k1, is modelled (C58-C60) but for the C library.
- SHA-256, RIPEMD-160, the points of btcec and the C library: parameters.
- Goroutines, data races, the memory model, Tendermint itself.

## 5. Findings

What the refutations and the boundaries of the partial theorems say about the
code:

1. Keys of 128 bytes and more cannot be read back by their text, since Get strips
   one byte of the length prefix (C04). Consequences: such accounts receive coins
   repeatedly as if new and the supply changes (C31), roles with such identifiers
   are admitted twice (C30), modules with names from 123 bytes have no role (C27).
2. Only the first match field of a list counts; Start and End are ignored (C07).
3. Damaged index lists decode to less, or panic on huge lengths (C10).
4. Nested maps and unsupported kinds are not found at registration (C11).
5. Creating an object that exists, and other refused store calls, panic in the
   runtime instead of answering an error (C18).
6. The sender of a transfer need not sign (C34); the fee payer need not sign
   (C41); signatures are checked with the key in the transaction, and a
   message may create an account with any address and key.
7. An account opened by a transfer has no public key and can never sign (C50).
8. Validator updates are never cleared and reported in every later block (C45).
9. DeliverTx skips message admission (C52), and effects of earlier messages stay
   when a later one fails (C46).
10. The decoder panics on keys that have not 33 bytes (C39).
11. Query crashes on the genesis account, whose key it cannot resolve, and cuts
    keys at a slash (C48). "list" answers an empty object.
12. The HTTP server ignores height, start, end and all selections but the first;
    lists without a selection or without results are refused; keys with a slash
    and key names with a capital letter are unreachable (C49).
13. InitChain with application state panics; the genesis import is not
    implemented by the modules.
14. The access-control lookup takes the first message of the same short name; the
    error of binding a module role is dropped; module names may repeat.
15. For user sets with an empty name the authorizer's decision depends on the
    iteration order; decoded transactions never have one (C53).
16. Receivers new to the bank store the amounts of the message as they are, not
    in normal form; a denomination text may hold several coins.
17. The curve's Add panics for a point and itself or its opposite, takes (0, 0)
    for a point (C58); Unmarshal accepts points off the curve (C59).
18. The Open API generator loops for ever on a message that contains only itself,
    and on the application in one iteration order of Go's maps (C64). Two keyed
    objects of one .proto file get list messages in files of one path, so the
    second list is referred to but not described: role bindings (C63). 64-bit
    numbers and enums are described as integers, but sent as texts (C63). The
    variables of paths are not declared as parameters.
19. One ordinary signed transaction ends the process of every node, since nothing
    recovers and convertStoreError panics on every error but not found (C66): coins
    sent to the name of a module (there is a role binding and no account, so that
    opening one fails), to or from an empty address; an account created without
    account, with an empty address, of a module's name or a second time. CheckTx
    accepts the payment to a module; it refuses some of the others, but DeliverTx
    does not ask admission again (C52).
20. CheckTx itself panics on a transaction with a MsgBindRole without a role (C65).
21. InitChain panics for a chain id that is not UTF-8 (C65).
22. The signing helper signs account number 0 and sequence 0 whatever the account:
    it works for the genesis account, once (C69). It ignores the error of SetMsgs.
23. The command line prints another object if the name has a slash, and crashes if
    the name is left out: it asks for two arguments and reads three (C72).
24. The code generator accepts what cannot be registered (secondary keys that are no
    fields, keys of kind double, singletons with keys) and writes code that does not
    compile for keys that are numbers, for objects named like the plural of another,
    and for two files in one package (C73).
25. A transaction that ends the process in DeliverTx (C66) ends it again after every
    restart, on all nodes: the chain stops for good. Commit's hash is a constant, so
    nodes that disagree do not notice; Info always reports height 0, so all blocks
    are run again at every start (C74).
26. Smaller ones: the index store may panic on an oversize entry after the object
    has been written; the second post of testdata/testmodule fails, as its counter is
    never increased; IsOnCurve accepts coordinates that are not reduced (C58).
27. internal/ecdsa (C75): any bytes may follow an accepted signature, also inside its
    sequence. PubKey.Address keeps the first address for every later name, and after
    Unmarshal of another key. PrivKey.Unmarshal accepts 0 and numbers above the order.
    MarshalTo answers the full length for a buffer too short.
28. testdata/testmodule never advances LastPostNumber: the second post gets the
    number of the first, and creating it ends the process (C76).
29. spfcli with SPFCLI_CONFIG_DIR set to the empty text reads config.yaml of the
    current directory, not of the home directory (C77_case).
30. A transfer to the key under which another, long address is stored debits the
    sender and then fails; the coins are nowhere (C31_failed_transfer_refuted,
    C33_case_lost). A user can open such an address and name it to others. A
    transaction that names it as payer of the fee is admissible, is not paid for,
    and uses up the sequence numbers of its signers (C41_fee_charged_refuted).
31. Once an address of 128 bytes or more has been paid, a second payment to it ends
    the process: its balance is not found and cannot be created again
    (C66_case_any_length; CheckTx accepts it, C66_case_twice; exactly when:
    C66_any_length_stops_exactly, C66_deliver_tx_stops_exactly).

## 6. Wrong programs

`seeded/LOG.jsonl` has 282 entries. Each is an edit of a definition of the
model, in a scratch copy, as a realistic bug would make it; the proofs that fail
are repaired with `admit` one by one until the build ends, so that every theorem
that depends on the edited part is listed. Where the theorems of the claim
survived, they were tightened, and the entry says how.
