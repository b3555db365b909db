{"id": "C01", "title": "Object store behaves as a map keyed by type and primary key", "statement": "Whatever sequence of Create, Update, Delete and Get calls has been made on registered state objects, every call answers exactly what a plain map from (type, encoded primary key) to object would answer: Create succeeds iff the key is absent, Update and Delete succeed iff it is present, Get returns the last object written under that key, and nothing under any other key changes.", "quantifier": "all registries of valid schemas, all finite histories of store calls on any mix of types, all objects and identifiers", "why_tests_cant": "The claim is about every history of calls and every pair of keys; a test can only replay finitely many histories over chosen keys.", "anchors": ["runtime/orm/store.go: Store.Create/Get/Update/Delete", "runtime/orm/objects/store.go: Store", "runtime/kv/badger.go: Badger"]}
{"id": "C02", "title": "Two different objects never share a storage location", "statement": "Objects of different registered types, or of the same type with different primary key values, are always stored under different keys, so no write to one can be read as, or overwrite, the other.", "quantifier": "all pairs of registered types whose names contain no '/', all pairs of primary key values of the supported kinds", "why_tests_cant": "Injectivity ranges over all pairs of type names and keys; a collision may need a specially chosen pair.", "anchors": ["runtime/orm/objects/store.go: saveKeyRaw", "runtime/orm/schema/schema.go: EncodePrimaryKey", "core/meta/meta.go: Name"]}
{"id": "C03", "title": "A refused store call changes nothing", "statement": "When Create, Update or Delete on the store returns an error because the object exists, does not exist, has an empty primary key or has no registered schema, no stored object and no index entry is changed.", "quantifier": "all store states, all calls that are refused", "why_tests_cant": "Needs every state and every refused call, including the ones reached only after long histories.", "anchors": ["runtime/orm/store.go", "runtime/orm/objects/store.go", "runtime/orm/indexes/store.go"]}
{"id": "C04", "title": "An object is found again by the text of its string primary key", "statement": "After a successful Create of an object whose primary key is a string, Get with the identifier made from the same string returns that object.", "quantifier": "all strings of every length as primary key", "why_tests_cant": "Holds for short strings and fails from a length on; tests use short keys only.", "anchors": ["pkg/protoutils/kindencoder/kindencoder.go: kString.EncodeValueToBytes", "core/meta/state.go: NewStringID", "runtime/orm/objects/store.go: Get"]}
{"id": "C05", "title": "Field encodings are injective", "statement": "For every supported field kind, two different field values are encoded to different bytes, so primary keys and index entries never conflate values.", "quantifier": "all pairs of values of each supported kind: bool, int32, uint32, int64, uint64, string, bytes", "why_tests_cant": "The value domains are unbounded or 2^64 large; a collision would need a particular pair.", "anchors": ["pkg/protoutils/kindencoder/kindencoder.go"]}
{"id": "C06", "title": "Listing by an indexed field returns exactly the live objects with that value", "statement": "After any history of store calls, listing a type by one secondary key and a value yields exactly the primary keys of the currently stored objects of that type whose field equals that value: none missing, none stale, none of another type or field, none twice, in ascending order of encoded primary key.", "quantifier": "all schemas with distinct secondary keys, all histories of Create/Update/Delete, all fields and values", "why_tests_cant": "Stale or missing index entries only show after particular update/delete/re-create histories.", "anchors": ["runtime/orm/indexes/store.go: Index, ClearIndexes", "runtime/orm/indexes/list.go: List", "runtime/orm/store.go"]}
{"id": "C07", "title": "Listing honours every match field and the requested range", "statement": "A List call with several match fields returns only the objects that match all of them, and Start/End restrict the result to that range.", "quantifier": "all option sets with any number of match fields, all ranges", "why_tests_cant": "Ranges over all combinations of options and store contents.", "anchors": ["runtime/orm/indexes/list.go: List, prefixesToScan", "runtime/client/client.go: ListRange, ListAtHeight"]}
{"id": "C08", "title": "Text queries and typed queries select the same objects", "statement": "Selecting by the textual form of a value (decimal number, true/false, base64, raw string) selects exactly what selecting by the typed value selects, which is exactly the objects that hold this value in the field; text that is not a value of the field's kind is refused.", "quantifier": "all kinds, all values and all texts", "why_tests_cant": "Number parsing boundaries (sign, overflow at 2^31, 2^32, 2^63, 2^64, leading zeros) span unbounded text.", "anchors": ["pkg/protoutils/kindencoder/kindencoder.go: EncodeString, EncodeInterface, EncodeValueToBytes", "runtime/orm/schema/indexer.go"]}
{"id": "C09", "title": "Index entries of one query never leak into another", "statement": "The scan made for (type, field, value) meets no index entry written for a different type, field or value, even when one name or value is a prefix of another.", "quantifier": "all pairs of index entries and queries, all byte strings as names and values", "why_tests_cant": "Prefix collisions depend on adversarially chosen names and values of any length.", "anchors": ["runtime/orm/indexes/types.go: marshal, appendLengthPrefixed"]}
{"id": "C10", "title": "Index bookkeeping encodings round-trip", "statement": "Decoding an encoded index key gives back type, field, value and primary key; decoding an encoded list of index keys gives back the same list; decoding of damaged bytes reports an error instead of a partial answer.", "quantifier": "all byte strings, all lists of byte strings, all damaged inputs", "why_tests_cant": "Round-trip for all lengths (including multi-byte length headers) and all malformed inputs cannot be enumerated.", "anchors": ["runtime/orm/indexes/types.go"]}
{"id": "C11", "title": "Only storable types can be registered", "statement": "Registration of a state object succeeds iff its definition is well formed (singleton without keys, or a primary key naming a field of an encodable kind, secondary keys naming encodable fields) and the object contains, at any depth, no map field and no unsupported kind.", "quantifier": "all message descriptors of any nesting depth, all definitions", "why_tests_cant": "Descriptor trees are unbounded; nested occurrences are what tests omit.", "anchors": ["runtime/orm/schema/schema.go: parseObjectSchema", "core/schema/schema.go: Validate", "pkg/protoutils/desc/desc.go: HasMap, HasKinds"]}
{"id": "C12", "title": "The schema registry answers consistently", "statement": "After any sequence of registrations a type is found by its object and by its (group, kind) iff it was accepted, both lookups give the same schema, a second registration of the same name is refused and changes nothing, and the listed groups and kinds are exactly the registered ones.", "quantifier": "all sequences of registrations with any names, groups and kinds", "why_tests_cant": "Consistency of three maps after every registration order.", "anchors": ["runtime/orm/schema/registry.go"]}
{"id": "C13", "title": "Collected file dependencies are complete, unique and ordered", "statement": "The dependencies reported for a protobuf file contain exactly the files it transitively imports, each once, every file after the files it imports.", "quantifier": "all acyclic import graphs", "why_tests_cant": "Diamond-shaped and deep import graphs of every size.", "anchors": ["pkg/protoutils/desc/desc.go: Dependencies"]}
{"id": "C14", "title": "Prefix iteration visits exactly the keys with the prefix, in order", "statement": "Iterating a key prefix visits every stored key with that prefix once, in ascending byte order, with the prefix stripped, and nothing else.", "quantifier": "all store contents, all prefixes", "why_tests_cant": "All contents and prefixes, including empty and 0xff-terminated ones.", "anchors": ["runtime/kv/badger.go: IteratePrefix, Iterate"]}
{"id": "C15", "title": "No effect without authorization", "statement": "While authorization is enabled, every object creation, update, deletion and every state transition delivery performed anywhere in an execution - including deep inside nested deliveries of arbitrary handlers - was individually allowed by the authorizer for the acting users in the state at that moment; a refused request returns an unauthorized error and changes nothing.", "quantifier": "all applications (arbitrary handlers), all states, all requests and nesting depths, all authorizers", "why_tests_cant": "Ranges over all handlers and call trees; tests exercise a few handlers.", "anchors": ["runtime/runtime.go: Create/Update/Delete/deliver/authorized", "runtime/client.go"]}
{"id": "C16", "title": "Delivery runs its stages in order and stops at the first failure", "statement": "Delivering a transition runs the admission controllers (unless skipped), then the authorization check, then the pre-execution handlers, then the one registered handler, then the post-execution handlers, each list in registration order; the first failure ends the delivery with that failure and no later stage runs.", "quantifier": "all applications, all transitions, all lists of controllers and failure positions", "why_tests_cant": "All positions of failure in lists of any length and all nested deliveries.", "anchors": ["runtime/runtime.go: deliver, runAdmissionChain", "runtime/router.go"]}
{"id": "C17", "title": "Routing is unambiguous and keeps registration order", "statement": "Each transition has at most one execution handler; a second registration is refused and the first one stays; admission, pre- and post-execution handlers are returned in registration order and only for transitions that are known.", "quantifier": "all sequences of router registrations and lookups", "why_tests_cant": "All registration orders.", "anchors": ["runtime/router.go"]}
{"id": "C18", "title": "Failing store operations surface as errors, not as crashes", "statement": "A runtime Create of an existing object, an operation on an unregistered type or with an empty key, and a List without results return an error to the caller.", "quantifier": "all states and requests", "why_tests_cant": "Crash conditions depend on state; tests avoid them because they abort the process.", "anchors": ["runtime/runtime.go: convertStoreError"]}
{"id": "C19", "title": "Modules act under their own name", "statement": "Every write or delivery made through a module's client is authorized for exactly the module's own user, plus, for a delivery that impersonates, the users given; impersonation never removes the module's own user.", "quantifier": "all modules, all option lists, all sets of impersonated users", "why_tests_cant": "All user sets and options.", "anchors": ["runtime/client.go", "runtime/client/client.go: DeliverImpersonating", "runtime/authentication/user/user.go"]}
{"id": "C20", "title": "User sets obey set semantics", "statement": "A set built from names contains exactly those names, membership of several names is membership of each, and the union contains exactly the members of the parts, whatever the order, duplicates or absent parts.", "quantifier": "all lists of names and groups", "why_tests_cant": "Algebraic laws over all sets.", "anchors": ["runtime/authentication/user/user.go"]}
{"id": "C21", "title": "Genesis runs at most once and installs every module in order", "statement": "Genesis succeeds at most once per runtime; it runs the module-descriptor transition first and then each module's default genesis in registration order, stopping at the first error.", "quantifier": "all module lists, all histories of genesis and import calls", "why_tests_cant": "All histories and module counts.", "anchors": ["runtime/runtime.go: InitGenesis, Import"]}
{"id": "C22", "title": "The read-only client never modifies state", "statement": "No sequence of calls on the store-backed read client changes the store; its write calls always fail and its reads return what the store returns.", "quantifier": "all call sequences and states", "why_tests_cant": "All call sequences.", "anchors": ["runtime/client/orm.go"]}
{"id": "C23", "title": "A built application is closed under its declared dependencies", "statement": "Build succeeds only if no module has an empty name, no two modules register the same state object or the same transition handler, every transition a module declares it needs has a handler, and at most one authorizer was declared; a successful build contains exactly the declared objects and handlers.", "quantifier": "all lists of module descriptors", "why_tests_cant": "All combinations of modules.", "anchors": ["runtime/builder.go: Build, installModules, installAuthorizer"]}
{"id": "C24", "title": "Services start in order and all are asked to stop", "statement": "Starting services starts them in registration order up to the first failure; stopping asks every service to stop and reports every failure.", "quantifier": "all lists of services and failure patterns", "why_tests_cant": "All failure patterns.", "anchors": ["runtime/services.go"]}
{"id": "C25", "title": "Error classes map to stable result codes", "statement": "A transaction result carries code 0 only for success, 400/404/409/412 for exactly the bad request, not found, already exists and condition-not-met classes, however deeply the error is wrapped, and 1 otherwise.", "quantifier": "all errors with any wrapping depth", "why_tests_cant": "Arbitrary wrapping depth and mix.", "anchors": ["runtime/errors/errors.go: ToABCIResponse"]}
{"id": "C26", "title": "The role-based authorizer allows exactly what the users' roles grant", "statement": "A request is allowed iff every acting user is bound to a role that exists and at least one of these roles lists the resource for the verb; in every other case it is denied, or, if a user or the role of a binding has an empty name, the request may abort the process; it is never allowed then.", "quantifier": "all role and binding tables, all user sets, verbs and resources", "why_tests_cant": "All tables and user sets.", "anchors": ["core/rbac/authorizer.go", "core/rbac/v1alpha1/rbac.go: GetResourcesForVerb"]}
{"id": "C27", "title": "After genesis module roles grant exactly the declared permissions", "statement": "After genesis each module's role lets it get/list/create/update/delete exactly its own state objects and deliver exactly its own and its declared needed transitions, and the external account role lets its holders deliver exactly the transitions marked external and nothing else.", "quantifier": "all module descriptor lists accepted by genesis", "why_tests_cant": "All module sets and access-control flags.", "anchors": ["core/rbac/rbac_applier.go", "core/rbac/v1alpha1/rbac.go: ExtendRaw"]}
{"id": "C28", "title": "Transactions of ordinary accounts cannot run internal transitions", "statement": "In every state reachable by blocks of arbitrary transactions, a transaction authorized only by ordinary accounts cannot make an internal transition (set balance, create role, bind role, set block state, ...) run as its own message.", "quantifier": "all histories of blocks and transactions, all signer sets", "why_tests_cant": "All histories.", "anchors": ["core/rbac", "runtime/abci.go: DeliverTx", "runtime/runtime.go: deliver"]}
{"id": "C29", "title": "Roles and role bindings are immutable for outsiders", "statement": "No transaction of ordinary accounts changes or removes an existing role or role binding; at most new bindings to the external account role appear.", "quantifier": "all histories of blocks and transactions", "why_tests_cant": "All histories.", "anchors": ["core/rbac/ctrl_bind.go", "core/rbac/ctrl_create_role.go", "x/authn/ctrl_state_transition.go"]}
{"id": "C30", "title": "Role creation is admitted only for well-formed roles", "statement": "A role is admitted iff it is present, has a non-empty new identifier and every resource it lists is a known state object, respectively a known transition, of the application. A role binding is admitted iff the role it names exists.", "quantifier": "all roles and application descriptors", "why_tests_cant": "All roles and descriptor sets.", "anchors": ["core/rbac/ctrl_create_role.go"]}
{"id": "C31", "title": "Transfers conserve total supply", "statement": "A transfer, successful or refused, and any history of blocks whose transactions may fail in the middle, leaves the sum of all balances of every denomination unchanged, as long as the node does not abort.", "quantifier": "all balances tables, transfers (including to oneself, to new addresses, malformed amounts) and histories of blocks and transactions", "why_tests_cant": "Conservation over all states, amounts and histories.", "anchors": ["x/bank/handler.go", "x/distribution/extensions.go", "core/coin/v1alpha1/coin.go"]}
{"id": "C32", "title": "No account can spend more than it holds", "statement": "A transfer succeeds only if for every denomination the sender holds at least the amount; no balance ever becomes negative.", "quantifier": "all balances and amounts", "why_tests_cant": "All amounts and states.", "anchors": ["x/bank/handler.go: SendCoins", "core/coin/v1alpha1/coin.go: SafeSub"]}
{"id": "C33", "title": "A transfer affects only its two parties", "statement": "A transfer moves exactly the amount from sender to receiver, changes no other balance, and creates an account for the receiver only if there was none.", "quantifier": "all states and transfers", "why_tests_cant": "Frame condition over all other objects.", "anchors": ["x/bank/handler.go"]}
{"id": "C34", "title": "Coins leave an account only with its owner's consent", "statement": "A transfer out of an address succeeds only if that address is among the authenticated users of the transaction.", "quantifier": "all transactions, signers and senders", "why_tests_cant": "Needs all combinations of signer and sender; an attack test must guess it.", "anchors": ["x/bank/handler.go: SendCoins", "x/bank/module.go"]}
{"id": "C35", "title": "Account numbers are unique and consecutive", "statement": "In every reachable state all accounts have distinct account numbers smaller than the next number to assign, and creating an account assigns the next number and advances it by one.", "quantifier": "all histories", "why_tests_cant": "All histories of account creations, including failing ones.", "anchors": ["x/authn/ctrl_state_transition.go"]}
{"id": "C36", "title": "A signed transaction takes effect at most once", "statement": "Once a transaction has passed authentication in a block, submitting the same transaction again at any later time is rejected, until a signer's sequence number wraps around.", "quantifier": "all histories between the two submissions, all transactions", "why_tests_cant": "All interleavings of other transactions between two submissions.", "anchors": ["x/authn/extensions.go: sigVerifier, increaseSequence", "runtime/abci.go: DeliverTx"]}
{"id": "C37", "title": "Signatures bind the whole transaction, chain and account", "statement": "The bytes that are signed determine the body, the authentication info, the chain id and the account number: two different combinations never produce the same bytes to sign.", "quantifier": "all bodies, auth infos, chain ids and account numbers", "why_tests_cant": "Injectivity over all pairs of unbounded inputs.", "anchors": ["x/authn/crypto/crypto.go", "x/authn/tx/tx.go", "x/authn/v1alpha1/tx.proto: SignDoc"]}
{"id": "C38", "title": "Transaction limits are enforced at their exact boundaries", "statement": "A transaction is refused iff it has a timeout height below the current block, a memo longer than the maximum, more signatures than the limit, or a missing signer account; a timeout equal to the current height, a memo and a signature count equal to the maximum are accepted.", "quantifier": "all parameters, heights, memos and signer lists", "why_tests_cant": "All boundary values and parameter settings.", "anchors": ["x/authn/extensions.go"]}
{"id": "C39", "title": "Malformed transactions are rejected by the decoder", "statement": "The decoder returns a transaction only if the raw bytes, body and auth info have no unknown fields, body, auth info, signatures, fee and messages are present, signatures and signer infos correspond one to one, every signer uses direct mode and has a public key; the decoded users are exactly the signers' addresses. On any other bytes it returns an error.", "quantifier": "all byte strings", "why_tests_cant": "All byte strings.", "anchors": ["x/authn/tx/decoder.go", "x/authn/tx/decode_unknowns.go"]}
{"id": "C40", "title": "A transaction that fails admission has no effect", "statement": "A transaction that does not decode or is refused by any transaction admission check (missing account, limits, wrong sequence, bad signature, unaffordable fee) leaves the whole state unchanged, both in CheckTx and in DeliverTx.", "quantifier": "all states and transactions", "why_tests_cant": "All states and failure reasons.", "anchors": ["runtime/abci.go: CheckTx, DeliverTx", "x/authn/extensions.go", "x/distribution/extensions.go: FeeChecker"]}
{"id": "C41", "title": "The fee is charged exactly once per admitted transaction, to a signer", "statement": "Every transaction that passes admission and post-authentication moves exactly its fee from the payer to the fee collector, independent of whether its messages succeed, and the payer is one of the signers.", "quantifier": "all states and transactions", "why_tests_cant": "All states, fees, payers and message outcomes.", "anchors": ["x/distribution/extensions.go", "x/authn/tx/decoder.go", "runtime/abci.go: DeliverTx"]}
{"id": "C42", "title": "Each signer's sequence advances by exactly one per admitted transaction", "statement": "A transaction that passes authentication raises the sequence of every signer by one and of no other account; no other operation changes a sequence.", "quantifier": "all histories and transactions", "why_tests_cant": "All histories.", "anchors": ["x/authn/extensions.go: increaseSequence"]}
{"id": "C43", "title": "Block height and stage follow the consensus calls", "statement": "After each block begin the recorded height equals the height of that block and the stage is begin-block; after block end the stage is end-block; transactions of accounts never change them.", "quantifier": "all histories of consensus calls", "why_tests_cant": "All histories.", "anchors": ["core/abci/handlers.go", "runtime/abci.go: BeginBlock, EndBlock"]}
{"id": "C44", "title": "CheckTx never changes state", "statement": "Checking a transaction leaves all state unchanged whatever the transaction and the verdict.", "quantifier": "all states and byte strings", "why_tests_cant": "All states and inputs.", "anchors": ["runtime/abci.go: CheckTx"]}
{"id": "C45", "title": "Validator updates are accepted only in the allowed stages and reported once", "statement": "Setting validator updates succeeds only in the init-chain or end-block stage, and the updates set are returned by exactly one end-of-block response.", "quantifier": "all histories of consensus calls and updates", "why_tests_cant": "All histories.", "anchors": ["core/abci/handlers.go: validatorUpdates", "runtime/abci.go: EndBlock"]}
{"id": "C46", "title": "A failed transaction has no message effects", "statement": "If one message of a transaction fails, none of the effects of its messages remain.", "quantifier": "all transactions and failing positions", "why_tests_cant": "All failure positions and states.", "anchors": ["runtime/abci.go: DeliverTx"]}
{"id": "C47", "title": "Signature and key formats are canonical and in range", "statement": "Serialized signatures are 64 bytes and decode to the same numbers; verification accepts only 64-byte signatures whose second half is in the lower half of the group order, so the negated twin of an accepted signature is rejected; generated private keys lie between 1 and the group order minus one.", "quantifier": "all signatures, secrets and random streams", "why_tests_cant": "All 512-bit values.", "anchors": ["x/authn/crypto/secp256k1/secp256k1.go", "x/authn/crypto/secp256k1/secp256k1_nocgo.go"]}
{"id": "C48", "title": "Queries answer with the stored object or an error", "statement": "A get query for a registered (group, kind) and a key returns the stored object of that type and key, and a malformed or unknown query returns an error result, never a crash and never a state change.", "quantifier": "all query paths and states", "why_tests_cant": "All path strings.", "anchors": ["runtime/query.go", "runtime/abci.go: Query"]}
{"id": "C49", "title": "HTTP list and get parameters are parsed as documented", "statement": "Height, start, end and field selections given by a client are used exactly as given, defaults apply only when absent, malformed values are refused, and every object is reachable by its primary key.", "quantifier": "all parameter texts", "why_tests_cant": "All texts.", "anchors": ["core/apiserver/router/server.go", "core/apiserver/router/types.go"]}
{"id": "C50", "title": "An account that received coins can send transactions", "statement": "An address that was created by receiving coins can, with the key of that address, send a transaction that passes authentication.", "quantifier": "all histories creating accounts by transfer", "why_tests_cant": "Needs the conjunction of transfer, account creation and signature check for all accounts.", "anchors": ["x/bank/handler.go: createAccountIfNotExist", "x/authn/extensions.go: sigVerifier, setPubKeys"]}
{"id": "C51", "title": "Coin arithmetic is exact per denomination", "statement": "Adding and subtracting coin sets acts on every denomination independently and exactly, refuses negative results, and yields well-formed sorted sets without zeros or duplicates; parsing what was printed gives back the same set.", "quantifier": "all coin sets", "why_tests_cant": "All denominations and amounts.", "anchors": ["core/coin/v1alpha1/coin.go"]}
{"id": "C52", "title": "Transition admission checks guard transaction messages", "statement": "Every message of a transaction that runs has passed the admission controllers registered for its type.", "quantifier": "all transactions and admission controllers", "why_tests_cant": "All controllers and transactions.", "anchors": ["runtime/abci.go: DeliverTx", "runtime/runtime.go: deliver"]}
{"id": "C53", "title": "Nodes agree regardless of unordered iteration", "statement": "The result and the resulting state of every transaction do not depend on the order in which a node happens to enumerate the set of users.", "quantifier": "all states, transactions and enumeration orders of each user set", "why_tests_cant": "Enumeration order is random per process; a test sees one order at a time and divergence would only show between nodes.", "anchors": ["runtime/authentication/user/user.go: List", "x/authn/extensions.go", "core/rbac/authorizer.go"]}
{"id": "C54", "title": "Protobuf messages and strings are read exactly as the formats say", "statement": "The reader splits bytes into the fields of a protobuf message exactly when the bytes are a message in the wire format, and accepts the bytes of a string field exactly when they are UTF-8.", "quantifier": "all byte strings", "why_tests_cant": "All byte strings; accepting one extra or one too few needs a particular one.", "anchors": ["x/authn/tx/decoder.go", "x/authn/tx/decode_unknowns.go", "runtime/orm/objects/store.go"]}
{"id": "C55", "title": "Stored objects read back unchanged", "statement": "The bytes written for a state object of any of the application's types decode, as that type, to the same object; every object whose numbers and strings protobuf can carry is written. Bytes are read as an object exactly when they are its message as the .proto files define it (field numbers and types), and this is what is written.", "quantifier": "all state objects of all types", "why_tests_cant": "All objects, with nested messages of any size.", "anchors": ["runtime/orm/objects/store.go", "core/*/v1alpha1/*.proto", "x/*/v1alpha1/*.proto"]}
{"id": "C56", "title": "The address of a signer determines the hash of their key", "statement": "Addresses of signers are bech32 texts with a right checksum and a fixed length; two signers with different key hashes have different addresses.", "quantifier": "all keys and hashes of 20 bytes", "why_tests_cant": "Injectivity over all pairs of hashes.", "anchors": ["x/authn/tx/decoder.go", "x/authn/crypto/secp256k1/secp256k1.go: Address"]}
{"id": "C57", "title": "What a private key signs, its public key accepts", "statement": "For every private key and message, a signature that Sign returns is accepted by VerifySignature of the key's public key on the same message.", "quantifier": "all private keys, messages and hashes", "why_tests_cant": "All keys and messages; a single padding or low-S case may differ.", "anchors": ["x/authn/crypto/secp256k1/secp256k1.go", "x/authn/crypto/secp256k1/secp256k1_nocgo.go"]}
{"id": "C58", "title": "Points of the curve add as in the textbook", "statement": "For points (x1, y1) and (x2, y2) with different x, Add returns the reflection of the third point of the line through them; Double returns that of the tangent when y is not 0; sums of points of the curve are points of the curve and do not depend on the order; IsOnCurve answers whether y^2 = x^3 + b modulo P. Adding a point to itself, to its opposite or to (0, 0) gives the group's answer.", "quantifier": "all odd moduli, all coordinates, affine and Jacobian", "why_tests_cant": "Coordinates are 256-bit numbers; formulas with a wrong sign or a missed reduction can be right on the vectors tried.", "anchors": ["x/authn/crypto/secp256k1/internal/secp256k1/curve.go: IsOnCurve, Add, addJacobian, Double, doubleJacobian, affineFromJacobian"]}
{"id": "C59", "title": "Points are written and read back unchanged", "statement": "Unmarshal of Marshal returns the same point for coordinates that fit; accepted texts are exactly those of the uncompressed form with the right length, each is the only text of its point, and they are points of the curve.", "quantifier": "all curve sizes, coordinates and byte strings", "why_tests_cant": "All byte strings and numbers; leading zero bytes and lengths that are no multiple of the word are rare in random tests.", "anchors": ["x/authn/crypto/secp256k1/internal/secp256k1/curve.go: readBits, Marshal, Unmarshal"]}
{"id": "C60", "title": "The C library gets exactly the numbers the caller means", "statement": "ScalarMult hands over the point and the scalar as 32-byte numbers, independent of leading zeros, and panics exactly for scalars over 32 bytes; Sign, RecoverPubkey and VerifySignature refuse exactly the inputs of wrong length, key or recovery id; what Sign returns recovers and (without its last byte) verifies; a compressed key reads back.", "quantifier": "all inputs and all behaviours of the C library", "why_tests_cant": "The library's behaviour is a parameter; tests run one library.", "anchors": ["x/authn/crypto/secp256k1/internal/secp256k1/curve.go: ScalarMult", "x/authn/crypto/secp256k1/internal/secp256k1/secp256.go"]}
{"id": "C61", "title": "The API server of a running node serves the state of the chain", "statement": "On every node that runs after genesis the API server registers the routes of all the types of the application (whether the document about them gets finished is C64); a GET for /group/kind/key, /group/kind or /group/kinds of any of the application's types answers with the object or the objects the node reads at that moment, with not found or a refusal if there are none, and nothing is served on any other path.", "quantifier": "all histories of consensus calls, all requests", "why_tests_cant": "The answer depends on the whole history of blocks; tests query one state.", "anchors": ["core/apiserver/module.go: Start", "core/apiserver/router/server.go", "runtime/module/descriptor.go: Raw"]}
{"id": "C62", "title": "The Open API document lists exactly the paths that are served", "statement": "If the server's document is built, its paths are, sorted and each once, exactly the paths of the objects added: /group/kind for singletons, /group/kind/{key} and /group/kinds for the others, each with the operation's name, parameters and a reference to the message answered. For the application these are exactly the paths a running node serves.", "quantifier": "all sets of objects and message descriptors, all iteration orders of Go's maps, all histories", "why_tests_cant": "Quantifies over all descriptors and map orders; a test sees one order of one application.", "anchors": ["core/apiserver/router/openapi.go", "core/apiserver/router/server.go: CreateStateObjectHandler", "pkg/protoutils/oas3schema/oas3schema.go: AddRawOperation, Build, addPathsToDocumentV3"]}
{"id": "C63", "title": "The schemas of the document are complete and right", "statement": "There is a schema for each message a path answers with and for each message contained in one, and for no other; it lists the message's fields by their JSON names; every reference in the document leads to a schema; and the type said of a field is the type of the JSON value sent.", "quantifier": "all message descriptors and map orders", "why_tests_cant": "Completeness is a reachability statement over all descriptor graphs.", "anchors": ["pkg/protoutils/oas3schema/oas3schema.go", "pkg/protoutils/forge/list.go"]}
{"id": "C64", "title": "The document is always built, and is always the same", "statement": "For every set of objects the generator ends with a document, and two runs give the same document although Go visits maps in random order.", "quantifier": "all message descriptors, all iteration orders", "why_tests_cant": "Termination and independence of random map order cannot be tested.", "anchors": ["pkg/protoutils/oas3schema/oas3schema.go: AddRequiredMessage, Build", "core/apiserver/router/openapi.go"]}
{"id": "C65", "title": "InitChain, block calls and CheckTx never end the process", "statement": "InitChain of a new node succeeds; on every running node BeginBlock and EndBlock succeed and CheckTx answers, for every request: none of the panics in the runtime is reached.", "quantifier": "all histories of consensus calls, all requests and transactions", "why_tests_cant": "Absence of panics over all reachable states and all bytes.", "anchors": ["runtime/runtime.go: convertStoreError, CheckTx", "runtime/abci.go: BeginBlock, EndBlock, CheckTx", "core/rbac/ctrl_bind.go"]}
{"id": "C66", "title": "No transaction ends the process", "statement": "DeliverTx answers for every transaction; in particular a transaction that CheckTx has accepted cannot end the process. A message of a transaction runs to an answer whatever the state.", "quantifier": "all histories, all transactions and messages", "why_tests_cant": "Absence of panics over all reachable states and all messages; a handler panics only for particular addresses in particular states.", "anchors": ["runtime/runtime.go: convertStoreError, DeliverTx", "x/bank/handler.go", "x/authn/ctrl_state_transition.go"]}
{"id": "C67", "title": "Covered payments are made", "statement": "The fee of a transaction that is admissible is always taken; a transaction that only sends coins the senders have (with the fee), to short addresses of no module, succeeds.", "quantifier": "all histories, all transactions", "why_tests_cant": "A claim that something is bound to succeed, over all reachable states; tests show it for some.", "anchors": ["x/distribution/extensions.go", "x/bank/handler.go", "runtime/runtime.go: DeliverTx"]}
{"id": "C68", "title": "Storage is transparent: the node is the same program on a plain map of objects", "statement": "After any calls, the node holds the objects that the same application holds if it keeps them in a plain map (no marshalling, keys or indexes), and answers every call alike with the same error; it differs only by stopping where an object cannot be stored.", "quantifier": "all histories of consensus calls, all requests and transactions, all codecs that decode what they encode", "why_tests_cant": "A refinement over all histories; tests compare single reads after single writes.", "anchors": ["runtime/orm/store.go", "runtime/orm/objects/store.go", "runtime/orm/indexes/store.go", "runtime/runtime.go: convertStoreError", "runtime/abci.go"]}
{"id": "C69", "title": "What Sign signs, the node reads, admits and pays", "statement": "The bytes that the signing helper writes for a transfer are read back by the node as exactly that transfer, signer, sequence and fee; the node admits them when the signer's account has the number and sequence signed and covers the fee, and then moves exactly the amount and the fee and advances the sequence by one. Since the helper always signs account number 0 and sequence 0, what it writes for an account with any other sequence is refused and changes nothing.", "quantifier": "all keys, chain ids, addresses, coins and sequences; all states reachable by consensus calls", "why_tests_cant": "A round trip between two encoders and the whole admission chain over all inputs and states; the test signs one transfer for one key.", "anchors": ["testapp/module/sign.go: Sign", "x/authn/tx/decoder.go", "x/authn/tx/decode_unknowns.go: FindMessageByURL", "x/authn/extensions.go", "x/bank/handler.go"]}
{"id": "C70", "title": "A delivered transaction moves its fee and its coins, and nothing else", "statement": "On chains whose transfers name receivers of less than 128 bytes: for every address and denomination, what a DeliverTx changes is exactly this: nothing if the transaction is inadmissible; otherwise the fee from the payer to the fee collector, and the coins of the messages before the first failing one (of all messages if the answer is success) from senders to receivers.", "quantifier": "all states reachable by consensus calls with orderly balances, all transactions to addresses below 128 bytes, all addresses and denominations", "why_tests_cant": "An exact accounting over all transactions and all addresses, including aliasing of payer, sender, receiver and fee collector; tests look at a few balances of single transfers.", "anchors": ["runtime/runtime.go: DeliverTx", "x/bank/handler.go", "x/distribution/extensions.go", "x/authn/extensions.go"]}
{"id": "C71", "title": "The chain is a small ledger program", "statement": "For transactions whose messages name addresses of less than 128 bytes: a program of a page, which knows only accounts (number, sequence, keys), purses and a block height, and consensus calls, determines what the node answers and what can be read from it: after any calls, the accounts, balances, next account number and block height that the node shows are those of the program, and each next call is answered yes or no as the program answers. Delivering a transaction ends the process exactly where the program has no answer.", "quantifier": "all chain ids, all lists of consensus calls, all transactions with addresses below 128 bytes", "why_tests_cant": "A refinement over all histories of calls: modules, roles, handlers, stores and encodings must together do what a page of text says. A test runs one history.", "anchors": ["runtime/abci.go", "runtime/runtime.go", "x/bank/handler.go", "x/authn/extensions.go", "x/authn/ctrl_state_transition.go", "x/distribution/extensions.go", "core/abci/handlers.go"]}
{"id": "C72", "title": "The command line prints the object that was asked for", "statement": "spfcli get GROUP KIND NAME prints exactly the object stored under these names and fails if there is none; it never prints another object. spfcli resources lists exactly the kinds of objects of the chain. A wrong number of arguments is an error.", "quantifier": "all states written through the store, all arguments", "why_tests_cant": "All states and all argument texts, including texts with path separators; there is one test, which needs a running node.", "anchors": ["pkg/client/client.go: Get, Resources", "pkg/spfcli/get.go: GetCmd", "pkg/spfcli/resources.go: ResourcesCmd", "runtime/query.go: Handle"]}
{"id": "C73", "title": "Generated code describes and reads the objects of its .proto file", "statement": "If protoc-gen-starport accepts a file, the Go code it writes compiles, declares for each state object and transition its group and kind and nothing else, gives each object the schema of its options, which the runtime can register, and the Get of each generated client asks for the ID under which an object with that key is stored. For the application, the generated definitions and schemas are those its modules register.", "quantifier": "all .proto files: all messages, fields and options", "why_tests_cant": "All message definitions; the generator has no tests, and its output is only seen for the files that exist.", "anchors": ["pkg/modulecodegen/codegen.go", "pkg/modulecodegen/api_definition.go", "pkg/modulecodegen/schema.go", "core/meta/state.go", "runtime/orm/schema/schema.go"]}
{"id": "C74", "title": "A restarted node gets back to where it was", "statement": "A node whose process is started again, and to which InitChain and the calls of all blocks are made again, holds the same objects and answers every later call like one that never stopped, whatever the order in which either enumerates users. Info reports the height of the last block and Commit's hash is different for different states, so that a node can go on from there. A call that has ended the process can be passed after a restart.", "quantifier": "all histories of calls; any two orders of enumeration; all later calls", "why_tests_cant": "All histories; tests run one process.", "anchors": ["runtime/abci.go", "runtime/kv/badger.go"]}
{"id": "C75", "title": "ECDSA keys and signatures are read as they were written", "statement": "A public key of internal/ecdsa that lies on its curve is read back from its bytes as the same point; exactly the compressed points of the curve of the expected length are accepted, and a key has one text. Its address is the ADR-28 hash of the name given and its bytes. Exactly signatures of two numbers in DER that the curve accepts are accepted, so that no other text derived from a signature is; what a private key signs its public key accepts. Private keys are read back; MarshalTo writes the bytes and their number; String shows the bytes in hexadecimal.", "quantifier": "all curves over prime fields; all keys, messages, signatures and texts; all library functions", "why_tests_cant": "The tests change single bytes of one random signature and read back one random key.", "anchors": ["x/authn/crypto/internal/ecdsa/pubkey.go", "x/authn/crypto/internal/ecdsa/privkey.go"]}
{"id": "C76", "title": "Posts are stored once and stay", "statement": "A MsgCreatePost of testdata/testmodule is refused, changing nothing, unless its creator is among the users of the request and it has a title and a text. Every other one is stored as a post under a number of its own with exactly its creator, title and text, is listed under its creator and nobody else, and no later message changes or removes it.", "quantifier": "all encodings, all sequences of messages by any users", "why_tests_cant": "The only test with this module reads posts that it writes itself and never delivers a message.", "anchors": ["testdata/testmodule/module.go", "testdata/testmodule/v1/testmodule.starport.go"]}
{"id": "C77", "title": "The client asks the node that is configured", "statement": "A command of spfcli with acceptable arguments asks the node named in the file config.yaml of the directory SPFCLI_CONFIG_DIR, or of .spfcli_config in the home directory if that variable is not set. If no node is named, the command reports why and asks nobody. All commands of one process ask the same node, and a command that is refused for its arguments reads no configuration.", "quantifier": "all paths of directories, all contents of the files, all sequences of commands while the surroundings change", "why_tests_cant": "There are no tests of pkg/spfcli; paths, failures and the order of commands combine without bound.", "anchors": ["pkg/spfcli/config.go: GetConfig, Validate", "pkg/spfcli/clicontext.go: init, Client, failedClient", "pkg/client/client.go: NewRPC"]}
