(** Concrete transactions and a concrete node, used only in the examples and
    refutations beside the theorems: the protobuf codec, the decoder with a toy
    hash, and a toy signature scheme. *)
From Coq Require Import NArith ZArith List Bool String.
From stdpp Require Import base list option gmap.
From Verif.Model Require Import Bytes Wire Proto Schema Orm Users Errors Prog Runtime Builder Module Universe Marshal Coin
  Authn TxDecoder TestApp Abci Query.
From Verif.Spec Require Import StoreSpec ChainSpec QuerySpec.
Local Open Scope N_scope.

(** The key of the genesis account, and another key. *)
Definition genesis_secret : bytes := drop 2 (any_value genesis_key).
Definition key_of_byte (n : N) : bytes := N2b 2 :: repeat (N2b n) 32.
Definition demo_hash (k : bytes) : bytes :=
  if bytes_eqb k genesis_secret
  then map N2b [245; 198; 158; 202; 197; 229; 165; 165; 218; 216; 34; 146; 180; 67; 99; 138; 66; 91; 216; 163]
  else take 20 k.
Definition address_of (k : bytes) : bytes := match key_address demo_hash k with Ok a => a | _ => [] end.
(** A signature is the key with the message. *)
Definition demo_verify (key message signature : bytes) : bool := bytes_eqb signature (key ++ message).
Definition demo_users (_ : list (event object msg)) (us : users) : list user := users_list us.
Definition demo_chain : bytes := str "demo-chain".
Definition demo_decode : bytes -> res tx := decode_tx demo_hash.

(** Writing transactions. *)
Definition enc_msg (m : msg) : list wfield :=
  match m with
  | MsgCreateAccount a => f_message enc_account 1 a
  | MsgSendCoins f t c => f_bytes 1 f ++ f_bytes 2 t ++ f_messages enc_coin 3 c
  | MsgSetBalance a c => f_bytes 1 a ++ f_messages enc_coin 2 c
  | MsgBindRole r s => f_bytes 1 r ++ f_bytes 2 s
  | _ => []
  end.
Definition as_any (m : msg) : any :=
  {| any_url := str "/" ++ msg_name m; any_value := encode_fields (enc_msg m) |}.
Definition enc_single (_ : unit) : list wfield := [(1, WVarint 1)].
Definition enc_mode (_ : unit) : list wfield := f_messages enc_single 1 [tt].
(** A signer: key, sequence, account number. *)
Definition enc_signer (s : bytes * N * N) : list wfield :=
  f_messages enc_any 1 [key_any (fst (fst s))] ++ f_messages enc_mode 2 [tt] ++ f_uint 3 (snd (fst s)).
Definition enc_fee (f : list coin * bytes) : list wfield :=
  f_messages enc_coin 1 (fst f) ++ f_uint 2 200000 ++ f_bytes 3 (snd f).
Definition tests (amount : string) : list coin := [{| co_denom := str "test"; co_amount := str amount |}].
Definition signed_tx (signers : list (bytes * N * N)) (fee : string) (payer : bytes) (msgs : list msg) : bytes :=
  let body := encode_fields (f_messages enc_any 1 (map as_any msgs) ++ f_bytes 2 (str "demo")) in
  let auth := encode_fields (f_messages enc_signer 1 signers ++ f_messages enc_fee 2 [(tests fee, payer)]) in
  encode_fields (f_bytes 1 body ++ f_bytes 2 auth
    ++ f_each 3 (map (fun s => fst (fst s) ++ direct_sign_bytes body auth demo_chain (snd s)) signers)).

(** The node. *)
Notation demo_call := (call protobuf 255 demo_verify demo_users 4 demo_decode).
Notation demo_gets := (gets protobuf 255 demo_verify).
Notation demo_running := (running protobuf 255 demo_verify demo_users 4 demo_decode demo_chain).
Notation demo_pay := (pay protobuf 255 demo_verify demo_users 4).
Notation demo_tx_admission := (admission protobuf 255 demo_verify demo_users 4).
Notation demo_send := (send protobuf 255 demo_verify demo_users 4).
(** The transaction in some bytes, an empty one if there is none. *)
Definition demo_tx (raw : bytes) : tx :=
  match demo_decode raw with
  | Ok t => t
  | _ => {| tx_body_bytes := []; tx_auth_bytes := []; tx_memo := []; tx_timeout := 0; tx_fee := []; tx_payer := [];
            tx_users := users_from_string []; tx_signers := []; tx_msgs := [] |}
  end.
Definition demo_after (cs : list abci_call) : option node :=
  calls protobuf 255 demo_verify demo_users 4 demo_decode (CallInitChain demo_chain None :: cs) new_node.
Definition demo_node (cs : list abci_call) : node := default new_node (demo_after cs).
Definition demo_runs (cs : list abci_call) : bool := from_option rt_enabled false (demo_after cs).
Definition demo_get (x : node) (ty id : bytes) : res object :=
  orm_get (app_ops protobuf) (ap_registry (the_app 255 demo_verify)) ty id (w_store (rt_world x)).

Definition alice : bytes := key_of_byte 7.
Definition mallory : bytes := key_of_byte 66.
Definition alice_address : bytes := Eval vm_compute in address_of alice.
Definition mallory_address : bytes := Eval vm_compute in address_of mallory.
Definition new_account (k : bytes) : msg :=
  MsgCreateAccount (Some {| ac_address := address_of k; ac_pubkey := Some (key_any k); ac_number := 0; ac_sequence := 0 |}).

(** Genesis opens an account for alice and pays them. *)
Definition tx_open_alice : bytes := Eval vm_compute in
  signed_tx [(genesis_secret, 0, 0)] "10" [] [new_account alice; MsgSendCoins genesis_address alice_address (tests "1000")].
Definition demo_history : list abci_call :=
  [CallBeginBlock 1%Z (str "hash"); CallCheckTx tx_open_alice; CallDeliverTx tx_open_alice; CallEndBlock 1%Z; CallCommit].

(** The answer of a call, and what can be read. *)
Definition demo_answer (x : node) (c : abci_call) : res unit := fst (demo_call c x).
Definition coins_of (r : res object) : option (bytes * list coin) :=
  match r with Ok (OBalance a c) => Some (a, c) | _ => None end.
Definition demo_balance (x : node) (a : bytes) : option (bytes * list coin) := coins_of (demo_get x ty_balance a).
Definition is_ok {A} (r : res A) : bool := match r with Ok _ => true | _ => false end.
Definition number_of (r : res object) : option N := match r with Ok (OAccount a) => Some (ac_number a) | _ => None end.
Definition sequence_of (r : res object) : option N := match r with Ok (OAccount a) => Some (ac_sequence a) | _ => None end.
Definition refused {A} (r : res A) : bool := match r with Fail _ => true | _ => false end.

(** More transactions. *)
Definition bob : bytes := key_of_byte 11.
Definition bob_address : bytes := Eval vm_compute in address_of bob.
(** alice (account number 2) pays bob, who has no account yet. *)
Definition tx_alice_bob : bytes := Eval vm_compute in
  signed_tx [(alice, 0, 2)] "1" [] [MsgSendCoins alice_address bob_address (tests "300")].
(** alice tries to pay more than they have. *)
Definition tx_alice_overspends : bytes := Eval vm_compute in
  signed_tx [(alice, 0, 2)] "1" [] [MsgSendCoins alice_address bob_address (tests "5000")].
(** alice tries to set their own balance. *)
Definition tx_alice_mints : bytes := Eval vm_compute in
  signed_tx [(alice, 0, 2)] "1" [] [MsgSetBalance alice_address (tests "1000000")].
(** Signed with a wrong sequence number. *)
Definition tx_wrong_sequence : bytes := Eval vm_compute in
  signed_tx [(alice, 5, 2)] "1" [] [MsgSendCoins alice_address bob_address (tests "300")].
(** bob, whose account was opened by a transfer, tries to send coins. *)
Definition tx_bob : bytes := Eval vm_compute in
  signed_tx [(bob, 0, 3)] "1" [] [MsgSendCoins bob_address alice_address (tests "1")].
Definition bob_history : list abci_call := demo_history ++ [CallBeginBlock 2%Z []; CallDeliverTx tx_alice_bob; CallEndBlock 2%Z].

(** mallory has an account, then takes the coins of genesis and lets genesis pay
    the fee; only mallory signs. *)
Definition tx_open_mallory : bytes := Eval vm_compute in signed_tx [(genesis_secret, 0, 0)] "10" [] [new_account mallory].
Definition mallory_history : list abci_call := [CallBeginBlock 1%Z []; CallDeliverTx tx_open_mallory].
Definition tx_steal : bytes := Eval vm_compute in
  signed_tx [(mallory, 0, 2)] "10" genesis_address [MsgSendCoins genesis_address mallory_address (tests "4000000000")].
(** One message succeeds, the next fails. *)
Definition tx_half : bytes := Eval vm_compute in
  signed_tx [(genesis_secret, 0, 0)] "10" []
    [MsgSendCoins genesis_address alice_address (tests "10"); MsgSendCoins genesis_address alice_address (tests "999999999999")].
(** A message that admission refuses. *)
Definition tx_nameless : bytes := Eval vm_compute in signed_tx [(genesis_secret, 0, 0)] "10" [] [MsgCreateAccount None].

(** alice pays a module; alice binds themselves to a role without a name. *)
Definition tx_alice_bank : bytes := Eval vm_compute in
  signed_tx [(alice, 0, 2)] "1" [] [MsgSendCoins alice_address (str "bank") (tests "5")].
Definition tx_alice_binds : bytes := Eval vm_compute in
  signed_tx [(alice, 0, 2)] "1" [] [MsgBindRole [] alice_address].

(** Addresses of 128 and 129 bytes; the second is the key the first is stored
    under. *)
Definition long_address : bytes := Eval vm_compute in repeat Byte.x61 128.
Definition longer_address : bytes := Eval vm_compute in Byte.x01 :: long_address.
Definition tx_long (n : N) (msgs : list msg) : bytes := signed_tx [(genesis_secret, n, 0)] "10" [] msgs.
Definition long_history : list abci_call :=
  [CallDeliverTx (tx_long 0 [MsgSendCoins genesis_address longer_address (tests "1")]);
   CallDeliverTx (tx_long 1 [MsgSendCoins genesis_address long_address (tests "100")]);
   CallDeliverTx (tx_long 2 [MsgSendCoins longer_address genesis_address (tests "100")])].

(** A transaction whose key has 32 bytes. *)
Definition tx_short_key : bytes := Eval vm_compute in signed_tx [(repeat Byte.x02 32, 0, 0)] "10" [] [MsgCreateAccount None].

(** Accounts with unusual addresses and keys, opened by genesis. *)
Definition odd_key : any := {| any_url := str "nowhere"; any_value := [] |}.
Definition account_at (address : bytes) (key : option any) : account :=
  {| ac_address := address; ac_pubkey := key; ac_number := 0; ac_sequence := 0 |}.
Definition tx_odd : bytes := Eval vm_compute in
  signed_tx [(genesis_secret, 0, 0)] "10" []
    [MsgCreateAccount (Some (account_at (str "a/b") None)); MsgCreateAccount (Some (account_at (str "odd") (Some odd_key)))].
Definition odd_history : list abci_call := [CallBeginBlock 1%Z []; CallDeliverTx tx_odd].
(** Queries; only keys of accounts can be resolved. *)
Definition demo_resolves (a : any) : bool := bytes_eqb (any_url a) (any_url (key_any [])).
Definition demo_query (x : node) (path : bytes) : res (reply object) := query protobuf 255 demo_verify demo_resolves x path.
Definition account_path (address : bytes) : bytes := str "get/tmos.x.authn.v1alpha1/Account/" ++ address.
