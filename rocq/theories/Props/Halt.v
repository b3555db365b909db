(** Which messages end the process, for addresses of any length (C66 without the
    bound on addresses). *)
From Coq Require Import NArith ZArith List Bool String.
From stdpp Require Import base list gmap.
From Verif.Model Require Import Bytes Schema Orm Users Errors Prog Runtime Builder Universe Coin Rbac Authn Distribution Marshal TestApp Abci.
From Verif.Spec Require Import UserSpec StoreSpec RbacSpec ChainSpec LiveSpec DemoChain FiledSpec HaltSpec.
From Verif.Proofs Require Import DemoRuns DemoFacts FiledCases HaltFacts HaltRuns HaltPays HaltCases.

(** Two addresses are never stored in the same place. *)
Theorem C33_shelves_differ a b : (blen a < 2 ^ 63)%N -> (blen b < 2 ^ 63)%N -> shelf a = shelf b -> a = b.
Proof. exact (shelf_inj a b). Qed.
Example C33_case_shelves : shelf long_address = longer_address /\ shelf long_address <> shelf longer_address.
Proof. exact shelves_case. Qed.

(** A message of a transaction ends the process exactly when it is fatal, or when
    an object cannot be stored. *)
Theorem C66_any_length_stops_exactly C bits verify enum fuel decode id x t m :
  sound C enum decode -> (bits <= 313)%N -> reachable C bits verify enum fuel decode id x -> proper t -> 3 <= fuel ->
  possible_addresses m ->
  (fatal_any bits (gets C bits verify x) (tx_users t) m -> ~ alive (fst (send C bits verify enum fuel (tx_users t) m x)))
  /\ (~ fatal_any bits (gets C bits verify x) (tx_users t) m ->
      answers (cannot_store C bits verify) (send C bits verify enum fuel (tx_users t) m x)).
Proof. intros HS Hb. exact (halts_exactly C bits verify enum fuel decode HS Hb id x t m). Qed.
(** Below 128 bytes these are the messages of [C66_messages_stop_exactly]. *)
Theorem C66_short_addresses bits v us m : short_addresses m -> fatal_any bits v us m <-> fatal bits v us m.
Proof. exact (fatal_short bits v us m). Qed.

(** Once an address of 128 bytes has been paid, paying it again ends the process;
    paying the address its coins are read under does not. *)
Example C66_case_any_length : reachable protobuf 255 demo_verify demo_users 4 demo_decode demo_chain (demo_node lost_history)
  /\ proper twice_tx /\ possible_addresses twice_msg /\ possible_addresses longer_msg
  /\ fatal_any 255 (demo_gets (demo_node lost_history)) (tx_users twice_tx) twice_msg
  /\ fst (demo_send (tx_users twice_tx) twice_msg (demo_node lost_history)) = Panic
  /\ ~ fatal_any 255 (demo_gets (demo_node lost_history)) (tx_users twice_tx) longer_msg.
Proof. exact twice_case. Qed.

(** DeliverTx ends the process exactly when a message is fatal after the fee has
    been paid and the messages before it have succeeded, or when an object cannot
    be stored. *)
Theorem C66_deliver_tx_stops_exactly C bits verify enum fuel decode id x raw t :
  sound C enum decode -> (bits <= 313)%N -> reachable C bits verify enum fuel decode id x -> 3 <= fuel ->
  decode raw = Ok t -> Forall possible_addresses (tx_msgs t) ->
  (runs_into_fatal C bits verify enum fuel t x -> ~ alive (fst (call C bits verify enum fuel decode (CallDeliverTx raw) x)))
  /\ (~ runs_into_fatal C bits verify enum fuel t x ->
      answers (cannot_store C bits verify) (call C bits verify enum fuel decode (CallDeliverTx raw) x)).
Proof. intros HS Hb. exact (deliver_stops C bits verify enum fuel decode HS Hb id x raw t). Qed.
(** A transaction that CheckTx accepts and DeliverTx stops at. *)
Example C66_case_twice : reachable protobuf 255 demo_verify demo_users 4 demo_decode demo_chain (demo_node lost_history)
  /\ demo_decode tx_twice = Ok (demo_tx tx_twice) /\ Forall possible_addresses (tx_msgs (demo_tx tx_twice))
  /\ map (fun c => fst (demo_call c (demo_node lost_history))) [CallCheckTx tx_twice; CallDeliverTx tx_twice] = [Ok tt; Panic].
Proof. exact twice_delivered. Qed.

(** C67: a transfer that can be made is made, or an object cannot be stored. *)
Theorem C67_transfer_any_length_is_made C bits verify enum fuel decode id x t from to amt :
  sound C enum decode -> (bits <= 313)%N -> reachable C bits verify enum fuel decode id x -> proper t -> 3 <= fuel ->
  (blen from < 2 ^ 63)%N -> (blen to < 2 ^ 63)%N ->
  granted (gets C bits verify x) VDeliver (msg_name (MsgSendCoins from to amt)) (tx_users t) ->
  payable bits (gets C bits verify x) from to amt ->
  succeeds (cannot_store C bits verify) (send C bits verify enum fuel (tx_users t) (MsgSendCoins from to amt) x).
Proof. intros HS Hb. exact (payable_made C bits verify enum fuel decode HS Hb id x t from to amt). Qed.
(** The first payment to an address of 128 bytes. *)
Example C67_case_any_length : reachable protobuf 255 demo_verify demo_users 4 demo_decode demo_chain (demo_node [])
  /\ granted (demo_gets (demo_node [])) VDeliver (msg_name twice_msg) (tx_users twice_tx)
  /\ payable 255 (demo_gets (demo_node [])) genesis_address long_address (tests "100")
  /\ fst (demo_send (tx_users twice_tx) twice_msg (demo_node [])) = Ok tt.
Proof. exact first_paid. Qed.
Print Assumptions C33_shelves_differ.
Print Assumptions C66_any_length_stops_exactly.
Print Assumptions C66_short_addresses.
Print Assumptions C66_deliver_tx_stops_exactly.
Print Assumptions C67_transfer_any_length_is_made.
