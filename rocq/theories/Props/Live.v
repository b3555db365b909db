(** Theorems about answers of the running node: which calls end the process and
    which are bound to succeed: C65, C66, C67. [bits] is 255 in the version of the
    SDK that is used. *)
From Coq Require Import NArith ZArith List Bool String.
From stdpp Require Import base list gmap.
From Verif.Model Require Import Bytes Schema Orm Users Errors Prog Runtime Builder Universe Coin Rbac Authn Distribution Proto Marshal TxDecoder TestApp Abci.
From Verif.Spec Require Import UserSpec StoreSpec RbacSpec ChainSpec LiveSpec DemoChain DemoPlain.
From Verif.Proofs Require Import LiveProps LiveInit PlainCases DemoRuns DemoFacts.

Section Live.
  Context (C : codec) (bits : N) (verify : bytes -> bytes -> bytes -> bool).
  Context (enum : list (event object msg) -> users -> list user) (fuel : nat) (decode : bytes -> res tx) (hash160 : bytes -> bytes).
  Notation call := (call C bits verify enum fuel decode).
  Notation reachable := (reachable C bits verify enum fuel decode).
  Notation gets := (gets C bits verify).
  Notation pay := (pay C bits verify enum fuel).
  Notation send := (send C bits verify enum fuel).
  Notation call_protobuf := (ChainSpec.call protobuf bits verify enum fuel (decode_tx hash160)).
  Notation reachable_protobuf := (ChainSpec.reachable protobuf bits verify enum fuel (decode_tx hash160)).
  Notation gets_protobuf := (ChainSpec.gets protobuf bits verify).
  Notation reachable_demo := (ChainSpec.reachable protobuf 255 demo_verify demo_users 4 demo_decode demo_chain).
  Implicit Types (x : node) (t : tx) (m : msg).

  (** ** C65: InitChain of a new node succeeds, or an object cannot be stored. *)
  Theorem C65_init_chain_succeeds id : sound C enum decode -> 2 <= fuel ->
    succeeds (cannot_store C bits verify) (call (CallInitChain id None) new_node).
  Proof. exact (init_any C bits verify enum fuel decode id). Qed.
  (** With protobuf the name of the chain must be UTF-8. *)
  Theorem C65_init_chain_succeeds_protobuf id : (forall tr, fair_order (enum tr)) -> 2 <= fuel -> utf8_valid id = true ->
    succeeds oversized (call_protobuf (CallInitChain id None) new_node).
  Proof. exact (init_protobuf bits verify enum fuel hash160 id). Qed.
  Example C65_case_init : sound protobuf demo_users demo_decode /\ utf8_valid demo_chain = true /\ utf8_valid odd_name = false
    /\ demo_answer new_node (CallInitChain demo_chain None) = Ok tt
    /\ demo_answer new_node (CallInitChain odd_name None) = Panic.
  Proof. exact (conj demo_sound inits). Qed.

  (** BeginBlock and EndBlock succeed, or an object cannot be stored. *)
  Theorem C65_begin_block_succeeds id x h rest : sound C enum decode -> (bits <= 313)%N -> reachable id x -> 1 <= fuel ->
    succeeds (cannot_store C bits verify) (call (CallBeginBlock h rest) x).
  Proof. intros HS Hb. exact (begin_any C bits verify enum fuel decode HS Hb id x h rest). Qed.
  Theorem C65_end_block_succeeds id x h : sound C enum decode -> (bits <= 313)%N -> reachable id x -> 1 <= fuel ->
    succeeds (cannot_store C bits verify) (call (CallEndBlock h) x).
  Proof. intros HS Hb. exact (end_any C bits verify enum fuel decode HS Hb id x h). Qed.
  (** With protobuf only an object of 2^63 bytes cannot be. *)
  Theorem C65_block_calls_succeed_protobuf id x h rest : (forall tr, fair_order (enum tr)) -> (bits <= 313)%N ->
    reachable_protobuf id x -> 1 <= fuel -> (- 2 ^ 63 <= h < 2 ^ 63)%Z ->
    succeeds oversized (call_protobuf (CallBeginBlock h rest) x) /\ succeeds oversized (call_protobuf (CallEndBlock h) x).
  Proof.
    intros HE Hb Hx Hf Hh. exact (conj (begin_protobuf bits verify hash160 enum fuel HE Hb id x h rest Hx Hf Hh)
      (end_protobuf bits verify hash160 enum fuel HE Hb id x h Hx Hf Hh)).
  Qed.
  Example C65_case : sound protobuf demo_users demo_decode /\ reachable_demo (demo_node demo_history)
    /\ demo_answer (demo_node demo_history) (CallBeginBlock 2%Z (str "next")) = Ok tt
    /\ demo_answer (demo_node demo_history) (CallEndBlock 1%Z) = Ok tt.
  Proof. demo. Qed.

  (** CheckTx answers. Missing: transactions that bind to a role without a name
      (refuted below), and bytes the decoder itself panics on (C39). *)
  Theorem C65_check_tx_answers_partial id x raw : sound C enum decode -> (bits <= 313)%N -> reachable id x -> alive (decode raw) ->
    (forall t, decode raw = Ok t -> named_roles t) -> alive (fst (call (CallCheckTx raw) x)).
  Proof. intros HS Hb. exact (check_any C bits verify enum fuel decode HS Hb id x raw). Qed.
  Example C65_case_check : reachable_demo (demo_node demo_history) /\ demo_decode tx_alice_bank = Ok (demo_tx tx_alice_bank)
    /\ demo_answer (demo_node demo_history) (CallCheckTx tx_alice_bank) = Ok tt.
  Proof. split; [|split]; [demo|demo|exact (proj1 checks)]. Qed.
  Theorem C65_check_tx_answers_refuted :
    ~ forall cs x raw, demo_running cs x -> alive (demo_decode raw) -> alive (fst (demo_call (CallCheckTx raw) x)).
  Proof. exact check_stops. Qed.

  (** ** C66: a message of a transaction ends the process exactly when it is
      fatal, or when an object cannot be stored. *)
  Theorem C66_messages_stop_exactly id x t m : sound C enum decode -> (bits <= 313)%N -> reachable id x -> proper t -> 3 <= fuel ->
    short_addresses m ->
    (fatal bits (gets x) (tx_users t) m -> ~ alive (fst (send (tx_users t) m x)))
    /\ (~ fatal bits (gets x) (tx_users t) m -> answers (cannot_store C bits verify) (send (tx_users t) m x)).
  Proof. intros HS Hb. exact (message_any C bits verify enum fuel decode HS Hb id x t m). Qed.
  Example C66_case : reachable_demo (demo_node demo_history)
    /\ fatal 255 (demo_gets (demo_node demo_history)) (tx_users (demo_tx tx_alice_bank)) (MsgSendCoins alice_address (str "bank") (tests "5"))
    /\ ~ fatal 255 (demo_gets (demo_node demo_history)) (tx_users (demo_tx tx_alice_bob)) (MsgSendCoins alice_address bob_address (tests "300")).
  Proof. split; [|split]; [demo|exact bank_fatal|exact bob_not_fatal]. Qed.
  Theorem C66_fee_answers id x t : sound C enum decode -> (bits <= 313)%N -> reachable id x -> proper t -> 3 <= fuel ->
    answers (cannot_store C bits verify) (pay t x).
  Proof. intros HS Hb. exact (pay_any C bits verify enum fuel decode HS Hb id x t). Qed.

  (** DeliverTx answers. Missing: transactions that are not tame (refuted below),
      and bytes the decoder itself panics on (C39). *)
  Theorem C66_deliver_tx_answers_partial id x raw : sound C enum decode -> (bits <= 313)%N -> reachable id x -> alive (decode raw) -> 3 <= fuel ->
    (forall t, decode raw = Ok t -> tame_tx (gets x) t) -> answers (cannot_store C bits verify) (call (CallDeliverTx raw) x).
  Proof. intros HS Hb. exact (deliver_any C bits verify enum fuel decode HS Hb id x raw). Qed.
  Theorem C66_deliver_tx_answers_protobuf_partial id x raw : (forall tr, fair_order (enum tr)) -> (bits <= 313)%N ->
    reachable_protobuf id x -> alive (decode_tx hash160 raw) -> 3 <= fuel ->
    (forall t, decode_tx hash160 raw = Ok t -> tame_tx (gets_protobuf x) t) -> answers oversized (call_protobuf (CallDeliverTx raw) x).
  Proof. intros HE Hb. exact (deliver_protobuf bits verify hash160 enum fuel HE Hb id x raw). Qed.
  Example C66_case_tame : reachable_demo (demo_node demo_history) /\ demo_decode tx_alice_bob = Ok (demo_tx tx_alice_bob)
    /\ tame_tx (demo_gets (demo_node demo_history)) (demo_tx tx_alice_bob).
  Proof. split; [|split]; [demo|demo|exact bob_tame]. Qed.
  (** Even transactions that CheckTx has accepted end the process. *)
  Theorem C66_deliver_tx_answers_refuted :
    ~ forall cs x raw, demo_running cs x -> fst (demo_call (CallCheckTx raw) x) = Ok tt -> alive (fst (demo_call (CallDeliverTx raw) x)).
  Proof. exact accepted_stops. Qed.

  (** ** C67: the fee of an admissible transaction can be paid; payments that are
      covered are made. *)
  Theorem C67_fee_is_paid id x t : sound C enum decode -> (bits <= 313)%N -> reachable id x -> orderly bits (gets x) -> proper t ->
    admissible bits verify (gets x) t -> 3 <= fuel -> succeeds (cannot_store C bits verify) (pay t x).
  Proof. intros HS Hb. exact (fee_any C bits verify enum fuel decode HS Hb id x t). Qed.
  Theorem C67_payments_are_made id x raw t : sound C enum decode -> (bits <= 313)%N -> reachable id x -> orderly bits (gets x) ->
    decode raw = Ok t -> admissible bits verify (gets x) t -> 3 <= fuel -> payments bits (gets x) t ->
    succeeds (cannot_store C bits verify) (call (CallDeliverTx raw) x).
  Proof. intros HS Hb. exact (payments_any C bits verify enum fuel decode HS Hb id x raw t). Qed.
  Theorem C67_payments_are_made_protobuf id x raw t : (forall tr, fair_order (enum tr)) -> (bits <= 313)%N ->
    reachable_protobuf id x -> orderly bits (gets_protobuf x) -> decode_tx hash160 raw = Ok t ->
    admissible bits verify (gets_protobuf x) t -> 3 <= fuel -> payments bits (gets_protobuf x) t ->
    succeeds oversized (call_protobuf (CallDeliverTx raw) x).
  Proof. intros HE Hb. exact (payments_protobuf bits verify hash160 enum fuel HE Hb id x raw t). Qed.
  Example C67_case : reachable_demo (demo_node demo_history) /\ orderly 255 (demo_gets (demo_node demo_history))
    /\ demo_decode tx_alice_bob = Ok (demo_tx tx_alice_bob)
    /\ admissible 255 demo_verify (demo_gets (demo_node demo_history)) (demo_tx tx_alice_bob)
    /\ payments 255 (demo_gets (demo_node demo_history)) (demo_tx tx_alice_bob)
    /\ demo_answer (demo_node demo_history) (CallDeliverTx tx_alice_bob) = Ok tt.
  Proof. split; [demo|]. split; [demo|]. split; [demo|]. split; [demo|]. split; [exact bob_payment|demo]. Qed.
End Live.

Print Assumptions C65_init_chain_succeeds.
Print Assumptions C65_init_chain_succeeds_protobuf.
Print Assumptions C65_begin_block_succeeds.
Print Assumptions C65_end_block_succeeds.
Print Assumptions C65_block_calls_succeed_protobuf.
Print Assumptions C65_check_tx_answers_partial.
Print Assumptions C65_check_tx_answers_refuted.
Print Assumptions C66_messages_stop_exactly.
Print Assumptions C66_fee_answers.
Print Assumptions C66_deliver_tx_answers_partial.
Print Assumptions C66_deliver_tx_answers_protobuf_partial.
Print Assumptions C66_deliver_tx_answers_refuted.
Print Assumptions C67_fee_is_paid.
Print Assumptions C67_payments_are_made.
Print Assumptions C67_payments_are_made_protobuf.
