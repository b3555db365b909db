(** The ledger: C70. [bits] is 255 in the version of the SDK that go.mod requires. *)
From Coq Require Import NArith ZArith List Bool String.
From stdpp Require Import base list.
From Verif.Model Require Import Bytes Users Errors Prog Runtime Builder Universe Marshal Coin Authn Distribution TxDecoder TestApp Abci.
From Verif.Spec Require Import ChainSpec LedgerSpec DemoChain.
From Verif.Proofs Require Import LedgerFacts LedgerCases DemoFacts DemoRuns.

Section Ledger.
  Context (C : codec) (bits : N) (verify : bytes -> bytes -> bytes -> bool).
  Context (enum : list (event object msg) -> users -> list user) (fuel : nat) (decode : bytes -> res tx).
  Notation call := (call C bits verify enum fuel decode).
  Notation gets := (gets C bits verify).
  Notation reachable := (reachable C bits verify enum fuel decode).

  (** ** C70. For every address and denomination: an inadmissible transaction
      changes nothing; any other moves its fee and the coins of its first messages,
      of all messages if it succeeds, and no other coins. The state stays orderly. *)
  Theorem C70_deliver_tx_moves_exactly id x raw t r x' : sound C enum decode -> reachable id x -> orderly bits (gets x) ->
    decode raw = Ok t -> (forall from to amt, MsgSendCoins from to amt ∈ tx_msgs t -> length to < 128) ->
    call (CallDeliverTx raw) x = (r, x') -> alive r ->
    orderly bits (gets x') /\
    (~ admissible bits verify (gets x) t /\ r <> Ok tt /\ (forall ty k o, gets x' ty k o <-> gets x ty k o)
     \/ admissible bits verify (gets x) t /\ exists l, carried_out t r l /\ settled_as bits (gets x) (gets x') t l).
  Proof. intros HS. exact (ledger C bits verify enum fuel decode HS id x raw t r x'). Qed.
  (** alice has 1000, pays 300 to bob and 1 as fee; genesis pays 10 to alice, then
      cannot pay more than it has, and has paid the fee of 10. *)
  Example C70_case : ChainSpec.reachable protobuf 255 demo_verify demo_users 4 demo_decode demo_chain (demo_node demo_history)
    /\ orderly 255 (demo_gets (demo_node demo_history))
    /\ demo_decode tx_alice_bob = Ok (demo_tx tx_alice_bob)
    /\ tx_msgs (demo_tx tx_alice_bob) = [MsgSendCoins alice_address bob_address (tests "300")]
    /\ demo_answer (demo_node demo_history) (CallDeliverTx tx_alice_bob) = Ok tt
    /\ admissible 255 demo_verify (demo_gets (demo_node demo_history)) (demo_tx tx_alice_bob)
    /\ demo_balance (after_call (CallDeliverTx tx_alice_bob) (demo_node demo_history)) alice_address = Some (alice_address, tests "699").
  Proof. demo. Qed.
  Example C70_case_half : demo_answer (demo_node []) (CallDeliverTx tx_half) = Fail EAnon
    /\ map (demo_balance (after_call (CallDeliverTx tx_half) (demo_node []))) [genesis_address; alice_address; fee_collector]
       = [Some (genesis_address, tests "4999999980"); Some (alice_address, tests "10"); Some (fee_collector, tests "10")].
  Proof. exact half_case. Qed.
End Ledger.

Print Assumptions C70_deliver_tx_moves_exactly.
