(** A concrete case of the ledger: a transaction that stops half way. *)
From Coq Require Import NArith ZArith List Bool String.
From stdpp Require Import base list option gmap.
From Verif.Model Require Import Bytes Users Errors Prog Runtime Builder Universe Marshal Coin Authn Distribution TxDecoder TestApp Abci.
From Verif.Spec Require Import ChainSpec DemoChain.
From Verif.Proofs Require Import DemoRuns.

Definition half_facts (x : node) : Prop :=
  demo_answer x (CallDeliverTx tx_half) = Fail EAnon
  /\ map (demo_balance (after_call (CallDeliverTx tx_half) x)) [genesis_address; alice_address; fee_collector]
     = [Some (genesis_address, tests "4999999980"); Some (alice_address, tests "10"); Some (fee_collector, tests "10")].
Lemma half_case : half_facts (demo_node []).
Proof. assert (demo_runs [] = true /\ half_facts (demo_node [])) as H by history_computed (@nil abci_call) half_facts. apply H. Qed.
