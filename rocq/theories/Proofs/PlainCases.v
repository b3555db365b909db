(** Cases beside the theorems about the plain map and about InitChain. *)
From Coq Require Import NArith ZArith List Bool String.
From stdpp Require Import base list option gmap.
From Verif.Model Require Import Bytes Users Errors Prog Runtime Builder Universe Marshal Proto Authn TestApp Abci.
From Verif.Spec Require Import UserSpec StoreSpec ChainSpec LiveSpec PlainSpec DemoChain DemoPlain.
From Verif.Proofs Require Import LiveInit DemoFacts.

Lemma plain_alice : plain_object demo_history ty_balance alice_address = Some (OBalance alice_address (tests "1000")).
Proof. vm_compute. reflexivity. Qed.
Lemma inits : utf8_valid demo_chain = true /\ utf8_valid odd_name = false
  /\ demo_answer new_node (CallInitChain demo_chain None) = Ok tt
  /\ demo_answer new_node (CallInitChain odd_name None) = Panic.
Proof. vm_compute. repeat apply conj; reflexivity. Qed.
