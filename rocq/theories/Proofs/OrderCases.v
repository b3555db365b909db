(** Facts about the concrete node under two orders. *)
From Coq Require Import NArith ZArith List Bool String.
From stdpp Require Import base list option gmap.
From Verif.Model Require Import Bytes Users Errors Prog Runtime Universe Marshal Rbac Authn TestApp Abci.
From Verif.Spec Require Import UserSpec RbacSpec ChainSpec OrderSpec DemoChain DemoOrder.
From Verif.Proofs Require Import DecoderFacts TxTextFacts.
Local Open Scope list_scope.

Lemma backwards_sound : sound protobuf demo_backwards demo_decode.
Proof.
  apply protobuf_sound. intros tr us. unfold demo_backwards, enumerates, users_list.
  symmetry. apply Permutation_rev.
Qed.
Lemma joint_listed : map (fun enum => map u_name (enum [] (tx_users (demo_tx tx_joint)))) [demo_users; demo_backwards]
  = [[alice_address; genesis_address]; [genesis_address; alice_address]].
Proof. vm_compute. reflexivity. Qed.
Lemma joint_answers : fst (demo_responses demo_backwards)
  = map Some (repeat (Ok tt) 8 ++ [Fail (EWrap (ESent RtBadRequest))]).
Proof. vm_compute. reflexivity. Qed.
Lemma nameless_answers : map nameless_decision [demo_users; demo_backwards]
  = [Panic; Ok (false, Some (EWrap (ESent RtNotFound)))].
Proof. vm_compute. reflexivity. Qed.
