(** C45: when validator updates are accepted. *)
From Coq Require Import NArith ZArith List Bool String.
From stdpp Require Import base list gmap.
From Verif.Model Require Import Bytes Schema Orm Users Errors Prog Runtime Builder Universe Coin Rbac Authn Distribution Marshal TestApp Abci.
From Verif.Spec Require Import UserSpec StoreSpec CoinSpec RbacSpec ChainSpec DemoChain DemoRoles.
From Verif.Proofs Require Import DemoRuns DemoFacts UpdatesFacts.

Section Updates.
  Context (C : codec) (bits : N) (verify : bytes -> bytes -> bytes -> bool).
  Context (enum : list (event object msg) -> users -> list user) (fuel : nat) (decode : bytes -> res tx).
  Notation reachable := (reachable C bits verify enum fuel decode).
  Notation gets := (gets C bits verify).
  Notation deliver_to := (rt_deliver (app_ops C) msg_name (bytes_store C bits verify) (the_app bits verify) enum fuel).
  Notation reachable_demo := (ChainSpec.reachable protobuf 255 demo_verify demo_users 4 demo_decode demo_chain).

  (** Exactly for users who may deliver the message, before the first block and
      after the end of a block. *)
  Theorem C45_accepted_exactly id us l (x : node) (r : res unit) x' : sound C enum decode -> reachable id x -> wf_users us ->
    deliver_to us (MsgSetValidatorUpdates l) x = (r, x') -> alive r ->
    (r = Ok tt <-> granted (gets x) VDeliver (msg_name (MsgSetValidatorUpdates l)) us
       /\ (gets x ty_stage singleton_id (OStage StInitChain) \/ gets x ty_stage singleton_id (OStage StEndBlock))).
  Proof. intros HS. exact (updates_iff C bits verify enum fuel decode HS id us l x r x'). Qed.
  Example C45_case_accepted : reachable_demo (demo_node demo_history) /\ reachable_demo (demo_node mallory_history)
    /\ fst (demo_deliver abci_users (MsgSetValidatorUpdates two_updates) (demo_node demo_history)) = Ok tt
    /\ fst (demo_deliver abci_users (MsgSetValidatorUpdates two_updates) (demo_node mallory_history)) = Fail EAnon.
  Proof. demo. Qed.
End Updates.
Print Assumptions C45_accepted_exactly.
