(** Two orders of listing users and a transaction signed by two accounts, used
    only in the examples beside the theorems. *)
From Coq Require Import NArith ZArith List Bool String.
From stdpp Require Import base list option gmap.
From Verif.Model Require Import Bytes Users Errors Prog Runtime Universe Marshal Rbac Authn TestApp Abci.
From Verif.Spec Require Import RbacSpec ChainSpec OrderSpec DemoChain.
Local Open Scope N_scope.
Local Open Scope list_scope.

Definition demo_backwards (_ : list (event object msg)) (us : users) : list user := rev (users_list us).
(** alice and genesis sign; alice pays bob. *)
Definition tx_joint : bytes := Eval vm_compute in
  signed_tx [(alice, 0, 2); (genesis_secret, 1, 0)] "1" [] [MsgSendCoins alice_address bob_address (tests "300")].
Definition joint_calls : list abci_call :=
  CallInitChain demo_chain None :: demo_history ++ [CallBeginBlock 2%Z []; CallDeliverTx tx_joint; CallDeliverTx tx_alice_mints].
Notation demo_responses enum := (responses protobuf 255 demo_verify enum 4 demo_decode joint_calls new_node).
(** The role module's decision on SetBalance for a user without a name and bob. *)
Definition nameless_decision (enum : list (event object msg) -> users -> list user) : res (bool * option goerr) :=
  decision protobuf 255 demo_verify enum VDeliver (msg_name (MsgSetBalance [] [])) (users_from_string [[]; bob_address])
    (demo_node demo_history).
