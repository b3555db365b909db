(** Theorems about validator updates. *)
From Coq Require Import NArith ZArith List Bool String.
From stdpp Require Import base list option gmap.
From Verif.Model Require Import Bytes Schema Orm Users Errors Prog Runtime Module Builder Universe Coin Rbac Authn TestApp Abci Marshal.
From Verif.Spec Require Import UserSpec StoreSpec RbacSpec ChainSpec DemoChain DemoRoles.
From Verif.Proofs Require Import BlockFacts DemoFacts.

Section Blocks.
  Context (C : codec) (bits : N) (verify : bytes -> bytes -> bytes -> bool).
  Context (enum : list (event object msg) -> users -> list user) (fuel : nat) (decode : bytes -> res tx).
  Notation written := (written C bits verify).
  Notation gets := (gets C bits verify).
  Notation deliver_to := (rt_deliver (app_ops C) msg_name (bytes_store C bits verify) (the_app bits verify) enum fuel).
  Notation ends := (end_block (app_ops C) (bytes_store C bits verify) (the_app bits verify) enum fuel).
  Implicit Types (x : node) (m : msg) (o : object) (k : bytes).

  (** ** C45. Setting updates stores them, in two stages only; the end of a block
      reports what is stored. Missing: what is stored is never removed
      (C45_reported_again_refuted). *)
  Theorem C45_set_only_in_two_stages us l x (r : res unit) x' : sound C enum decode -> written x -> wf_users us ->
    deliver_to us (MsgSetValidatorUpdates l) x = (r, x') -> alive r ->
    r = Ok tt
      /\ (gets x ty_stage singleton_id (OStage StInitChain) \/ gets x ty_stage singleton_id (OStage StEndBlock))
      /\ gets x' ty_updates singleton_id (OUpdates l)
      /\ (forall ty k o, ~ (ty = ty_updates /\ k = singleton_id) -> gets x' ty k o <-> gets x ty k o)
    \/ (exists e, r = Fail e) /\ forall ty k o, gets x' ty k o <-> gets x ty k o.
  Proof. intros HS. exact (updates_exact C bits verify enum fuel decode HS us l x r x'). Qed.
  Theorem C45_end_of_block_reports_partial h x l x' : sound C enum decode -> written x -> ends h x = (Ok l, x') ->
    gets x ty_updates singleton_id (OUpdates l)
    /\ gets x' ty_stage singleton_id (OStage StEndBlock)
    /\ forall ty k o, ty <> ty_stage -> ty <> ty_end_block -> gets x' ty k o <-> gets x ty k o.
  Proof. intros HS. exact (ends_exact C bits verify enum fuel decode HS h x l x'). Qed.
End Blocks.
Print Assumptions C45_set_only_in_two_stages.
Print Assumptions C45_end_of_block_reports_partial.

Theorem C45_reported_again_refuted :
  ~ forall cs x l x1 l1 h1 x2 l2 h2 x3, demo_running cs x -> l <> [] ->
      demo_deliver abci_users (MsgSetValidatorUpdates l) x = (Ok tt, x1) ->
      demo_end h1 x1 = (Ok l1, x2) -> demo_end h2 x2 = (Ok l2, x3) -> ~ (l1 = l /\ l2 = l).
Proof. exact updates_reported_twice. Qed.
Print Assumptions C45_reported_again_refuted.

(** After InitChain and after EndBlock the updates are accepted, after DeliverTx
    they are not. *)
Example C45_case :
  fst (demo_deliver abci_users (MsgSetValidatorUpdates two_updates) (demo_node [])) = Ok tt
  /\ fst (demo_deliver abci_users (MsgSetValidatorUpdates two_updates) (demo_node demo_history)) = Ok tt
  /\ fst (demo_deliver abci_users (MsgSetValidatorUpdates two_updates) (demo_node mallory_history)) = Fail EAnon.
Proof. demo. Qed.
Example C45_case_written : written protobuf 255 demo_verify new_node := new_node_written protobuf 255 demo_verify.
