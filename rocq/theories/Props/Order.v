(** Theorems about the order in which users are listed: C53. *)
From Coq Require Import NArith ZArith List Bool String.
From stdpp Require Import base list option gmap.
From Verif.Model Require Import Bytes Users Errors Prog Runtime Universe Marshal Authn TestApp Abci.
From Verif.Spec Require Import ChainSpec OrderSpec DemoChain DemoOrder.
From Verif.Proofs Require Import OrderProps OrderCases DemoFacts.
Local Open Scope list_scope.

(** ** C53 *)
(** Nodes that list users in different orders, possibly another one each time,
    give the same answers and, if they do not crash, store the same; they name the
    same validator updates. *)
Theorem C53_nodes_agree C bits verify enum1 enum2 fuel decode id cs :
  sound C enum1 decode -> sound C enum2 decode ->
  let one := responses C bits verify enum1 fuel decode (CallInitChain id None :: cs) new_node in
  let two := responses C bits verify enum2 fuel decode (CallInitChain id None :: cs) new_node in
  fst one = fst two
  /\ match snd one, snd two with
     | Some x, Some y => same_contents C bits verify x y
         /\ forall h, same_answer (end_answer C bits verify enum1 fuel h x) (end_answer C bits verify enum2 fuel h y)
     | None, None => True
     | _, _ => False
     end.
Proof. intros H1 H2. exact (orders C bits verify enum1 enum2 fuel decode H1 H2 id cs). Qed.
Theorem C53_next_call C bits verify enum1 enum2 fuel decode id cs x :
  sound C enum1 decode -> sound C enum2 decode -> running C bits verify enum1 fuel decode id cs x ->
  exists y, running C bits verify enum2 fuel decode id cs y /\ same_contents C bits verify x y
    /\ forall c, same_answer (fst (call C bits verify enum1 fuel decode c x)) (fst (call C bits verify enum2 fuel decode c y)).
Proof. intros H1 H2. exact (next_call C bits verify enum1 enum2 fuel decode H1 H2 id cs x). Qed.
(** A transaction with two signers is delivered, another one is refused. *)
Example C53_case : sound protobuf demo_users demo_decode /\ sound protobuf demo_backwards demo_decode
  /\ map (fun enum => map u_name (enum [] (tx_users (demo_tx tx_joint)))) [demo_users; demo_backwards]
     = [[alice_address; genesis_address]; [genesis_address; alice_address]]
  /\ fst (demo_responses demo_backwards) = map Some (repeat (Ok tt) 8 ++ [Fail (EWrap (ESent RtBadRequest))]).
Proof. exact (conj demo_sound (conj backwards_sound (conj joint_listed joint_answers))). Qed.
(** Decoded transactions name all their users, which is needed: asked about a set
    with an empty name, the role module crashes or not, as the order has it. *)
Example C53_case_empty_name : map nameless_decision [demo_users; demo_backwards]
  = [Panic; Ok (false, Some (EWrap (ESent RtNotFound)))].
Proof. exact nameless_answers. Qed.
Print Assumptions C53_nodes_agree.
Print Assumptions C53_next_call.
