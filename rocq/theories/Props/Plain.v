(** Theorems that compare the node with one on a plain map of objects: C68. *)
From Coq Require Import NArith ZArith List Bool String.
From stdpp Require Import base list option gmap.
From Verif.Model Require Import Bytes Users Errors Prog Runtime Builder Universe Marshal Authn TestApp Abci.
From Verif.Spec Require Import ChainSpec LiveSpec PlainSpec DemoChain DemoPlain.
From Verif.Proofs Require Import PlainFacts PlainCases DemoFacts.

(** ** C68 *)
(** Whatever calls the node has answered, the plain node has answered them too and
    holds the same objects; then every call gets the same answer and leads to the
    same objects, unless both stop, or an object cannot be stored. *)
Theorem C68_node_follows_plain C bits verify enum fuel decode cs x : sound C enum decode ->
  calls C bits verify enum fuel decode cs new_node = Some x ->
  exists y, plain_calls C bits verify enum fuel decode cs new_plain = Some y /\ like_plain C bits verify x y
    /\ forall c, follows C bits verify (call C bits verify enum fuel decode c x) (plain_call C bits verify enum fuel decode c y).
Proof. intros HS. exact (node_follows C bits verify enum fuel decode (so_codec _ _ _ HS) cs x). Qed.
(** Whatever calls the plain node has answered, the node has answered them too, or
    it has stopped at one of them, where it writes an object that cannot be stored. *)
Theorem C68_plain_is_followed C bits verify enum fuel decode cs y : sound C enum decode ->
  plain_calls C bits verify enum fuel decode cs new_plain = Some y ->
  (exists x, calls C bits verify enum fuel decode cs new_node = Some x /\ like_plain C bits verify x y)
  \/ (exists before c after x, cs = before ++ c :: after /\ calls C bits verify enum fuel decode before new_node = Some x
      /\ ~ alive (fst (call C bits verify enum fuel decode c x))
      /\ stopped_writing (cannot_store C bits verify) (snd (call C bits verify enum fuel decode c x))).
Proof.
  intros HS. exact (plain_followed C bits verify enum fuel decode (so_codec _ _ _ HS) cs new_node new_plain y (start_like C bits verify)).
Qed.
(** A transaction has opened an account and moved coins to it. *)
Example C68_case : sound protobuf demo_users demo_decode /\ demo_running demo_history (demo_node demo_history)
  /\ plain_object demo_history ty_balance alice_address = Some (OBalance alice_address (tests "1000")).
Proof. split; [|split]; [demo|demo|exact plain_alice]. Qed.
Print Assumptions C68_node_follows_plain.
Print Assumptions C68_plain_is_followed.
