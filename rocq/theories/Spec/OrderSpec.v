(** What two nodes can be told apart by. *)
From Coq Require Import NArith List Bool.
From stdpp Require Import base list option gmap.
From Verif.Model Require Import Bytes Users Errors Orm Prog Runtime Builder Universe Authn TestApp Abci.
From Verif.Spec Require Import StoreSpec ChainSpec.

Section Order.
  Context (C : codec) (bits : N) (verify : bytes -> bytes -> bytes -> bool).

  (** Equal answers, the errors too; only the ways to crash are not told apart. *)
  Definition same_answer {A : Type} (r s : res A) : Prop := alive r \/ alive s -> r = s.

  (** The stores answer alike, to reads and writes in any order. *)
  Definition same_contents (x y : node) : Prop :=
    forall cs : list (StoreSpec.call object),
      let ask (z : node) := run (model_call (app_ops C) (ap_registry (the_app bits verify))) cs (w_store (rt_world z)) in
      fst (ask x) = fst (ask y).

  (** The answers to calls up to a crash, and the node then, if it still runs. *)
  Fixpoint responses (enum : list (event object msg) -> users -> list user) (fuel : nat) (decode : bytes -> res tx)
      (cs : list abci_call) (x : node) : list (option (res unit)) * option node :=
    match cs with
    | [] => ([], Some x)
    | c :: cs' =>
        match call C bits verify enum fuel decode c x with
        | (Panic, _) | (OutOfFuel, _) => ([None], None)
        | (r, x') => let '(l, e) := responses enum fuel decode cs' x' in (Some r :: l, e)
        end
    end.
  Definition end_answer (enum : list (event object msg) -> users -> list user) (fuel : nat) (h : Z) (x : node) :=
    fst (end_block (app_ops C) (bytes_store C bits verify) (the_app bits verify) enum fuel h x).
End Order.
