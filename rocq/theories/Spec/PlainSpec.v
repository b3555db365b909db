(** The node on a plain map of objects: nothing is marshalled, there are no keys
    and no indexes. What the node on bytes is compared with. *)
From Coq Require Import NArith List Bool String.
From stdpp Require Import base list gmap.
From Verif.Model Require Import Bytes KindEncoder Desc Schema Orm Users Errors Prog Runtime Services Module Builder
  Universe TestApp Authn Abci.
From Verif.Spec Require Import StoreSpec ChainSpec LiveSpec.

Section Plain.
  Context (C : codec) (bits : N) (verify : bytes -> bytes -> bytes -> bool).
  Context (enum : list (event object msg) -> users -> list user) (fuel : nat) (decode : bytes -> res tx).
  (** Objects by the name of their type and their key. *)
  Notation objects := (gmap (bytes * bytes) object).

  (** [f] of the key of an object, [bad] if it has none or its type is not known. *)
  Definition at_key {A} (o : object) (bad : A) (f : bytes * bytes -> A) : A :=
    match rg_schemas (ap_registry (the_app bits verify)) !! obj_name (app_ops C) o with
    | None => bad
    | Some s => if decide (pk_of (app_ops C) s o = []) then bad
                else f (obj_name (app_ops C) o, pk_of (app_ops C) s o)
    end.

  (** A missing object is an error; unknown types, empty keys and objects that are
      there already end the process (runtime/runtime.go:276-286 convertStoreError). *)
  Definition plain_store : storeops object objects := {|
    so_get := fun ty id S =>
      match rg_schemas (ap_registry (the_app bits verify)) !! ty with
      | None => Panic
      | Some _ => if decide (id = []) then Panic
                  else match S !! (ty, id) with Some o => Ok o | None => Fail (ESent OrmNotFound) end
      end;
    so_list := fun _ _ _ => Panic;
    so_create := fun o S =>
      at_key o (Panic, S) (fun k =>
        match S !! k with Some _ => (Panic, S) | None => (Ok tt, <[k := o]> S) end);
    so_update := fun o S =>
      at_key o (Panic, S) (fun k =>
        match S !! k with None => (Fail (ESent OrmNotFound), S) | Some _ => (Ok tt, <[k := o]> S) end);
    so_delete := fun o S =>
      at_key o (Panic, S) (fun k =>
        match S !! k with None => (Fail (ESent OrmNotFound), S) | Some _ => (Ok tt, base.delete k S) end) |}.

  Notation plain_node := (rt object msg objects).
  Definition new_plain : plain_node :=
    {| rt_initialized := false; rt_enabled := false;
       rt_world := {| w_store := ∅; w_trace := [] |}; rt_services := [] |}.
  Definition plain_call (c : abci_call) (y : plain_node) : res unit * plain_node :=
    abci_step (app_ops C) plain_store (the_app bits verify) enum fuel decode tx_users tx_msgs c y.
  Definition plain_calls (cs : list abci_call) (y : plain_node) : option plain_node :=
    abci_run (app_ops C) plain_store (the_app bits verify) enum fuel decode tx_users tx_msgs cs y.

  (** The node stores these objects, has done the same and runs the same services. *)
  Record like_plain (x : node) (y : plain_node) : Prop := {
    lp_objects : forall ty id o, gets C bits verify x ty id o <-> w_store (rt_world y) !! (ty, id) = Some o;
    lp_done : w_trace (rt_world x) = w_trace (rt_world y);
    lp_initialized : rt_initialized x = rt_initialized y;
    lp_enabled : rt_enabled x = rt_enabled y;
    lp_services : rt_services x = rt_services y
  }.
  (** The same answer and the same state after it; or none from either; or the node
      stops where it writes an object that cannot be stored. *)
  Definition follows (p : res unit * node) (q : res unit * plain_node) : Prop :=
    (alive (fst p) /\ fst p = fst q /\ like_plain (snd p) (snd q))
    \/ (~ alive (fst p) /\ ~ alive (fst q))
    \/ (~ alive (fst p) /\ stopped_writing (cannot_store C bits verify) (snd p)).
End Plain.
