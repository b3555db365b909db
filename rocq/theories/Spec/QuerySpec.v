(** Query paths, and what a node's Query answers. *)
From Coq Require Import NArith List Bool String.
From stdpp Require Import base list option gmap.
From Verif.Model Require Import Bytes KindEncoder Schema Orm Runtime Builder Strings Universe Authn TestApp Query.
From Verif.Spec Require Import StoreSpec ChainSpec.

(** A part of a path, and a path made of parts. *)
Definition no_slash (part : bytes) : Prop := ~ In slash part.
Definition path_of (parts : list bytes) : bytes := join (str "/") parts.
(** The first part of a path. *)
Definition verb_of (path verb : bytes) : Prop := no_slash verb /\ (path = verb \/ exists rest, path = verb ++ slash :: rest).
Definition get_path (g k id : bytes) (rest : list bytes) (path : bytes) : Prop :=
  Forall no_slash (g :: k :: id :: rest) /\ path = path_of (str "get" :: g :: k :: id :: rest).

(** An account key can be written as JSON when it is empty or of a known type. *)
Definition renderable (resolves : any -> bool) (o : object) : Prop :=
  forall a k, o = OAccount a -> ac_pubkey a = Some k ->
    any_url k = [] /\ any_value k = [] \/ any_url k <> [] /\ resolves k = true.

(** The group and the kind of an object of the application. *)
Definition of_kind (o : object) (g k : bytes) : Prop := object_group o = g /\ object_kind o = k.

Section Node.
  Context (C : codec) (bits : N) (verify : bytes -> bytes -> bytes -> bool) (resolves : any -> bool).
  Definition query (x : node) (path : bytes) : res (reply object) :=
    query_handle (app_ops C) (ap_registry (the_app bits verify)) (json_renders resolves) path (w_store (rt_world x)).
  (** The object stored under a group, kind and key. *)
  Definition holds (x : node) (g k id : bytes) (o : object) : Prop :=
    of_kind o g k /\ gets C bits verify x (api_name g k) id o.
End Node.
