(** What the code generator takes and what it should write. *)
From Coq Require Import NArith List Bool String.
From stdpp Require Import base list option.
From Verif.Model Require Import Bytes KindEncoder Desc Schema Module Universe Codegen.

(** The kinds of fields the generator takes as primary keys. *)
Definition generated_kinds : list kind :=
  [BoolKind; StringKind; BytesKind; DoubleKind; Uint64Kind; Uint32Kind; Int32Kind; Int64Kind].
(** A message the generator accepts. *)
Record generatable (m : gen_message) : Prop := {
  gb_package : gm_object m <> None \/ gm_transition m = true -> gm_package m <> [];
  gb_one : gm_object m <> None -> gm_transition m = false;
  gb_key : forall d, gm_object m = Some d -> so_singleton d = false ->
    so_primary_key d <> []
    /\ exists fd, fd ∈ md_fields (gm_desc m) /\ fd_json fd = so_primary_key d /\ fd_kind fd ∈ generated_kinds
}.

(** The type and the definition an object should be registered with. *)
Definition type_of (m : gen_message) : objtype := {| ot_group := gm_parent m; ot_kind := gm_name m; ot_desc := gm_desc m |}.
Definition definition_of (d : object_options) : definition :=
  {| def_singleton := so_singleton d; def_primary_key := so_primary_key d; def_secondary_keys := so_secondary_keys d |}.
(** The type that holds the methods for the objects of a message. *)
Definition client_of (m : gen_message) : bytes := lower_camel (gm_go m) ++ str "Client".

(** The second name is the plural of the first. *)
Definition plural (m1 : gen_message) (d1 : object_options) (m2 : gen_message) : Prop :=
  so_singleton d1 = false /\ (forall s, gm_go m1 <> s ++ str "s") /\ gm_go m2 = gm_go m1 ++ str "s".

(** The name a declaration has in its package. *)
Definition top_name (c : declaration) : option bytes :=
  match c with
  | GInterface n _ | GStruct n _ | GFunc n | GSchema n _ => Some n
  | _ => None
  end.
(** The group and the kind of a transition of the application. *)
Definition msg_api (m : msg) : bytes * bytes := (ad_group (tt_api (msg_type m)), ad_kind (tt_api (msg_type m))).
(** The method of the client set that gives the client for the objects of a message:
    named after them, in the plural. *)
Definition set_method (m : gen_message) (d : object_options) (name : bytes) : Prop :=
  (so_singleton d = true \/ (exists s, gm_go m = s ++ str "s")) /\ name = gm_go m
  \/ so_singleton d = false /\ (forall s, gm_go m <> s ++ str "s") /\ name = gm_go m ++ str "s".
