(** runtime/module/descriptor.go: what a module declares. *)
From Coq Require Import NArith List Bool String.
From stdpp Require Import base list gmap.
From Verif.Model Require Import Bytes KindEncoder Desc Schema Indexes Users Prog Runtime Services.

(** core/meta/meta.proto APIDefinition; [ad_transition] is the ApiType. *)
Record api_def := { ad_group : bytes; ad_kind : bytes; ad_transition : bool }.
Definition ad_name (d : api_def) : bytes := api_name (ad_group d) (ad_kind d).

Global Instance api_def_eq_dec : EqDecision api_def.
Proof. solve_decision. Defined.

(** A protobuf file, as far as anybody looks: for each message its short name
    and the state transition ACL option (its "external" flag), if any. *)
Definition proto_file := list (bytes * option bool).

(** A transition type: its API definition, the last part of its protobuf full
    name and the files it needs, dependencies first, its own last
    (descriptor.go:65-73; the dependency walk is modelled in Desc.v). *)
Record transition_type := {
  tt_api : api_def;
  tt_short : bytes;
  tt_files : list proto_file
}.
Definition tt_name (t : transition_type) : bytes := ad_name (tt_api t).

(** core/module/module.proto Descriptor. The full name and the files of state
    objects are not kept: nobody reads them but the API server. *)
Record raw_object := { rw_api : api_def; rw_schema : definition }.
Record raw_descriptor := {
  rd_name : bytes;
  rd_objects : list raw_object;
  rd_transitions : list transition_type;
  rd_needs : list api_def
}.

Section Module.
  Context {Obj Msg Tx : Type}.

  (** runtime/module/genesis.go: Default and Import; the latter gets the raw
      JSON of the module ([None] if absent). Export is not modelled. *)
  Record genesis := {
    gn_default : prog Obj Msg unit;
    gn_import : option bytes -> prog Obj Msg unit
  }.

  (** descriptor.go:20-33 Descriptor. Handlers are given without their client;
      the builder adds it. *)
  Record module := {
    mo_name : bytes;
    mo_genesis : option genesis;
    mo_admission : list (transition_type * (users -> Msg -> prog Obj Msg unit));
    mo_pre : list (transition_type * (users -> Msg -> prog Obj Msg unit));
    mo_exec : list (transition_type * (users -> Msg -> prog Obj Msg unit));
    mo_post : list (transition_type * (users -> Msg -> prog Obj Msg unit));
    mo_objects : list (objtype * definition);
    mo_needs : list transition_type;
    mo_auth_admission : list (Tx -> prog Obj Msg unit);
    mo_post_auth : list (Tx -> prog Obj Msg unit);
    mo_services : list service;
    mo_authorizer : option (authorizer Obj)
  }.

  (** descriptor.go:35-63 Raw. *)
  Definition raw (m : module) : raw_descriptor := {|
    rd_name := mo_name m;
    rd_objects :=
      map (fun x : objtype * definition =>
             {| rw_api := {| ad_group := ot_group (fst x); ad_kind := ot_kind (fst x);
                             ad_transition := false |};
                rw_schema := snd x |}) (mo_objects m);
    rd_transitions := map fst (mo_exec m);
    rd_needs := map tt_api (mo_needs m) |}.

  (** The users of a module's client, runtime/builder.go:54-60 AddModule. *)
  Definition module_self (m : module) : users := users_from_string [mo_name m].
End Module.
Arguments module : clear implicits. Arguments genesis : clear implicits.
