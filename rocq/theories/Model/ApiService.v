(** core/apiserver/module.go: the extension service that serves the objects of the
    application. *)
From Coq Require Import NArith ZArith List Bool String.
From stdpp Require Import base list gmap.
From Verif.Model Require Import Bytes KindEncoder Desc Schema Orm Users Prog Runtime Client Module Builder Universe TestApp Query ApiServer.

Section Service.
  Context (C : codec) (R : registry).
  (** protoregistry.GlobalTypes.FindMessageByName: the message types linked into the
      program by their full names. *)
  Context (find_message : bytes -> option objtype) (fuel : nat) (D : descs).

  (** module.go:52-61: one module. The full name stored with a state object is its
      API name (see [raw_object]: group and kind of the generated types are package
      and name of their messages). The routes are made by [serve] from the objects;
      the Open API document is in OpenApi.v. *)
  Fixpoint service_objects (l : list raw_object) : res (list (schema * definition)) :=
    match l with
    | [] => Ok []
    | o :: l' =>
        match find_message (api_name (ad_group (rw_api o)) (ad_kind (rw_api o))) with
        | None => Fail EAnon
        | Some t =>
            match parse_object_schema fuel D t (rw_schema o) with
            | Ok s =>
                match service_objects l' with
                | Ok rest => Ok ((s, rw_schema o) :: rest)
                | r => r
                end
            | Fail e => Fail e
            | Panic => Panic
            | OutOfFuel => OutOfFuel
            end
        end
    end.
  (** module.go:51-64. *)
  Fixpoint service_modules (l : list raw_descriptor) : res (list (schema * definition)) :=
    match l with
    | [] => Ok []
    | m :: l' =>
        match service_objects (rd_objects m) with
        | Ok objects =>
            match service_modules l' with
            | Ok rest => Ok (objects ++ rest)
            | r => r
            end
        | r => r
        end
    end.
  (** module.go:45-66 Start: the objects served. The document of the router's Build
      and the listener are not modelled. *)
  Definition service_start (st : orm) : res (list (schema * definition)) :=
    match client_get (Msg := msg) (app_ops C) R ty_modules singleton_id 0 st with
    | Ok (OModules l) => service_modules l
    | Ok _ => Panic
    | Fail e => Fail e
    | Panic => Panic
    | OutOfFuel => OutOfFuel
    end.
End Service.

(** The state objects of the application's modules, among the linked types. *)
Definition app_messages (name : bytes) : option objtype :=
  List.find (fun t => bytes_eqb (md_name (ot_desc t)) name)
    (map fst (flat_map mo_objects (app_modules 0 (fun _ _ _ => false)))).
