(** runtime/query.go: the answers to ABCI queries. *)
From Coq Require Import NArith List Bool String.
From stdpp Require Import base list gmap.
From Verif.Model Require Import Bytes KindEncoder Desc Schema KV Objects Orm Strings Universe.

Definition slash : byte := Byte.x2f.

(** What a query answers with. The JSON text of it is not modelled, only whether
    protojson can write it. *)
Inductive reply (Obj : Type) :=
| RObject (o : Obj)
| RResources (l : list (bytes * list bytes))
| RNothing.
Arguments RObject {_}. Arguments RResources {_}. Arguments RNothing {_}.

Section Query.
  Context {Obj : Type} (O : objops Obj) (R : registry).
  (** Whether protojson.Marshal writes the answer without an error. *)
  Context (renders : reply Obj -> bool).

  (** query.go:60-88 apiResources: groups in the order of a Go map (here that of
      the finite map), the kinds of each in the order of registration; an error
      of ListKindsInGroup panics. *)
  Fixpoint resources_of (groups : list bytes) : res (list (bytes * list bytes)) :=
    match groups with
    | [] => Ok []
    | g :: groups' =>
        match registry_kinds R g with
        | Ok ks =>
            match resources_of groups' with
            | Ok l => Ok ((g, ks) :: l)
            | r => r
            end
        | _ => Panic
        end
    end.
  Definition api_resources : res (list (bytes * list bytes)) := resources_of (registry_groups R).

  (** query.go:90-109 get: the object is asked for under the name of the type of
      the found schema; parts after the fourth are not looked at. *)
  Definition query_get (path : bytes) (st : orm) : res Obj :=
    match split_on slash path with
    | _ :: g :: k :: id :: _ =>
        match registry_get_by_api R g k with
        | Ok s => orm_get O R (sch_name s) id st
        | r => res_cast r
        end
    | _ => Fail EAnon
    end.

  (** query.go:49-57: an error is answered with code 1; an answer that cannot be
      written panics. *)
  Definition render (r : res (reply Obj)) : res (reply Obj) :=
    match r with
    | Ok a => if renders a then Ok a else Panic
    | r => r
    end.

  (** query.go:34-58 Handle and abci.go:41-43 Query. [Ok] stands for code 0 with
      the JSON text of the answer as its value, [Fail] for code 1. Nothing is
      written, so there is no new state. *)
  Definition query_handle (path : bytes) (st : orm) : res (reply Obj) :=
    let verb := match split_on slash path with v :: _ => v | [] => [] end in
    if bytes_eqb verb (str "api_resources") then
      render (match api_resources with Ok l => Ok (RResources l) | r => res_cast r end)
    else if bytes_eqb verb (str "get") then
      render (match query_get path st with Ok o => Ok (RObject o) | r => res_cast r end)
    else if bytes_eqb verb (str "list") then render (Ok RNothing)
    else Fail EAnon.
End Query.

(** protojson of the objects of the application (google.golang.org/protobuf
    v1.26.0, encoding/protojson: marshalMessage and marshalAny): an Any without a
    URL must be empty, one with a URL must be of a registered type and its value
    must parse ([resolves]: protoregistry.GlobalTypes, without the alias that
    x/authn/crypto/crypto.go:59-66 adds when transactions are read). Only Account holds an Any. Text fields are valid
    UTF-8, since proto.Marshal has stored them. *)
Definition any_renders (resolves : any -> bool) (a : any) : bool :=
  if bytes_eqb (any_url a) [] then bytes_eqb (any_value a) [] else resolves a.
Definition object_renders (resolves : any -> bool) (o : object) : bool :=
  match o with
  | OAccount a => match ac_pubkey a with Some k => any_renders resolves k | None => true end
  | _ => true
  end.
Definition json_renders (resolves : any -> bool) (r : reply object) : bool :=
  match r with RObject o => object_renders resolves o | _ => true end.
