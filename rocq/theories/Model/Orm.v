(** runtime/orm/store.go: the object store with secondary indexes. *)
From Coq Require Import NArith List Bool String.
From stdpp Require Import base list gmap.
From Verif.Model Require Import Bytes KindEncoder Desc Schema KV Objects Indexes.

(** The two key-value stores behind runtime/builder.go:286-291 initStore. The
    schema registry is a parameter of the operations: nothing but
    RegisterObject changes it. *)
Record orm := { st_objects : kv; st_indexes : kv }.
Definition orm_empty : orm := {| st_objects := ∅; st_indexes := ∅ |}.

Section WithObj.
  Context {Obj : Type} (O : objops Obj).

  (** store.go:57-73 Create. *)
  Definition orm_create (R : registry) (o : Obj) (st : orm) : res unit * orm :=
    match registry_get R (obj_name O o) with
    | Ok s =>
        match objects_create O s o (st_objects st) with
        | (Ok _, ob) =>
            let '(r, ix) := indexes_index O s o (st_indexes st) in
            (r, {| st_objects := ob; st_indexes := ix |})
        | (r, ob) => (r, {| st_objects := ob; st_indexes := st_indexes st |})
        end
    | r => (res_cast r, st)
    end.

  (** store.go:75-81 Get: [ty] is the API name of the target object. *)
  Definition orm_get (R : registry) (ty id : bytes) (st : orm) : res Obj :=
    match registry_get R ty with
    | Ok s => objects_get O s id (st_objects st)
    | r => res_cast r
    end.

  (** store.go:83-105 Update. *)
  Definition orm_update (R : registry) (o : Obj) (st : orm) : res unit * orm :=
    match registry_get R (obj_name O o) with
    | Ok s =>
        match objects_update O s o (st_objects st) with
        | (Ok _, ob) =>
            match indexes_clear O s o (st_indexes st) with
            | (Ok _, ix) =>
                let '(r, ix') := indexes_index O s o ix in
                (r, {| st_objects := ob; st_indexes := ix' |})
            | (r, ix) => (r, {| st_objects := ob; st_indexes := ix |})
            end
        | (r, ob) => (r, {| st_objects := ob; st_indexes := st_indexes st |})
        end
    | r => (res_cast r, st)
    end.

  (** store.go:107-123 Delete. *)
  Definition orm_delete (R : registry) (o : Obj) (st : orm) : res unit * orm :=
    match registry_get R (obj_name O o) with
    | Ok s =>
        match objects_delete O s o (st_objects st) with
        | (Ok _, ob) =>
            let '(r, ix) := indexes_clear O s o (st_indexes st) in
            (r, {| st_objects := ob; st_indexes := ix |})
        | (r, ob) => (r, {| st_objects := ob; st_indexes := st_indexes st |})
        end
    | r => (res_cast r, st)
    end.

  (** store.go:151-164 List and iterator.go:9-30, run to the end by
      [for ; it.Valid(); it.Next()]: the primary keys visited, in order. *)
  Definition orm_list (R : registry) (ty : bytes) (opt : list_options) (st : orm)
    : res (list bytes) :=
    match registry_get R ty with
    | Ok s =>
        match indexes_list s opt (st_indexes st) with
        | Ok (prefix, it) => Ok (piter_collect prefix it)
        | r => res_cast r
        end
    | r => res_cast r
    end.

  (** iterator.go:15-18 Get at a position of the iteration. *)
  Definition orm_iter_get (R : registry) (ty : bytes) (key : bytes) (st : orm) : res Obj :=
    orm_get R ty key st.
End WithObj.
