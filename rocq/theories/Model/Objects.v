(** runtime/orm/objects/store.go: objects in the key-value store.
    An operation returns its outcome and the key-value store afterwards. *)
From Coq Require Import NArith List Bool String.
From stdpp Require Import base list gmap.
From Verif.Model Require Import Bytes KindEncoder Desc Schema KV.

(** A call that panics on bad results of pure helpers. *)
Definition res_cast {A B} (r : res A) : res B :=
  match r with
  | Fail e => Fail e
  | OutOfFuel => OutOfFuel
  | _ => Panic
  end.

(** objects/store.go:112-121 saveKeyRaw. *)
Definition save_key_raw (s : schema) (key : bytes) : res bytes :=
  if bytes_eqb key [] then Fail EAnon
  else Ok (sch_name s ++ str "/" ++ key).

Section WithObj.
  Context {Obj : Type} (O : objops Obj).

  (** objects/store.go:106-110 saveKey. *)
  Definition save_key (s : schema) (o : Obj) : res bytes :=
    match encode_primary_key O s o with
    | Ok pk => save_key_raw s pk
    | r => res_cast r
    end.

  (** objects/store.go:50-63 Create (marshal of lines 19-28 inlined: [None] panics). *)
  Definition objects_create (s : schema) (o : Obj) (m : kv) : res unit * kv :=
    match save_key s o with
    | Ok k =>
        match kv_has m k with
        | Ok true => (Fail (EWrap (ESent OrmAlreadyExists)), m)
        | Ok false =>
            match oo_marshal O o with
            | None => (Panic, m)
            | Some b =>
                match kv_set m k b with
                | Ok m' => (Ok tt, m')
                | r => (res_cast r, m)
                end
            end
        | r => (res_cast r, m)
        end
    | r => (res_cast r, m)
    end.

  (** objects/store.go:65-77 Get, decoding into the registered type (lines 30-38:
      undecodable bytes panic). *)
  Definition objects_get (s : schema) (id : bytes) (m : kv) : res Obj :=
    match save_key_raw s id with
    | Ok k =>
        match kv_get m k with
        | Ok None => Fail (EWrap (ESent OrmNotFound))
        | Ok (Some b) =>
            match oo_unmarshal O (sch_name s) b with
            | Some o => Ok o
            | None => Panic
            end
        | r => res_cast r
        end
    | r => res_cast r
    end.

  (** objects/store.go:79-92 Update. *)
  Definition objects_update (s : schema) (o : Obj) (m : kv) : res unit * kv :=
    match save_key s o with
    | Ok k =>
        match kv_has m k with
        | Ok false => (Fail (EWrap (ESent OrmNotFound)), m)
        | Ok true =>
            match oo_marshal O o with
            | None => (Panic, m)
            | Some b =>
                match kv_set m k b with
                | Ok m' => (Ok tt, m')
                | r => (res_cast r, m)
                end
            end
        | r => (res_cast r, m)
        end
    | r => (res_cast r, m)
    end.

  (** objects/store.go:94-104 Delete. *)
  Definition objects_delete (s : schema) (o : Obj) (m : kv) : res unit * kv :=
    match save_key s o with
    | Ok k =>
        match kv_has m k with
        | Ok false => (Fail (EWrap (ESent OrmNotFound)), m)
        | Ok true =>
            match kv_delete m k with
            | Ok (_, m') => (Ok tt, m')
            | r => (res_cast r, m)
            end
        | r => (res_cast r, m)
        end
    | r => (res_cast r, m)
    end.
End WithObj.
