(** What the callers of the runtime are told. *)
From Coq Require Import NArith List Bool.
From stdpp Require Import base list gmap.
From Verif.Model Require Import Bytes KindEncoder Desc Schema Orm Users Prog Router Runtime.
From Verif.Spec Require Import StoreSpec.

Section Surface.
  Context {Obj Msg Tx St : Type} (O : objops Obj) (SO : storeops Obj St) (en : env Obj Msg Tx) (us : users).
  (** The runtime's Get, Create, Update and Delete; the object read, if any. *)
  Definition asked (c : call Obj) (w : world Obj Msg St) : res (option Obj) * world Obj Msg St :=
    let write (x : res unit * world Obj Msg St) : res (option Obj) * world Obj Msg St :=
      (match x.1 with Ok _ => Ok None | Fail e => Fail e | Panic => Panic | OutOfFuel => OutOfFuel end, x.2) in
    match c with
    | CCreate o => write (rt_create O SO en us o w)
    | CUpdate o => write (rt_update O SO en us o w)
    | CDelete o => write (rt_delete O SO en us o w)
    | CGet ty id =>
        (match rt_get SO ty id (w_store w) with Ok o => Ok (Some o) | Fail e => Fail e | Panic => Panic | OutOfFuel => OutOfFuel end, w)
    end.
  (** A map answers [a] (with [o] if it found one): so does the runtime if the call
      succeeded or found nothing; everything else ends the process. *)
  Definition told (a : answer) (o : option Obj) (r : res (option Obj)) : Prop :=
    match a with
    | ASuccess => r = Ok o
    | ANotFound => exists e, r = Fail e /\ errors_is e RtNotFound = true
    | AExists | ANoSchema | AOtherError => r = Panic
    | ACrash => r = Panic \/ r = OutOfFuel
    end.
  (** A listing has results; without any the process ends. *)
  Definition told_keys (S : gmap (bytes * bytes) Obj) (ty f : bytes) (v : pvalue) (r : res (list bytes)) : Prop :=
    match r with
    | Ok l => l <> [] /\ listing O S ty f v l
    | Panic => listing O S ty f v []
    | _ => False
    end.
End Surface.
