(** runtime/client/orm.go: the client of services, backed by the store. *)
From Coq Require Import NArith List Bool.
From stdpp Require Import base list gmap.
From Verif.Model Require Import Bytes KindEncoder Desc Schema Indexes Orm Users Prog Runtime.

Section OrmClient.
  Context {Obj Msg St : Type} (SO : storeops Obj St).

  Inductive client_call :=
  | KGet (ty id : bytes) (opts : list get_option)
  | KList (ty : bytes) (opts : list list_option)
  | KCreate (o : Obj) | KUpdate (o : Obj) | KDelete (o : Obj)
  | KDeliver (m : Msg) (opts : list deliver_option).

  Inductive client_answer :=
  | KObject (r : res Obj)
  | KKeys (r : res (list bytes))
  | KDone (r : res unit).

  (** runtime/orm/store.go:182-186 LoadVersion: the same store at any height. *)
  Definition load_version (s : St) (height : N) : St := s.
  (** runtime/orm/store.go:177-180 LatestVersion. *)
  Definition latest_version (s : St) : N := 0.

  (** orm.go:28-42 (writes), 45-62 Get, 65-82 List. Errors are not converted. *)
  Definition orm_client (c : client_call) (s : St) : client_answer * St :=
    match c with
    | KGet ty id opts =>
        let h := if N.eqb (get_height opts) 0 then latest_version s else get_height opts in
        (KObject (so_get SO ty id (load_version s h)), s)
    | KList ty opts =>
        let raw := list_options_of opts in
        let h := if N.eqb (lr_height raw) 0 then latest_version s else lr_height raw in
        (KKeys (so_list SO ty (lr_orm raw) (load_version s h)), s)
    | KCreate _ | KUpdate _ | KDelete _ | KDeliver _ _ => (KDone (Fail EAnon), s)
    end.

  Fixpoint orm_client_run (cs : list client_call) (s : St) : list client_answer * St :=
    match cs with
    | [] => ([], s)
    | c :: cs' =>
        let '(a, s') := orm_client c s in
        let '(l, s'') := orm_client_run cs' s' in (a :: l, s'')
    end.
End OrmClient.
Arguments client_call : clear implicits.
Arguments client_answer : clear implicits.
