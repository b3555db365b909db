(** Handlers as programs over the client interface.

    A Go handler is arbitrary code that talks to the runtime only through its
    client (runtime/client/client.go:13-20). It is modelled as a tree of client
    calls: what it does next is a function of the answers so far. Not modelled:
    handlers that keep memory between requests, recover from panics or use
    goroutines (no handler of the repository does). *)
From Coq Require Import NArith List Bool.
From stdpp Require Import base list gmap.
From Verif.Model Require Import Bytes KindEncoder Schema Indexes Users.

(** client.go:25-37 DeliverOption, 62-72 GetOption, 84-128 ListOption. Options
    for Create, Update and Delete are ignored by every client, see
    runtime/client.go:35-45. *)
Inductive deliver_option := DeliverImpersonating (subjects : list bytes).
Inductive get_option := GetAtHeight (h : N).
Inductive list_option :=
| ListAtHeight (h : N)
| ListMatchFieldInterface (f : bytes) (v : goval)
| ListMatchFieldString (f v : bytes)
| ListRange (a b : N).

(** client.go:64-72: the last GetAtHeight wins. *)
Definition get_height (opts : list get_option) : N :=
  fold_left (fun _ o => match o with GetAtHeight h => h end) opts 0%N.

(** client.go:79-128: the raw options; ListAtHeight (88-92) sets nothing. *)
Record list_options_raw := { lr_height : N; lr_orm : list_options }.
Definition apply_list_option (r : list_options_raw) (o : list_option) : list_options_raw :=
  let q := lr_orm r in
  match o with
  | ListAtHeight _ => r
  | ListMatchFieldInterface f v =>
      {| lr_height := lr_height r;
         lr_orm := {| lo_interface := lo_interface q ++ [(f, v)]; lo_string := lo_string q;
                      lo_start := lo_start q; lo_end := lo_end q |} |}
  | ListMatchFieldString f v =>
      {| lr_height := lr_height r;
         lr_orm := {| lo_interface := lo_interface q; lo_string := lo_string q ++ [(f, v)];
                      lo_start := lo_start q; lo_end := lo_end q |} |}
  | ListRange a b =>
      {| lr_height := lr_height r;
         lr_orm := {| lo_interface := lo_interface q; lo_string := lo_string q;
                      lo_start := a; lo_end := b |} |}
  end.
Definition list_options_of (opts : list list_option) : list_options_raw :=
  fold_left apply_list_option opts
    {| lr_height := 0;
       lr_orm := {| lo_interface := []; lo_string := []; lo_start := 0; lo_end := 0 |} |}.

(** client.go:33-37: the users to impersonate; the last option wins. *)
Definition impersonated (opts : list deliver_option) : option users :=
  fold_left (fun _ o => match o with DeliverImpersonating l => Some (users_from_string l) end)
            opts None.

(** Read-only programs: [REnum] is a call of Users.List, whose order is not
    fixed; [inr e] is the answer of a call that returned the error [e]. *)
Inductive rprog (Obj A : Type) : Type :=
| RRet (a : A)
| RPanic
| RGet (ty id : bytes) (k : Obj + goerr -> rprog Obj A)
| REnum (us : users) (k : list user -> rprog Obj A).
Arguments RRet {Obj A}. Arguments RPanic {Obj A}.
Arguments RGet {Obj A}. Arguments REnum {Obj A}.

(** Programs. [PList] answers with the primary keys its iterator visits. A call
    without result answers [None] for success and [Some e] for the error [e]. *)
Inductive prog (Obj Msg A : Type) : Type :=
| PRet (a : A)
| PFail (e : goerr)
| PPanic
| PGet (ty id : bytes) (opts : list get_option) (k : Obj + goerr -> prog Obj Msg A)
| PList (ty : bytes) (opts : list list_option) (k : list bytes + goerr -> prog Obj Msg A)
| PEnum (us : users) (k : list user -> prog Obj Msg A)
| PCreate (o : Obj) (k : option goerr -> prog Obj Msg A)
| PUpdate (o : Obj) (k : option goerr -> prog Obj Msg A)
| PDelete (o : Obj) (k : option goerr -> prog Obj Msg A)
| PDeliver (m : Msg) (opts : list deliver_option) (k : option goerr -> prog Obj Msg A).
Arguments PRet {Obj Msg A}. Arguments PFail {Obj Msg A}. Arguments PPanic {Obj Msg A}.
Arguments PGet {Obj Msg A}. Arguments PList {Obj Msg A}. Arguments PEnum {Obj Msg A}.
Arguments PCreate {Obj Msg A}. Arguments PUpdate {Obj Msg A}. Arguments PDelete {Obj Msg A}.
Arguments PDeliver {Obj Msg A}.

(** Sequencing: [x, err := p; if err != nil { return err }; f x]. *)
Fixpoint pbind {Obj Msg A B} (p : prog Obj Msg A) (f : A -> prog Obj Msg B) : prog Obj Msg B :=
  match p with
  | PRet a => f a
  | PFail e => PFail e
  | PPanic => PPanic
  | PGet ty id o k => PGet ty id o (fun x => pbind (k x) f)
  | PList ty o k => PList ty o (fun x => pbind (k x) f)
  | PEnum us k => PEnum us (fun x => pbind (k x) f)
  | PCreate o k => PCreate o (fun x => pbind (k x) f)
  | PUpdate o k => PUpdate o (fun x => pbind (k x) f)
  | PDelete o k => PDelete o (fun x => pbind (k x) f)
  | PDeliver m o k => PDeliver m o (fun x => pbind (k x) f)
  end.

(** Programs that make no write call and no delivery. *)
Inductive read_only {Obj Msg A} : prog Obj Msg A -> Prop :=
| ro_ret a : read_only (PRet a)
| ro_fail e : read_only (PFail e)
| ro_panic : read_only PPanic
| ro_get ty id o k : (forall x, read_only (k x)) -> read_only (PGet ty id o k)
| ro_list ty o k : (forall x, read_only (k x)) -> read_only (PList ty o k)
| ro_enum us k : (forall x, read_only (k x)) -> read_only (PEnum us k).
