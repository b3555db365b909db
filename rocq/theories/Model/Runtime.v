(** runtime/runtime.go and runtime/client.go: requests to the runtime, programs
    run by module clients, and the delivery of state transitions. *)
From Coq Require Import NArith List Bool String.
From stdpp Require Import base list gmap.
From Verif.Model Require Import Bytes KindEncoder Desc Schema Indexes Orm Users Prog Router.

(** The store operations the runtime uses. [orm_ops] below are those of
    runtime/orm/store.go on bytes; the proofs also use the plain map. *)
Record storeops (Obj St : Type) := {
  so_get : bytes -> bytes -> St -> res Obj;
  so_list : bytes -> list_options -> St -> res (list bytes);
  so_create : Obj -> St -> res unit * St;
  so_update : Obj -> St -> res unit * St;
  so_delete : Obj -> St -> res unit * St
}.
Arguments so_get {Obj St}. Arguments so_list {Obj St}. Arguments so_create {Obj St}.
Arguments so_update {Obj St}. Arguments so_delete {Obj St}.

Definition orm_ops {Obj} (O : objops Obj) (R : registry) : storeops Obj orm := {|
  so_get := orm_get O R; so_list := orm_list R; so_create := orm_create O R;
  so_update := orm_update O R; so_delete := orm_delete O R |}.

(** core/runtime/v1alpha1 Verb. *)
Inductive verb := VUnknown | VGet | VList | VCreate | VUpdate | VDelete | VDeliver.

Section Runtime.
  Context {Obj Msg Tx St : Type}.

  Inductive write := WCreate (o : Obj) | WUpdate (o : Obj) | WDelete (o : Obj).

  (** What happened so far. This is not in the code: the theorems speak about it,
      and the unspecified order of Users.List may depend on it. *)
  Inductive event :=
  | EvCheck (v : verb) (name : bytes) (us : users) (allowed : bool)
  | EvWrite (w : write) (us : users)
  | EvDeliver (m : Msg) (us : users)
  | EvEnum (us : users).

  Record world := { w_store : St; w_trace : list event }.
  Definition log (e : event) (w : world) : world :=
    {| w_store := w_store w; w_trace := w_trace w ++ [e] |}.

  (** runtime/authorization/authorization.go: a decision ([true] is
      DecisionAllow) and an error. Simplification: authorizers only read. *)
  Definition authorizer := verb -> bytes -> users -> rprog Obj (bool * option goerr).

  (** runtime.go:32-47 Runtime: the parts constant while a request runs. *)
  Record env := {
    en_router : router Obj Msg Tx;
    en_authorizer : authorizer;
    en_enabled : bool;
    en_enum : list event -> users -> list user
  }.

  Context (O : objops Obj) (mname : Msg -> bytes) (SO : storeops Obj St).

  (** runtime.go:276-286 convertStoreError. *)
  Definition convert_store_error {A : Type} (r : res A) : res A :=
    match r with
    | Fail e => if errors_is e OrmNotFound then Fail (EWrap (ESent RtNotFound)) else Panic
    | r => r
    end.

  (** runtime.go:121-123 Get. *)
  Definition rt_get (ty id : bytes) (s : St) : res Obj := convert_store_error (so_get SO ty id s).

  (** runtime.go:125-128 List (the iterator runs to its end). *)
  Definition rt_list (ty : bytes) (opt : list_options) (s : St) : res (list bytes) :=
    convert_store_error (so_list SO ty opt s).

  (** A read-only program of a module client: runtime/client.go:24-33 with no
      options. [enum] answers Users.List. *)
  Fixpoint run_read {A : Type} (enum : users -> list user) (p : rprog Obj A) (s : St) : res A :=
    match p with
    | RRet a => Ok a
    | RPanic => Panic
    | RGet ty id k =>
        match rt_get ty id s with
        | Ok o => run_read enum (k (inl o)) s
        | Fail e => run_read enum (k (inr e)) s
        | Panic => Panic
        | OutOfFuel => OutOfFuel
        end
    | REnum us k => run_read enum (k (enum us)) s
    end.

  (** runtime.go:264-273 authorized. *)
  Definition authorized (en : env) (v : verb) (name : bytes) (us : users) (w : world)
    : res unit * world :=
    if negb (en_enabled en) then (Ok tt, w)
    else
      match run_read (en_enum en (w_trace w)) (en_authorizer en v name us) (w_store w) with
      | Ok (true, None) => (Ok tt, log (EvCheck v name us true) w)
      | Ok _ => (Fail (EWrap (ESent RtUnauthorized)), log (EvCheck v name us false) w)
      | Fail e => (Fail e, w)
      | Panic => (Panic, w)
      | OutOfFuel => (OutOfFuel, w)
      end.

  Definition apply_write (x : write) (s : St) : res unit * St :=
    match x with
    | WCreate o => so_create SO o s
    | WUpdate o => so_update SO o s
    | WDelete o => so_delete SO o s
    end.
  Definition store_write (x : write) (us : users) (w : world) : res unit * world :=
    let '(r, s) := apply_write x (w_store w) in
    (convert_store_error r, {| w_store := s; w_trace := w_trace w ++ [EvWrite x us] |}).

  (** runtime.go:130-137 Create. *)
  Definition rt_create (en : env) (us : users) (o : Obj) (w : world) : res unit * world :=
    match authorized en VCreate (obj_name O o) us w with
    | (Ok _, w') => store_write (WCreate o) us w'
    | r => r
    end.

  (** runtime.go:139-146 Update. *)
  Definition rt_update (en : env) (us : users) (o : Obj) (w : world) : res unit * world :=
    match authorized en VUpdate (obj_name O o) us w with
    | (Ok _, w') => store_write (WUpdate o) us w'
    | r => r
    end.

  (** runtime.go:148-155 Delete. *)
  Definition rt_delete (en : env) (us : users) (o : Obj) (w : world) : res unit * world :=
    match authorized en VDelete (obj_name O o) us w with
    | (Ok _, w') => store_write (WDelete o) us w'
    | r => r
    end.

  (** runtime/client.go:54: the users of a delivery by a client (the order in
      which the union lists its parts does not matter). *)
  Definition client_users (self : users) (opts : list deliver_option) : users :=
    users_union users_list [Some self; impersonated opts].

  Section Exec.
    Context (en : env) (dlv : users -> Msg -> world -> res unit * world).

    (** A program run with the module client of [self], runtime/client.go:24-69. *)
    Fixpoint exec {A : Type} (self : users) (p : prog Obj Msg A) (w : world) : res A * world :=
      match p with
      | PRet a => (Ok a, w)
      | PFail e => (Fail e, w)
      | PPanic => (Panic, w)
      | PGet ty id opts k =>
          if negb (N.eqb (get_height opts) 0) then exec self (k (inr EAnon)) w
          else match rt_get ty id (w_store w) with
               | Ok o => exec self (k (inl o)) w
               | Fail e => exec self (k (inr e)) w
               | Panic => (Panic, w)
               | OutOfFuel => (OutOfFuel, w)
               end
      | PList ty opts k =>
          let raw := list_options_of opts in
          if negb (N.eqb (lr_height raw) 0) then exec self (k (inr EAnon)) w
          else match rt_list ty (lr_orm raw) (w_store w) with
               | Ok l => exec self (k (inl l)) w
               | Fail e => exec self (k (inr e)) w
               | Panic => (Panic, w)
               | OutOfFuel => (OutOfFuel, w)
               end
      | PEnum us k => exec self (k (en_enum en (w_trace w) us)) (log (EvEnum us) w)
      | PCreate o k =>
          match rt_create en self o w with
          | (Ok _, w') => exec self (k None) w'
          | (Fail e, w') => exec self (k (Some e)) w'
          | (Panic, w') => (Panic, w')
          | (OutOfFuel, w') => (OutOfFuel, w')
          end
      | PUpdate o k =>
          match rt_update en self o w with
          | (Ok _, w') => exec self (k None) w'
          | (Fail e, w') => exec self (k (Some e)) w'
          | (Panic, w') => (Panic, w')
          | (OutOfFuel, w') => (OutOfFuel, w')
          end
      | PDelete o k =>
          match rt_delete en self o w with
          | (Ok _, w') => exec self (k None) w'
          | (Fail e, w') => exec self (k (Some e)) w'
          | (Panic, w') => (Panic, w')
          | (OutOfFuel, w') => (OutOfFuel, w')
          end
      | PDeliver m opts k =>
          match dlv (client_users self opts) m w with
          | (Ok _, w') => exec self (k None) w'
          | (Fail e, w') => exec self (k (Some e)) w'
          | (Panic, w') => (Panic, w')
          | (OutOfFuel, w') => (OutOfFuel, w')
          end
      end.

    Definition run_handler (h : handler Obj Msg) (us : users) (m : Msg) (w : world)
      : res unit * world := exec (h_self h) (h_run h us m) w.

    (** The loops over handlers: [conv] is applied to an error of the handler. *)
    Fixpoint run_handlers (conv : goerr -> goerr) (hs : list (handler Obj Msg)) (us : users)
        (m : Msg) (w : world) : res unit * world :=
      match hs with
      | [] => (Ok tt, w)
      | h :: hs' =>
          match run_handler h us m w with
          | (Ok _, w') => run_handlers conv hs' us m w'
          | (Fail e, w') => (Fail (conv e), w')
          | r => r
          end
      end.

    Definition bad_request (e : goerr) : goerr := EWrap (ESent RtBadRequest).

    (** runtime.go:224-239 runAdmissionChain. *)
    Definition run_admission_chain (us : users) (m : Msg) (w : world) : res unit * world :=
      match get_admission (en_router en) (mname m) with
      | Ok hs => run_handlers bad_request hs us m w
      | Fail e => (Fail (EWrap e), w)
      | Panic => (Panic, w)
      | OutOfFuel => (OutOfFuel, w)
      end.

    (** runtime.go:242-251 and 253-262: both chains over whole transactions. *)
    Fixpoint run_tx_handlers (hs : list (tx_handler Obj Msg Tx)) (tx : Tx) (w : world)
      : res unit * world :=
      match hs with
      | [] => (Ok tt, w)
      | h :: hs' =>
          match exec (th_self h) (th_run h tx) w with
          | (Ok _, w') => run_tx_handlers hs' tx w'
          | (Fail e, w') => (Fail (bad_request e), w')
          | r => r
          end
      end.
    Definition run_tx_admission_chain (tx : Tx) (w : world) : res unit * world :=
      run_tx_handlers (ro_auth_admission (en_router en)) tx w.
    Definition run_tx_post_auth_chain (tx : Tx) (w : world) : res unit * world :=
      run_tx_handlers (ro_post_auth (en_router en)) tx w.

    (** runtime.go:179-219: what follows the authorization check. The error of
        the look-up in line 180 is overwritten unread. *)
    Definition deliver_authorized (us : users) (m : Msg) (w : world) : res unit * world :=
      let pres := match get_pre (en_router en) (mname m) with Ok hs => hs | _ => [] end in
      match run_handlers (fun e => e) pres us m w with
      | (Ok _, w1) =>
          match get_exec (en_router en) (mname m) with
          | Ok h =>
              match run_handler h us m w1 with
              | (Ok _, w2) =>
                  match get_post (en_router en) (mname m) with
                  | Ok posts => run_handlers (fun e => e) posts us m w2
                  | Fail e => (Fail e, w2)
                  | Panic => (Panic, w2)
                  | OutOfFuel => (OutOfFuel, w2)
                  end
              | r => r
              end
          | Fail e => (Fail e, w1)
          | Panic => (Panic, w1)
          | OutOfFuel => (OutOfFuel, w1)
          end
      | r => r
      end.

    (** runtime.go:163-220 deliver; [skip] is the option of lines 26-30. *)
    Definition deliver_body (skip : bool) (us : users) (m : Msg) (w : world) : res unit * world :=
      match (if skip then (Ok tt, w) else run_admission_chain us m w) with
      | (Ok _, w1) =>
          match authorized en VDeliver (mname m) us w1 with
          | (Ok _, w2) => deliver_authorized us m (log (EvDeliver m us) w2)
          | r => r
          end
      | r => r
      end.
  End Exec.

  (** runtime.go:157-159 Deliver. Nested deliveries use up [fuel]. *)
  Fixpoint deliver (en : env) (fuel : nat) (skip : bool) (us : users) (m : Msg) (w : world)
    : res unit * world :=
    match fuel with
    | 0 => (OutOfFuel, w)
    | S f => deliver_body en (deliver en f false) skip us m w
    end.
End Runtime.
Arguments write : clear implicits. Arguments event : clear implicits.
Arguments world : clear implicits. Arguments env : clear implicits.
Arguments authorizer : clear implicits.
Arguments WCreate {Obj}. Arguments WUpdate {Obj}. Arguments WDelete {Obj}.
Arguments EvCheck {Obj Msg}. Arguments EvWrite {Obj Msg}.
Arguments EvDeliver {Obj Msg}. Arguments EvEnum {Obj Msg}.
