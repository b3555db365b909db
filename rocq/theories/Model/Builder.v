(** runtime/builder.go: building an application from modules; and the genesis
    part of runtime/runtime.go. *)
From Coq Require Import NArith List Bool String.
From stdpp Require Import base list gmap.
From Verif.Model Require Import Bytes KindEncoder Desc Schema Indexes Orm Users Prog Router
  Runtime Services Module.

Section Builder.
  Context {Obj Msg Tx : Type}.

  (** The parts of the Runtime a build sets. *)
  Record application := {
    ap_modules : list (module Obj Msg Tx);
    ap_registry : registry;
    ap_router : router Obj Msg Tx;
    ap_services : list mod_service;
    ap_authorizer : authorizer Obj
  }.

  (** [for _, x := range l { if err := f(x); err != nil { return wrap(err) } }]. *)
  Fixpoint each {A S} (wrap : goerr -> goerr) (f : A -> S -> res unit * S) (l : list A) (s : S)
    : res unit * S :=
    match l with
    | [] => (Ok tt, s)
    | x :: l' =>
        match f x s with
        | (Ok _, s') => each wrap f l' s'
        | (Fail e, s') => (Fail (wrap e), s')
        | r => r
        end
    end.
  Definition id_err (e : goerr) : goerr := e.

  Definition with_client (m : module Obj Msg Tx) (h : users -> Msg -> prog Obj Msg unit)
    : handler Obj Msg := {| h_self := module_self m; h_run := h |}.
  Definition with_client_tx (m : module Obj Msg Tx) (h : Tx -> prog Obj Msg unit)
    : tx_handler Obj Msg Tx := {| th_self := module_self m; th_run := h |}.

  (** builder.go:120-142 registerStateObjects, installStateObjects. *)
  Definition install_objects (fuel : nat) (D : descs) (ms : list (module Obj Msg Tx)) (R : registry) :=
    each EWrap (fun m => each id_err (fun x R => add_object fuel D R (fst x) (snd x)) (mo_objects m))
         ms R.

  (** builder.go:94-105, 144-153 installStateTransitions. *)
  Definition install_exec (ms : list (module Obj Msg Tx)) (r : router Obj Msg Tx) :=
    each EWrap (fun m => each id_err (fun x r => add_exec r (tt_name (fst x)) (with_client m (snd x)))
                              (mo_exec m)) ms r.

  (** builder.go:107-118, 155-164 installStateTransitionAdmissionHandlers. *)
  Definition install_admission (ms : list (module Obj Msg Tx)) (r : router Obj Msg Tx) :=
    each id_err (fun m => each id_err (fun x r => add_admission r (tt_name (fst x)) (with_client m (snd x)))
                               (mo_admission m)) ms r.

  (** builder.go:166-182 installStateTransitionPreExecHandlers. *)
  Definition install_pre (ms : list (module Obj Msg Tx)) (r : router Obj Msg Tx) :=
    each id_err (fun m => each EWrap (fun x r => add_pre r (tt_name (fst x)) (with_client m (snd x)))
                               (mo_pre m)) ms r.

  (** builder.go:184-199 installStateTransitionPostExecHandlers. *)
  Definition install_post (ms : list (module Obj Msg Tx)) (r : router Obj Msg Tx) :=
    each id_err (fun m => each EWrap (fun x r => add_post r (tt_name (fst x)) (with_client m (snd x)))
                               (mo_post m)) ms r.

  (** builder.go:248-259 and 261-272. *)
  Definition install_auth_admission (ms : list (module Obj Msg Tx)) (r : router Obj Msg Tx) :=
    fold_left (fun r m => fold_left (fun r h => add_auth_admission r (with_client_tx m h))
                                    (mo_auth_admission m) r) ms r.
  Definition install_post_auth (ms : list (module Obj Msg Tx)) (r : router Obj Msg Tx) :=
    fold_left (fun r m => fold_left (fun r h => add_post_auth r (with_client_tx m h))
                                    (mo_post_auth m) r) ms r.

  (** builder.go:274-284 installDependencies. *)
  Definition install_dependencies (ms : list (module Obj Msg Tx)) (r : router Obj Msg Tx) :=
    each id_err (fun m => each EWrap (fun t r => match get_exec r (tt_name t) with
                                                 | Ok _ => (Ok tt, r)
                                                 | Fail e => (Fail e, r)
                                                 | Panic => (Panic, r)
                                                 | OutOfFuel => (OutOfFuel, r)
                                                 end) (mo_needs m)) ms r.

  (** builder.go:297-302 installExtensions. *)
  Definition install_services (ms : list (module Obj Msg Tx)) : list mod_service :=
    fold_left (fun g m => add_services g (mo_name m) (mo_services m)) ms [].

  (** runtime/authorization/default.go:18-20 AlwaysAllowAuthorizer. *)
  Definition always_allow : authorizer Obj := fun _ _ _ => RRet (true, None).
  (** runtime/authorization/default.go:28-30 AlwaysDenyAuthorizer. *)
  Definition always_deny : authorizer Obj := fun _ _ _ => RRet (false, Some EAnon).

  (** builder.go:304-321 installAuthorizer. *)
  Fixpoint find_authorizer (ms : list (module Obj Msg Tx)) (acc : option (authorizer Obj))
    : res (option (authorizer Obj)) :=
    match ms with
    | [] => Ok acc
    | m :: ms' =>
        match acc, mo_authorizer m with
        | Some _, Some _ => Fail EAnon
        | _, Some a => find_authorizer ms' (Some a)
        | _, None => find_authorizer ms' acc
        end
    end.
  Definition install_authorizer (ms : list (module Obj Msg Tx)) : res (authorizer Obj) :=
    match find_authorizer ms None with
    | Ok a => Ok (default always_allow a)
    | Fail e => Fail e
    | Panic => Panic
    | OutOfFuel => OutOfFuel
    end.

  Definition step {A B} (x : res unit * A) (f : A -> res B) : res B :=
    match x with
    | (Ok _, a) => f a
    | (Fail e, _) => Fail (EWrap e)
    | (Panic, _) => Panic
    | (OutOfFuel, _) => OutOfFuel
    end.

  (** builder.go:67-92 Build and 201-246 installModules. [ms] are the modules
      added so far, the runtime module and the abci module first (26-41). *)
  Definition build (fuel : nat) (D : descs) (ms : list (module Obj Msg Tx)) : res application :=
    if existsb (fun m => bytes_eqb (mo_name m) []) ms then Fail (EWrap EAnon)
    else
      step (install_objects fuel D ms new_registry) (fun R =>
      step (install_exec ms new_router) (fun r =>
      step (install_admission ms r) (fun r =>
      step (install_pre ms r) (fun r =>
      step (install_post ms r) (fun r =>
      let r := install_auth_admission ms r in
      let r := install_post_auth ms r in
      step (install_dependencies ms r) (fun r =>
      match install_authorizer ms with
      | Ok a => Ok {| ap_modules := ms; ap_registry := R; ap_router := r;
                      ap_services := install_services ms; ap_authorizer := a |}
      | Fail e => Fail e
      | Panic => Panic
      | OutOfFuel => OutOfFuel
      end)))))).
End Builder.
Arguments application : clear implicits.

Section Genesis.
  Context {Obj Msg Tx St : Type}.
  Context (O : objops Obj) (mname : Msg -> bytes) (SO : storeops Obj St).
  (** The CreateModuleDescriptors transition carrying the given descriptors. *)
  Context (create_descriptors : list raw_descriptor -> Msg).
  Context (a : application Obj Msg Tx) (enum : list (event Obj Msg) -> users -> list user) (fuel : nat).

  (** runtime.go:32-47: the parts that change between requests, and the calls
      made to services. *)
  Record rt := {
    rt_initialized : bool;
    rt_enabled : bool;
    rt_world : world Obj Msg St;
    rt_services : list service_call
  }.
  Definition set_world (x : rt) (w : world Obj Msg St) : rt :=
    {| rt_initialized := rt_initialized x; rt_enabled := rt_enabled x; rt_world := w;
       rt_services := rt_services x |}.

  Definition env_of (enabled : bool) : env Obj Msg Tx :=
    {| en_router := ap_router a; en_authorizer := ap_authorizer a; en_enabled := enabled;
       en_enum := enum |}.

  (** runtime.go:49-55 EnableAuthorization, DisableAuthorization. *)
  Definition set_authorization (b : bool) (x : rt) : rt :=
    {| rt_initialized := rt_initialized x; rt_enabled := b; rt_world := rt_world x;
       rt_services := rt_services x |}.

  (** runtime.go:157-159 Deliver. *)
  Definition rt_deliver (us : users) (m : Msg) (x : rt) : res unit * rt :=
    let '(r, w) := deliver O mname SO (env_of (rt_enabled x)) fuel false us m (rt_world x) in
    (r, set_world x w).

  (** A program of a module's client, outside of any delivery. *)
  Definition run_module (m : module Obj Msg Tx) (p : prog Obj Msg unit) (x : rt) : res unit * rt :=
    let '(r, w) := exec O SO (env_of (rt_enabled x))
                     (deliver O mname SO (env_of (rt_enabled x)) fuel false)
                     (module_self m) p (rt_world x) in
    (r, set_world x w).

  (** runtime.go:78-86: the modules' genesis handlers. *)
  Definition genesis_modules (ms : list (module Obj Msg Tx)) (x : rt) : res unit * rt :=
    each EWrap (fun m x => match mo_genesis m with
                           | None => (Ok tt, x)
                           | Some g => run_module m (gn_default g) x
                           end) ms x.

  (** runtime/authentication/user/well_knowns.go. *)
  Definition runtime_user : bytes := str "system:runtime".
  Definition abci_user : bytes := str "system:abci".

  (** runtime.go:58-96 InitGenesis. *)
  Definition init_genesis (x : rt) : res unit * rt :=
    if rt_initialized x then (Fail EAnon, x)
    else
      match rt_deliver (users_from_string [runtime_user])
                       (create_descriptors (map raw (ap_modules a))) x with
      | (Ok _, x1) =>
          match genesis_modules (ap_modules a) x1 with
          | (Ok _, x2) =>
              let '(l, r) := services_start (ap_services a) in
              (r, {| rt_initialized := true; rt_enabled := rt_enabled x2;
                     rt_world := rt_world x2; rt_services := rt_services x2 ++ l |})
          | r => r
          end
      | r => r
      end.

  (** runtime.go:98-119 Import; [data] is the decoded JSON object, [None] if the
      bytes are no JSON object. *)
  Definition import (data : option (gmap bytes bytes)) (x : rt) : res unit * rt :=
    match data with
    | None => (Fail EAnon, x)
    | Some d =>
        each id_err (fun m x => match mo_genesis m with
                                | None => (Ok tt, x)
                                | Some g => run_module m (gn_import g (d !! mo_name m)) x
                                end) (ap_modules a) x
    end.
End Genesis.
Arguments rt : clear implicits.
