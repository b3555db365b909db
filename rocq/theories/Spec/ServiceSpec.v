(** The API server of a running node: what is served where. *)
From Coq Require Import NArith List Bool String Sorted.
From stdpp Require Import base list gmap.
From Verif.Model Require Import Bytes KindEncoder Desc Schema Orm Users Prog Runtime Module Builder Universe Authn TestApp Abci Query ApiServer ApiService.
From Verif.Spec Require Import TextSpec StoreSpec QuerySpec ApiSpec ChainSpec.

(** The singletons by type and path. *)
Definition single_paths : list (bytes * bytes) :=
  [(ty_modules, str "/tmos.runtime.v1alpha1/moduledescriptors");
   (ty_stage, str "/tmos.abci.v1alpha1/stage");
   (ty_begin_block, str "/tmos.abci.v1alpha1/beginblockstate");
   (ty_check_tx, str "/tmos.abci.v1alpha1/checktxstate");
   (ty_deliver_tx, str "/tmos.abci.v1alpha1/delivertxstate");
   (ty_init_chain_info, str "/tmos.abci.v1alpha1/initchaininfo");
   (ty_end_block, str "/tmos.abci.v1alpha1/endblockstate");
   (ty_current_block, str "/tmos.abci.v1alpha1/currentblock");
   (ty_updates, str "/tmos.abci.v1alpha1/validatorupdates");
   (ty_auth_params, str "/tmos.x.authn.v1alpha1/params");
   (ty_account_number, str "/tmos.x.authn.v1alpha1/currentaccountnumber");
   (ty_rbac_params, str "/tmos.core.rbac.v1alpha1/params")].
(** The other objects by type, path and name of their key. *)
Definition keyed_paths : list (bytes * bytes * bytes) :=
  [(ty_account, str "/tmos.x.authn.v1alpha1/account", str "address");
   (ty_role, str "/tmos.core.rbac.v1alpha1/role", str "id");
   (ty_binding, str "/tmos.core.rbac.v1alpha1/rolebinding", str "subject");
   (ty_balance, str "/tmos.x.bank.v1alpha1/balance", str "address")].
(** The fields by which they are listed. *)
Definition listed_by (ty f : bytes) (k : kind) : Prop :=
  ty = ty_account /\ f = str "accountNumber" /\ k = Uint64Kind
  \/ ty = ty_binding /\ f = str "roleRef" /\ k = StringKind.

(** The types of the application's objects are linked into the program. *)
Definition linked (find_message : bytes -> option objtype) : Prop :=
  forall m t d, m ∈ app_modules 0 (fun _ _ _ => false) -> (t, d) ∈ mo_objects m ->
    find_message (api_name (ot_group t) (ot_kind t)) = Some t.

Section Service.
  Context (C : codec) (bits : N) (verify : bytes -> bytes -> bytes -> bool).
  Context (enum : list (event object msg) -> users -> list user) (fuel : nat) (decode : bytes -> res tx).
  (** The message types of the program, and what protojson can write. *)
  Context (find_message : bytes -> option objtype) (renders : object -> bool).

  (** The answer of the server, started with [objects], while the node is [x]. *)
  Definition http (objects : list (schema * definition)) (rq : request) (x : node) : response object :=
    serve (Msg := msg) (app_ops C) (ap_registry (the_app bits verify)) renders objects rq (w_store (rt_world x)).
  (** The service reads the list of modules and starts. It is started within
      InitChain, after the modules have been recorded; the node may also be started
      again later. *)
  Definition starts (x : node) : res (list (schema * definition)) :=
    service_start C (ap_registry (the_app bits verify)) find_message 1 no_descs (w_store (rt_world x)).
  Definition serving (chain_id : bytes) (objects : list (schema * definition)) : Prop :=
    exists cs x, running C bits verify enum fuel decode chain_id cs x /\ starts x = Ok objects.

  (** What can be read: an object of a type with a value in a field; all of them in
      the order of their keys, none twice. *)
  Definition reads_with (x : node) (ty f : bytes) (v : pvalue) (o : object) : Prop :=
    exists id, gets C bits verify x ty id o /\ oo_get (app_ops C) o f = v.
  Definition reads_all (x : node) (ty f : bytes) (v : pvalue) (l : list object) : Prop :=
    exists ids, StronglySorted strictly_below ids
      /\ Forall2 (fun id o => gets C bits verify x ty id o /\ oo_get (app_ops C) o f = v) ids l
      /\ forall id o, gets C bits verify x ty id o -> oo_get (app_ops C) o f = v -> id ∈ ids.

  (** The first selection of a request asks for the objects with this value. *)
  Definition first_selection (ty : bytes) (rq : request) (f : bytes) (v : pvalue) : Prop :=
    exists text more k t, rq_query rq (str "selectField") = text :: more
      /\ selects text f t /\ listed_by ty f k /\ denotes k t v.
  (** A request for many objects that is not refused for its texts. *)
  Definition well_formed (ty : bytes) (rq : request) : Prop :=
    height_text (rq_height rq) /\ bounds_text (rq_query rq) /\ rq_query rq (str "selectField") <> []
    /\ forall text, text ∈ rq_query rq (str "selectField") ->
         exists f k t v, selects text f t /\ listed_by ty f k /\ denotes k t v.
End Service.
