(** Properties of the runtime: C15-C25. *)
From Coq Require Import NArith List Bool String.
From stdpp Require Import base list gmap.
From Verif.Model Require Import Bytes KindEncoder Desc Schema Indexes KV Objects Orm Users Prog Router
  Runtime Services Errors Client Module Builder.
From Verif.Spec Require Import UserSpec RuntimeSpec StoreSpec TextSpec SurfaceSpec Demo DemoApp.
From Verif.Proofs Require Import UserFacts RouterFacts RuntimeFacts BuilderFacts DeliverFacts GenesisFacts StoreProps SurfaceFacts StopFacts.

(** ** C15 *)
(** Whatever a delivery does, at any depth, was allowed by the authorizer in the
    state at that moment ([allowed_run]); arbitrary routers, handlers, stores
    and authorizers. *)
Theorem C15_deliveries_authorized :
  forall (Obj Msg Tx St : Type) (O : objops Obj) (mname : Msg -> bytes) (SO : storeops Obj St)
         (en : env Obj Msg Tx) fuel skip us m w r w',
    en_enabled en = true ->
    deliver O mname SO en fuel skip us m w = (r, w') ->
    allowed_run O mname SO en w w'.
Proof. exact @deliver_allowed. Qed.
Print Assumptions C15_deliveries_authorized.

(** The same for any program run with a module's client, *)
Theorem C15_programs_authorized :
  forall (Obj Msg Tx St : Type) (O : objops Obj) (mname : Msg -> bytes) (SO : storeops Obj St)
         (en : env Obj Msg Tx) fuel self (A : Type) (p : prog Obj Msg A) w r w',
    en_enabled en = true ->
    exec O SO en (deliver O mname SO en fuel false) self p w = (r, w') ->
    allowed_run O mname SO en w w'.
Proof. exact @program_allowed. Qed.
Print Assumptions C15_programs_authorized.

(** and for the handlers of whole transactions. *)
Theorem C15_transaction_handlers_authorized :
  forall (Obj Msg Tx St : Type) (O : objops Obj) (mname : Msg -> bytes) (SO : storeops Obj St)
         (en : env Obj Msg Tx) fuel hs (tx : Tx) w r w',
    en_enabled en = true ->
    run_tx_handlers O SO en (deliver O mname SO en fuel false) hs tx w = (r, w') ->
    allowed_run O mname SO en w w'.
Proof. exact @tx_chain_allowed. Qed.
Print Assumptions C15_transaction_handlers_authorized.

(** Refusals are reported as unauthorized and leave the store as it was. *)
Theorem C15_refused_create :
  forall (Obj Msg Tx St : Type) (O : objops Obj) (SO : storeops Obj St)
         (en : env Obj Msg Tx) us o (w : world Obj Msg St) d,
    en_enabled en = true ->
    run_read SO (en_enum en (w_trace w)) (en_authorizer en VCreate (obj_name O o) us) (w_store w) = Ok d ->
    d <> (true, None) ->
    exists e w', rt_create O SO en us o w = (Fail e, w') /\ errors_is e RtUnauthorized = true
                 /\ w_store w' = w_store w.
Proof. exact @create_refused. Qed.
Print Assumptions C15_refused_create.

Theorem C15_refused_update :
  forall (Obj Msg Tx St : Type) (O : objops Obj) (SO : storeops Obj St)
         (en : env Obj Msg Tx) us o (w : world Obj Msg St) d,
    en_enabled en = true ->
    run_read SO (en_enum en (w_trace w)) (en_authorizer en VUpdate (obj_name O o) us) (w_store w) = Ok d ->
    d <> (true, None) ->
    exists e w', rt_update O SO en us o w = (Fail e, w') /\ errors_is e RtUnauthorized = true
                 /\ w_store w' = w_store w.
Proof. exact @update_refused. Qed.
Print Assumptions C15_refused_update.

Theorem C15_refused_delete :
  forall (Obj Msg Tx St : Type) (O : objops Obj) (SO : storeops Obj St)
         (en : env Obj Msg Tx) us o (w : world Obj Msg St) d,
    en_enabled en = true ->
    run_read SO (en_enum en (w_trace w)) (en_authorizer en VDelete (obj_name O o) us) (w_store w) = Ok d ->
    d <> (true, None) ->
    exists e w', rt_delete O SO en us o w = (Fail e, w') /\ errors_is e RtUnauthorized = true
                 /\ w_store w' = w_store w.
Proof. exact @delete_refused. Qed.
Print Assumptions C15_refused_delete.

(** A delivery refused after its admission controllers, which are the only ones
    that ran. *)
Theorem C15_refused_delivery :
  forall (Obj Msg Tx St : Type) (O : objops Obj) (mname : Msg -> bytes) (SO : storeops Obj St)
         (en : env Obj Msg Tx) fuel us m w w1 d,
    en_enabled en = true ->
    run_admission_chain O mname SO en (deliver O mname SO en fuel false) us m w = (Ok tt, w1) ->
    run_read SO (en_enum en (w_trace w1)) (en_authorizer en VDeliver (mname m) us) (w_store w1) = Ok d ->
    d <> (true, None) ->
    exists e w', deliver O mname SO en (S fuel) false us m w = (Fail e, w')
                 /\ errors_is e RtUnauthorized = true /\ w_store w' = w_store w1.
Proof. exact @deliver_refused_admitted. Qed.
Print Assumptions C15_refused_delivery.

Theorem C15_refused_delivery_without_admission :
  forall (Obj Msg Tx St : Type) (O : objops Obj) (mname : Msg -> bytes) (SO : storeops Obj St)
         (en : env Obj Msg Tx) fuel us m w d,
    en_enabled en = true ->
    run_read SO (en_enum en (w_trace w)) (en_authorizer en VDeliver (mname m) us) (w_store w) = Ok d ->
    d <> (true, None) ->
    exists e w', deliver O mname SO en (S fuel) true us m w = (Fail e, w')
                 /\ errors_is e RtUnauthorized = true /\ w_store w' = w_store w.
Proof. exact @deliver_refused. Qed.
Print Assumptions C15_refused_delivery_without_admission.

(** Carol may relay: the nested delivery and both writes happen, each checked
    for the acting module. Dave may not. *)
Example C15_case :
  en_enabled (demo_env true) = true
  /\ match demo_deliver [str "carol"] (Relay (str "x")) demo_world with
     | (r, w) =>
         r = Ok tt
         /\ map (fun e => match e with EvCheck v n _ b => Some (v, n, b) | _ => None end) (w_trace w)
            = [Some (VDeliver, str "demo.v1.Relay", true); None; Some (VDeliver, str "demo.v1.Put", true); None;
               Some (VCreate, str "demo.v1.Thing", true); None; Some (VUpdate, str "demo.v1.Thing", true); None]
         /\ match orm_get demo_ops (ap_registry demo_app) (str "demo.v1.Thing") (str "x") (w_store w) with
            | Ok o => o = Thing (str "x") 2 (str "posted") | _ => False end
     end
  /\ (demo_deliver [str "dave"] (Relay (str "x")) demo_world).1 = Fail (EWrap (ESent RtUnauthorized)).
Proof.
  split; [reflexivity|]. split; [|vm_compute; reflexivity].
  vm_compute. split; [reflexivity|]. split; reflexivity.
Qed.

(** ** C16 *)
(** A delivery in a built application is its stages, in this order, up to the
    first that does not succeed. *)
Theorem C16_stages_in_order :
  forall (Obj Msg Tx St : Type) (O : objops Obj) (mname : Msg -> bytes) (SO : storeops Obj St)
         fuel0 D (ms : list (module Obj Msg Tx)) a enum enabled f skip us m w r w' h hs,
    build fuel0 D ms = Ok a ->
    let en := env_of a enum enabled in
    let run := handler_step O SO en (deliver O mname SO en f false) us m in
    let n := mname m in
    declared mo_exec n ms = h :: hs ->
    deliver O mname SO en (S f) skip us m w = (r, w') <->
    in_order ((if skip then []
               else map (fun x => reporting (fun _ => EWrap (ESent RtBadRequest)) (run x))
                        (declared mo_admission n ms))
              ++ [check_step mname SO en us m]
              ++ map run (declared mo_pre n ms) ++ [run h] ++ map run (declared mo_post n ms))
             w r w'.
Proof. exact @deliver_stages. Qed.
Print Assumptions C16_stages_in_order.

(** A transition nobody handles does nothing. *)
Theorem C16_unknown_transition :
  forall (Obj Msg Tx St : Type) (O : objops Obj) (mname : Msg -> bytes) (SO : storeops Obj St)
         fuel0 D (ms : list (module Obj Msg Tx)) a enum enabled f skip us m w r w',
    build fuel0 D ms = Ok a ->
    let en := env_of a enum enabled in
    declared mo_exec (mname m) ms = [] ->
    deliver O mname SO en (S f) skip us m w = (r, w') ->
    is_ok r = false /\ w_store w' = w_store w
    /\ (skip = false -> exists e, r = Fail e /\ errors_is e RouterNotFound = true).
Proof. exact @deliver_unknown. Qed.
Print Assumptions C16_unknown_transition.

(** The fuel, which bounds the depth of nested deliveries in the model, does not
    influence a delivery that finishes. *)
Theorem C16_fuel_irrelevant :
  forall (Obj Msg Tx St : Type) (O : objops Obj) (mname : Msg -> bytes) (SO : storeops Obj St)
         (en : env Obj Msg Tx) f f' skip us m w r w',
    f <= f' -> deliver O mname SO en f skip us m w = (r, w') -> r <> OutOfFuel ->
    deliver O mname SO en f' skip us m w = (r, w').
Proof. exact @deliver_mono. Qed.
Print Assumptions C16_fuel_irrelevant.

(** Put has all four kinds of handlers; the empty id fails admission, "taboo"
    fails before execution, an id delivered twice crashes in execution. *)
Example C16_case :
  build 3 demo_descs demo_modules = Ok demo_app
  /\ map (@length _) [declared mo_admission (str "demo.v1.Put") demo_modules;
                      declared mo_pre (str "demo.v1.Put") demo_modules;
                      declared mo_exec (str "demo.v1.Put") demo_modules;
                      declared mo_post (str "demo.v1.Put") demo_modules] = [1; 1; 1; 1]
  /\ (demo_deliver [str "carol"] (Put []) demo_world).1 = Fail (EWrap (ESent RtBadRequest))
  /\ (demo_deliver [str "carol"] (Put (str "taboo")) demo_world).1 = Fail EAnon
  /\ (demo_deliver [str "carol"] (Put (str "x")) demo_world).1 = Ok tt
  /\ (demo_deliver [str "carol"] (Put (str "x"))
        (demo_deliver [str "carol"] (Put (str "x")) demo_world).2).1 = Panic.
Proof.
  split; [exact demo_app_built|]. split; [reflexivity|]. split; [vm_compute; reflexivity|].
  split; [vm_compute; reflexivity|]. split; vm_compute; reflexivity.
Qed.

(** ** C17 *)
(** After any sequence of registrations: the first execution handler stays, *)
Theorem C17_one_handler :
  forall (Obj Msg Tx : Type) (xs : list (registration Obj Msg)) n,
    get_exec (Tx:=Tx) (register_all xs) n =
    match execs_for n xs with h :: _ => Ok h | [] => Fail (EWrap (ESent RouterNotFound)) end.
Proof. exact @get_exec_spec. Qed.
Print Assumptions C17_one_handler.

(** a registration is answered like this, and one refused changes nothing, *)
Theorem C17_registration_answers :
  forall (Obj Msg Tx : Type) (xs : list (registration Obj Msg)) x,
    let r := register_all xs in
    (register (Tx:=Tx) r x).1 =
    match x with
    | RegExec n _ => match execs_for n xs with
                     | [] => Ok tt
                     | _ => Fail (EWrap (ESent RouterAlreadyRegistered))
                     end
    | RegAdmission _ _ => Ok tt
    | RegPre n _ | RegPost n _ =>
        match execs_for n xs with
        | [] => Fail (EWrap (ESent RouterNotFound))
        | _ => Ok tt
        end
    end
    /\ (is_ok (register r x).1 = false -> (register r x).2 = r).
Proof. exact @register_answer. Qed.
Print Assumptions C17_registration_answers.

(** and the lists of handlers are those registered, in order, for known
    transitions only. *)
Theorem C17_admission_in_order :
  forall (Obj Msg Tx : Type) (xs : list (registration Obj Msg)) n,
    get_admission (Tx:=Tx) (register_all xs) n =
    match execs_for n xs with
    | _ :: _ => Ok (admissions_for n xs)
    | [] => Fail (EWrap (ESent RouterNotFound))
    end.
Proof. exact @get_admission_spec. Qed.
Print Assumptions C17_admission_in_order.

Theorem C17_pre_in_order :
  forall (Obj Msg Tx : Type) (xs : list (registration Obj Msg)) n,
    get_pre (Tx:=Tx) (register_all xs) n =
    match execs_for n xs with
    | _ :: _ => Ok (pres_for n (since_known n xs))
    | [] => Fail (EWrap (ESent RouterNotFound))
    end.
Proof. exact @get_pre_spec. Qed.
Print Assumptions C17_pre_in_order.

Theorem C17_post_in_order :
  forall (Obj Msg Tx : Type) (xs : list (registration Obj Msg)) n,
    get_post (Tx:=Tx) (register_all xs) n =
    match execs_for n xs with
    | _ :: _ => Ok (posts_for n (since_known n xs))
    | [] => Fail (EWrap (ESent RouterNotFound))
    end.
Proof. exact @get_post_spec. Qed.
Print Assumptions C17_post_in_order.

Theorem C17_known_transitions :
  forall (Obj Msg Tx : Type) (xs : list (registration Obj Msg)),
    NoDup (list_transitions (Tx:=Tx) (register_all xs))
    /\ forall n, n ∈ list_transitions (Tx:=Tx) (register_all xs) <-> execs_for n xs <> [].
Proof. exact @list_transitions_spec. Qed.
Print Assumptions C17_known_transitions.

Definition tag_handler (s : string) : handler demo dmsg :=
  {| h_self := users_from_string [str s]; h_run := fun _ _ => PRet tt |}.
Example C17_case :
  let xs := [RegPre (str "t") (tag_handler "early"); RegAdmission (str "t") (tag_handler "a1");
             RegExec (str "t") (tag_handler "x1"); RegExec (str "t") (tag_handler "x2");
             RegExec (str "u") (tag_handler "u1"); RegAdmission (str "t") (tag_handler "a2");
             RegPre (str "t") (tag_handler "p1"); RegPre (str "t") (tag_handler "p2")] in
  get_exec (Tx:=unit) (register_all xs) (str "t") = Ok (tag_handler "x1")
  /\ get_admission (Tx:=unit) (register_all xs) (str "t") = Ok [tag_handler "a1"; tag_handler "a2"]
  /\ get_pre (Tx:=unit) (register_all xs) (str "t") = Ok [tag_handler "p1"; tag_handler "p2"]
  /\ get_pre (Tx:=unit) (register_all xs) (str "v") = Fail (EWrap (ESent RouterNotFound)).
Proof. repeat split. Qed.

(** ** C18 *)
(** The claim is false: these requests crash the runtime instead. *)
Theorem C18_errors_surface_refuted :
  let so := demo_so in
  let en := demo_env false in
  let w1 := (rt_create demo_ops so en ∅ (Thing (str "x") 1 []) demo_world).2 in
  (rt_create demo_ops so en ∅ (Thing (str "x") 1 []) demo_world).1 = Ok tt
  /\ (rt_create demo_ops so en ∅ (Thing (str "x") 1 []) w1).1 = Panic
  /\ (rt_create demo_ops so en ∅ (Thing [] 1 []) w1).1 = Panic
  /\ rt_get so (str "demo.v1.Absent") (str "x") (w_store w1) = Panic
  /\ rt_list so (str "demo.v1.Thing")
       (lr_orm (list_options_of [ListMatchFieldString (str "tag") (str "none")])) (w_store w1) = Panic.
Proof. vm_compute. repeat split. Qed.
Print Assumptions C18_errors_surface_refuted.

(** What is true: successes pass, "not found" becomes the runtime's own error,
    and every other error is a crash. *)
Theorem C18_errors_surface_partial :
  forall (A : Type) (r : res A),
    match r with
    | Ok x => convert_store_error r = Ok x
    | Fail e =>
        (errors_is e OrmNotFound = true ->
         exists e', convert_store_error r = Fail e' /\ errors_is e' RtNotFound = true)
        /\ (errors_is e OrmNotFound = false -> convert_store_error r = Panic)
    | Panic => convert_store_error r = Panic
    | OutOfFuel => convert_store_error r = OutOfFuel
    end.
Proof. exact @store_error. Qed.
Print Assumptions C18_errors_surface_partial.

(** The same for every call after any history, when nothing has to be authorized:
    the caller is told what a map answers ([spec_call]) if that is success or
    "not found"; in every other case the process ends ([told]). The store goes on
    as after the same history with this call. *)
Theorem C18_operations_partial :
  forall (Obj Msg Tx : Type) (O : objops Obj) fuel D R cs l st S (en : env Obj Msg Tx) us c (w : world Obj Msg orm),
    codec_ok O -> built fuel D R -> Forall (call_typed O R) (cs ++ [c]) ->
    run_model O R cs = (l, Some st) -> run_spec O R cs = (l, Some S) -> w_store w = st -> en_enabled en = false ->
    told (spec_call O R c S).1.1 (spec_call O R c S).1.2 (asked O (orm_ops O R) en us c w).1
    /\ (is_crash (spec_call O R c S).1.1 = false ->
        run_model O R (cs ++ [c]) = (l ++ [(spec_call O R c S).1], Some (w_store (asked O (orm_ops O R) en us c w).2))).
Proof. exact @surface. Qed.
Print Assumptions C18_operations_partial.
(** A list by a field with an index; without results the process ends. *)
Theorem C18_lists_partial :
  forall (Obj : Type) (O : objops Obj) fuel D R cs l st S ty s f k v a b,
    codec_ok O -> built fuel D R -> Forall (call_typed O R) cs ->
    run_model O R cs = (l, Some st) -> run_spec O R cs = (l, Some S) ->
    rg_schemas R !! ty = Some s -> {| ix_name := f; ix_kind := k |} ∈ sch_indexes s -> value_ok k v = true ->
    told_keys O S ty f v
      (rt_list (orm_ops O R) ty {| lo_interface := [(f, go_of v)]; lo_string := []; lo_start := a; lo_end := b |} st).
Proof. exact @surface_list. Qed.
Print Assumptions C18_lists_partial.

Example C18_case :
  rt_get demo_so (str "demo.v1.Thing") (str "x") orm_empty = Fail (EWrap (ESent RtNotFound))
  /\ (rt_update demo_ops demo_so (demo_env false) ∅ (Thing (str "x") 1 []) demo_world).1
     = Fail (EWrap (ESent RtNotFound)).
Proof. vm_compute. split; reflexivity. Qed.

Definition surface_history : list (call demo) := [CCreate (Thing (str "x") 1 (str "t"))].
Definition surface_world : world demo dmsg orm :=
  {| w_store := default orm_empty (run_model demo_ops demo_registry surface_history).2; w_trace := [] |}.
Example C18_case_operations :
  codec_ok demo_ops /\ built 3 demo_descs demo_registry
  /\ map (fun c => (asked demo_ops (orm_ops demo_ops demo_registry) (demo_env false) ∅ c surface_world).1)
       [CGet (str "demo.v1.Thing") (str "x"); CGet (str "demo.v1.Thing") (str "y"); CUpdate (Thing (str "x") 2 (str "t"));
        CCreate (Thing (str "x") 2 (str "t")); CDelete (Thing (str "y") 2 (str "t")); CCreate (Thing [] 2 (str "t"))]
     = [Ok (Some (Thing (str "x") 1 (str "t"))); Fail (EWrap (ESent RtNotFound)); Ok None; Panic; Fail (EWrap (ESent RtNotFound)); Panic]
  /\ rt_list (orm_ops demo_ops demo_registry) (str "demo.v1.Thing")
       {| lo_interface := [(str "n", go_of (VUint64 1))]; lo_string := []; lo_start := 0; lo_end := 0 |} (w_store surface_world) = Ok [str "x"].
Proof. split; [exact demo_codec|]. split; [exact demo_built|]. vm_compute. split; reflexivity. Qed.

(** ** C19 *)
(** Everything a program does through the client of [self], recorded by a
    delivery function that answers anything: checks and writes are under
    exactly [self]; a delivery is under [self] and the users it asks to
    impersonate (those of the last option). *)
Theorem C19_client_identity :
  forall (Obj Msg Tx St : Type) (O : objops Obj) (SO : storeops Obj St) (en : env Obj Msg Tx)
         (answer : users -> Msg -> world Obj Msg St -> res unit) (self : users)
         (A : Type) (p : prog Obj Msg A),
    wf_users self -> forall w r w',
    exec O SO en (fun us m w => (answer us m w, log (EvDeliver m us) w)) self p w = (r, w') ->
    exists tr, w_trace w' = w_trace w ++ tr /\ Forall (fun e =>
      match e with
      | EvCheck _ _ us _ => us = self
      | EvWrite _ us => us = self
      | EvDeliver m us =>
          exists opts, may_deliver m opts p
            /\ forall n, users_has1 us n = true <->
                 users_has1 self n = true
                 \/ match last opts with Some (DeliverImpersonating l) => n ∈ l | None => False end
      | EvEnum _ => True
      end) tr.
Proof. exact @client_identity. Qed.
Print Assumptions C19_client_identity.

(** In a built application, whatever a delivery leads to: every write is under
    exactly the name of one module; every delivery but the first is under users
    among whom is a module. *)
Theorem C19_application_identity :
  forall (Obj Msg Tx St : Type) (O : objops Obj) (mname : Msg -> bytes) (SO : storeops Obj St)
         fuel0 D (ms : list (module Obj Msg Tx)) a enum enabled f skip us m w r w',
    build fuel0 D ms = Ok a ->
    deliver O mname SO (env_of a enum enabled) f skip us m w = (r, w') ->
    exists tr, w_trace w' = w_trace w ++ tr /\ Forall (fun e =>
      e = EvDeliver m us \/
      match e with
      | EvWrite _ us' => exists x, x ∈ ms /\ us' = users_from_string [mo_name x]
      | EvDeliver _ us' => exists x, x ∈ ms /\ users_has1 us' (mo_name x) = true
      | _ => True
      end) tr.
Proof. exact @delivery_identity. Qed.
Print Assumptions C19_application_identity.

(** The relay delivers as itself, bob and carol (alice was overridden); the shop
    writes as itself. *)
Example C19_case :
  wf_users (users_from_string [str "relay"])
  /\ flat_map (fun e => match e with
                        | EvWrite _ us | EvDeliver _ us => [map (fun n => users_has1 us (str n))
                            ["carol"; "relay"; "alice"; "bob"; "shop"]%string]
                        | _ => [] end)
       (w_trace (demo_deliver [str "carol"] (Relay (str "x")) demo_world).2)
     = [[true; false; false; false; false]; [true; true; false; true; false];
        [false; false; false; false; true]; [false; false; false; false; true]].
Proof. split; [apply from_string_wf|vm_compute; reflexivity]. Qed.

(** ** C20 *)
Theorem C20_names :
  forall names n, users_has1 (users_from_string names) n = true <-> n ∈ names.
Proof. exact from_string_has. Qed.
Print Assumptions C20_names.

Theorem C20_several_names :
  forall d ns, users_has d ns = true <-> Forall (fun n => users_has1 d n = true) ns.
Proof. exact has_spec. Qed.
Print Assumptions C20_several_names.

Theorem C20_union :
  forall enum groups n,
    wf_groups groups -> fair_order enum ->
    users_has1 (users_union enum groups) n = true
    <-> exists g, Some g ∈ groups /\ users_has1 g n = true.
Proof. exact union_has. Qed.
Print Assumptions C20_union.

(** The union is a set again, the same whatever order Go lists maps in. *)
Theorem C20_union_order_independent :
  forall enum enum' groups,
    wf_groups groups -> fair_order enum -> fair_order enum' ->
    users_union enum groups = users_union enum' groups.
Proof. exact union_order. Qed.
Print Assumptions C20_union_order_independent.

Theorem C20_union_well_formed :
  forall enum groups, wf_groups groups -> fair_order enum -> wf_users (users_union enum groups).
Proof. exact union_wf. Qed.
Print Assumptions C20_union_well_formed.

(** Both constructors make well-formed sets. *)
Theorem C20_constructors_well_formed :
  (forall names, wf_users (users_from_string names)) /\ (forall us, wf_users (new_users us)).
Proof. exact (conj from_string_wf new_users_wf). Qed.
Print Assumptions C20_constructors_well_formed.

Theorem C20_users :
  forall us n, users_has1 (new_users us) n = true <-> n ∈ map u_name us.
Proof. exact new_users_has. Qed.
Print Assumptions C20_users.

(** Listing a set lists each member once. *)
Theorem C20_listing :
  forall (d : users) l, wf_users d -> enumerates d l ->
    NoDup (map u_name l) /\ forall n, n ∈ map u_name l <-> users_has1 d n = true.
Proof. exact (fun d l H1 H2 => conj (list_names_nodup d l H1 H2) (fun n => list_members d l n H1 H2)). Qed.
Print Assumptions C20_listing.

Example C20_case :
  let g := users_from_string [str "a"; str "b"; str "a"] in
  let u := users_union users_list [None; Some g; Some (users_from_string [str "c"; str "b"])] in
  wf_groups [None; Some g; Some (users_from_string [str "c"; str "b"])] /\ fair_order users_list
  /\ map (fun n => users_has1 u (str n)) ["a"; "b"; "c"; "d"]%string = [true; true; true; false]
  /\ users_has u [str "a"; str "c"] = true /\ users_has u [str "a"; str "d"] = false.
Proof.
  split; [repeat constructor; apply from_string_wf|]. split; [exact users_list_fair|].
  vm_compute. repeat split.
Qed.

(** ** C21 *)
(** In any history of top-level calls at most one genesis succeeds. *)
Theorem C21_genesis_once :
  forall (Obj Msg Tx St : Type) (O : objops Obj) (mname : Msg -> bytes) (SO : storeops Obj St)
         cd (a : application Obj Msg Tx) enum fuel cs x,
    successful_genesis (rt_answers O mname SO cd a enum fuel cs x) <= if rt_initialized x then 0 else 1.
Proof. exact @genesis_once. Qed.
Print Assumptions C21_genesis_once.

(** Genesis is these steps in this order up to the first that fails. *)
Theorem C21_genesis_order :
  forall (Obj Msg Tx St : Type) (O : objops Obj) (mname : Msg -> bytes) (SO : storeops Obj St)
         cd (a : application Obj Msg Tx) enum fuel x r x',
    rt_initialized x = false ->
    init_genesis O mname SO cd a enum fuel x = (r, x') <->
    in_order ([rt_deliver O mname SO a enum fuel (users_from_string [str "system:runtime"])
                          (cd (map raw (ap_modules a)))]
              ++ flat_map (fun m => match mo_genesis m with
                                    | Some g => [genesis_step O mname SO a enum fuel m g]
                                    | None => [] end) (ap_modules a)
              ++ [finish_step a]) x r x'.
Proof. exact @genesis_order. Qed.
Print Assumptions C21_genesis_order.

Example C21_case :
  let x0 := {| rt_initialized := false; rt_enabled := false; rt_world := demo_world; rt_services := [] |} in
  let run := init_genesis demo_ops dname demo_so Describe demo_app demo_enum 5 in
  (run x0).1 = Ok tt /\ (run (run x0).2).1 = Fail EAnon
  /\ rt_services (run x0).2
     = map (fun s => s) [SetClient (hd {| ms_module := []; ms_service := {| sv_name := None; sv_start := Panic; sv_stop := Panic |} |} (ap_services demo_app)) (str "shop.svc");
        StartCall (hd {| ms_module := []; ms_service := {| sv_name := None; sv_start := Panic; sv_stop := Panic |} |} (ap_services demo_app))]
  /\ flat_map (fun e => match e with EvWrite (WCreate o) _ => [o] | _ => [] end) (w_trace (rt_world (run x0).2))
     = [Config (str "core;shop;relay;"); Thing (str "first") 1 (str "g"); Thing (str "second") 1 (str "new")].
Proof. vm_compute. repeat split. Qed.

(** ** C22 *)
Theorem C22_store_unchanged :
  forall (Obj Msg St : Type) (SO : storeops Obj St) (cs : list (client_call Obj Msg)) s,
    (orm_client_run SO cs s).2 = s.
Proof. exact @client_keeps. Qed.
Print Assumptions C22_store_unchanged.

Theorem C22_answers :
  forall (Obj Msg St : Type) (SO : storeops Obj St) (cs : list (client_call Obj Msg)) s,
    (orm_client_run SO cs s).1 =
    map (fun c => match c with
                  | KGet ty id _ => KObject (so_get SO ty id s)
                  | KList ty opts => KKeys (so_list SO ty (lr_orm (list_options_of opts)) s)
                  | _ => KDone (Fail EAnon)
                  end) cs.
Proof. exact @client_answers. Qed.
Print Assumptions C22_answers.

Example C22_case :
  let s := (orm_create demo_ops demo_registry (Thing (str "x") 1 (str "t")) orm_empty).2 in
  (orm_client_run (Msg:=dmsg) (orm_ops demo_ops demo_registry)
     [KGet (str "demo.v1.Thing") (str "x") [GetAtHeight 7]; KDelete (Thing (str "x") 1 []);
      KList (str "demo.v1.Thing") [ListMatchFieldString (str "tag") (str "t")]; KDeliver (Put []) []] s).1
  = [KObject (Ok (Thing (str "x") 1 (str "t"))); KDone (Fail EAnon); KKeys (Ok [str "x"]); KDone (Fail EAnon)].
Proof. vm_compute. reflexivity. Qed.

(** ** C23 *)
(** Build succeeds exactly under the conditions of [buildable]. *)
Theorem C23_build_succeeds_iff :
  forall (Obj Msg Tx : Type) fuel D (ms : list (module Obj Msg Tx)),
    (exists a, build fuel D ms = Ok a) <-> buildable fuel D ms.
Proof. exact @build_iff. Qed.
Print Assumptions C23_build_succeeds_iff.

(** Its objects are those declared, *)
Theorem C23_objects :
  forall (Obj Msg Tx : Type) fuel D (ms : list (module Obj Msg Tx)) a n s,
    build fuel D ms = Ok a ->
    registry_get (ap_registry a) n = Ok s <->
    exists x, x ∈ objects_of ms /\ ot_name x.1 = n /\ parse_object_schema fuel D x.1 x.2 = Ok s.
Proof. exact @built_objects. Qed.
Print Assumptions C23_objects.

(** its handlers are those declared, each under its module's name, *)
Theorem C23_handlers :
  forall (Obj Msg Tx : Type) fuel D (ms : list (module Obj Msg Tx)) a n h,
    build fuel D ms = Ok a ->
    get_exec (ap_router a) n = Ok h <->
    exists m d, m ∈ ms /\ d ∈ mo_exec m /\ tt_name d.1 = n
                /\ h = {| h_self := users_from_string [mo_name m]; h_run := d.2 |}.
Proof. exact @built_handlers. Qed.
Print Assumptions C23_handlers.

(** and so are the lists around them, in order, *)
Theorem C23_handler_lists :
  forall (Obj Msg Tx : Type) fuel D (ms : list (module Obj Msg Tx)) a n,
    build fuel D ms = Ok a ->
    get_exec (ap_router a) n =
      match declared mo_exec n ms with h :: _ => Ok h | [] => Fail (EWrap (ESent RouterNotFound)) end
    /\ get_admission (ap_router a) n =
      match declared mo_exec n ms with
      | _ :: _ => Ok (declared mo_admission n ms) | [] => Fail (EWrap (ESent RouterNotFound)) end
    /\ get_pre (ap_router a) n =
      match declared mo_exec n ms with
      | _ :: _ => Ok (declared mo_pre n ms) | [] => Fail (EWrap (ESent RouterNotFound)) end
    /\ get_post (ap_router a) n =
      match declared mo_exec n ms with
      | _ :: _ => Ok (declared mo_post n ms) | [] => Fail (EWrap (ESent RouterNotFound)) end.
Proof. exact @built_lookups. Qed.
Print Assumptions C23_handler_lists.

(** the transaction handlers, the services and the authorizer. *)
Theorem C23_other_parts :
  forall (Obj Msg Tx : Type) fuel D (ms : list (module Obj Msg Tx)) a,
    build fuel D ms = Ok a ->
    ap_modules a = ms
    /\ ro_auth_admission (ap_router a) = declared_tx mo_auth_admission ms
    /\ ro_post_auth (ap_router a) = declared_tx mo_post_auth ms
    /\ ap_services a = flat_map (fun m => map (fun x => {| ms_module := mo_name m; ms_service := x |})
                                              (mo_services m)) ms
    /\ match flat_map (fun m => option_list (mo_authorizer m)) ms with
       | [] => ap_authorizer a = (fun _ _ _ => RRet (true, None))
       | z :: _ => ap_authorizer a = z
       end.
Proof. exact @built_parts. Qed.
Print Assumptions C23_other_parts.

Example C23_case :
  buildable 3 demo_descs demo_modules
  /\ is_ok (build 3 demo_descs [demo_core; demo_relay]) = false
  /\ is_ok (build 3 demo_descs [demo_core; demo_shop; demo_shop]) = false
  /\ is_ok (build 3 demo_descs [demo_shop; demo_relay]) = true.
Proof.
  split; [|vm_compute; repeat split].
  apply build_iff. exists demo_app. exact demo_app_built.
Qed.

(** ** C24 *)
Theorem C24_start :
  forall g,
  let starts l := flat_map (fun s => [SetClient s (default [] (ms_name s)); StartCall s]) l in
  let fine s := is_Some (ms_name s) /\ sv_start (ms_service s) = Ok tt in
  (Forall fine g /\ services_start g = (starts g, Ok tt))
  \/ exists g1 s g2, g = g1 ++ s :: g2 /\ Forall fine g1
     /\ ((ms_name s = None /\ services_start g = (starts g1, Panic))
         \/ (is_Some (ms_name s) /\ sv_start (ms_service s) <> Ok tt
             /\ services_start g = (starts (g1 ++ [s]),
                                    match sv_start (ms_service s) with
                                    | Fail e => Fail (EWrap e) | r => r end))).
Proof. exact services_start_spec. Qed.
Print Assumptions C24_start.

(** Stopping, if no service crashes: all are asked, all failures are reported. *)
Theorem C24_stop :
  forall g,
  Forall (fun s => is_Some (ms_name s)
                   /\ (sv_stop (ms_service s) = Ok tt \/ exists e, sv_stop (ms_service s) = Fail e)) g ->
  services_stop g =
  (map StopCall g,
   Ok (flat_map (fun s => match sv_stop (ms_service s) with Fail e => [e] | _ => [] end) g)).
Proof. exact services_stop_spec. Qed.
Print Assumptions C24_stop.

(** If one crashes, those after it are not asked and no failure is reported. *)
Theorem C24_stop_crash :
  forall g1 s g2,
  Forall (fun s => is_Some (ms_name s)
                   /\ (sv_stop (ms_service s) = Ok tt \/ exists e, sv_stop (ms_service s) = Fail e)) g1 ->
  ms_name s = None \/ sv_stop (ms_service s) = Panic ->
  services_stop (g1 ++ s :: g2) =
  (map StopCall g1 ++ match ms_name s with None => [] | Some _ => [StopCall s] end, Panic).
Proof. exact services_stop_crash. Qed.
Print Assumptions C24_stop_crash.

Example C24_case :
  let svc n a b := {| ms_module := str "m";
                      ms_service := {| sv_name := Some (str n); sv_start := a; sv_stop := b |} |} in
  let g := [svc "1" (Ok tt) (Fail EAnon); svc "2" (Fail EAnon) (Ok tt); svc "3" (Ok tt) (Fail (ESent RtNotFound))]%string in
  services_start g = ([SetClient (svc "1" (Ok tt) (Fail EAnon)) (str "m.1"); StartCall (svc "1" (Ok tt) (Fail EAnon));
                       SetClient (svc "2" (Fail EAnon) (Ok tt)) (str "m.2"); StartCall (svc "2" (Fail EAnon) (Ok tt))],
                      Fail (EWrap EAnon))%string
  /\ services_stop g = (map StopCall g, Ok [EAnon; ESent RtNotFound])
  /\ services_stop (g ++ svc "4"%string (Ok tt) Panic :: g) = (map StopCall (g ++ [svc "4"%string (Ok tt) Panic]), Panic).
Proof. vm_compute. repeat split; reflexivity. Qed.

(** ** C25 *)
Theorem C25_codes :
  forall e,
  (to_abci_code e = 400%N <-> errors_is e RtBadRequest = true)
  /\ (to_abci_code e = 404%N <-> errors_is e RtNotFound = true)
  /\ (to_abci_code e = 409%N <-> errors_is e RtAlreadyExists = true)
  /\ (to_abci_code e = 412%N <-> errors_is e RtConditionNotMet = true)
  /\ (to_abci_code e = 1%N <->
      Forall (fun t => errors_is e t = false)
             [RtBadRequest; RtNotFound; RtAlreadyExists; RtConditionNotMet]).
Proof. exact code_classes. Qed.
Print Assumptions C25_codes.

Theorem C25_errors_never_success : forall e, to_abci_code e <> 0%N.
Proof. exact code_never_success. Qed.
Print Assumptions C25_errors_never_success.

Example C25_case :
  to_abci_code (EWrap (EWrap (ESent RtConditionNotMet))) = 412%N
  /\ to_abci_code (EWrap (ESent RtUnauthorized)) = 1%N.
Proof. split; reflexivity. Qed.
