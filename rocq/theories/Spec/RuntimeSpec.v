(** Specifications for the runtime: steps in order, what a history of writes
    leaves behind, authorized effects, registrations, declared handlers. *)
From Coq Require Import NArith List Bool String.
From stdpp Require Import base list gmap.
From Verif.Model Require Import Bytes KindEncoder Desc Schema Indexes Orm Users Prog Router
  Runtime Services Module Builder.

(** Steps taken one after the other until one does not succeed. *)
Inductive in_order {X : Type} : list (X -> res unit * X) -> X -> res unit -> X -> Prop :=
| io_done x : in_order [] x (Ok tt) x
| io_next s l x x1 r x2 :
    s x = (Ok tt, x1) -> in_order l x1 r x2 -> in_order (s :: l) x r x2
| io_stop s l x r x1 : s x = (r, x1) -> r <> Ok tt -> in_order (s :: l) x r x1.

(** A step whose error is reported as [f] of it. *)
Definition reporting {X : Type} (f : goerr -> goerr) (s : X -> res unit * X) (x : X) : res unit * X :=
  match s x with
  | (Fail e, x') => (Fail (f e), x')
  | r => r
  end.

Section Effects.
  Context {Obj Msg Tx St : Type} (O : objops Obj) (mname : Msg -> bytes) (SO : storeops Obj St).

  (** The state after the writes of a trace, from [s]. *)
  Definition after (s : St) (tr : list (event Obj Msg)) : St :=
    fold_left (fun s e => match e with
                          | EvWrite (WCreate o) _ => (so_create SO o s).2
                          | EvWrite (WUpdate o) _ => (so_update SO o s).2
                          | EvWrite (WDelete o) _ => (so_delete SO o s).2
                          | _ => s
                          end) tr s.

  (** The authorizer allows the request in state [s], listing users in some
      order the runtime may choose. *)
  Definition allows (en : env Obj Msg Tx) (s : St) (v : verb) (name : bytes) (us : users) : Prop :=
    exists tr, run_read SO (en_enum en tr) (en_authorizer en v name us) s = Ok (true, None).

  (** Every effect of the trace was allowed in the state at its moment. *)
  Definition all_allowed (en : env Obj Msg Tx) (s : St) (tr : list (event Obj Msg)) : Prop :=
    forall before e rest, tr = before ++ e :: rest ->
      match e with
      | EvWrite (WCreate o) us => allows en (after s before) VCreate (obj_name O o) us
      | EvWrite (WUpdate o) us => allows en (after s before) VUpdate (obj_name O o) us
      | EvWrite (WDelete o) us => allows en (after s before) VDelete (obj_name O o) us
      | EvDeliver m us => allows en (after s before) VDeliver (mname m) us
      | _ => True
      end.

  (** From [w] to [w'], with all effects on record and allowed. *)
  Definition allowed_run (en : env Obj Msg Tx) (w w' : world Obj Msg St) : Prop :=
    exists tr, w_trace w' = w_trace w ++ tr
               /\ w_store w' = after (w_store w) tr
               /\ all_allowed en (w_store w) tr.
End Effects.

(** The stages of a delivery, as steps on the world. *)
Section Stages.
  Context {Obj Msg Tx St : Type} (O : objops Obj) (mname : Msg -> bytes) (SO : storeops Obj St).
  Context (en : env Obj Msg Tx).

  (** The authorization check, after which the transition counts as delivered. *)
  Definition check_step (us : users) (m : Msg) (w : world Obj Msg St) : res unit * world Obj Msg St :=
    match authorized SO en VDeliver (mname m) us w with
    | (Ok _, w') => (Ok tt, log (EvDeliver m us) w')
    | r => r
    end.

  (** One handler, under the user of its own module; [dlv] delivers what it sends. *)
  Definition handler_step (dlv : users -> Msg -> world Obj Msg St -> res unit * world Obj Msg St)
      (us : users) (m : Msg) (h : handler Obj Msg) (w : world Obj Msg St) : res unit * world Obj Msg St :=
    exec O SO en dlv (h_self h) (h_run h us m) w.
End Stages.

(** The client calls a program may make. *)
Inductive may_deliver {Obj Msg A : Type} (m : Msg) (opts : list deliver_option) : prog Obj Msg A -> Prop :=
| md_here k : may_deliver m opts (PDeliver m opts k)
| md_get ty id o k x : may_deliver m opts (k x) -> may_deliver m opts (PGet ty id o k)
| md_list ty o k x : may_deliver m opts (k x) -> may_deliver m opts (PList ty o k)
| md_enum us k x : may_deliver m opts (k x) -> may_deliver m opts (PEnum us k)
| md_create o k x : may_deliver m opts (k x) -> may_deliver m opts (PCreate o k)
| md_update o k x : may_deliver m opts (k x) -> may_deliver m opts (PUpdate o k)
| md_delete o k x : may_deliver m opts (k x) -> may_deliver m opts (PDelete o k)
| md_deliver m' o k x : may_deliver m opts (k x) -> may_deliver m opts (PDeliver m' o k).

(** Registrations with a router and what they leave behind. *)
Section Registrations.
  Context {Obj Msg Tx : Type}.
  Inductive registration :=
  | RegExec (name : bytes) (h : handler Obj Msg)
  | RegAdmission (name : bytes) (h : handler Obj Msg)
  | RegPre (name : bytes) (h : handler Obj Msg)
  | RegPost (name : bytes) (h : handler Obj Msg).

  Definition register (r : router Obj Msg Tx) (x : registration) : res unit * router Obj Msg Tx :=
    match x with
    | RegExec n h => add_exec r n h
    | RegAdmission n h => add_admission r n h
    | RegPre n h => add_pre r n h
    | RegPost n h => add_post r n h
    end.
  Definition register_all (xs : list registration) : router Obj Msg Tx :=
    fold_left (fun r x => (register r x).2) xs new_router.

  (** Execution handlers submitted for a transition, in order. *)
  Definition execs_for (n : bytes) (xs : list registration) : list (handler Obj Msg) :=
    flat_map (fun x => match x with RegExec n' h => if decide (n' = n) then [h] else [] | _ => [] end) xs.
  Definition admissions_for (n : bytes) (xs : list registration) : list (handler Obj Msg) :=
    flat_map (fun x => match x with RegAdmission n' h => if decide (n' = n) then [h] else [] | _ => [] end) xs.
  Definition pres_for (n : bytes) (xs : list registration) : list (handler Obj Msg) :=
    flat_map (fun x => match x with RegPre n' h => if decide (n' = n) then [h] else [] | _ => [] end) xs.
  Definition posts_for (n : bytes) (xs : list registration) : list (handler Obj Msg) :=
    flat_map (fun x => match x with RegPost n' h => if decide (n' = n) then [h] else [] | _ => [] end) xs.

  (** What follows the first execution handler of the transition. *)
  Fixpoint since_known (n : bytes) (xs : list registration) : list registration :=
    match xs with
    | [] => []
    | RegExec n' h :: xs' => if decide (n' = n) then xs' else since_known n xs'
    | _ :: xs' => since_known n xs'
    end.
End Registrations.
Arguments registration : clear implicits.

(** What the modules of an application declare. *)
Section Declared.
  Context {Obj Msg Tx : Type}.
  Notation decl := (transition_type * (users -> Msg -> prog Obj Msg unit))%type.

  (** The handlers declared for a transition, module by module, each with the
      user named after its module. *)
  Definition declared (part : module Obj Msg Tx -> list decl) (n : bytes)
      (ms : list (module Obj Msg Tx)) : list (handler Obj Msg) :=
    flat_map (fun m =>
      flat_map (fun d : decl =>
        if decide (tt_name d.1 = n)
        then [{| h_self := users_from_string [mo_name m]; h_run := d.2 |}] else []) (part m)) ms.
  Definition declared_tx (part : module Obj Msg Tx -> list (Tx -> prog Obj Msg unit))
      (ms : list (module Obj Msg Tx)) : list (tx_handler Obj Msg Tx) :=
    flat_map (fun m => map (fun p => {| th_self := users_from_string [mo_name m]; th_run := p |})
                           (part m)) ms.

  Definition handled (ms : list (module Obj Msg Tx)) : list bytes :=
    flat_map (fun m => map (fun d => tt_name d.1) (mo_exec m)) ms.
  Definition objects_of (ms : list (module Obj Msg Tx)) : list (objtype * definition) :=
    flat_map mo_objects ms.

  (** The conditions on the modules under which they can be built. *)
  Record buildable (fuel : nat) (D : descs) (ms : list (module Obj Msg Tx)) : Prop := {
    bu_named : Forall (fun m => mo_name m <> []) ms;
    bu_objects : Forall (fun x => is_ok (parse_object_schema fuel D x.1 x.2) = true) (objects_of ms);
    bu_objects_once : NoDup (map (fun x => ot_name x.1) (objects_of ms));
    bu_handled_once : NoDup (handled ms);
    bu_pre : Forall (fun m => Forall (fun d => tt_name d.1 ∈ handled ms) (mo_pre m)) ms;
    bu_post : Forall (fun m => Forall (fun d => tt_name d.1 ∈ handled ms) (mo_post m)) ms;
    bu_needs : Forall (fun m => Forall (fun t => tt_name t ∈ handled ms) (mo_needs m)) ms;
    bu_authorizer : length (flat_map (fun m => option_list (mo_authorizer m)) ms) <= 1
  }.
End Declared.

(** Histories of a runtime's top-level calls. *)
Section Histories.
  Context {Obj Msg Tx St : Type} (O : objops Obj) (mname : Msg -> bytes) (SO : storeops Obj St).
  Context (create_descriptors : list raw_descriptor -> Msg).
  Context (a : application Obj Msg Tx) (enum : list (event Obj Msg) -> users -> list user) (fuel : nat).

  Inductive rt_call :=
  | RInit
  | RImport (data : option (gmap bytes bytes))
  | RDeliver (us : users) (m : Msg)
  | RAuthorization (on : bool).

  Definition rt_step (c : rt_call) (x : rt Obj Msg St) : res unit * rt Obj Msg St :=
    match c with
    | RInit => init_genesis O mname SO create_descriptors a enum fuel x
    | RImport d => import O mname SO a enum fuel d x
    | RDeliver us m => rt_deliver O mname SO a enum fuel us m x
    | RAuthorization b => (Ok tt, set_authorization b x)
    end.

  (** The answers to the calls, one by one. *)
  Fixpoint rt_answers (cs : list rt_call) (x : rt Obj Msg St) : list (rt_call * res unit) :=
    match cs with
    | [] => []
    | c :: cs' => let '(r, x') := rt_step c x in (c, r) :: rt_answers cs' x'
    end.
  Definition successful_genesis (l : list (rt_call * res unit)) : nat :=
    length (List.filter (fun cr => match cr with (RInit, Ok _) => true | _ => false end) l).

  (** The genesis of one module that has one. *)
  Definition genesis_step (m : module Obj Msg Tx) (g : genesis Obj Msg) (x : rt Obj Msg St) :=
    reporting EWrap (run_module O mname SO a enum fuel m (gn_default g)) x.
  (** The last step: the runtime is initialized and services are started. *)
  Definition finish_step (x : rt Obj Msg St) : res unit * rt Obj Msg St :=
    ((services_start (ap_services a)).2,
     {| rt_initialized := true; rt_enabled := rt_enabled x; rt_world := rt_world x;
        rt_services := rt_services x ++ (services_start (ap_services a)).1 |}).
End Histories.
Arguments rt_call : clear implicits.
