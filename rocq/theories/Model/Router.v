(** runtime/router.go: the handlers registered for each state transition. *)
From Coq Require Import List Bool.
From stdpp Require Import base list gmap.
From Verif.Model Require Import Bytes KindEncoder Schema Indexes Users Prog.

Section Router.
  Context {Obj Msg Tx : Type}.

  (** A registered handler: the users of the client it was built with
      (runtime/builder.go:56-58) and what it does for a request (the users of
      the request and the transition; the response carries nothing,
      runtime/statetransition/execution.go:8-25). *)
  Record handler := {
    h_self : users;
    h_run : users -> Msg -> prog Obj Msg unit
  }.
  (** The handlers of whole transactions (runtime/authentication/handlers.go). *)
  Record tx_handler := {
    th_self : users;
    th_run : Tx -> prog Obj Msg unit
  }.

  (** router.go:27-35 Router; keys are the names of transitions. *)
  Record router := {
    ro_auth_admission : list tx_handler;
    ro_post_auth : list tx_handler;
    ro_admission : gmap bytes (list handler);
    ro_pre : gmap bytes (list handler);
    ro_exec : gmap bytes handler;
    ro_post : gmap bytes (list handler)
  }.

  (** router.go:15-25 NewRouter. *)
  Definition new_router : router :=
    {| ro_auth_admission := []; ro_post_auth := []; ro_admission := ∅; ro_pre := ∅;
       ro_exec := ∅; ro_post := ∅ |}.

  (** router.go:163-166 knownStateTransition. *)
  Definition known (r : router) (name : bytes) : bool :=
    match ro_exec r !! name with Some _ => true | None => false end.

  Definition not_found {A} : res A := Fail (EWrap (ESent RouterNotFound)).

  (** [m[name] = append(m[name], h)], reading a missing entry as nil. *)
  Definition append_at (m : gmap bytes (list handler)) (name : bytes) (h : handler) :=
    <[name := default [] (m !! name) ++ [h]]> m.

  (** router.go:39-48 AddStateTransitionAdmissionHandler. *)
  Definition add_admission (r : router) (name : bytes) (h : handler) : res unit * router :=
    (Ok tt,
     {| ro_auth_admission := ro_auth_admission r; ro_post_auth := ro_post_auth r;
        ro_admission := append_at (ro_admission r) name h; ro_pre := ro_pre r;
        ro_exec := ro_exec r; ro_post := ro_post r |}).

  (** router.go:50-63 GetStateTransitionAdmissionHandlers. *)
  Definition get_admission (r : router) (name : bytes) : res (list handler) :=
    if known r name then Ok (default [] (ro_admission r !! name)) else not_found.

  (** router.go:67-79 AddStateTransitionPreExecutionHandler. *)
  Definition add_pre (r : router) (name : bytes) (h : handler) : res unit * router :=
    if known r name then
      (Ok tt,
       {| ro_auth_admission := ro_auth_admission r; ro_post_auth := ro_post_auth r;
          ro_admission := ro_admission r; ro_pre := append_at (ro_pre r) name h;
          ro_exec := ro_exec r; ro_post := ro_post r |})
    else (not_found, r).

  (** router.go:81-91 GetStateTransitionPreExecutionHandlers. *)
  Definition get_pre (r : router) (name : bytes) : res (list handler) :=
    if known r name then Ok (default [] (ro_pre r !! name)) else not_found.

  (** router.go:95-102 AddStateTransitionExecutionHandler. *)
  Definition add_exec (r : router) (name : bytes) (h : handler) : res unit * router :=
    if known r name then (Fail (EWrap (ESent RouterAlreadyRegistered)), r)
    else
      (Ok tt,
       {| ro_auth_admission := ro_auth_admission r; ro_post_auth := ro_post_auth r;
          ro_admission := ro_admission r; ro_pre := ro_pre r;
          ro_exec := <[name := h]> (ro_exec r); ro_post := ro_post r |}).

  (** router.go:104-111 GetStateTransitionExecutionHandler. *)
  Definition get_exec (r : router) (name : bytes) : res handler :=
    match ro_exec r !! name with Some h => Ok h | None => not_found end.

  (** router.go:115-125 AddStateTransitionPostExecutionHandler. *)
  Definition add_post (r : router) (name : bytes) (h : handler) : res unit * router :=
    if known r name then
      (Ok tt,
       {| ro_auth_admission := ro_auth_admission r; ro_post_auth := ro_post_auth r;
          ro_admission := ro_admission r; ro_pre := ro_pre r;
          ro_exec := ro_exec r; ro_post := append_at (ro_post r) name h |})
    else (not_found, r).

  (** router.go:127-137 GetStateTransitionPostExecutionHandlers. *)
  Definition get_post (r : router) (name : bytes) : res (list handler) :=
    if known r name then Ok (default [] (ro_post r !! name)) else not_found.

  (** router.go:143-145 AddAuthAdmissionHandler (139-141 is the projection). *)
  Definition add_auth_admission (r : router) (h : tx_handler) : router :=
    {| ro_auth_admission := ro_auth_admission r ++ [h]; ro_post_auth := ro_post_auth r;
       ro_admission := ro_admission r; ro_pre := ro_pre r;
       ro_exec := ro_exec r; ro_post := ro_post r |}.

  (** router.go:151-153 AddTransactionPostAuthenticationHandler (147-149 likewise). *)
  Definition add_post_auth (r : router) (h : tx_handler) : router :=
    {| ro_auth_admission := ro_auth_admission r; ro_post_auth := ro_post_auth r ++ [h];
       ro_admission := ro_admission r; ro_pre := ro_pre r;
       ro_exec := ro_exec r; ro_post := ro_post r |}.

  (** router.go:155-161 ListStateTransitions (in some order). *)
  Definition list_transitions (r : router) : list bytes := (map_to_list (ro_exec r)).*1.
End Router.
Arguments handler : clear implicits. Arguments tx_handler : clear implicits.
Arguments router : clear implicits.
