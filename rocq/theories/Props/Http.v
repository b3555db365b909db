(** Theorems about HTTP requests: C49. *)
From Coq Require Import NArith List Bool String.
From stdpp Require Import base list gmap.
From Verif.Model Require Import Bytes KindEncoder Desc Schema Orm Strings Query ApiServer.
From Verif.Spec Require Import TextSpec StoreSpec QuerySpec ApiSpec Demo DemoApi.
From Verif.Proofs Require Import RegistryFacts ApiFacts DemoApiFacts.

Section Http.
  Context {Obj Msg : Type} (O : objops Obj) (fuel : nat) (D : descs) (R : registry) (renders : Obj -> bool)
    (objects : list (schema * definition)).
  Notation serve := (serve (Msg := Msg) O R renders objects).
  Implicit Types (s : schema) (d : definition) (rq : request) (t : bytes).

  (** The requests are answered from the store after any history of calls; [S] is
      the map of the objects stored then. *)
  Context (cs : list (call Obj)) (l : list (answer * option Obj)) (st : orm) (S : gmap (bytes * bytes) Obj).
  Hypothesis HC : codec_ok O.
  Hypothesis HB : built fuel D R.
  Hypothesis HT : Forall (call_typed O R) cs.
  Hypothesis HM : run_model O R cs = (l, Some st).
  Hypothesis HS : run_spec O R cs = (l, Some S).
  Hypothesis HO : served_by fuel D R objects.

  (** Asking for one object by the text of its key. Missing: keys whose name has a
      capital letter (C49_capital_key_refuted) and the heights. *)
  Theorem C49_get_by_key_partial s d k t rq :
    (s, d) ∈ objects -> def_singleton d = false -> sch_pk s = Some (def_primary_key d, k) ->
    to_lower (def_primary_key d) = def_primary_key d ->
    asks_key (s, d) t rq -> (blen t < 2 ^ 63)%N -> height_text (rq_height rq) ->
    match serve rq st with
    | HObject o => renders o = true /\ exists v, denotes k t v /\ stored_with O S (sch_name s) (def_primary_key d) v o
    | HNotFound => exists v, denotes k t v /\ forall o, ~ stored_with O S (sch_name s) (def_primary_key d) v o
    | HBadRequest => forall v, ~ denotes k t v
    | HAborted => exists v o, denotes k t v /\ stored_with O S (sch_name s) (def_primary_key d) v o /\ renders o = false
    | _ => False
    end.
  Proof. exact (http_get O fuel D R renders objects st S HC (built_ok fuel D R HB) (served_repr O fuel D R cs l st S HC HB HT HM HS) HO s d k t rq). Qed.

  (** Asking for a singleton. *)
  Theorem C49_get_singleton s d rq :
    (s, d) ∈ objects -> def_singleton d = true -> asks_many (s, d) rq ->
    match serve rq st with
    | HObject o => height_text (rq_height rq) /\ renders o = true /\ S !! (sch_name s, str "unique") = Some o
    | HNotFound => height_text (rq_height rq) /\ S !! (sch_name s, str "unique") = None
    | HBadRequest => ~ height_text (rq_height rq)
    | HAborted => height_text (rq_height rq) /\ exists o, S !! (sch_name s, str "unique") = Some o /\ renders o = false
    | _ => False
    end.
  Proof. exact (http_singleton O fuel D R renders objects st S HC (built_ok fuel D R HB) (served_repr O fuel D R cs l st S HC HB HT HM HS) HO s d rq). Qed.

  (** Asking for many objects: malformed requests are refused; otherwise all the
      objects selected, in the order of their keys. Missing: only the first of
      several selections counts, the bounds do not (C49_no_effect), and there is
      no way to ask for an empty list or for all objects. *)
  Theorem C49_list_partial s d rq :
    (s, d) ∈ objects -> def_singleton d = false -> asks_many (s, d) rq ->
    Forall (fun t => (blen t < 2 ^ 63)%N) (rq_query rq (str "selectField")) ->
    match serve rq st with
    | HObjects l => good_query s rq /\ l <> [] /\ (forall o, o ∈ l -> renders o = true)
        /\ exists text more f k t v, rq_query rq (str "selectField") = text :: more /\ selection s text f k t /\ denotes k t v
             /\ lists_stored O S (sch_name s) f v l
    | HBadRequest => good_query s rq ->
        exists text more f k t v, rq_query rq (str "selectField") = text :: more /\ selection s text f k t /\ denotes k t v
          /\ forall o, ~ stored_with O S (sch_name s) f v o
    | HAborted => good_query s rq
        /\ exists text more f k t v o, rq_query rq (str "selectField") = text :: more /\ selection s text f k t /\ denotes k t v
             /\ stored_with O S (sch_name s) f v o /\ renders o = false
    | _ => False
    end.
  Proof. exact (http_list O fuel D R renders objects st S HC (built_ok fuel D R HB) (served_repr O fuel D R cs l st S HC HB HT HM HS) HO s d rq). Qed.

  (** A malformed height is refused everywhere. *)
  Theorem C49_bad_height s d rq :
    (s, d) ∈ objects -> asks_many (s, d) rq \/ def_singleton d = false /\ (exists t, asks_key (s, d) t rq) ->
    ~ height_text (rq_height rq) -> serve rq st = HBadRequest.
  Proof. exact (http_bad_height O fuel D R renders objects st HO s d rq). Qed.

  (** The claim that height, start and end are used is false: whatever they are,
      if well formed, the answer is the same. *)
  Theorem C49_no_effect rq rq' :
    rq_path rq = rq_path rq' -> rq_query rq (str "selectField") = rq_query rq' (str "selectField") ->
    height_text (rq_height rq) -> height_text (rq_height rq') -> bounds_text (rq_query rq) -> bounds_text (rq_query rq') ->
    serve rq st = serve rq' st.
  Proof. exact (http_ignored O R renders objects st rq rq'). Qed.

  (** The claim that every object can be asked for by its key is false. It can if
      and only if the name of its key is in lower case and its key has a text
      that can be a part of a path. *)
  Theorem C49_reachable s d k o v :
    (s, d) ∈ objects -> def_singleton d = false -> sch_pk s = Some (def_primary_key d, k) ->
    stored_with O S (sch_name s) (def_primary_key d) v o ->
    (exists rq, (blen (rq_path rq) < 2 ^ 63)%N /\ serve rq st = HObject o)
    <-> renders o = true /\ to_lower (def_primary_key d) = def_primary_key d
        /\ exists t, (blen (key_path (s, d) t) < 2 ^ 63)%N /\ path_part t /\ denotes k t v.
  Proof. exact (http_reach O fuel D R renders objects st S HC (built_ok fuel D R HB) (served_repr O fuel D R cs l st S HC HB HT HM HS) HO s d k o v). Qed.
End Http.
Print Assumptions C49_get_by_key_partial.
Print Assumptions C49_get_singleton.
Print Assumptions C49_list_partial.
Print Assumptions C49_bad_height.
Print Assumptions C49_no_effect.
Print Assumptions C49_reachable.

(** The hypotheses hold of the small universe; requests answered: two keys, a
    number, a key that is stored nowhere, a text that is no number, a list, a list
    with a second selection and bounds that are not used, an empty selection, no
    selection, an unknown field, a bad height, and an object that cannot be
    written. *)
Example C49_case :
  codec_ok demo_ops /\ built 3 demo_descs demo_registry /\ served_by 3 demo_descs demo_registry demo_objects
  /\ Forall (call_typed demo_ops demo_registry) api_history
  /\ (run_model demo_ops demo_registry api_history).1 = (run_spec demo_ops demo_registry api_history).1
  /\ ask_all demo_serve (run_model demo_ops demo_registry api_history).2
      [ask "/demo.v1/thing/a" "" []; ask "/demo.v1/thing/b" "5" []; ask "/demo.v1/note/0300" "" []; ask "/demo.v1/thing/c" "" [];
       ask "/demo.v1/note/x" "" []; ask "/demo.v1/things" "" [str "tag=x"];
       ask_bounds "/demo.v1/things" "7" "7" [str "n=8"; str "tag=none"]; ask "/demo.v1/things" "" [str "n=7"];
       ask "/demo.v1/things" "" []; ask "/demo.v1/things" "" [str "id=a"]; ask "/demo.v1/thing/a" "0" [];
       ask "/demo.v1/config" "" []; ask "/demo.v1/thing/a/b" "" []; ask "/demo.v1/thing/.." "" []]
     = [HObject (Thing (str "a") 9 (str "x")); HObject (Thing (str "b") 8 (str "x")); HObject (Note 300); HNotFound;
        HBadRequest; HObjects [Thing (str "a") 9 (str "x"); Thing (str "b") 8 (str "x")];
        HObjects [Thing (str "a/b") 8 (str "y"); Thing (str "b") 8 (str "x")]; HBadRequest;
        HBadRequest; HBadRequest; HBadRequest;
        HAborted; HNotFound; HRedirect].
Proof.
  split; [exact demo_codec|]. split; [exact demo_built|]. split; [exact demo_served|].
  split; [apply demo_calls_typed; vm_compute; reflexivity|]. split; vm_compute; reflexivity.
Qed.

(** A thing with a slash in its key is in no answer; nor is any ticket, as the
    name of its key has a capital letter. *)
Theorem C49_slash_key_refuted :
  exists st S, run_model demo_ops demo_registry api_history = (replicate 6 (ASuccess, None), Some st)
    /\ run_spec demo_ops demo_registry api_history = (replicate 6 (ASuccess, None), Some S)
    /\ S !! (str "demo.v1.Thing", str "a/b") = Some (Thing (str "a/b") 8 (str "y"))
    /\ forall rq, (blen (rq_path rq) < 2 ^ 63)%N -> demo_serve rq st <> HObject (Thing (str "a/b") 8 (str "y")).
Proof. exact slash_key. Qed.
Print Assumptions C49_slash_key_refuted.
Theorem C49_capital_key_refuted :
  exists st S, run_model ticket_ops ticket_registry [CCreate 7%N] = ([(ASuccess, None)], Some st)
    /\ run_spec ticket_ops ticket_registry [CCreate 7%N] = ([(ASuccess, None)], Some S)
    /\ S !! (str "demo.v1.Ticket", [N2b 7]) = Some 7%N
    /\ forall rq t, asks_key (ticket_schema, ticket_def) t rq ->
         serve (Msg := unit) ticket_ops ticket_registry (fun _ => true) [(ticket_schema, ticket_def)] rq st = HBadRequest.
Proof. exact capital_key. Qed.
Print Assumptions C49_capital_key_refuted.
