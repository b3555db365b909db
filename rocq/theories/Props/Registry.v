(** Properties of registration: C11, C12, C13. *)
From Coq Require Import NArith List Bool String Relations Wellfounded.
From stdpp Require Import base list gmap.
From Verif.Model Require Import Bytes KindEncoder Desc Schema.
From Verif.Spec Require Import DescSpec RegistrySpec Demo.
From Verif.Proofs Require Import DescFacts RegistryHistory StoreProps.

(** C11: what is accepted, with regard to the fields of the message itself. *)
Theorem C11_registrable_types_partial :
  forall fuel D t x,
    json_unique (ot_desc t) ->
    (exists s, parse_object_schema (S fuel) D t x = Ok s) <->
    definition_ok (ot_desc t) x /\ ~ direct_map (ot_desc t)
    /\ (forall k, k ∈ refused_kinds -> ~ direct_kind (ot_desc t) k).
Proof. exact parse_iff. Qed.
Print Assumptions C11_registrable_types_partial.

(** The full statement speaks of fields at any depth; it is false: a type with
    a message field whose message has a map and a double is accepted. *)
Definition nested_descs : descs := fun n =>
  if bytes_eqb n (str "d.Inner")
  then {| md_name := n;
          md_fields := [{| fd_json := str "m"; fd_kind := MessageKind; fd_repeated := false;
                           fd_map := Some (StringKind, StringKind, []); fd_message := [] |};
                        fld "x" DoubleKind] |}
  else {| md_name := n; md_fields := [] |}.
Definition nested_type : objtype := {|
  ot_group := str "d"; ot_kind := str "Outer";
  ot_desc := {| md_name := str "d.Outer";
                md_fields := [fld "id" StringKind;
                              {| fd_json := str "inner"; fd_kind := MessageKind; fd_repeated := false;
                                 fd_map := None; fd_message := str "d.Inner" |}] |} |}.
Theorem C11_registrable_types_refuted :
  exists D t x s, parse_object_schema 10 D t x = Ok s
    /\ deep_map D (ot_desc t) /\ deep_kind D (ot_desc t) DoubleKind.
Proof.
  exists nested_descs, nested_type,
    {| def_singleton := false; def_primary_key := str "id"; def_secondary_keys := [] |}.
  eexists. split; [vm_compute; reflexivity|].
  assert (clos_refl_trans _ (part nested_descs) (ot_desc nested_type) (nested_descs (str "d.Inner"))) as Hp.
  { apply rt_step. eexists. split; [right; left|]. repeat split. }
  split; (exists (nested_descs (str "d.Inner")); split; [exact Hp|]).
  - eexists. split; [left|]. discriminate.
  - eexists. split; [right; left|]. repeat split.
Qed.
Print Assumptions C11_registrable_types_refuted.

Example C11_case :
  json_unique (ot_desc thing_type)
  /\ (exists s, parse_object_schema 3 demo_descs thing_type thing_def = Ok s)
  /\ (forall s, parse_object_schema 3 demo_descs thing_type
        {| def_singleton := false; def_primary_key := str "nope"; def_secondary_keys := [] |} <> Ok s)
  /\ (forall s, parse_object_schema 3 demo_descs thing_type
        {| def_singleton := true; def_primary_key := str "id"; def_secondary_keys := [] |} <> Ok s).
Proof.
  repeat split; try (vm_compute; discriminate).
  - unfold json_unique. cbn. repeat constructor; rewrite ?elem_of_cons, ?elem_of_nil; intuition discriminate.
  - eexists. vm_compute. reflexivity.
Qed.

(** C12: after any sequence of registrations, look-ups by name and by (group,
    kind) give the schema of exactly the accepted registrations. *)
Theorem C12_lookups_agree_with_accepted :
  forall fuel D regs rs R,
    register_all fuel D regs new_registry = (rs, R) ->
    forall g k s,
      (registry_get_by_api R g k = Ok s <->
       exists tx, tx ∈ accepted regs rs /\ ot_group tx.1 = g /\ ot_kind tx.1 = k
                  /\ parse_object_schema fuel D tx.1 tx.2 = Ok s)
      /\ (registry_get R (api_name g k) = Ok s <->
          exists tx, tx ∈ accepted regs rs /\ ot_name tx.1 = api_name g k
                     /\ parse_object_schema fuel D tx.1 tx.2 = Ok s).
Proof. exact lookup_consistent. Qed.
Print Assumptions C12_lookups_agree_with_accepted.

(** C12: a second registration of an accepted name is refused and changes nothing. *)
Theorem C12_second_registration_refused :
  forall fuel D regs rs R t x,
    register_all fuel D regs new_registry = (rs, R) ->
    (exists tx, tx ∈ accepted regs rs /\ ot_name tx.1 = ot_name t) ->
    is_ok (add_object fuel D R t x).1 = false /\ (add_object fuel D R t x).2 = R.
Proof. exact second_refused. Qed.
Print Assumptions C12_second_registration_refused.

(** C12: no name is accepted twice. *)
Theorem C12_accepted_names_unique :
  forall fuel D regs rs R,
    register_all fuel D regs new_registry = (rs, R) ->
    NoDup (map (fun tx : objtype * definition => ot_name tx.1) (accepted regs rs)).
Proof. exact names_unique. Qed.
Print Assumptions C12_accepted_names_unique.

(** C12: the listed names, groups and kinds are exactly the registered ones. *)
Theorem C12_listings_are_exact :
  forall fuel D regs rs R,
    register_all fuel D regs new_registry = (rs, R) ->
    (NoDup (registry_list R) /\ forall n, n ∈ registry_list R <->
        exists tx, tx ∈ accepted regs rs /\ ot_name tx.1 = n)
    /\ (NoDup (registry_groups R) /\ forall g, g ∈ registry_groups R <->
        exists tx, tx ∈ accepted regs rs /\ ot_group tx.1 = g)
    /\ forall g, match registry_kinds R g with
       | Ok ks => NoDup ks /\ ks <> [] /\ forall k, k ∈ ks <->
            exists tx, tx ∈ accepted regs rs /\ ot_group tx.1 = g /\ ot_kind tx.1 = k
       | Fail e => errors_is e SchemaNotFound = true
            /\ forall tx, tx ∈ accepted regs rs -> ot_group tx.1 <> g
       | _ => False
       end.
Proof. exact listings_consistent. Qed.
Print Assumptions C12_listings_are_exact.

Example C12_case :
  let regs := [(thing_type, thing_def); (note_type, thing_def); (note_type, note_def); (note_type, note_def)] in
  let '(rs, R) := register_all 3 demo_descs regs new_registry in
  map is_ok rs = [true; false; true; false]
  /\ accepted regs rs = [(thing_type, thing_def); (note_type, note_def)]
  /\ registry_kinds R (str "demo.v1") = Ok [str "Thing"; str "Note"].
Proof. vm_compute. auto. Qed.

(** C13: for an acyclic import graph (and enough fuel) the dependencies are
    exactly the transitive imports, each once, imports first. *)
Theorem C13_dependencies :
  forall F, well_founded (fun a b => imports F b a) ->
  forall path, exists enough, forall fuel, (enough <= fuel)%nat ->
    exists deps, dependencies fuel F path = Some deps
      /\ NoDup deps /\ (forall x, x ∈ deps <-> needs F path x) /\ import_ordered F deps.
Proof. exact dependencies_acyclic. Qed.
Print Assumptions C13_dependencies.

(** A diamond: a imports b and c, both import d. *)
Definition diamond : files := fun f =>
  if bytes_eqb f (str "a") then [str "b"; str "c"]
  else if bytes_eqb f (str "b") then [str "d"]
  else if bytes_eqb f (str "c") then [str "d"] else [].
Example C13_case :
  well_founded (fun a b => imports diamond b a)
  /\ dependencies 5 diamond (str "a") = Some [str "d"; str "b"; str "c"].
Proof.
  split; [|vm_compute; reflexivity].
  assert (forall x, diamond x = [] -> Acc (fun a b => imports diamond b a) x) as H0.
  { intros x Hx. constructor. intros y Hy. unfold imports in Hy. rewrite Hx in Hy. inversion Hy. }
  assert (Acc (fun a b => imports diamond b a) (str "d")) as Hd by (apply H0; vm_compute; reflexivity).
  assert (forall x, diamond x = [str "d"] -> Acc (fun a b => imports diamond b a) x) as H1.
  { intros x Hx. constructor. intros y Hy. unfold imports in Hy. rewrite Hx in Hy.
    apply elem_of_list_singleton in Hy as ->. exact Hd. }
  intros x. unfold imports. destruct (decide (x = str "a")) as [->|Ha].
  - constructor. intros y Hy. unfold diamond in Hy. cbn in Hy.
    change (y ∈ [str "b"; str "c"]) in Hy.
    apply elem_of_cons in Hy as [->|Hy]; [apply H1; vm_compute; reflexivity|].
    apply elem_of_list_singleton in Hy as ->. apply H1; vm_compute; reflexivity.
  - destruct (decide (x = str "b")) as [->|Hb]; [apply H1; vm_compute; reflexivity|].
    destruct (decide (x = str "c")) as [->|Hc]; [apply H1; vm_compute; reflexivity|].
    apply H0. unfold diamond, bytes_eqb. rewrite !bool_decide_eq_false_2 by done. done.
Qed.
