(** Properties of the object store: C01-C04, C06-C08. *)
From Coq Require Import NArith List Bool String Sorted.
From stdpp Require Import base list gmap.
From Verif.Model Require Import Bytes Wire KindEncoder Desc Schema KV Objects Indexes Orm.
From Verif.Spec Require Import StoreSpec TextSpec DescSpec CriteriaSpec Demo.
From Verif.Proofs Require Import StoreProps CriteriaFacts KeyTextFacts.

(** C01: every history of calls is answered as a map from (type, encoded
    primary key) to objects answers it. [spec_call] is that map. *)
Theorem C01_store_is_a_map :
  forall (Obj : Type) (O : objops Obj) fuel D R (cs : list (call Obj)),
    codec_ok O -> built fuel D R -> Forall (call_typed O R) cs ->
    (run_model O R cs).1 = (run_spec O R cs).1.
Proof. exact @run_map. Qed.
Print Assumptions C01_store_is_a_map.

(** A history with a creation, a refused creation, an update, a look-up, a
    second type with the same key bytes, a deletion and a refused deletion. *)
Definition demo_history : list (call demo) :=
  [CCreate (Thing (str "a") 7 (str "x")); CCreate (Thing (str "a") 8 (str "y"));
   CUpdate (Thing (str "a") 9 (str "z")); CCreate (Note 97); CGet (str "demo.v1.Thing") (str "a");
   CGet (str "demo.v1.Note") (str "a"); CDelete (Thing (str "a") 0 []); CDelete (Thing (str "a") 0 []);
   CGet (str "demo.v1.Thing") (str "a"); CGet (str "demo.v1.Note") (str "a")].
Example C01_case :
  codec_ok demo_ops /\ built 3 demo_descs demo_registry
  /\ Forall (call_typed demo_ops demo_registry) demo_history
  /\ (run_model demo_ops demo_registry demo_history).1 =
     [(ASuccess, None); (AExists, None); (ASuccess, None); (ASuccess, None);
      (ASuccess, Some (Thing (str "a") 9 (str "z"))); (ASuccess, Some (Note 97));
      (ASuccess, None); (ANotFound, None); (ANotFound, None); (ASuccess, Some (Note 97))].
Proof.
  split; [exact demo_codec|]. split; [exact demo_built|]. split; [|vm_compute; reflexivity].
  apply demo_calls_typed. vm_compute. reflexivity.
Qed.

(** C02: equal storage keys mean equal types and equal primary key values. *)
Theorem C02_storage_keys_distinct :
  forall (Obj : Type) (O : objops Obj) fuel D R (o o' : Obj) s s' k,
    built fuel D R ->
    rg_schemas R !! obj_name O o = Some s -> rg_schemas R !! obj_name O o' = Some s' ->
    typed O s o -> typed O s' o' ->
    save_key O s o = Ok k -> save_key O s' o' = Ok k ->
    obj_name O o = obj_name O o'
    /\ match sch_pk s with Some (f, _) => oo_get O o f = oo_get O o' f | None => True end.
Proof. exact @keys_distinct. Qed.
Print Assumptions C02_storage_keys_distinct.

(** Note 97 and Thing "a" have the same encoded primary key and yet different storage keys. *)
Example C02_case :
  encode_primary_key demo_ops thing_schema (Thing (str "a") 7 (str "x")) = Ok (str "a")
  /\ save_key demo_ops thing_schema (Thing (str "a") 7 (str "x")) = Ok (str "demo.v1.Thing/a")
  /\ typed demo_ops thing_schema (Thing (str "a") 7 (str "x"))
  /\ option_map (fun s => save_key demo_ops s (Note 97)) (rg_schemas demo_registry !! str "demo.v1.Note")
     = Some (Ok (str "demo.v1.Note/a")).
Proof.
  split; [vm_compute; reflexivity|]. split; [vm_compute; reflexivity|].
  split; [|vm_compute; reflexivity].
  apply (demo_typed_in (Thing (str "a") 7 (str "x")) eq_refl). exact demo_thing_schema.
Qed.

(** C03: a call that returns an error leaves both key-value stores as they were,
    in every state a history of calls leads to. *)
Theorem C03_refused_call_changes_nothing :
  forall (Obj : Type) (O : objops Obj) fuel D R cs l st (o : Obj) e,
    codec_ok O -> built fuel D R -> Forall (call_typed O R) cs ->
    run_model O R cs = (l, Some st) -> typed_in O R o ->
    ((orm_create O R o st).1 = Fail e -> (orm_create O R o st).2 = st)
    /\ ((orm_update O R o st).1 = Fail e -> (orm_update O R o st).2 = st)
    /\ ((orm_delete O R o st).1 = Fail e -> (orm_delete O R o st).2 = st).
Proof. exact @refused_same. Qed.
Print Assumptions C03_refused_call_changes_nothing.

(** C03: for the errors "exists", "not found" and "no schema" this holds in
    every state whatsoever, also one left behind by a crash. *)
Theorem C03_refused_call_changes_nothing_in_any_state :
  forall (Obj : Type) (O : objops Obj) R st (o : Obj) e,
    answer_of (Fail e : res unit) <> AOtherError ->
    ((orm_create O R o st).1 = Fail e -> (orm_create O R o st).2 = st)
    /\ ((orm_update O R o st).1 = Fail e -> (orm_update O R o st).2 = st)
    /\ ((orm_delete O R o st).1 = Fail e -> (orm_delete O R o st).2 = st).
Proof. exact @refused_same_any. Qed.
Print Assumptions C03_refused_call_changes_nothing_in_any_state.

Example C03_case :
  match run_model demo_ops demo_registry (take 4 demo_history) with
  | (_, Some st) =>
      ((orm_create demo_ops demo_registry (Thing (str "a") 1 []) st).1,
       (orm_create demo_ops demo_registry (Thing [] 1 []) st).1,
       (orm_update demo_ops demo_registry (Thing (str "b") 1 []) st).1,
       (orm_delete demo_ops demo_registry (Thing (str "b") 1 []) st).1)
  | _ => (Panic, Panic, Panic, Panic)
  end = (Fail (EWrap (ESent OrmAlreadyExists)), Fail EAnon,
         Fail (EWrap (ESent OrmNotFound)), Fail (EWrap (ESent OrmNotFound))).
Proof. vm_compute. reflexivity. Qed.

(** C04: found again by the text of a string primary key, up to 127 bytes. *)
Theorem C04_found_by_string_key_partial :
  forall (Obj : Type) (O : objops Obj) fuel D R cs l st (o : Obj) s f t,
    codec_ok O -> built fuel D R -> Forall (call_typed O R) cs ->
    run_model O R cs = (l, Some st) ->
    typed_in O R o -> rg_schemas R !! obj_name O o = Some s ->
    sch_pk s = Some (f, StringKind) -> oo_get O o f = VString t -> (blen t < 128)%N ->
    (orm_create O R o st).1 = Ok tt ->
    orm_get O R (obj_name O o) t (orm_create O R o st).2 = Ok o.
Proof. exact @string_pk_found. Qed.
Print Assumptions C04_found_by_string_key_partial.

(** No longer key is: the text finds the object exactly if it is below 128 bytes. *)
Theorem C04_found_exactly :
  forall (Obj : Type) (O : objops Obj) fuel D R cs l st (o : Obj) s f t,
    codec_ok O -> built fuel D R -> Forall (call_typed O R) cs ->
    run_model O R cs = (l, Some st) ->
    typed_in O R o -> rg_schemas R !! obj_name O o = Some s ->
    sch_pk s = Some (f, StringKind) -> oo_get O o f = VString t ->
    (orm_create O R o st).1 = Ok tt ->
    orm_get O R (obj_name O o) t (orm_create O R o st).2 = Ok o <-> (blen t < 128)%N.
Proof. exact @string_pk_exact. Qed.
Print Assumptions C04_found_exactly.

(** The full statement has no bound on the length; it is false: the object is
    created and then not found. *)
Definition long_key : bytes := repeat Byte.x61 128.
Theorem C04_found_by_string_key_refuted :
  exists (o : demo) (t : bytes),
    demo_get o (str "id") = VString t /\ sch_pk thing_schema = Some (str "id", StringKind)
    /\ (orm_create demo_ops demo_registry o orm_empty).1 = Ok tt
    /\ answer_of (orm_get demo_ops demo_registry (str "demo.v1.Thing") t
                    (orm_create demo_ops demo_registry o orm_empty).2) = ANotFound.
Proof. exists (Thing long_key 1 []), long_key. vm_compute. auto. Qed.
Print Assumptions C04_found_by_string_key_refuted.

Example C04_case :
  (orm_create demo_ops demo_registry (Thing (str "key") 1 []) orm_empty).1 = Ok tt
  /\ orm_get demo_ops demo_registry (str "demo.v1.Thing") (str "key")
       (orm_create demo_ops demo_registry (Thing (str "key") 1 []) orm_empty).2
     = Ok (Thing (str "key") 1 []).
Proof. vm_compute. auto. Qed.

(** C06: after any history, listing a type by one indexed field gives exactly
    the live objects with that value, ascending, none twice ([list_answers]). *)
Theorem C06_listing_is_exact :
  forall (Obj : Type) (O : objops Obj) fuel D R cs l st S ty s f k v a b,
    codec_ok O -> built fuel D R -> Forall (call_typed O R) cs ->
    run_model O R cs = (l, Some st) -> run_spec O R cs = (l, Some S) ->
    rg_schemas R !! ty = Some s -> {| ix_name := f; ix_kind := k |} ∈ sch_indexes s ->
    value_ok k v = true ->
    list_answers O S ty f v
      (orm_list R ty {| lo_interface := [(f, go_of v)]; lo_string := []; lo_start := a; lo_end := b |} st).
Proof. exact @list_exact. Qed.
Print Assumptions C06_listing_is_exact.

Definition demo_listing : list (call demo) :=
  [CCreate (Thing (str "b") 7 (str "x")); CCreate (Thing (str "a") 7 (str "x"));
   CCreate (Thing (str "c") 8 (str "x")); CCreate (Thing (str "d") 7 (str "y"));
   CUpdate (Thing (str "b") 8 (str "x")); CDelete (Thing (str "d") 0 []);
   CCreate (Thing (str "ab") 7 (str "xy"))].
Definition by_typed (f : string) (v : goval) : list_options :=
  {| lo_interface := [(str f, v)]; lo_string := []; lo_start := 0; lo_end := 0 |}.
Definition by_text (f t : string) : list_options :=
  {| lo_interface := []; lo_string := [(str f, str t)]; lo_start := 0; lo_end := 0 |}.
Definition demo_list (opt : list_options) : option (res (list bytes)) :=
  option_map (orm_list demo_registry (str "demo.v1.Thing") opt)
             (run_model demo_ops demo_registry demo_listing).2.
Example C06_case :
  Forall (call_typed demo_ops demo_registry) demo_listing
  /\ demo_list (by_typed "n" (GUint64 7)) = Some (Ok [str "a"; str "ab"])
  /\ demo_list (by_typed "n" (GUint64 8)) = Some (Ok [str "b"; str "c"])
  /\ demo_list (by_typed "tag" (GString (str "x"))) = Some (Ok [str "a"; str "b"; str "c"])
  /\ demo_list (by_typed "tag" (GString (str "y"))) = Some (Fail (EWrap (ESent IndexNoResults))).
Proof. split; [apply demo_calls_typed; vm_compute; reflexivity|]. repeat (apply conj; [vm_compute; reflexivity|]). vm_compute. reflexivity. Qed.

(** C07: what the code does with several criteria: the objects with what the first
    one asks for are listed, if all of them ask for values of indexed fields; if
    there is none or one does not, an error is answered. A range is ignored. *)
Theorem C07_first_criterion_decides_partial :
  forall (Obj : Type) (O : objops Obj) fuel D R cs l st S ty s opt,
    codec_ok O -> built fuel D R -> Forall (call_typed O R) cs ->
    run_model O R cs = (l, Some st) -> run_spec O R cs = (l, Some S) ->
    rg_schemas R !! ty = Some s -> Forall in_memory (asks opt) ->
    (forall c rest f v, asks opt = c :: rest -> Forall (fun c => exists f v, means s c f v) rest -> means s c f v ->
       list_answers O S ty f v (orm_list R ty opt st))
    /\ (asks opt = [] \/ Exists (fun c => forall f v, ~ means s c f v) (asks opt) ->
        answer_of (orm_list R ty opt st) = AOtherError).
Proof. exact @list_criteria. Qed.
Print Assumptions C07_first_criterion_decides_partial.
Example C07_case :
  let opt := {| lo_interface := [(str "n", GUint64 7)]; lo_string := [(str "tag", str "none")]; lo_start := 0; lo_end := 0 |} in
  asks opt = [ByValue (str "n") (GUint64 7); ByText (str "tag") (str "none")] /\ Forall in_memory (asks opt)
  /\ means thing_schema (ByValue (str "n") (GUint64 7)) (str "n") (VUint64 7)
  /\ means thing_schema (ByText (str "tag") (str "none")) (str "tag") (VString (str "none"))
  /\ demo_list opt = Some (Ok [str "a"; str "ab"])
  /\ option_map answer_of (demo_list {| lo_interface := [(str "n", GUint64 7)]; lo_string := [(str "id", str "a")]; lo_start := 0; lo_end := 0 |})
     = Some AOtherError.
Proof.
  split; [reflexivity|]. split; [repeat constructor|]. split.
  { exists Uint64Kind. split; [|by vm_compute]. vm_compute. repeat constructor. }
  split; [exists StringKind; split; [vm_compute; repeat constructor|by vm_compute]|]. split; vm_compute; reflexivity.
Qed.

(** The full statement (all criteria and the range count) is false: object "c"
    with n = 8 is listed for n = 8 and tag = "none", and although the range asks
    for no element at all. *)
Theorem C07_all_criteria_and_range_refuted :
  demo_list {| lo_interface := [(str "n", GUint64 8); (str "tag", GString (str "none"))];
               lo_string := []; lo_start := 5; lo_end := 5 |} = Some (Ok [str "b"; str "c"]).
Proof. vm_compute. reflexivity. Qed.
Print Assumptions C07_all_criteria_and_range_refuted.

(** C08: a text that denotes a value selects exactly the objects with the value. *)
Theorem C08_text_query_is_exact :
  forall (Obj : Type) (O : objops Obj) fuel D R cs l st S ty s f k t v a b,
    codec_ok O -> built fuel D R -> Forall (call_typed O R) cs ->
    run_model O R cs = (l, Some st) -> run_spec O R cs = (l, Some S) ->
    rg_schemas R !! ty = Some s -> {| ix_name := f; ix_kind := k |} ∈ sch_indexes s ->
    (blen t < 2 ^ 63)%N -> denotes k t v ->
    list_answers O S ty f v
      (orm_list R ty {| lo_interface := []; lo_string := [(f, t)]; lo_start := a; lo_end := b |} st).
Proof. exact @text_query. Qed.
Print Assumptions C08_text_query_is_exact.

(** C08: a text that denotes no value of the field's kind is refused. *)
Theorem C08_other_text_is_refused :
  forall fuel D R ty s f k t a b st,
    built fuel D R -> rg_schemas R !! ty = Some s -> {| ix_name := f; ix_kind := k |} ∈ sch_indexes s ->
    (forall v, ~ denotes k t v) ->
    answer_of (orm_list R ty {| lo_interface := []; lo_string := [(f, t)]; lo_start := a; lo_end := b |} st)
    = AOtherError.
Proof. exact text_refused. Qed.
Print Assumptions C08_other_text_is_refused.

(** C08: the usual text of a value and the value itself give the same answer. *)
Theorem C08_text_as_typed :
  forall fuel D R ty s f k v a b st,
    built fuel D R -> rg_schemas R !! ty = Some s -> {| ix_name := f; ix_kind := k |} ∈ sch_indexes s ->
    value_ok k v = true ->
    orm_list R ty {| lo_interface := []; lo_string := [(f, text_of v)]; lo_start := a; lo_end := b |} st
    = orm_list R ty {| lo_interface := [(f, go_of v)]; lo_string := []; lo_start := a; lo_end := b |} st.
Proof. exact text_as_typed. Qed.
Print Assumptions C08_text_as_typed.

Example C08_case :
  text_of (VUint64 7) = str "7"
  /\ demo_list (by_text "n" "7") = Some (Ok [str "a"; str "ab"])
  /\ demo_list (by_text "n" "007") = Some (Ok [str "a"; str "ab"])
  /\ option_map answer_of (demo_list (by_text "n" "7x")) = Some AOtherError
  /\ option_map answer_of (demo_list (by_text "n" "18446744073709551616")) = Some AOtherError.
Proof. vm_compute. auto 10. Qed.
