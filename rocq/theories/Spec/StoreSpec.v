(** Specification of the object store: a plain finite map from (type name,
    encoded primary key) to objects. *)
From Coq Require Import NArith List Bool String Sorted.
From stdpp Require Import base list gmap.
From Verif.Model Require Import Bytes KindEncoder Desc Schema Indexes Orm.

(** Characters of protobuf full names: letters, digits, underscore, dot. *)
Definition name_char (b : byte) : bool :=
  let n := b2N b in
  ((48 <=? n) && (n <=? 57) || (65 <=? n) && (n <=? 90) || (97 <=? n) && (n <=? 122)
   || (n =? 95) || (n =? 46))%N.
Definition proto_name (n : bytes) : Prop := Forall (fun b => name_char b = true) n.

(** A registry as modules build it: [AddObject] calls, starting from nothing;
    type names are protobuf names, no secondary key is declared twice and there
    are fewer than 2^40 of them (more would not fit the memory). *)
Inductive built (fuel : nat) (D : descs) : registry -> Prop :=
| built_new : built fuel D new_registry
| built_add R t x :
    built fuel D R -> proto_name (ot_name t) -> NoDup (def_secondary_keys x) ->
    (N.of_nat (length (def_secondary_keys x)) < 2 ^ 40)%N ->
    built fuel D (snd (add_object fuel D R t x)).

(** How a caller tells answers apart: success, the sentinel errors that
    [errors.Is] finds, any other error, and a panic. *)
Inductive answer := ASuccess | AExists | ANotFound | ANoSchema | AOtherError | ACrash.
Definition answer_of {A} (r : res A) : answer :=
  match r with
  | Ok _ => ASuccess
  | Fail e =>
      if errors_is e OrmAlreadyExists then AExists
      else if errors_is e OrmNotFound then ANotFound
      else if errors_is e SchemaNotFound then ANoSchema
      else AOtherError
  | Panic | OutOfFuel => ACrash
  end.

Section WithObj.
  Context {Obj : Type} (O : objops Obj).

  (** Decoding inverts encoding, for objects that can be encoded at all. *)
  Definition codec_ok : Prop :=
    forall o b, oo_marshal O o = Some b -> oo_unmarshal O (obj_name O o) b = Some o.

  (** The fields the schema looks at hold values of their Go types. *)
  Definition typed (s : schema) (o : Obj) : Prop :=
    match sch_pk s with
    | Some (f, k) => value_ok k (oo_get O o f) = true
    | None => True
    end
    /\ Forall (fun ix => value_ok (ix_kind ix) (oo_get O o (ix_name ix)) = true) (sch_indexes s).

  Definition typed_in (R : registry) (o : Obj) : Prop :=
    forall s, rg_schemas R !! obj_name O o = Some s -> typed s o.

  (** The key an object is found under: the encoded primary key field (empty if
      the field cannot be encoded), for singletons the word "unique". *)
  Definition code (k : kind) (v : pvalue) : bytes :=
    match encode_value k v with Ok b => b | _ => [] end.
  Definition pk_of (s : schema) (o : Obj) : bytes :=
    if sch_singleton s then str "unique"
    else match sch_pk s with Some (f, k) => code k (oo_get O o f) | None => [] end.
  Definition field_code (ix : indexer) (o : Obj) : bytes :=
    code (ix_kind ix) (oo_get O o (ix_name ix)).

  (** The object can be written: protobuf can encode it and none of the keys
      exceeds the key limit of the database (65000 bytes). *)
  Definition storable (s : schema) (o : Obj) : bool :=
    match oo_marshal O o with None => false | Some _ => true end
    && (blen (sch_name s) + 1 + blen (pk_of s o) <=? 65000)%N
    && forallb (fun ix =>
          (25 + blen (sch_name s) + blen (ix_name ix) + blen (field_code ix o)
           + blen (pk_of s o) <=? 65000)%N) (sch_indexes s).

  (** The abstract store. *)
  Notation amap := (gmap (bytes * bytes) Obj).

  Inductive call :=
  | CCreate (o : Obj)
  | CUpdate (o : Obj)
  | CDelete (o : Obj)
  | CGet (ty id : bytes).

  Definition spec_create (R : registry) (o : Obj) (S : amap) : answer * amap :=
    match rg_schemas R !! obj_name O o with
    | None => (ANoSchema, S)
    | Some s =>
        if decide (pk_of s o = []) then (AOtherError, S)
        else match S !! (obj_name O o, pk_of s o) with
             | Some _ => (AExists, S)
             | None => if storable s o then (ASuccess, <[(obj_name O o, pk_of s o) := o]> S)
                       else (ACrash, S)
             end
    end.

  Definition spec_update (R : registry) (o : Obj) (S : amap) : answer * amap :=
    match rg_schemas R !! obj_name O o with
    | None => (ANoSchema, S)
    | Some s =>
        if decide (pk_of s o = []) then (AOtherError, S)
        else match S !! (obj_name O o, pk_of s o) with
             | None => (ANotFound, S)
             | Some _ => if storable s o then (ASuccess, <[(obj_name O o, pk_of s o) := o]> S)
                         else (ACrash, S)
             end
    end.

  Definition spec_delete (R : registry) (o : Obj) (S : amap) : answer * amap :=
    match rg_schemas R !! obj_name O o with
    | None => (ANoSchema, S)
    | Some s =>
        if decide (pk_of s o = []) then (AOtherError, S)
        else match S !! (obj_name O o, pk_of s o) with
             | None => (ANotFound, S)
             | Some _ => (ASuccess, base.delete (obj_name O o, pk_of s o) S)
             end
    end.

  Definition spec_get (R : registry) (ty id : bytes) (S : amap) : answer * option Obj :=
    match rg_schemas R !! ty with
    | None => (ANoSchema, None)
    | Some _ =>
        if decide (id = []) then (AOtherError, None)
        else match S !! (ty, id) with
             | None => (ANotFound, None)
             | Some o => (ASuccess, Some o)
             end
    end.

  (** A history of calls: the answers and the final state; a crash ends it. *)
  Definition spec_call (R : registry) (c : call) (S : amap) : (answer * option Obj) * amap :=
    match c with
    | CCreate o => let '(a, S') := spec_create R o S in ((a, None), S')
    | CUpdate o => let '(a, S') := spec_update R o S in ((a, None), S')
    | CDelete o => let '(a, S') := spec_delete R o S in ((a, None), S')
    | CGet ty id => (spec_get R ty id S, S)
    end.

  Definition model_call (R : registry) (c : call) (st : orm) : (answer * option Obj) * orm :=
    match c with
    | CCreate o => let '(r, st') := orm_create O R o st in ((answer_of r, None), st')
    | CUpdate o => let '(r, st') := orm_update O R o st in ((answer_of r, None), st')
    | CDelete o => let '(r, st') := orm_delete O R o st in ((answer_of r, None), st')
    | CGet ty id =>
        let r := orm_get O R ty id st in
        ((answer_of r, match r with Ok o => Some o | _ => None end), st)
    end.

  Definition is_crash (a : answer) : bool := match a with ACrash => true | _ => false end.

  Fixpoint run {St : Type} (step : call -> St -> (answer * option Obj) * St)
      (cs : list call) (st : St) : list (answer * option Obj) * option St :=
    match cs with
    | [] => ([], Some st)
    | c :: cs' =>
        let '(a, st') := step c st in
        if is_crash (fst a) then ([a], None)
        else let '(l, r) := run step cs' st' in (a :: l, r)
    end.

  Definition run_spec R cs := run (spec_call R) cs ∅.
  Definition run_model R cs := run (model_call R) cs orm_empty.

  (** The objects handed to the calls have values of their Go types. *)
  Definition call_typed (R : registry) (c : call) : Prop :=
    match c with
    | CCreate o | CUpdate o | CDelete o => typed_in R o
    | CGet _ _ => True
    end.

  (** A listing by field value: the primary keys of exactly the stored objects
      of the type whose field [f] holds [v], ascending, none twice. *)
  Definition strictly_below (a b : bytes) : Prop := bytes_leb a b = true /\ a <> b.
  Definition listing (S : amap) (ty f : bytes) (v : pvalue) (l : list bytes) : Prop :=
    StronglySorted strictly_below l
    /\ forall id, id ∈ l <-> exists o, S !! (ty, id) = Some o /\ oo_get O o f = v.

  (** The answer to a listing by one field: the listing, or the error for an
      empty result when no object matches. *)
  Definition list_answers (S : amap) (ty f : bytes) (v : pvalue) (r : res (list bytes)) : Prop :=
    match r with
    | Ok l => l <> [] /\ listing S ty f v l
    | Fail e => errors_is e IndexNoResults = true /\ listing S ty f v []
    | _ => False
    end.
End WithObj.
Arguments CCreate {Obj}. Arguments CUpdate {Obj}. Arguments CDelete {Obj}. Arguments CGet {Obj}.
Arguments call : clear implicits.
