(** core/schema/schema.go, core/meta, runtime/orm/schema: definitions, schemas
    and the schema registry. *)
From Coq Require Import NArith List Bool String.
From stdpp Require Import base list gmap.
From Verif.Model Require Import Bytes KindEncoder Desc.

(** What the store needs from a state object: its API definition, reflection
    on its fields (by JSON name), and protobuf marshalling of its type.
    [oo_marshal] yields [None] where Go panics (unknown fields, invalid UTF-8);
    [oo_unmarshal] decodes into the type with the given API name. *)
Record objops (Obj : Type) := {
  oo_group : Obj -> bytes;
  oo_kind : Obj -> bytes;
  oo_get : Obj -> bytes -> pvalue;
  oo_marshal : Obj -> option bytes;
  oo_unmarshal : bytes -> bytes -> option Obj
}.
Arguments oo_group {Obj}. Arguments oo_kind {Obj}. Arguments oo_get {Obj}.
Arguments oo_marshal {Obj}. Arguments oo_unmarshal {Obj}.

(** core/meta/meta.go:9-11 APIDefinition.Name: group, a dot, kind. *)
Definition api_name (group kind : bytes) : bytes := group ++ str "." ++ kind.

(** core/meta/meta.go:33-35 Name. *)
Definition obj_name {Obj} (O : objops Obj) (o : Obj) : bytes :=
  api_name (oo_group O o) (oo_kind O o).

(** core/schema/schema.proto:8-21 Definition. *)
Record definition := {
  def_singleton : bool;
  def_primary_key : bytes;
  def_secondary_keys : list bytes
}.

(** core/schema/schema.go:6-17 Validate. *)
Definition validate (x : definition) : bool :=
  if def_singleton x && negb (bytes_eqb (def_primary_key x) []) then false
  else if def_singleton x && negb (Nat.eqb (length (def_secondary_keys x)) 0) then false
  else if negb (def_singleton x) && bytes_eqb (def_primary_key x) [] then false
  else true.

(** The Go value a type is registered with: its API definition and descriptor. *)
Record objtype := {
  ot_group : bytes;
  ot_kind : bytes;
  ot_desc : msgdesc
}.
Definition ot_name (t : objtype) : bytes := api_name (ot_group t) (ot_kind t).

(** runtime/orm/schema/indexer.go:30-35 Indexer. *)
Record indexer := {
  ix_name : bytes;      (** prefix and name: the JSON field name *)
  ix_kind : kind
}.

(** runtime/orm/schema/schema.go:29-40 Schema. [sch_pk = None] for singletons.
    secondaryKeysByField is [indexer_of] below. *)
Record schema := {
  sch_group : bytes;
  sch_kind : bytes;
  sch_singleton : bool;
  sch_pk : option (bytes * kind);
  sch_indexes : list indexer
}.

(** schema.go:50-56 TypePrefix and Name. *)
Definition sch_name (s : schema) : bytes := api_name (sch_group s) (sch_kind s).

(** schema.go:13-23 UnsupportedKinds. *)
Definition unsupported_kinds : list kind :=
  [Sint32Kind; Sint64Kind; Sfixed32Kind; Fixed32Kind; FloatKind; Sfixed64Kind;
   Fixed64Kind; DoubleKind; GroupKind].

(** FieldDescriptors.ByJSONName. *)
Definition by_json_name (d : msgdesc) (name : bytes) : option field :=
  List.find (fun fd => bytes_eqb (fd_json fd) name) (md_fields d).

(** runtime/orm/schema/indexer.go:11-28 NewIndexer. *)
Definition new_indexer (t : objtype) (name : bytes) : res indexer :=
  match by_json_name (ot_desc t) name with
  | None => Fail (EWrap (ESent SchemaBadDefinition))
  | Some fd =>
      match new_kind_encoder (fd_kind fd) with
      | Ok k => Ok {| ix_name := name; ix_kind := k |}
      | _ => Fail (EWrap (ESent SchemaBadDefinition))
      end
  end.

(** schema.go:141-149: one indexer per secondary key, first error wins. *)
Fixpoint new_indexers (t : objtype) (names : list bytes) : res (list indexer) :=
  match names with
  | [] => Ok []
  | n :: ns =>
      match new_indexer t n with
      | Ok ix => match new_indexers t ns with
                 | Ok ixs => Ok (ix :: ixs)
                 | r => r
                 end
      | Fail e => Fail e
      | Panic => Panic
      | OutOfFuel => OutOfFuel
      end
  end.

Definition bad_definition {A} : res A := Fail (EWrap (ESent SchemaBadDefinition)).

(** schema.go:95-152 parseObjectSchema (and 91-93 NewSchema). The checks of
    lines 112 and 136 are subsumed by Validate and kept for faithfulness. *)
Definition parse_object_schema (fuel : nat) (D : descs) (t : objtype) (x : definition)
  : res schema :=
  if negb (validate x) then bad_definition
  else
    match has_map fuel D (ot_desc t) with
    | Ok true => bad_definition
    | Ok false =>
        match has_kinds fuel D (ot_desc t) unsupported_kinds with
        | Ok true => bad_definition
        | Ok false =>
            let base := fun pk ixs =>
              {| sch_group := ot_group t; sch_kind := ot_kind t;
                 sch_singleton := def_singleton x; sch_pk := pk; sch_indexes := ixs |} in
            let cont := fun pk =>
              if Nat.eqb (length (def_secondary_keys x)) 0 then Ok (base pk [])
              else if def_singleton x then bad_definition
              else match new_indexers t (def_secondary_keys x) with
                   | Ok ixs => Ok (base pk ixs)
                   | Fail e => Fail e
                   | Panic => Panic
                   | OutOfFuel => OutOfFuel
                   end in
            if def_singleton x
            then if negb (bytes_eqb (def_primary_key x) []) then bad_definition else cont None
            else
              match by_json_name (ot_desc t) (def_primary_key x) with
              | None => bad_definition
              | Some fd =>
                  match new_kind_encoder (fd_kind fd) with
                  | Ok k => cont (Some (def_primary_key x, k))
                  | _ => bad_definition
                  end
              end
        | Fail e => Fail e | Panic => Panic | OutOfFuel => OutOfFuel
        end
    | Fail e => Fail e | Panic => Panic | OutOfFuel => OutOfFuel
    end.

(** schema.go:46-48 HasIndexes. *)
Definition has_indexes (s : schema) : bool := negb (Nat.eqb (length (sch_indexes s)) 0).

(** schema.go:79-85 Indexer: lookup in secondaryKeysByField (for equal names
    the indexer stored last; they are all equal then). *)
Definition indexer_of (s : schema) (name : bytes) : res indexer :=
  match List.find (fun ix => bytes_eqb (ix_name ix) name) (rev (sch_indexes s)) with
  | Some ix => Ok ix
  | None => Fail (EWrap (ESent SchemaSecondaryKey))
  end.

(** core/meta/state.go:3 SingletonID and schema.go:62. *)
Definition singleton_id : bytes := str "unique".

(** schema.go:60-66 EncodePrimaryKey. *)
Definition encode_primary_key {Obj} (O : objops Obj) (s : schema) (o : Obj) : res bytes :=
  if sch_singleton s then Ok singleton_id
  else match sch_pk s with
       | Some (f, k) => encode_value k (oo_get O o f)
       | None => Panic
       end.

(** schema.go:68-77 EncodePrimaryKeyString. *)
Definition encode_primary_key_string (s : schema) (text : bytes) : res bytes :=
  if sch_singleton s then Fail EAnon
  else match sch_pk s with
       | None => Panic
       | Some (_, k) =>
           match encode_string k text with
           | Ok v => encode_value k v
           | Fail _ => Fail (EWrap (ESent SchemaFieldTypeMismatch))
           | Panic => Panic
           | OutOfFuel => OutOfFuel
           end
       end.

(** indexer.go:45-48 MustEncodeFromObject. *)
Definition ix_encode_object {Obj} (O : objops Obj) (ix : indexer) (o : Obj) : res bytes :=
  encode_value (ix_kind ix) (oo_get O o (ix_name ix)).

(** indexer.go:50-56 EncodeInterface. *)
Definition ix_encode_interface (ix : indexer) (v : goval) : res bytes :=
  match encode_interface (ix_kind ix) v with
  | Ok pv => encode_value (ix_kind ix) pv
  | Fail _ => Fail (EWrap (ESent SchemaFieldTypeMismatch))
  | Panic => Panic
  | OutOfFuel => OutOfFuel
  end.

(** indexer.go:58-64 EncodeString. *)
Definition ix_encode_string (ix : indexer) (s : bytes) : res bytes :=
  match encode_string (ix_kind ix) s with
  | Ok pv => encode_value (ix_kind ix) pv
  | Fail e => Fail e
  | Panic => Panic
  | OutOfFuel => OutOfFuel
  end.

(** runtime/orm/schema/registry.go:17-21 Registry. *)
Record registry := {
  rg_schemas : gmap bytes schema;
  rg_groups : gmap bytes (list bytes);
  rg_by_meta : gmap bytes (gmap bytes schema)
}.

(** registry.go:9-15 NewRegistry. *)
Definition new_registry : registry :=
  {| rg_schemas := ∅; rg_groups := ∅; rg_by_meta := ∅ |}.

(** registry.go:23-39 Add. *)
Definition registry_add (r : registry) (s : schema) : res unit * registry :=
  match rg_schemas r !! sch_name s with
  | Some _ => (Fail (EWrap (ESent SchemaAlreadyExists)), r)
  | None =>
      (Ok tt,
       {| rg_schemas := <[sch_name s := s]> (rg_schemas r);
          rg_groups := <[sch_group s := default [] (rg_groups r !! sch_group s) ++ [sch_kind s]]>
                         (rg_groups r);
          rg_by_meta := <[sch_group s := <[sch_kind s := s]>
                             (default ∅ (rg_by_meta r !! sch_group s))]> (rg_by_meta r) |})
  end.

(** registry.go:41-47 AddObject; runtime/orm/store.go:48-55 RegisterObject. *)
Definition add_object (fuel : nat) (D : descs) (r : registry) (t : objtype) (x : definition)
  : res unit * registry :=
  match parse_object_schema fuel D t x with
  | Ok s => registry_add r s
  | Fail e => (Fail e, r)
  | Panic => (Panic, r)
  | OutOfFuel => (OutOfFuel, r)
  end.

(** registry.go:49-55 Get, by the API name of the object. *)
Definition registry_get (r : registry) (name : bytes) : res schema :=
  match rg_schemas r !! name with
  | Some s => Ok s
  | None => Fail (EWrap (ESent SchemaNotFound))
  end.

(** registry.go:57-71 List and ListAPIGroups (Go map order: unspecified). *)
Definition registry_list (r : registry) : list bytes := (map_to_list (rg_schemas r)).*1.
Definition registry_groups (r : registry) : list bytes := (map_to_list (rg_groups r)).*1.

(** registry.go:73-79 ListKindsInGroup. *)
Definition registry_kinds (r : registry) (group : bytes) : res (list bytes) :=
  match rg_groups r !! group with
  | Some ks => Ok ks
  | None => Fail (EWrap (ESent SchemaNotFound))
  end.

(** registry.go:81-91 GetByAPIDefinition. *)
Definition registry_get_by_api (r : registry) (group kind : bytes) : res schema :=
  match rg_by_meta r !! group with
  | None => Fail (EWrap (ESent SchemaNotFound))
  | Some kinds =>
      match kinds !! kind with
      | None => Fail (EWrap (ESent SchemaNotFound))
      | Some s => Ok s
      end
  end.
