(** Specification of descriptor inspection and of registrable types. *)
From Coq Require Import NArith List Bool String Relations.
From stdpp Require Import base list gmap.
From Verif.Model Require Import Bytes KindEncoder Desc Schema.

(** A message with a map among its own fields. *)
Definition direct_map (d : msgdesc) : Prop :=
  exists fd, fd ∈ md_fields d /\ fd_map fd <> None.

(** The message has a field of kind [k] among its own fields. *)
Definition direct_kind (d : msgdesc) (k : kind) : Prop :=
  exists fd, fd ∈ md_fields d /\ fd_map fd = None /\ fd_kind fd = k.

(** [d'] is the type of a (non-map) message field of [d]. *)
Definition part (D : descs) (d d' : msgdesc) : Prop :=
  exists fd, fd ∈ md_fields d /\ fd_map fd = None /\ fd_kind fd = MessageKind /\ d' = D (fd_message fd).

(** At any depth. *)
Definition deep_map (D : descs) (d : msgdesc) : Prop :=
  exists d', clos_refl_trans _ (part D) d d' /\ direct_map d'.
Definition deep_kind (D : descs) (d : msgdesc) (k : kind) : Prop :=
  exists d', clos_refl_trans _ (part D) d d' /\ direct_kind d' k.

(** Kinds usable as a key, and kinds refused anywhere. *)
Definition key_kinds : list kind :=
  [BoolKind; Int32Kind; Uint32Kind; Int64Kind; Uint64Kind; StringKind; BytesKind].
Definition refused_kinds : list kind :=
  [Sint32Kind; Sint64Kind; Sfixed32Kind; Fixed32Kind; FloatKind; Sfixed64Kind; Fixed64Kind;
   DoubleKind; GroupKind].

(** JSON names are unique within a message (protoc guarantees it). *)
Definition json_unique (d : msgdesc) : Prop := NoDup (map fd_json (md_fields d)).

(** A field usable as a key: it exists and has an encodable kind. *)
Definition key_field (d : msgdesc) (name : bytes) : Prop :=
  exists fd, fd ∈ md_fields d /\ fd_json fd = name /\ fd_kind fd ∈ key_kinds.

(** A well formed definition for a type. *)
Definition definition_ok (d : msgdesc) (x : definition) : Prop :=
  if def_singleton x
  then def_primary_key x = [] /\ def_secondary_keys x = []
  else def_primary_key x <> [] /\ key_field d (def_primary_key x)
       /\ Forall (key_field d) (def_secondary_keys x).

(** Import relation of files and its transitive closure. *)
Definition imports (F : files) (a b : bytes) : Prop := b ∈ F a.
Definition needs (F : files) : bytes -> bytes -> Prop := clos_trans _ (imports F).

(** Every file comes after the files it imports. *)
Definition import_ordered (F : files) (l : list bytes) : Prop :=
  forall i x y, l !! i = Some x -> imports F x y -> exists j, (j < i)%nat /\ l !! j = Some y.
