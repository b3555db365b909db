(** The document of the API server: what it should say, for messages and files that
    refer to each other in any way. *)
From Coq Require Import NArith List Bool String Sorted.
From stdpp Require Import base list relations.
From Verif.Model Require Import Bytes KindEncoder Desc Schema KV ApiServer OpenApi.

(** Go visits a map in any order, but all of it. *)
Definition any_order (order : nat -> list bytes -> list bytes) : Prop := forall i l, Permutation (order i l) l.

Section Document.
  Context (W : world).
  Implicit Types (m n : message) (f : field) (x : described) (l : list described) (d : document).

  (** ** Paths: one for a singleton; one with the key and one for the list for other
      objects. Each is described by a name, its parameters and the name of the
      message sent. *)
  Definition list_name m : bytes := str "dynamic." ++ fl_package (me_file m) ++ str "." ++ me_short m ++ str "List".
  Definition plain_name m : bytes := fl_package (me_file m) ++ str "." ++ me_short m.
  Inductive documented x : bytes -> bytes -> list bytes -> bytes -> Prop :=
  | documented_singleton : def_singleton (de_definition x) = true ->
      documented x (to_lower (str "/" ++ de_group x ++ str "/" ++ de_kind x))
        (str "singleton." ++ de_group x ++ str "." ++ de_kind x) [] (plain_name (de_message x))
  | documented_one : def_singleton (de_definition x) = false ->
      documented x (to_lower (str "/" ++ de_group x ++ str "/" ++ de_kind x ++ str "/{" ++ def_primary_key (de_definition x) ++ str "}"))
        (str "get." ++ de_group x ++ str "." ++ de_kind x) [] (plain_name (de_message x))
  | documented_list : def_singleton (de_definition x) = false ->
      documented x (to_lower (str "/" ++ de_group x ++ str "/" ++ de_kind x ++ str "s"))
        (str "list." ++ de_group x ++ str "." ++ de_kind x)
        [str "selectField"; str "start"; str "end"] (list_name (de_message x)).
  (** What is said of the answer to a request: a message by name, except for two
      messages of google. *)
  Definition answer_said (name : bytes) (c : content) : Prop :=
    if bool_decide (name = str "google.protobuf.Empty") then c = CNone
    else if bool_decide (name = str "google.api.HttpBody") then c = COctets
    else c = CJson (str "#/components/schemas/" ++ name).

  (** ** Messages: those sent, and those of their fields. *)
  Definition leads m n : Prop :=
    exists f, f ∈ md_fields (me_desc m) /\ (fd_kind f = MessageKind \/ fd_kind f = GroupKind)
      /\ n = wo_message W (fd_message f).
  (** The message of a list: a field "list" of many objects, in a file of its own. *)
  Definition list_of m n : Prop :=
    me_name n = list_name m /\ me_short n = me_short m ++ str "List"
    /\ md_fields (me_desc n) = [{| fd_json := str "list"; fd_kind := MessageKind; fd_repeated := true;
                                   fd_map := None; fd_message := me_name m |}]
    /\ fl_path (me_file n) = str "dynamic/" ++ fl_path (me_file m)
    /\ fl_package (me_file n) = str "dynamic." ++ fl_package (me_file m)
    /\ fl_imports (me_file n) = [fl_path (me_file m)]
    /\ fl_messages (me_file n) = [me_name n] /\ fl_go_package (me_file n) = true.
  Definition sent l m : Prop :=
    exists x, x ∈ l /\ (m = de_message x \/ def_singleton (de_definition x) = false /\ list_of (de_message x) m).
  Definition concerned l m : Prop := exists r, sent l r /\ rtc leads r m.
  (** The files of these messages and those they import. *)
  Definition imports (a b : filedesc) : Prop := exists p, p ∈ fl_imports a /\ b = wo_file W p.
  Definition involved l (b : filedesc) : Prop := exists m, concerned l m /\ rtc imports (me_file m) b.

  (** Names resolve: what is concerned is found by its name. *)
  Definition resolvable l : Prop := forall m, concerned l m -> wo_message W (me_name m) = m.
  (** Messages are declared by their files, not within messages; paths identify
      files; files declare what they list. *)
  Definition regular l : Prop :=
    resolvable l
    /\ (forall m, concerned l m -> me_name m ∈ fl_messages (me_file m))
    /\ (forall a b, involved l a -> involved l b -> fl_path a = fl_path b -> a = b)
    /\ (forall a name, involved l a -> name ∈ fl_messages a ->
          me_name (wo_message W name) = name /\ name = plain_name (wo_message W name)).
  (** No message contains itself and no file imports itself, in any number of steps. *)
  Definition acyclic l : Prop :=
    exists rank rank' : bytes -> nat,
      (forall m n, concerned l m -> leads m n -> rank (me_name n) < rank (me_name m))
      /\ (forall a b, involved l a -> imports a b -> rank' (fl_path b) < rank' (fl_path a)).
  (** Files have the option go_package, and messages packages. *)
  Definition packaged l : Prop :=
    (forall a, involved l a -> fl_go_package a = true)
    /\ forall x, x ∈ l -> def_singleton (de_definition x) = false -> fl_package (me_file (de_message x)) <> [].

  (** ** Schemas: what is said of a field. *)
  Definition scalar_said (k : kind) : option (bytes * bytes) :=
    match k with
    | BoolKind => Some (str "boolean", [])
    | StringKind => Some (str "string", [])
    | BytesKind => Some (str "string", str "bytes")
    | EnumKind => Some (str "integer", str "enum")
    | FloatKind => Some (str "number", str "float")
    | DoubleKind => Some (str "number", str "double")
    | Int32Kind => Some (str "integer", str "int32")
    | Sint32Kind => Some (str "integer", str "sint32")
    | Uint32Kind => Some (str "integer", str "uint32")
    | Int64Kind => Some (str "integer", str "int64")
    | Sint64Kind => Some (str "integer", str "sint64")
    | Uint64Kind => Some (str "integer", str "uint64")
    | Sfixed32Kind => Some (str "integer", str "sfixed32")
    | Fixed32Kind => Some (str "integer", str "fixed32")
    | Sfixed64Kind => Some (str "integer", str "sfixed64")
    | Fixed64Kind => Some (str "integer", str "fixed64")
    | MessageKind | GroupKind => None
    end.
  (** The messages of google with a text of their own. *)
  Definition special (name : bytes) : option bytes :=
    if bool_decide (name = str "google.protobuf.Timestamp") then Some (str "RFC3339")
    else if bool_decide (name = str "google.type.Date") then Some (str "date")
    else if bool_decide (name = str "google.type.DateTime") then Some (str "date-time")
    else None.
  Definition listed f : Prop := fd_repeated f = true /\ fd_map f = None.
  Definition texts_by_text f : Prop := exists vm, fd_map f = Some (StringKind, StringKind, vm).
  Inductive says f : said -> Prop :=
  | says_messages : listed f -> fd_kind f = MessageKind ->
      says f (SType (str "array") [] (Some (IRef (str "#/components/schemas/" ++ plain_name (wo_message W (fd_message f))))))
  | says_groups : listed f -> fd_kind f = GroupKind -> says f (SType (str "array") [] None)
  | says_scalars type format : listed f -> scalar_said (fd_kind f) = Some (type, format) ->
      says f (SType (str "array") [] (Some (IType type)))
  | says_texts_by_text : ~ listed f -> texts_by_text f -> says f (SType (str "object") [] None)
  | says_message : ~ listed f -> ~ texts_by_text f -> fd_kind f = MessageKind ->
      special (plain_name (wo_message W (fd_message f))) = None ->
      says f (SRef (str "#/components/schemas/" ++ plain_name (wo_message W (fd_message f))))
  | says_special format : ~ listed f -> ~ texts_by_text f -> fd_kind f = MessageKind ->
      special (plain_name (wo_message W (fd_message f))) = Some format ->
      says f (SType (str "string") format None)
  | says_group : ~ listed f -> ~ texts_by_text f -> fd_kind f = GroupKind -> says f (SType [] [] None)
  | says_scalar type format : ~ listed f -> ~ texts_by_text f -> scalar_said (fd_kind f) = Some (type, format) ->
      says f (SType type format None).
  (** A message, field by field. *)
  Definition schema_says m (p : list (bytes * said)) : Prop :=
    Forall2 (fun f e => e.1 = fd_json f /\ says f e.2) (md_fields (me_desc m)) p.

  (** The references of a document, and those that lead somewhere. *)
  Inductive refers d : bytes -> Prop :=
  | refers_path path op r : (path, op) ∈ do_paths d -> op_content op = CJson r -> refers d r
  | refers_field name p json r : (name, p) ∈ do_schemas d -> (json, SRef r) ∈ p -> refers d r
  | refers_items name p json type format r : (name, p) ∈ do_schemas d -> (json, SType type format (Some (IRef r))) ∈ p -> refers d r.
  Definition resolves d (r : bytes) : Prop :=
    exists name p, r = str "#/components/schemas/" ++ name /\ (name, p) ∈ do_schemas d.

  (** ** The JSON of protobuf: numbers of 64 bits and enums are texts. *)
  Definition json_type (k : kind) : option bytes :=
    match k with
    | BoolKind => Some (str "boolean")
    | StringKind | BytesKind | EnumKind => Some (str "string")
    | Int64Kind | Sint64Kind | Uint64Kind | Sfixed64Kind | Fixed64Kind => Some (str "string")
    | Int32Kind | Sint32Kind | Uint32Kind | Sfixed32Kind | Fixed32Kind => Some (str "integer")
    | FloatKind | DoubleKind => Some (str "number")
    | MessageKind | GroupKind => None
    end.
  Definition text_number (k : kind) : bool :=
    match k with Int64Kind | Sint64Kind | Uint64Kind | Sfixed64Kind | Fixed64Kind | EnumKind => true | _ => false end.
  (** The JSON of a field without messages is what is said of it. *)
  Definition fits f (v : said) : Prop :=
    forall t, json_type (fd_kind f) = Some t -> fd_map f = None ->
      if fd_repeated f then v = SType (str "array") [] (Some (IType t)) else exists format, v = SType t format None.
End Document.

(** In order, none twice. *)
Definition by_name {A} (l : list (bytes * A)) : Prop :=
  StronglySorted bytes_le (map fst l) /\ NoDup (map fst l).
