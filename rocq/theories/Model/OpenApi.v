(** pkg/protoutils/oas3schema, pkg/protoutils/forge and
    core/apiserver/router/openapi.go: the Open API document served at /spec. Not
    modelled: comments (descriptors at run time carry none), the options of fields
    (read-only), methods of services with HTTP options (the files of the
    application have none) and the rewriting of variables with an equals sign in
    paths (names of fields have none). *)
From Coq Require Import NArith List Bool String.
From stdpp Require Import base list sorting.
From Verif.Model Require Import Bytes KindEncoder Desc Schema KV ApiServer.

(** protoreflect.FileDescriptor: its path, package, imports by path, the full names
    of its messages (without those declared inside of messages) and whether it has
    the option go_package. *)
Record filedesc := {
  fl_path : bytes;
  fl_package : bytes;
  fl_imports : list bytes;
  fl_messages : list bytes;
  fl_go_package : bool
}.
(** protoreflect.MessageDescriptor: full name and fields, name, file. *)
Record message := { me_desc : msgdesc; me_short : bytes; me_file : filedesc }.
Definition me_name (m : message) : bytes := md_name (me_desc m).
(** What descriptors refer to: the messages of fields by full name and imported
    files by path. *)
Record world := { wo_message : bytes -> message; wo_file : bytes -> filedesc }.

(** oas3schema.go:461-463 fullMessageTypeName: the package and the name, not the
    full name. *)
Definition type_name (m : message) : bytes := str "." ++ fl_package (me_file m) ++ str "." ++ me_short m.

(** oas3schema.go:37-41 rawOperation; its method is always GET. *)
Record raw_operation := { ro_id : bytes; ro_path : bytes; ro_params : list bytes; ro_response : message }.
(** oas3schema.go:44-59 OpenAPIv3Generator. [ge_loops] counts the loops over Go
    maps made so far. *)
Record generator := {
  ge_set : list bytes;
  ge_objects : list message;
  ge_required : list bytes;
  ge_operations : list raw_operation;
  ge_loops : nat
}.
(** oas3schema.go:62-71 NewOpenAPIv3Generator. *)
Definition new_generator : generator :=
  {| ge_set := []; ge_objects := []; ge_required := []; ge_operations := []; ge_loops := 0 |}.

(** oas3schema.go:79-85: the messages of the fields of a message, by name; a Go
    map, so each name once. *)
Definition is_message_kind (k : kind) : bool :=
  match k with MessageKind | GroupKind => true | _ => false end.
Definition nested_messages (m : message) : list bytes :=
  remove_dups (map fd_message (List.filter (fun f => is_message_kind (fd_kind f)) (md_fields (me_desc m)))).

Definition mark (n : bytes) (g : generator) : generator :=
  {| ge_set := n :: ge_set g; ge_objects := ge_objects g; ge_required := ge_required g;
     ge_operations := ge_operations g; ge_loops := ge_loops g |}.
Definition tick (g : generator) : generator :=
  {| ge_set := ge_set g; ge_objects := ge_objects g; ge_required := ge_required g;
     ge_operations := ge_operations g; ge_loops := S (ge_loops g) |}.
Definition require (m : message) (g : generator) : generator :=
  {| ge_set := me_name m :: ge_set g; ge_objects := ge_objects g ++ [m];
     ge_required := ge_required g ++ [type_name m];
     ge_operations := ge_operations g; ge_loops := ge_loops g |}.
(** oas3schema.go:437-442 schemaReferenceForTypeName. *)
Definition reference (type_name : bytes) : bytes := str "#/components/schemas/" ++ tail type_name.
Definition need (t : bytes) (required : list bytes) : list bytes :=
  if bool_decide (t ∈ required) then required else required ++ [t].

Section Generator.
  Context (W : world).
  (** The order in which Go visits a map: any, and another one each time. *)
  Context (order : nat -> list bytes -> list bytes).

  (** oas3schema.go:73-97 AddRequiredMessage; [None] is out of fuel. *)
  Fixpoint add_required (fuel : nat) (m : message) (g : generator) : option generator :=
    match fuel with
    | O => None
    | S f =>
        if bool_decide (me_name m ∈ ge_set g) then Some g
        else
          match
            (fix visit (l : list bytes) (g : generator) : option generator :=
               match l with
               | [] => Some g
               | n :: l' =>
                   match add_required f (wo_message W n) g with
                   | Some g' => visit l' (mark (me_name m) g')
                   | None => None
                   end
               end) (order (ge_loops g) (nested_messages m)) (tick g)
          with
          | Some g' => Some (require m g')
          | None => None
          end
    end.

  (** oas3schema.go:219-232 AddRawOperation. *)
  Definition add_operation (o : raw_operation) (g : generator) : generator :=
    {| ge_set := ge_set g; ge_objects := ge_objects g; ge_required := ge_required g;
       ge_operations := ge_operations g ++ [o]; ge_loops := ge_loops g |}.

  (** forge/list.go:20-58 List: a file of one message made for the list. A file
      without go_package makes it panic; without a package the name of the new
      package is not valid. *)
  Definition list_file (m : message) : filedesc :=
    {| fl_path := str "dynamic/" ++ fl_path (me_file m);
       fl_package := str "dynamic." ++ fl_package (me_file m);
       fl_imports := [fl_path (me_file m)];
       fl_messages := [str "dynamic." ++ fl_package (me_file m) ++ str "." ++ me_short m ++ str "List"];
       fl_go_package := true |}.
  Definition list_message (m : message) : message :=
    {| me_desc := {| md_name := str "dynamic." ++ fl_package (me_file m) ++ str "." ++ me_short m ++ str "List";
                     md_fields := [{| fd_json := str "list"; fd_kind := MessageKind; fd_repeated := true;
                                      fd_map := None; fd_message := me_name m |}] |};
       me_short := me_short m ++ str "List"; me_file := list_file m |}.
  Definition forge_list (m : message) : res message :=
    if negb (fl_go_package (me_file m)) then Panic
    else if bytes_eqb (fl_package (me_file m)) [] then Fail EAnon
    else Ok (list_message m).

  (** openapi.go:32-74: the names of the query parameters of a list. *)
  Definition list_parameters : list bytes := [str "selectField"; str "start"; str "end"].

  Definition add_or_hang (fuel : nat) (m : message) (g : generator) : res generator :=
    match add_required fuel m g with Some g' => Ok g' | None => OutOfFuel end.
  (** openapi.go:76-90 AddSingleton; [name] is the API name of the object. *)
  Definition add_singleton (fuel : nat) (name : bytes) (m : message) (path : bytes) (g : generator) : res generator :=
    add_or_hang fuel m
      (add_operation {| ro_id := str "singleton." ++ name; ro_path := path; ro_params := []; ro_response := m |} g).
  (** openapi.go:92-119 AddObject. *)
  Definition add_object (fuel : nat) (name : bytes) (m : message) (single list : bytes) (g : generator) : res generator :=
    match add_or_hang fuel m
            (add_operation {| ro_id := str "get." ++ name; ro_path := single; ro_params := []; ro_response := m |} g) with
    | Ok g' =>
        match forge_list m with
        | Ok l =>
            add_or_hang fuel l
              (add_operation {| ro_id := str "list." ++ name; ro_path := list; ro_params := list_parameters;
                                ro_response := l |} g')
        | Fail e => Fail e
        | Panic => Panic
        | OutOfFuel => OutOfFuel
        end
    | r => r
    end.

  (** router/server.go:56-105 CreateStateObjectHandler: what is added for an object,
      once its schema has been made (see [object_routes]). *)
  Record described := { de_group : bytes; de_kind : bytes; de_message : message; de_definition : definition }.
  Definition single_path (x : described) : bytes := to_lower (str "/" ++ de_group x ++ str "/" ++ de_kind x).
  Definition instance_path (x : described) : bytes :=
    to_lower (str "/" ++ de_group x ++ str "/" ++ de_kind x ++ str "/{" ++ def_primary_key (de_definition x) ++ str "}").
  Definition list_path (x : described) : bytes := to_lower (str "/" ++ de_group x ++ str "/" ++ de_kind x ++ str "s").
  Definition describe (fuel : nat) (x : described) (g : generator) : res generator :=
    let name := api_name (de_group x) (de_kind x) in
    if def_singleton (de_definition x) then add_singleton fuel name (de_message x) (single_path x) g
    else add_object fuel name (de_message x) (instance_path x) (list_path x) g.
  Fixpoint describe_all (fuel : nat) (l : list described) (g : generator) : res generator :=
    match l with
    | [] => Ok g
    | x :: l' => match describe fuel x g with Ok g' => describe_all fuel l' g' | r => r end
    end.

  (** ** The document *)
  Inductive content := CNone | COctets | CJson (reference : bytes).
  Record operation := { op_id : bytes; op_params : list bytes; op_content : content }.
  (** What is said of a field: a reference, or a type, a format and the items of an
      array. *)
  Inductive item := IType (type : bytes) | IRef (reference : bytes).
  Inductive said := SRef (reference : bytes) | SType (type format : bytes) (items : option item).
  Record document := { do_paths : list (bytes * operation); do_schemas : list (bytes * list (bytes * said)) }.

  (** oas3schema.go:465-499 responseContentForMessage, with the required names. *)
  Definition response_content (m : message) (required : list bytes) : content * list bytes :=
    if bytes_eqb (type_name m) (str ".google.protobuf.Empty") then (CNone, required)
    else if bytes_eqb (type_name m) (str ".google.api.HttpBody") then (COctets, required)
    else (CJson (reference (type_name m)), need (type_name m) required).
  (** oas3schema.go:408-434 addOperationV3: a later operation of the same path takes
      the place of the earlier one. *)
  Fixpoint set_path (path : bytes) (o : operation) (l : list (bytes * operation)) : list (bytes * operation) :=
    match l with
    | [] => [(path, o)]
    | (p, o') :: l' => if bytes_eqb p path then (p, o) :: l' else (p, o') :: set_path path o l'
    end.
  (** oas3schema.go:208-216 and 235-405: the operations of one file (which are
      those of all files again). *)
  Fixpoint add_paths (ops : list raw_operation) (paths : list (bytes * operation)) (required : list bytes)
    : list (bytes * operation) * list bytes :=
    match ops with
    | [] => (paths, required)
    | o :: ops' =>
        let '(c, required') := response_content (ro_response o) required in
        add_paths ops' (set_path (ro_path o) {| op_id := ro_id o; op_params := ro_params o; op_content := c |} paths) required'
    end.

  (** protoreflect.Kind.String. *)
  Definition kind_text (k : kind) : bytes :=
    match k with
    | BoolKind => str "bool" | EnumKind => str "enum" | Int32Kind => str "int32" | Sint32Kind => str "sint32"
    | Uint32Kind => str "uint32" | Int64Kind => str "int64" | Sint64Kind => str "sint64" | Uint64Kind => str "uint64"
    | Sfixed32Kind => str "sfixed32" | Fixed32Kind => str "fixed32" | FloatKind => str "float"
    | Sfixed64Kind => str "sfixed64" | Fixed64Kind => str "fixed64" | DoubleKind => str "double"
    | StringKind => str "string" | BytesKind => str "bytes" | MessageKind => str "message" | GroupKind => str "group"
    end.
  (** oas3schema.go:518-645: what is said of a field, with the required names. The
      message of a map field is its entry. *)
  Definition is_list (f : field) : bool := fd_repeated f && negb (bool_decide (is_Some (fd_map f))).
  Definition is_text_map (f : field) : bool :=
    match fd_map f with
    | Some (kk, vk, _) => bool_decide (kk = StringKind) && bool_decide (vk = StringKind)
    | None => false
    end.
  Definition said_of (f : field) (required : list bytes) : said * list bytes :=
    let t := type_name (wo_message W (fd_message f)) in
    let k := fd_kind f in
    if is_list f then
      match k with
      | MessageKind => (SType (str "array") [] (Some (IRef (reference t))), need t required)
      | GroupKind => (SType (str "array") [] None, required)
      | StringKind | BytesKind => (SType (str "array") [] (Some (IType (str "string"))), required)
      | BoolKind => (SType (str "array") [] (Some (IType (str "boolean"))), required)
      | FloatKind | DoubleKind => (SType (str "array") [] (Some (IType (str "number"))), required)
      | _ => (SType (str "array") [] (Some (IType (str "integer"))), required)
      end
    else if is_text_map f then (SType (str "object") [] None, required)
    else
      match k with
      | MessageKind =>
          if bytes_eqb t (str ".google.protobuf.Timestamp") then (SType (str "string") (str "RFC3339") None, required)
          else if bytes_eqb t (str ".google.type.Date") then (SType (str "string") (str "date") None, required)
          else if bytes_eqb t (str ".google.type.DateTime") then (SType (str "string") (str "date-time") None, required)
          else (SRef (reference t), need t required)
      | GroupKind => (SType [] [] None, required)
      | StringKind => (SType (str "string") [] None, required)
      | EnumKind => (SType (str "integer") (str "enum") None, required)
      | BoolKind => (SType (str "boolean") [] None, required)
      | FloatKind | DoubleKind => (SType (str "number") (kind_text k) None, required)
      | BytesKind => (SType (str "string") (str "bytes") None, required)
      | _ => (SType (str "integer") (kind_text k) None, required)
      end.
  Fixpoint said_of_fields (fs : list field) (required : list bytes) : list (bytes * said) * list bytes :=
    match fs with
    | [] => ([], required)
    | f :: fs' =>
        let '(v, required1) := said_of f required in
        let '(l, required2) := said_of_fields fs' required1 in
        ((fd_json f, v) :: l, required2)
    end.

  (** oas3schema.go:502-673 addSchemasToDocumentV3; generated and required names are
      threaded through. *)
  Record schemas := { sc_generated : list bytes; sc_required : list bytes; sc_list : list (bytes * list (bytes * said)) }.
  Definition add_schema (s : schemas) (n : bytes) : schemas :=
    let m := wo_message W n in
    let t := type_name m in
    if negb (bool_decide (t ∈ sc_required s)) || bool_decide (t ∈ sc_generated s) then s
    else
      let '(l, required) := said_of_fields (md_fields (me_desc m)) (sc_required s) in
      {| sc_generated := sc_generated s ++ [t]; sc_required := required; sc_list := sc_list s ++ [(me_name m, l)] |}.
  Definition add_schemas (s : schemas) (f : filedesc) : schemas := fold_left add_schema (fl_messages f) s.

  (** oas3schema.go:705-717 addDep: a file after the files it imports, each path
      once. Fuel bounds the depth of imports (which have no cycles). *)
  Fixpoint add_dep (fuel : nat) (f : filedesc) (s : list bytes * list filedesc) : option (list bytes * list filedesc) :=
    match fuel with
    | O => None
    | S fuel' =>
        if bool_decide (fl_path f ∈ s.1) then Some s
        else
          match
            (fix visit (l : list bytes) (s : list bytes * list filedesc) : option (list bytes * list filedesc) :=
               match l with
               | [] => Some s
               | p :: l' =>
                   match add_dep fuel' (wo_file W p) s with
                   | Some s' => visit l' s'
                   | None => None
                   end
               end) (fl_imports f) s
          with
          | Some s' => Some (fl_path f :: s'.1, s'.2 ++ [f])
          | None => None
          end
    end.
  Fixpoint add_deps (fuel : nat) (l : list message) (s : list bytes * list filedesc) : option (list bytes * list filedesc) :=
    match l with
    | [] => Some s
    | m :: l' => match add_dep fuel (me_file m) s with Some s' => add_deps fuel l' s' | None => None end
    end.
  (** oas3schema.go:675-698 pluginFromRegistry. protogen refuses files without a Go
      import path. *)
  Definition plugin_files (fuel : nat) (g : generator) : res (list filedesc) :=
    match add_deps fuel (ge_objects g) ([], []) with
    | None => OutOfFuel
    | Some s => if forallb fl_go_package s.2 then Ok s.2 else Fail EAnon
    end.

  (** Sorting by name: Go's sort is not stable; entries of one name may come in any
      order there, here they keep theirs. *)
  Definition name_le {A} (a b : bytes * A) : Prop := bytes_le a.1 b.1.
  Global Instance name_le_dec {A} : RelDecision (@name_le A).
  Proof. intros a b. unfold name_le. apply _. Defined.

  (** oas3schema.go:100-150 Build and buildDocumentV3. *)
  Definition build_document (fuel : nat) (g : generator) : res document :=
    match plugin_files fuel g with
    | Ok files =>
        let '(paths, required) :=
          fold_left (fun s (_ : filedesc) => add_paths (ge_operations g) s.1 s.2) files ([], ge_required g) in
        let s := fold_left add_schemas files {| sc_generated := []; sc_required := required; sc_list := [] |} in
        Ok {| do_paths := merge_sort name_le paths; do_schemas := merge_sort name_le (sc_list s) |}
    | Fail e => Fail e
    | Panic => Panic
    | OutOfFuel => OutOfFuel
    end.
  (** apiserver/module.go:45-66 Start and router/server.go:107-121 Build: the
      document for the objects served. *)
  Definition spec_document (fuel : nat) (l : list described) : res document :=
    match describe_all fuel l new_generator with
    | Ok g => build_document fuel g
    | Fail e => Fail e
    | Panic => Panic
    | OutOfFuel => OutOfFuel
    end.
  (** The objects served, with their messages (whose full names are their API names,
      see [service_objects]). *)
  Definition described_of (x : schema * definition) : described :=
    {| de_group := sch_group x.1; de_kind := sch_kind x.1;
       de_message := wo_message W (api_name (sch_group x.1) (sch_kind x.1)); de_definition := x.2 |}.
End Generator.
