(** pkg/modulecodegen: the protoc plugin that writes the .starport.go files.

    The text is modelled as a list of Go declarations. Messages and packages have
    Go names without Unicode letters, as protogen makes them. Not modelled: import
    lines, comments, and errors of protogen and of the Go formatter. *)
From Coq Require Import NArith List Bool String.
From stdpp Require Import base list option.
From Verif.Model Require Import Bytes KindEncoder Desc Schema Strings.

(** core/modulegen/modulegen.proto:17-21 StateObjectDescriptor. *)
Record object_options := {
  so_singleton : bool;
  so_primary_key : bytes;
  so_secondary_keys : list bytes
}.
(** protogen.Message as far as the plugin looks at it. *)
Record gen_message := {
  gm_package : bytes;                     (** Desc.ParentFile().Package() *)
  gm_parent : bytes;                      (** Desc.FullName().Parent() *)
  gm_name : bytes;                        (** Desc.Name() *)
  gm_go : bytes;                          (** GoIdent.GoName *)
  gm_desc : msgdesc;                      (** Desc *)
  gm_object : option object_options;      (** the option state_object *)
  gm_transition : bool                    (** whether there is an option state_transition *)
}.

(** What the body of a generated method does. *)
Inductive id_expr :=
| IdSingleton                             (** meta.SingletonID *)
| IdOf (constructor : bytes).             (** meta.constructor(key); the name may be empty *)
Inductive body :=
| BGet (id : id_expr) (typ : bytes)       (** o := new(typ); x.client.Get(id, o, opts...) *)
| BList (typ iterator : bytes)            (** x.client.List(new(typ), opts...), wrapped *)
| BCreate | BDelete | BUpdate             (** x.client.Create(object, opts...) and so on *)
| BDeliver                                (** x.client.Deliver(msg) *)
| BField (name : bytes)                   (** return x.name *)
| BIter.                                  (** the call on x.iter of the same name *)
Inductive declaration :=
| GApi (typ group kind : bytes) (transition : bool)   (** func (x *typ) APIDefinition() *)
| GNewObject (typ : bytes)                            (** func (x *typ) NewStateObject() *)
| GNewTransition (typ : bytes)                        (** func (x *typ) NewStateTransition() *)
| GInterface (name : bytes) (methods : list bytes)
| GStruct (name : bytes) (fields : list bytes)
| GMethod (receiver name : bytes) (b : body)
| GFunc (name : bytes)
| GSchema (name : bytes) (schema : definition).       (** var name = &schema.Definition{...} *)

(** util.go:9-13 toLowerCamelCase. *)
Definition lower_byte (b : byte) : byte :=
  let n := b2N b in if (65 <=? n)%N && (n <=? 90)%N then N2b (n + 32) else b.
Definition lower_camel (name : bytes) : bytes :=
  match name with [] => [] | c :: rest => lower_byte c :: rest end.
(** strings.HasSuffix(name, "s"). *)
Definition ends_with_s (name : bytes) : bool :=
  match rev name with c :: _ => bool_decide (c = Byte.x73) | [] => false end.

(** codegen.go:361-371 protoKindToGoType and 373-377 metaIDConstructor. *)
Definition go_type (k : kind) : option bytes :=
  match k with
  | BoolKind => Some (str "bool")
  | StringKind => Some (str "string")
  | BytesKind => Some (str "[]byte")
  | DoubleKind => Some (str "float64")
  | Uint64Kind => Some (str "uint64")
  | Uint32Kind => Some (str "uint32")
  | Int32Kind => Some (str "int32")
  | Int64Kind => Some (str "int64")
  | _ => None
  end.
Definition id_constructor (typ : bytes) : bytes :=
  if bytes_eqb typ (str "string") then str "NewStringID"
  else if bytes_eqb typ (str "[]byte") then str "NewBytesID"
  else [].

(** codegen.go:327-359 parseSaveInfo: [None] for a singleton, else the primary key
    and its Go type. *)
Definition parse_save_info (m : gen_message) (d : object_options) : res (option (bytes * bytes)) :=
  if so_singleton d then Ok None
  else if bytes_eqb (so_primary_key d) [] then Fail EAnon
  else match by_json_name (gm_desc m) (so_primary_key d) with
       | None => Fail EAnon
       | Some fd =>
           match go_type (fd_kind fd) with
           | None => Fail EAnon
           | Some t => Ok (Some (so_primary_key d, t))
           end
       end.

(** api_definition.go:14-47 genAPIDefinition. *)
Definition gen_api (m : gen_message) : res (list declaration) :=
  if bytes_eqb (gm_package m) [] then Fail EAnon
  else match gm_object m, gm_transition m with
       | None, false => Ok []
       | Some _, true => Fail EAnon
       | Some _, false => Ok [GApi (gm_go m) (gm_parent m) (gm_name m) false]
       | None, true => Ok [GApi (gm_go m) (gm_parent m) (gm_name m) true]
       end.

(** codegen.go:218-325 genStateObjectClient: an error of parseSaveInfo panics. *)
Definition gen_object_client (m : gen_message) (d : object_options) : res (list declaration) :=
  let t := gm_go m in
  let client := lower_camel t ++ str "Client" in
  let iterator := lower_camel t ++ str "Iterator" in
  let writes :=
    [GMethod client (str "Create") BCreate; GMethod client (str "Delete") BDelete; GMethod client (str "Update") BUpdate] in
  match parse_save_info m d with
  | Ok None =>
      Ok ([GInterface (t ++ str "Client") [str "Get"; str "Create"; str "Delete"; str "Update"];
           GStruct client [str "client"];
           GMethod client (str "Get") (BGet IdSingleton t)] ++ writes)
  | Ok (Some (_, typ)) =>
      Ok ([GInterface (t ++ str "Client") [str "Get"; str "List"; str "Create"; str "Delete"; str "Update"];
           GStruct client [str "client"];
           GMethod client (str "Get") (BGet (IdOf (id_constructor typ)) t);
           GMethod client (str "List") (BList t iterator)] ++ writes ++
          [GInterface (t ++ str "Iterator") [str "Get"; str "Valid"; str "Next"];
           GStruct iterator [str "iter"];
           GMethod iterator (str "Get") BIter; GMethod iterator (str "Valid") BIter; GMethod iterator (str "Next") BIter])
  | _ => Panic
  end.
(** codegen.go:204-216 genStateObject and 190-202 genStateTransition. *)
Definition gen_state_object (m : gen_message) (d : object_options) : res (list declaration) :=
  match gen_api m with
  | Ok api =>
      match gen_object_client m d with
      | Ok l => Ok (api ++ [GNewObject (gm_go m)] ++ l)
      | r => r
      end
  | r => r
  end.
Definition gen_state_transition (m : gen_message) : res (list declaration) :=
  match gen_api m with
  | Ok api => Ok (api ++ [GNewTransition (gm_go m)])
  | r => r
  end.

(** schema.go:15-41 genSchema: only what is set is written. *)
Definition gen_schema (m : gen_message) (d : object_options) : res (list declaration) :=
  if bytes_eqb (so_primary_key d) [] && negb (so_singleton d) then Fail EAnon
  else Ok [GSchema (gm_go m ++ str "Schema")
             {| def_singleton := so_singleton d; def_primary_key := so_primary_key d;
                def_secondary_keys := so_secondary_keys d |}].

(** codegen.go:89-171 genClientSet. *)
Definition accessor (m : gen_message) (d : object_options) : bytes :=
  if ends_with_s (gm_go m) || so_singleton d then gm_go m else gm_go m ++ str "s".
Definition gen_client_set (objects : list (gen_message * object_options)) (transitions : list gen_message) : list declaration :=
  let field := fun x : gen_message * object_options => lower_camel (gm_go (fst x)) ++ str "Client" in
  let exec := fun m => str "Exec" ++ gm_go m in
  [GInterface (str "ClientSet") (map (fun x => accessor (fst x) (snd x)) objects ++ map exec transitions);
   GFunc (str "NewClientSet");
   GStruct (str "clientSet") (str "client" :: map field objects)]
  ++ map (fun x => GMethod (str "clientSet") (accessor (fst x) (snd x)) (BField (field x))) objects
  ++ map (fun m => GMethod (str "clientSet") (exec m) BDeliver) transitions.

(** codegen.go:40-87 genFile. gen.Error keeps an error and the work goes on, so a
    panic of a later message is met: [Panic] if there is one, else [Fail] if there
    was an error. *)
Definition and_then (r1 r2 : res (list declaration)) : res (list declaration) :=
  match r1, r2 with
  | Panic, _ | _, Panic => Panic
  | Ok l1, Ok l2 => Ok (l1 ++ l2)
  | _, _ => Fail EAnon
  end.
Definition gen_message_code (m : gen_message) : res (list declaration) :=
  let r1 := match gm_object m with Some d => gen_state_object m d | None => Ok [] end in
  let r2 := if gm_transition m
            then match gm_object m with
                 | Some _ => Fail EAnon
                 | None => gen_state_transition m
                 end
            else Ok [] in
  and_then r1 r2.
Definition objects_of (ms : list gen_message) : list (gen_message * object_options) :=
  omap (fun m => match gm_object m with Some d => Some (m, d) | None => None end) ms.
Definition transitions_of (ms : list gen_message) : list gen_message := List.filter gm_transition ms.
(** codegen.go:173-188 meetsRequirements. *)
Definition meets_requirements (ms : list gen_message) : bool :=
  existsb (fun m => match gm_object m with Some _ => true | None => gm_transition m end) ms.
Definition gen_file (ms : list gen_message) : res (list declaration) :=
  if meets_requirements ms then
    and_then (fold_right (fun m r => and_then (gen_message_code m) r) (Ok []) ms)
      (and_then (fold_right (fun x r => and_then (gen_schema (fst x) (snd x)) r) (Ok []) (objects_of ms))
                (Ok (gen_client_set (objects_of ms) (transitions_of ms))))
  else Ok [].

(** core/meta/state.go:5-19: the ID a constructor makes of a key of its Go type. *)
Definition go_id (constructor : bytes) (v : pvalue) : option bytes :=
  match v with
  | VString s => if bytes_eqb constructor (str "NewStringID") then Some s else None
  | VBytes b => if bytes_eqb constructor (str "NewBytesID") then Some b else None
  | _ => None
  end.
