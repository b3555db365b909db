(** core/apiserver/router: objects served over HTTP. *)
From Coq Require Import NArith List Bool String.
From stdpp Require Import base list gmap.
From Verif.Model Require Import Bytes KindEncoder Desc Schema KV Objects Indexes Orm Users Prog Runtime Client Strings Query.

(** strings.ToLower; only ASCII letters, as in protobuf names. *)
Definition lower_byte (b : byte) : byte :=
  let n := b2N b in if ((65 <=? n) && (n <=? 90))%N then N2b (n + 32) else b.
Definition to_lower (s : bytes) : bytes := map lower_byte s.

(** A GET request: its path as decoded by net/url, the value of the height header
    (empty if there is none), and the values of the query parameters (none if
    absent). Other methods are not modelled. *)
Record request := {
  rq_path : bytes;
  rq_height : bytes;
  rq_query : bytes -> list bytes
}.

(** types.go:17-20. *)
Definition start_default : N := 0.
Definition end_default : N := 100.

(** url.Values.Get: the first value or the empty text. *)
Definition param (q : bytes -> list bytes) (name : bytes) : bytes :=
  match q name with v :: _ => v | [] => [] end.

(** types.go:62-75 getHeight. *)
Definition request_height (text : bytes) : res N :=
  if bytes_eqb text [] then Ok 0%N
  else match parse_uint 64 text with
       | Some h => if N.eqb h 0 then Fail EAnon else Ok h
       | None => Fail EAnon
       end.

(** types.go:30-40 and 42-52: a bound given by a parameter. *)
Definition bound_of (text : bytes) (default : N) : res N :=
  if bytes_eqb text [] then Ok default
  else match parse_uint 64 text with Some n => Ok n | None => Fail EAnon end.

(** types.go:22-26 ListQueryParams and 28-61 UnmarshalURLValues. *)
Record list_params := { lp_select : list bytes; lp_start : N; lp_end : N }.
Definition list_params_of (q : bytes -> list bytes) : res list_params :=
  match bound_of (param q (str "start")) start_default with
  | Ok a =>
      match bound_of (param q (str "end")) end_default with
      | Ok b => Ok {| lp_select := q (str "selectField"); lp_start := a; lp_end := b |}
      | r => res_cast r
      end
  | r => res_cast r
  end.

(** gorilla/mux 1.8.0 (library) cleanPath: a path is redirected to another one if
    it does not begin with a slash or has a part that is empty (but for the last
    one), one dot or two dots. *)
Fixpoint clean_parts (parts : list bytes) : bool :=
  match parts with
  | [] => true
  | p :: rest =>
      negb (bytes_eqb p (str ".") || bytes_eqb p (str "..") || (bytes_eqb p [] && negb (Nat.eqb (length rest) 0)))
      && clean_parts rest
  end.
Definition clean_path (path : bytes) : bool :=
  match path with
  | c :: rest => bool_decide (c = slash) && clean_parts (split_on slash rest)
  | [] => false
  end.

(** What the server sends. [HAborted] is a panic of the handler, which net/http
    answers by closing the connection. *)
Inductive response (Obj : Type) :=
| HObject (o : Obj)
| HObjects (l : list Obj)
| HBadRequest
| HNotFound
| HRedirect
| HAborted.
Arguments HObject {_}. Arguments HObjects {_}. Arguments HBadRequest {_}. Arguments HNotFound {_}. Arguments HRedirect {_}. Arguments HAborted {_}.

Section Server.
  Context {Obj Msg : Type} (O : objops Obj) (R : registry).
  (** Whether protojson.Marshal writes the object without an error. *)
  Context (renders : Obj -> bool).
  Notation client := (orm_client (Msg := Msg) (orm_ops O R)).

  (** server.go:248-258 writeObject. *)
  Definition write_object (o : Obj) : response Obj := if renders o then HObject o else HAborted.
  Definition write_list (l : list Obj) : response Obj := if forallb renders l then HObjects l else HAborted.

  (** c.Get of the handlers: the client never changes the store. *)
  Definition client_get (ty id : bytes) (height : N) (st : orm) : res Obj :=
    match client (KGet ty id (if N.eqb height 0 then [] else [GetAtHeight height])) st with
    | (KObject r, _) => r
    | _ => Panic
    end.
  Definition client_list (ty : bytes) (opts : list list_option) (st : orm) : res (list bytes) :=
    match client (KList ty opts) st with
    | (KKeys r, _) => r
    | _ => Panic
    end.

  (** server.go:123-142 newSingletonGetHandler. *)
  Definition singleton_handler (s : schema) (rq : request) (st : orm) : response Obj :=
    match request_height (rq_height rq) with
    | Ok h =>
        match client_get (sch_name s) singleton_id h st with
        | Ok o => write_object o
        | Fail _ => HNotFound
        | _ => HAborted
        end
    | _ => HBadRequest
    end.

  (** server.go:145-177 newGetHandler; [vars] are the variables of the path. *)
  Definition get_handler (s : schema) (d : definition) (vars : list (bytes * bytes)) (rq : request) (st : orm)
    : response Obj :=
    match request_height (rq_height rq) with
    | Ok h =>
        match List.find (fun v => bytes_eqb (fst v) (def_primary_key d)) vars with
        | None => HBadRequest
        | Some (_, text) =>
            match encode_primary_key_string s text with
            | Ok pk =>
                match client_get (sch_name s) pk h st with
                | Ok o => write_object o
                | Fail _ => HNotFound
                | _ => HAborted
                end
            | Fail _ => HBadRequest
            | _ => HAborted
            end
        end
    | _ => HBadRequest
    end.

  (** server.go:208-221: the options of the field selections. *)
  Fixpoint selections (s : schema) (l : list bytes) : res (list list_option) :=
    match l with
    | [] => Ok []
    | text :: l' =>
        match split_once Byte.x3d text with
        | (_, None) => Fail EAnon
        | (f, Some v) =>
            match indexer_of s f with
            | Ok _ =>
                match selections s l' with
                | Ok opts => Ok (ListMatchFieldString f v :: opts)
                | r => r
                end
            | r => res_cast r
            end
        end
    end.

  (** server.go:233-242: the objects at the keys visited. *)
  Fixpoint fetch (ty : bytes) (keys : list bytes) (st : orm) : res (list Obj) :=
    match keys with
    | [] => Ok []
    | k :: keys' =>
        match orm_iter_get O R ty k st with
        | Ok o =>
            match fetch ty keys' st with
            | Ok l => Ok (o :: l)
            | r => r
            end
        | r => res_cast r
        end
    end.

  (** server.go:180-246 newListHandler. The list message made by pkg/protoutils/forge
      is not modelled, only its elements. *)
  Definition list_handler (s : schema) (rq : request) (st : orm) : response Obj :=
    match request_height (rq_height rq) with
    | Ok h =>
        match list_params_of (rq_query rq) with
        | Ok p =>
            match selections s (lp_select p) with
            | Ok sel =>
                let opts := ListRange (lp_start p) (lp_end p)
                              :: (if N.eqb h 0 then [] else [ListAtHeight h]) ++ sel in
                match client_list (sch_name s) opts st with
                | Ok keys =>
                    match fetch (sch_name s) keys st with
                    | Ok l => write_list l
                    | Fail _ => HBadRequest
                    | _ => HAborted
                    end
                | Fail _ => HBadRequest
                | _ => HAborted
                end
            | _ => HBadRequest
            end
        | _ => HBadRequest
        end
    | _ => HBadRequest
    end.

  (** server.go:56-105 CreateStateObjectHandler: the routes of one object, as
      functions that answer a request or pass it on. A variable of a path stands
      for a text without slashes that is not empty. The Open API document,
      built at the same time, is in OpenApi.v. *)
  Definition route := request -> orm -> option (response Obj).
  Definition exact_route (path : bytes) (h : request -> orm -> response Obj) : route :=
    fun rq st => if bytes_eqb (rq_path rq) path then Some (h rq st) else None.
  Definition variable_route (path name : bytes)
      (h : list (bytes * bytes) -> request -> orm -> response Obj) : route :=
    fun rq st =>
      if has_prefix path (rq_path rq) then
        let v := drop (length path) (rq_path rq) in
        if negb (bytes_eqb v []) && negb (existsb (fun c => bool_decide (c = slash)) v)
        then Some (h [(name, v)] rq st) else None
      else None.
  Definition object_routes (x : schema * definition) : list route :=
    let '(s, d) := x in
    let group := to_lower (sch_group s) in
    let kind := to_lower (sch_kind s) in
    if def_singleton d then [exact_route (str "/" ++ group ++ str "/" ++ kind) (singleton_handler s)]
    else [variable_route (str "/" ++ group ++ str "/" ++ kind ++ str "/") (to_lower (def_primary_key d)) (get_handler s d);
          exact_route (str "/" ++ group ++ str "/" ++ kind ++ str "s") (list_handler s)].

  (** gorilla/mux: paths that are not clean are redirected; otherwise the first
      route registered that matches; otherwise 404. The path /spec is not modelled. *)
  Fixpoint first_route (rs : list route) (rq : request) (st : orm) : response Obj :=
    match rs with
    | [] => HNotFound
    | r :: rs' => match r rq st with Some a => a | None => first_route rs' rq st end
    end.
  Definition serve (objects : list (schema * definition)) (rq : request) (st : orm) : response Obj :=
    if clean_path (rq_path rq) then first_route (flat_map object_routes objects) rq st else HRedirect.
End Server.
