(** pkg/protoutils/desc/desc.go: inspection of protobuf descriptors. *)
From Coq Require Import NArith List Bool.
From stdpp Require Import base list gmap.
From Verif.Model Require Import Bytes KindEncoder.

(** protoreflect.FieldDescriptor as far as the repository looks at it. A map
    field ([fd.IsMap()]) has kind Message and carries the kinds of its key and
    value and, for message values, the name of the value message. *)
Record field := {
  fd_json : bytes;                            (** JSONName *)
  fd_kind : kind;                             (** Kind *)
  fd_repeated : bool;                         (** Cardinality is Repeated (a list) *)
  fd_map : option (kind * kind * bytes);      (** IsMap: key kind, value kind, value message *)
  fd_message : bytes                          (** full name of Message(), if kind is Message *)
}.

(** protoreflect.MessageDescriptor. *)
Record msgdesc := {
  md_name : bytes;                            (** FullName *)
  md_fields : list field                      (** Fields, in declaration order *)
}.

(** Resolution of a message name to its descriptor (descriptors may be
    recursive, so they refer to each other by name). *)
Definition descs := bytes -> msgdesc.

(** desc.go:18-39 HasKind. It recurses only into message-valued map fields.
    Fuel bounds that recursion: a message that contains itself through map
    values makes the Go function recurse without end. *)
Fixpoint has_kind (fuel : nat) (D : descs) (d : msgdesc) (k : kind) : res bool :=
  match fuel with
  | O => OutOfFuel
  | S f =>
      (fix go (fs : list field) : res bool :=
         match fs with
         | [] => Ok false
         | fd :: fs' =>
             match fd_map fd with
             | Some (kk, vk, vm) =>
                 if decide (kk = k) then Ok true
                 else if decide (vk = k) then Ok true
                 else if decide (vk = MessageKind)
                 then match has_kind f D (D vm) k with
                      | Ok true => Ok true
                      | Ok false => go fs'
                      | r => r
                      end
                 else go fs'
             | None => if decide (fd_kind fd = k) then Ok true else go fs'
             end
         end) (md_fields d)
  end.

(** desc.go:8-15 HasKinds. *)
Fixpoint has_kinds (fuel : nat) (D : descs) (d : msgdesc) (ks : list kind) : res bool :=
  match ks with
  | [] => Ok false
  | k :: ks' =>
      match has_kind fuel D d k with
      | Ok true => Ok true
      | Ok false => has_kinds fuel D d ks'
      | r => r
      end
  end.

(** desc.go:47-76 hasMap, with the set of inspected message names threaded
    through as the Go map is. Line 66 tests the name of the message being
    inspected ([desc.FullName()]) instead of the name of the candidate. *)
Fixpoint has_map_rec (fuel : nat) (D : descs) (inspected : list bytes) (d : msgdesc)
  : res bool * list bytes :=
  match fuel with
  | O => (OutOfFuel, inspected)
  | S f =>
      (* lines 51-61 *)
      if existsb (fun fd => match fd_map fd with Some _ => true | None => false end) (md_fields d)
      then (Ok true, inspected)
      else
        let to_inspect :=
          map fd_message (List.filter (fun fd => bool_decide (fd_kind fd = MessageKind)) (md_fields d)) in
        (* line 63 *)
        let inspected := md_name d :: inspected in
        (* lines 65-73 *)
        (fix go (todo : list bytes) (inspected : list bytes) : res bool * list bytes :=
           match todo with
           | [] => (Ok false, inspected)
           | insp :: todo' =>
               if bool_decide (md_name d ∈ inspected)
               then go todo' inspected
               else
                 match has_map_rec f D inspected (D insp) with
                 | (Ok true, i') => (Ok true, i')
                 | (Ok false, i') => go todo' (insp :: i')
                 | r => r
                 end
           end) to_inspect inspected
  end.

(** desc.go:43-45 HasMap. *)
Definition has_map (fuel : nat) (D : descs) (d : msgdesc) : res bool :=
  fst (has_map_rec fuel D [] d).

(** protoreflect.FileDescriptor: path and imports, by path. *)
Definition files := bytes -> list bytes.

(** desc.go:85-104 dependencies. The map of known files is threaded through;
    the result lists paths. Fuel bounds the depth: cyclic imports (which protoc
    rejects) would not terminate in Go. *)
Fixpoint dependencies_rec (fuel : nat) (F : files) (known : list bytes) (path : bytes)
  : option (list bytes * list bytes) :=
  match fuel with
  | O => None
  | S f =>
      (fix go (imports : list bytes) (known deps : list bytes)
         : option (list bytes * list bytes) :=
         match imports with
         | [] => Some (deps, known)
         | dep :: imports' =>
             if bool_decide (dep ∈ known) then go imports' known deps
             else
               match dependencies_rec f F known dep with
               | None => None
               | Some (ddeps, known') =>
                   go imports' (dep :: known') (deps ++ ddeps ++ [dep])
               end
         end) (F path) known []
  end.

(** desc.go:81-83 Dependencies. *)
Definition dependencies (fuel : nat) (F : files) (path : bytes) : option (list bytes) :=
  match dependencies_rec fuel F [] path with
  | Some (deps, _) => Some deps
  | None => None
  end.
