(** Messages for the code generator: testdata/testmodule/v1/testmodule.proto and
    some that go wrong. *)
From Coq Require Import NArith List Bool String.
From stdpp Require Import base list option.
From Verif.Model Require Import Bytes KindEncoder Desc Schema Codegen.

Definition demo_message (name : string) (fields : list (string * kind)) (object : option object_options) (transition : bool) : gen_message := {|
  gm_package := str "testmodule.v1"; gm_parent := str "testmodule.v1"; gm_name := str name; gm_go := str name;
  gm_desc := {| md_name := str "testmodule.v1." ++ str name;
                md_fields := map (fun f => {| fd_json := str (fst f); fd_kind := snd f; fd_repeated := false; fd_map := None; fd_message := [] |}) fields |};
  gm_object := object; gm_transition := transition |}.
Definition demo_keyed (key : string) (others : list string) : option object_options :=
  Some {| so_singleton := false; so_primary_key := str key; so_secondary_keys := map str others |}.
Definition demo_single : option object_options := Some {| so_singleton := true; so_primary_key := []; so_secondary_keys := [] |}.

(** testmodule.proto:10-40. *)
Definition create_post : gen_message :=
  demo_message "MsgCreatePost" [("creator", StringKind); ("title", StringKind); ("text", StringKind)]%string None true.
Definition post_fields : list (string * kind) :=
  [("id", StringKind); ("creator", StringKind); ("title", StringKind); ("text", StringKind)]%string.
Definition post : gen_message := demo_message "Post" post_fields (demo_keyed "id" ["creator"%string]) false.
Definition post_params : gen_message := demo_message "Params" [("lastPostNumber", Uint64Kind)]%string demo_single false.
Definition post_file : list gen_message := [create_post; post; post_params].

(** A secondary key that is not a field, a primary key that is a number, and a
    message named like the plural of another. *)
Definition misspelt : gen_message := demo_message "Post" post_fields (demo_keyed "id" ["author"%string]) false.
Definition numbered : gen_message := demo_message "Post" [("number", Uint64Kind)]%string (demo_keyed "number" []) false.
Definition posts : gen_message := demo_message "Posts" [] demo_single false.
