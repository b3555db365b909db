(** Concrete modules, roles and validator updates, used only in the examples and
    refutations beside the theorems. *)
From Coq Require Import NArith ZArith List Bool String.
From stdpp Require Import base list option gmap.
From Verif.Model Require Import Bytes KindEncoder Desc Schema Orm Users Errors Prog Runtime Builder Module Universe Marshal Rbac
  TestApp Abci.
From Verif.Spec Require Import StoreSpec RbacSpec ChainSpec DemoChain.
Local Open Scope N_scope.
Local Open Scope list_scope.

Notation demo_decision := (decision protobuf 255 demo_verify demo_users).
Notation demo_admission := (message_admission protobuf 255 demo_verify demo_users 4).
Notation demo_deliver :=
  (rt_deliver (app_ops protobuf) msg_name (bytes_store protobuf 255 demo_verify) (the_app 255 demo_verify) demo_users 4).
Notation demo_end := (end_block (app_ops protobuf) (bytes_store protobuf 255 demo_verify) (the_app 255 demo_verify) demo_users 4).

Definition acting (l : list string) : users := users_from_string (map str l).

(** A module whose name is so long that its role's identifier has 128 bytes. *)
Definition long_module : raw_descriptor :=
  {| rd_name := repeat Byte.x61 123; rd_objects := []; rd_transitions := []; rd_needs := [] |}.
(** A module with a state object and two transitions, one of them external, that
    needs a transition of another module. *)
Definition demo_api (name : string) (transition : bool) : api_def :=
  {| ad_group := str "demo"; ad_kind := str name; ad_transition := transition |}.
Definition demo_thing : raw_object :=
  {| rw_api := demo_api "Thing" false; rw_schema := {| def_singleton := true; def_primary_key := []; def_secondary_keys := [] |} |}.
Definition demo_files : list proto_file := [[(str "Thing", None); (str "MsgOpen", Some true); (str "MsgHidden", Some false)]].
Definition demo_transition (name : string) : transition_type :=
  {| tt_api := demo_api name true; tt_short := str name; tt_files := demo_files |}.
Definition demo_module : raw_descriptor :=
  {| rd_name := str "demo"; rd_objects := [demo_thing];
     rd_transitions := [demo_transition "MsgOpen"; demo_transition "MsgHidden"];
     rd_needs := [demo_api "MsgOther" true] |}.
Definition other_module : raw_descriptor :=
  {| rd_name := str "other"; rd_objects := []; rd_needs := [];
     rd_transitions := [{| tt_api := demo_api "MsgOther" true; tt_short := str "MsgOther"; tt_files := [[(str "MsgOther", Some false)]] |}] |}.
Definition role_with (id : bytes) (creates delivers : list bytes) : role :=
  {| rl_id := id; rl_gets := []; rl_lists := []; rl_creates := creates; rl_updates := []; rl_deletes := []; rl_delivers := delivers |}.
Definition long_role : role := role_with (repeat Byte.x61 128) [] [].
Definition two_updates : list validator_update :=
  [{| vu_key := str "one"; vu_power := 10%Z |}; {| vu_key := str "two"; vu_power := 0%Z |}].
