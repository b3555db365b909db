(** testdata/testmodule: the module of posts, the one module of the repository
    whose objects have a secondary key. *)
From Coq Require Import NArith List Bool String.
From stdpp Require Import base list gmap.
From Verif.Model Require Import Bytes KindEncoder Desc Schema Indexes Orm Users Strings Prog Router
  Runtime Services Module Universe Builder.

(** testdata/testmodule/v1/testmodule.proto:10-39: Post, Params and MsgCreatePost. *)
Record post := { po_id : bytes; po_creator : bytes; po_title : bytes; po_text : bytes }.
Inductive board_object :=
| OPost (p : post)
| OBoardParams (last_post_number : N).
Record board_msg := { mp_creator : bytes; mp_title : bytes; mp_text : bytes }.

(** v1/testmodule.starport.go:9-31 and 98-108: the API definitions. *)
Definition board_group : bytes := str "testmodule.v1".
Definition ty_post : bytes := api_name board_group (str "Post").
Definition ty_board_params : bytes := api_name board_group (str "Params").
Definition t_create_post : transition_type := transition board_group "MsgCreatePost" true.

(** v1/testmodule.starport.go:142-145 PostSchema, 147-149 ParamsSchema. *)
Definition post_object : objtype * definition :=
  (object_type board_group "Post"
     [field_of "id" StringKind false []; field_of "creator" StringKind false [];
      field_of "title" StringKind false []; field_of "text" StringKind false []],
   keyed "id" ["creator"%string]).
Definition board_params_object : objtype * definition :=
  (object_type board_group "Params" [field_of "lastPostNumber" Uint64Kind false []], singleton).

Section Board.
  (** proto.Marshal and proto.Unmarshal of the two messages. *)
  Context (enc : board_object -> option bytes) (dec : bytes -> bytes -> option board_object).

  Definition board_get (o : board_object) (f : bytes) : pvalue :=
    match o with
    | OPost p =>
        if bytes_eqb f (str "id") then VString (po_id p)
        else if bytes_eqb f (str "creator") then VString (po_creator p)
        else if bytes_eqb f (str "title") then VString (po_title p)
        else if bytes_eqb f (str "text") then VString (po_text p) else VOther
    | OBoardParams n => if bytes_eqb f (str "lastPostNumber") then VUint64 n else VOther
    end.
  Definition board_ops : objops board_object := {|
    oo_group := fun _ => board_group;
    oo_kind := fun o => match o with OPost _ => str "Post" | OBoardParams _ => str "Params" end;
    oo_get := board_get; oo_marshal := enc; oo_unmarshal := dec |}.

  (** module.go:25-45 newMsgCreatePost; 121-128 and 63-65 of
      v1/testmodule.starport.go are the calls of the client. *)
  Definition create_post_exec (_ : users) (m : board_msg) : prog board_object board_msg unit :=
    PGet ty_board_params singleton_id [] (fun x =>
      match x with
      | inl (OBoardParams n) =>
          PCreate (OPost {| po_id := itoa n; po_creator := mp_creator m; po_title := mp_title m;
                            po_text := mp_text m |})
                  (fun e => match e with None => PRet tt | Some e => PFail e end)
      | inl _ => PPanic
      | inr e => PFail e
      end).

  (** module.go:47-61 newMsgCreatePostAdmission. *)
  Definition create_post_admission (us : users) (m : board_msg) : prog board_object board_msg unit :=
    if negb (users_has us [mp_creator m]) then PFail EAnon
    else if bytes_eqb (mp_title m) [] then PFail EAnon
    else if bytes_eqb (mp_text m) [] then PFail EAnon
    else PRet tt.

  (** module.go:63-77 genesis (Export is not modelled). *)
  Definition board_genesis : genesis board_object board_msg := {|
    gn_default := PCreate (OBoardParams 1) (fun e => match e with None => PRet tt | Some e => PFail e end);
    gn_import := fun _ => PPanic |}.

  (** module.go:14-23 Initialize. *)
  Definition board_module {Tx} : module board_object board_msg Tx := {|
    mo_name := str "test";
    mo_genesis := Some board_genesis;
    mo_admission := [(t_create_post, create_post_admission)];
    mo_pre := []; mo_exec := [(t_create_post, create_post_exec)]; mo_post := [];
    mo_objects := [post_object; board_params_object];
    mo_needs := []; mo_auth_admission := []; mo_post_auth := []; mo_services := [];
    mo_authorizer := None |}.
  Definition board_msg_name (_ : board_msg) : bytes := tt_name t_create_post.

  (** The application of this module alone. Simplification: the modules that
      every builder adds (runtime, abci) are left out; they own other objects
      and handle other transitions. *)
  Definition board_app : application board_object board_msg unit :=
    match build 1 no_descs [board_module] with
    | Ok a => a
    | _ => {| ap_modules := []; ap_registry := new_registry; ap_router := new_router;
              ap_services := []; ap_authorizer := always_allow |}
    end.

  (** The node on an empty store after the module's genesis handler, and
      deliveries to it; [enabled] as in Runtime.v. *)
  Context (enum : list (event board_object board_msg) -> users -> list user) (fuel : nat) (enabled : bool).
  Definition board_store : storeops board_object orm := orm_ops board_ops (ap_registry board_app).
  Definition board_new : rt board_object board_msg orm := {|
    rt_initialized := false; rt_enabled := enabled;
    rt_world := {| w_store := orm_empty; w_trace := [] |}; rt_services := [] |}.
  Definition board_start : res unit * rt board_object board_msg orm :=
    genesis_modules board_ops board_msg_name board_store board_app enum fuel (ap_modules board_app) board_new.
  Definition board_deliver (us : users) (m : board_msg) (x : rt board_object board_msg orm) :=
    rt_deliver board_ops board_msg_name board_store board_app enum fuel us m x.
End Board.
