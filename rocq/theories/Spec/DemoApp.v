(** A small application used only in the examples beside the theorems: a shop
    with an admission check, a pre- and a post-execution handler, a relay that
    delivers to the shop while impersonating, and a module that records the
    module descriptors. *)
From Coq Require Import NArith List Bool String.
From stdpp Require Import base list gmap.
From Verif.Model Require Import Bytes KindEncoder Desc Schema Indexes KV Objects Orm Users Prog Router
  Runtime Services Module Builder.
From Verif.Spec Require Import Demo.

Inductive dmsg :=
| Put (id : bytes)
| Relay (id : bytes)
| Describe (l : list raw_descriptor).

Definition dapi (k : string) : api_def :=
  {| ad_group := str "demo.v1"; ad_kind := str k; ad_transition := true |}.
Definition dtype (k : string) : transition_type :=
  {| tt_api := dapi k; tt_short := str k; tt_files := [[(str k, Some true)]] |}.
Definition dname (m : dmsg) : bytes :=
  match m with
  | Put _ => tt_name (dtype "Put")
  | Relay _ => tt_name (dtype "Relay")
  | Describe _ => tt_name (dtype "Describe")
  end.

Definition dprog := prog demo dmsg unit.
(** Go on if the call succeeded, fail with its error otherwise. *)
Definition then_ (p : dprog) (x : option goerr) : dprog :=
  match x with None => p | Some e => PFail e end.

Definition shop_put (us : users) (m : dmsg) : dprog :=
  match m with Put id => PCreate (Thing id 1 (str "new")) (then_ (PRet tt)) | _ => PFail EAnon end.
Definition shop_admission (us : users) (m : dmsg) : dprog :=
  match m with Put [] => PFail EAnon | _ => PRet tt end.
Definition shop_pre (us : users) (m : dmsg) : dprog :=
  match m with Put id => if bytes_eqb id (str "taboo") then PFail EAnon else PRet tt | _ => PRet tt end.
Definition shop_post (us : users) (m : dmsg) : dprog :=
  match m with
  | Put id => PUpdate (Thing id 2 (str "posted")) (then_ (PRet tt))
  | _ => PRet tt
  end.
Definition relay_run (us : users) (m : dmsg) : dprog :=
  match m with
  | Relay id => PDeliver (Put id) [DeliverImpersonating [str "alice"]; DeliverImpersonating [str "bob"; str "carol"]]
                         (then_ (PRet tt))
  | _ => PFail EAnon
  end.
Definition core_describe (us : users) (m : dmsg) : dprog :=
  match m with
  | Describe l => PCreate (Config (concat (map (fun d => rd_name d ++ str ";") l))) (then_ (PRet tt))
  | _ => PFail EAnon
  end.

(** Allows modules everything and carol to deliver. *)
Definition demo_authorizer : authorizer demo := fun v _ us =>
  if users_has1 us (str "core") || users_has1 us (str "shop") || users_has1 us (str "relay")
     || (users_has1 us (str "carol") && match v with VDeliver => true | _ => false end)
  then RRet (true, None) else RRet (false, Some EAnon).

Definition demo_core : module demo dmsg unit := {|
  mo_name := str "core"; mo_genesis := None; mo_admission := []; mo_pre := [];
  mo_exec := [(dtype "Describe", core_describe)]; mo_post := [];
  mo_objects := [(config_type, config_def)]; mo_needs := []; mo_auth_admission := [];
  mo_post_auth := []; mo_services := []; mo_authorizer := Some demo_authorizer |}.
Definition demo_shop : module demo dmsg unit := {|
  mo_name := str "shop";
  mo_genesis := Some {| gn_default := PCreate (Thing (str "first") 1 (str "g")) (then_ (PRet tt));
                        gn_import := fun _ => PFail EAnon |};
  mo_admission := [(dtype "Put", shop_admission)]; mo_pre := [(dtype "Put", shop_pre)];
  mo_exec := [(dtype "Put", shop_put)]; mo_post := [(dtype "Put", shop_post)];
  mo_objects := [(thing_type, thing_def); (note_type, note_def)]; mo_needs := [];
  mo_auth_admission := []; mo_post_auth := [];
  mo_services := [{| sv_name := Some (str "svc"); sv_start := Ok tt; sv_stop := Fail EAnon |}];
  mo_authorizer := None |}.
Definition demo_relay : module demo dmsg unit := {|
  mo_name := str "relay";
  mo_genesis := Some {| gn_default := PDeliver (Put (str "second")) [] (then_ (PRet tt));
                        gn_import := fun _ => PRet tt |};
  mo_admission := []; mo_pre := [];
  mo_exec := [(dtype "Relay", relay_run)]; mo_post := []; mo_objects := [];
  mo_needs := [dtype "Put"]; mo_auth_admission := []; mo_post_auth := []; mo_services := [];
  mo_authorizer := None |}.

Definition demo_modules := [demo_core; demo_shop; demo_relay].
Definition demo_app : application demo dmsg unit :=
  match build 3 demo_descs demo_modules with
  | Ok a => a
  | _ => {| ap_modules := []; ap_registry := new_registry; ap_router := new_router; ap_services := [];
            ap_authorizer := always_deny |}
  end.
Lemma demo_app_built : build 3 demo_descs demo_modules = Ok demo_app.
Proof. reflexivity. Qed.

Definition demo_enum (tr : list (event demo dmsg)) (us : users) : list user := users_list us.
Definition demo_env (enabled : bool) : env demo dmsg unit := env_of demo_app demo_enum enabled.
Definition demo_so : storeops demo orm := orm_ops demo_ops (ap_registry demo_app).
Definition demo_world : world demo dmsg orm := {| w_store := orm_empty; w_trace := [] |}.
Definition demo_deliver (us : list bytes) (m : dmsg) (w : world demo dmsg orm) :=
  deliver demo_ops dname demo_so (demo_env true) 5 false (users_from_string us) m w.
