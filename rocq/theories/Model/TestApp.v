(** testapp: the application built in testapp/app/app.go. *)
From Coq Require Import NArith ZArith List Bool String.
From stdpp Require Import base list gmap.
From Verif.Model Require Import Bytes KindEncoder Desc Schema Users Prog Runtime Services Module Builder
  Universe CoreModules Rbac Bank Authn Distribution.

(** testapp/module/module.go:15-17; the bytes of the key are given as in the
    hexadecimal text. *)
Definition genesis_address : bytes := str "test17hrfajk9ukj6tkkcy2ftgsmr3fp9hk9rkzcc7w".
Definition genesis_key : any := {|
  any_url := str "/cosmos.crypto.secp256k1.PubKey";
  any_value := map N2b [0x0a; 0x21; 0x03; 0x69; 0x5a; 0x07; 0x67; 0x49; 0x4e; 0x7b; 0x8a; 0x16;
                        0x1b; 0x6a; 0x56; 0x15; 0x22; 0xb3; 0x2e; 0x11; 0x29; 0xc1; 0x0d; 0x76;
                        0x69; 0x12; 0xf4; 0xa7; 0x44; 0x17; 0x66; 0xd0; 0xd5; 0x5e; 0x06]%N |}.

(** testapp/module/module.go:47-78 Default, 80-82 Import. *)
Definition testing_genesis : genesis object msg := {|
  gn_default :=
    deliver_ (MsgCreateAccount (Some {| ac_address := genesis_address; ac_pubkey := Some genesis_key;
                                        ac_number := 0; ac_sequence := 0 |}))
      (deliver_ (MsgSetBalance genesis_address [{| co_denom := str "test"; co_amount := str "5000000000" |}])
         (PRet tt));
  gn_import := fun _ => PPanic |}.

(** testapp/module/module.go:28-33 Initialize. *)
Definition testing_module : module object msg tx := {|
  mo_name := str "testing";
  mo_genesis := Some testing_genesis;
  mo_admission := []; mo_pre := []; mo_exec := []; mo_post := []; mo_objects := [];
  mo_needs := [t_create_account];
  mo_auth_admission := []; mo_post_auth := []; mo_services := [];
  mo_authorizer := None |}.

(** core/apiserver/module.go:19-24, 41-43. Simplification: the service starts and
    stops without error. *)
Definition apiserver_module : module object msg tx := {|
  mo_name := str "apiserver";
  mo_genesis := None;
  mo_admission := []; mo_pre := []; mo_exec := []; mo_post := []; mo_objects := [];
  mo_needs := []; mo_auth_admission := []; mo_post_auth := [];
  mo_services := [{| sv_name := Some (str "apiserver"); sv_start := Ok tt; sv_stop := Ok tt |}];
  mo_authorizer := None |}.

(** testapp/app/app.go:34-43 and runtime/builder.go:37-38. *)
Definition app_modules (bits : N) (verify : bytes -> bytes -> bytes -> bool) : list (module object msg tx) :=
  [runtime_module; abci_module; authn_module verify; rbac_module; bank_module bits;
   distribution_module bits; testing_module; apiserver_module].

(** app.go:44-47: Build; if it fails there is no application. [fuel] bounds the
    depth to which message types are inspected. *)
Definition no_app : application object msg tx :=
  {| ap_modules := []; ap_registry := new_registry; ap_router := Router.new_router; ap_services := [];
     ap_authorizer := always_deny |}.
Definition test_app (bits : N) (verify : bytes -> bytes -> bytes -> bool) : application object msg tx :=
  match build 1 no_descs (app_modules bits verify) with
  | Ok a => a
  | _ => no_app
  end.
