(** Requests to the API server of the concrete node, used only in the examples
    beside the theorems. *)
From Coq Require Import NArith ZArith List Bool String.
From stdpp Require Import base list option gmap.
From Verif.Model Require Import Bytes Schema Orm Users Prog Runtime Builder Module Universe Marshal Coin Authn TestApp Abci Query ApiServer ApiService.
From Verif.Spec Require Import StoreSpec ChainSpec QuerySpec ApiSpec ServiceSpec DemoApi DemoChain.

Notation demo_serving := (serving protobuf 255 demo_verify demo_users 4 demo_decode app_messages demo_chain).
Notation demo_http := (http protobuf 255 demo_verify (fun _ => true)).
(** The server starts and answers. *)
Definition demo_answers (x : node) (rqs : list request) : list (response object) :=
  match starts protobuf 255 demo_verify app_messages x with
  | Ok objects => map (fun rq => demo_http objects rq x) rqs
  | _ => []
  end.
(** A GET request for a path, with selections. *)
Definition ask_at (path : bytes) (fields : list bytes) : request := {|
  rq_path := path; rq_height := [];
  rq_query := fun name => if bytes_eqb name (str "selectField") then fields else [] |}.
Definition account_at (a : bytes) : bytes := str "/tmos.x.authn.v1alpha1/account/" ++ a.
Definition balance_at (a : bytes) : bytes := str "/tmos.x.bank.v1alpha1/balance/" ++ a.
Definition chain_requests : list request :=
  [ask_at (balance_at alice_address) []; ask_at (balance_at mallory_address) [];
   ask_at (account_at alice_address) []; ask_at (str "/tmos.x.authn.v1alpha1/accounts") [str "accountNumber=2"];
   ask_at (str "/tmos.x.authn.v1alpha1/accounts") [str "accountNumber=9"]; ask_at (str "/tmos.x.authn.v1alpha1/accounts") [str "address=x"];
   ask_at (str "/tmos.abci.v1alpha1/currentblock") []; ask_at (str "/tmos.core.rbac.v1alpha1/params") [];
   ask_at (str "/tmos.core.rbac.v1alpha1/rolebinding/bank") []; ask_at (str "/tmos.x.bank.v1alpha1/supply") []].
Definition alice_account : object := OAccount {| ac_address := alice_address; ac_pubkey := Some (key_any alice); ac_number := 2; ac_sequence := 0 |}.
Definition chain_responses : list (response object) :=
  [HObject (OBalance alice_address (tests "1000")); HNotFound; HObject alice_account; HObjects [alice_account];
   HBadRequest; HBadRequest; HObject (OCurrentBlock 1); HNotFound; HObject (OBinding (str "bank") (str "bank-role")); HNotFound].
