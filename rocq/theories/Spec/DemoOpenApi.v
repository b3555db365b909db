(** The document of one object in full. *)
From Coq Require Import List String.
From stdpp Require Import base list.
From Verif.Model Require Import Bytes Desc Schema OpenApi ProtoFiles.
From Verif.Spec Require Import OpenApiSpec.

(** Accounts: kept by address, found by number. *)
Definition account_described : described :=
  {| de_group := str "tmos.x.authn.v1alpha1";
     de_kind := str "Account";
     de_message := wo_message proto_world (str "tmos.x.authn.v1alpha1.Account");
     de_definition := {| def_singleton := false; def_primary_key := str "address"; def_secondary_keys := [str "accountNumber"] |} |}.
Definition account_document : document :=
  {| do_paths :=
       [(str "/tmos.x.authn.v1alpha1/account/{address}",
         {| op_id := str "get.tmos.x.authn.v1alpha1.Account";
            op_params := [];
            op_content := CJson (str "#/components/schemas/tmos.x.authn.v1alpha1.Account") |});
        (str "/tmos.x.authn.v1alpha1/accounts",
         {| op_id := str "list.tmos.x.authn.v1alpha1.Account";
            op_params := [str "selectField"; str "start"; str "end"];
            op_content := CJson (str "#/components/schemas/dynamic.tmos.x.authn.v1alpha1.AccountList") |})];
     do_schemas :=
       [(str "dynamic.tmos.x.authn.v1alpha1.AccountList",
         [(str "list", SType (str "array") [] (Some (IRef (str "#/components/schemas/tmos.x.authn.v1alpha1.Account"))))]);
        (str "google.protobuf.Any",
         [(str "typeUrl", SType (str "string") [] None);
          (str "value", SType (str "string") (str "bytes") None)]);
        (str "tmos.x.authn.v1alpha1.Account",
         [(str "address", SType (str "string") [] None);
          (str "pubKey", SRef (str "#/components/schemas/google.protobuf.Any"));
          (str "accountNumber", SType (str "integer") (str "uint64") None);
          (str "sequence", SType (str "integer") (str "uint64") None)])] |}.
