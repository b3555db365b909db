(** The options state_object and state_transition in the .proto files of the
    application, and the messages of these files as protoc hands them to the plugin. *)
From Coq Require Import NArith List Bool String.
From stdpp Require Import base list option.
From Verif.Model Require Import Bytes KindEncoder Desc OpenApi ProtoFiles Codegen.

Definition single : object_options := {| so_singleton := true; so_primary_key := []; so_secondary_keys := [] |}.
Definition by_key (key : string) (others : list string) : object_options :=
  {| so_singleton := false; so_primary_key := str key; so_secondary_keys := map str others |}.
(** core/runtime/v1alpha1/module.proto:10-16, core/abci/v1alpha1/abci.proto:22-82,
    core/rbac/v1alpha1/rbac.proto:10-53, x/authn/v1alpha1/authn.proto:46-80,
    x/bank/v1alpha1/bank.proto:33-43. *)
Definition object_table : list (bytes * object_options) :=
  [(str "tmos.runtime.v1alpha1.ModuleDescriptors", single);
   (str "tmos.abci.v1alpha1.CurrentBlock", single);
   (str "tmos.abci.v1alpha1.Stage", single);
   (str "tmos.abci.v1alpha1.InitChainInfo", single);
   (str "tmos.abci.v1alpha1.BeginBlockState", single);
   (str "tmos.abci.v1alpha1.CheckTxState", single);
   (str "tmos.abci.v1alpha1.DeliverTxState", single);
   (str "tmos.abci.v1alpha1.ValidatorUpdates", single);
   (str "tmos.abci.v1alpha1.EndBlockState", single);
   (str "tmos.core.rbac.v1alpha1.Params", single);
   (str "tmos.core.rbac.v1alpha1.Role", by_key "id" []);
   (str "tmos.core.rbac.v1alpha1.RoleBinding", by_key "subject" ["roleRef"%string]);
   (str "tmos.x.authn.v1alpha1.Account", by_key "address" ["accountNumber"%string]);
   (str "tmos.x.authn.v1alpha1.CurrentAccountNumber", single);
   (str "tmos.x.authn.v1alpha1.Params", single);
   (str "tmos.x.bank.v1alpha1.Balance", by_key "address" [])].
(** core/runtime/v1alpha1/module.proto:18-25, core/abci/v1alpha1/abci.proto:84-136,
    core/rbac/v1alpha1/rbac.proto:55-74, x/authn/v1alpha1/authn.proto:13-41,
    x/bank/v1alpha1/bank.proto:12-31. *)
Definition transition_table : list bytes :=
  [str "tmos.runtime.v1alpha1.CreateModuleDescriptors";
   str "tmos.abci.v1alpha1.MsgSetBeginBlockState";
   str "tmos.abci.v1alpha1.MsgSetCheckTxState";
   str "tmos.abci.v1alpha1.MsgSetDeliverTxState";
   str "tmos.abci.v1alpha1.MsgSetEndBlockState";
   str "tmos.abci.v1alpha1.MsgSetInitChain";
   str "tmos.abci.v1alpha1.MsgSetValidatorUpdates";
   str "tmos.core.rbac.v1alpha1.MsgCreateRole";
   str "tmos.core.rbac.v1alpha1.MsgBindRole";
   str "tmos.x.bank.v1alpha1.MsgSendCoins";
   str "tmos.x.bank.v1alpha1.MsgSetBalance";
   str "tmos.x.authn.v1alpha1.MsgCreateAccount";
   str "tmos.x.authn.v1alpha1.MsgUpdateAccount";
   str "tmos.x.authn.v1alpha1.MsgDeleteAccount"].

(** A message at the top of a file: the parent of its name is the package, and its
    name is its Go name. *)
Definition gen_of (m : message) : gen_message := {|
  gm_package := fl_package (me_file m);
  gm_parent := fl_package (me_file m);
  gm_name := me_short m;
  gm_go := me_short m;
  gm_desc := me_desc m;
  gm_object := snd <$> List.find (fun x => bytes_eqb (fst x) (me_name m)) object_table;
  gm_transition := existsb (bytes_eqb (me_name m)) transition_table |}.
(** protogen.File.Messages: those at the top of the file. *)
Definition gen_messages (f : filedesc) : list gen_message :=
  map gen_of (List.filter (fun m => existsb (bytes_eqb (me_name m)) (fl_messages f)
                                    && bytes_eqb (fl_path (me_file m)) (fl_path f)) proto_messages).
