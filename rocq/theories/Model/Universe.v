(** The state objects and state transitions of the application in
    testapp/app/app.go: the generated protobuf types and their *.starport.go
    companions. *)
From Coq Require Import NArith ZArith List Bool String.
From stdpp Require Import base list gmap.
From Verif.Model Require Import Bytes KindEncoder Desc Schema Users Prog Module.

(** google.protobuf.Any. *)
Record any := { any_url : bytes; any_value : bytes }.

(** core/coin/v1alpha1/coin.proto Coin: both are strings. *)
Record coin := { co_denom : bytes; co_amount : bytes }.

(** core/rbac/v1alpha1/rbac.proto:19-40 Role. *)
Record role := {
  rl_id : bytes;
  rl_gets : list bytes;
  rl_lists : list bytes;
  rl_creates : list bytes;
  rl_updates : list bytes;
  rl_deletes : list bytes;
  rl_delivers : list bytes
}.

(** x/authn/v1alpha1/authn.proto:46-57 Account and 70-80 Params. *)
Record account := {
  ac_address : bytes;
  ac_pubkey : option any;
  ac_number : N;
  ac_sequence : N
}.
Record auth_params := {
  pr_max_memo : N;
  pr_sig_limit : N;
  pr_size_cost : N;
  pr_ed25519_cost : N;
  pr_secp256k1_cost : N
}.

(** core/abci/v1alpha1/abci.proto:11-20 ABCIStage. *)
Inductive stage :=
| StUnknown | StInitChain | StBeginBlock | StCheckTx | StReCheckTx | StDeliverTx | StEndBlock | StCommit.

(** The requests of core/abci/tendermint/abci/types.proto. Kept: the height of
    the block header (a nil header is [None]); the rest is some bytes. *)
Record begin_block_request := { bb_height : option Z; bb_rest : bytes }.
Record check_tx_request := { ct_tx : bytes; ct_type : Z }.
Record validator_update := { vu_key : bytes; vu_power : Z }.

(** The state objects. The protobuf values [option] are message fields that may
    be nil. *)
Inductive object :=
| OModules (l : list raw_descriptor)
| OStage (s : stage)
| OBeginBlock (b : option begin_block_request)
| OCheckTx (c : option check_tx_request)
| ODeliverTx (tx : option bytes)
| OInitChainInfo (chain_id : bytes)
| OEndBlock (height : option Z)
| OCurrentBlock (number : N)
| OUpdates (l : list validator_update)
| OAccount (a : account)
| OAuthParams (p : auth_params)
| OAccountNumber (n : N)
| ORole (r : role)
| OBinding (subject role_ref : bytes)
| ORbacParams
| OBalance (address : bytes) (coins : list coin).

(** The state transitions the application knows: those with a handler and the
    two of authn without one. *)
Inductive msg :=
| CreateModuleDescriptors (l : list raw_descriptor)
| MsgSetInitChain (chain_id : option bytes)
| MsgSetCheckTxState (c : option check_tx_request)
| MsgSetBeginBlockState (b : option begin_block_request)
| MsgSetDeliverTxState (tx : option bytes)
| MsgSetEndBlockState (height : option Z)
| MsgSetValidatorUpdates (l : list validator_update)
| MsgCreateAccount (a : option account)
| MsgUpdateAccount (a : option account)
| MsgDeleteAccount (a : option account)
| MsgCreateRole (r : option role)
| MsgBindRole (role_id subject : bytes)
| MsgSendCoins (from to : bytes) (amount : list coin)
| MsgSetBalance (address : bytes) (amount : list coin).

(** API groups and kinds, from the APIDefinition methods of
    core/runtime/v1alpha1/module.starport.go:9-15,53-59,
    core/abci/v1alpha1/abci.starport.go:9-427,
    core/rbac/v1alpha1/rbac.starport.go:9-225,
    x/authn/v1alpha1/authn.starport.go:9-172, x/bank/v1alpha1/bank.starport.go:9-39. *)
Definition runtime_group : bytes := str "tmos.runtime.v1alpha1".
Definition abci_group : bytes := str "tmos.abci.v1alpha1".
Definition rbac_group : bytes := str "tmos.core.rbac.v1alpha1".
Definition authn_group : bytes := str "tmos.x.authn.v1alpha1".
Definition bank_group : bytes := str "tmos.x.bank.v1alpha1".

Definition object_group (o : object) : bytes :=
  match o with
  | OModules _ => runtime_group
  | OStage _ | OBeginBlock _ | OCheckTx _ | ODeliverTx _ | OInitChainInfo _ | OEndBlock _
  | OCurrentBlock _ | OUpdates _ => abci_group
  | OAccount _ | OAuthParams _ | OAccountNumber _ => authn_group
  | ORole _ | OBinding _ _ | ORbacParams => rbac_group
  | OBalance _ _ => bank_group
  end.
Definition object_kind (o : object) : bytes :=
  match o with
  | OModules _ => str "ModuleDescriptors"
  | OStage _ => str "Stage"
  | OBeginBlock _ => str "BeginBlockState"
  | OCheckTx _ => str "CheckTxState"
  | ODeliverTx _ => str "DeliverTxState"
  | OInitChainInfo _ => str "InitChainInfo"
  | OEndBlock _ => str "EndBlockState"
  | OCurrentBlock _ => str "CurrentBlock"
  | OUpdates _ => str "ValidatorUpdates"
  | OAccount _ => str "Account"
  | OAuthParams _ => str "Params"
  | OAccountNumber _ => str "CurrentAccountNumber"
  | ORole _ => str "Role"
  | OBinding _ _ => str "RoleBinding"
  | ORbacParams => str "Params"
  | OBalance _ _ => str "Balance"
  end.

(** The names of the object types. *)
Definition ty_modules : bytes := str "tmos.runtime.v1alpha1.ModuleDescriptors".
Definition ty_stage : bytes := str "tmos.abci.v1alpha1.Stage".
Definition ty_begin_block : bytes := str "tmos.abci.v1alpha1.BeginBlockState".
Definition ty_check_tx : bytes := str "tmos.abci.v1alpha1.CheckTxState".
Definition ty_deliver_tx : bytes := str "tmos.abci.v1alpha1.DeliverTxState".
Definition ty_init_chain_info : bytes := str "tmos.abci.v1alpha1.InitChainInfo".
Definition ty_end_block : bytes := str "tmos.abci.v1alpha1.EndBlockState".
Definition ty_current_block : bytes := str "tmos.abci.v1alpha1.CurrentBlock".
Definition ty_updates : bytes := str "tmos.abci.v1alpha1.ValidatorUpdates".
Definition ty_account : bytes := str "tmos.x.authn.v1alpha1.Account".
Definition ty_auth_params : bytes := str "tmos.x.authn.v1alpha1.Params".
Definition ty_account_number : bytes := str "tmos.x.authn.v1alpha1.CurrentAccountNumber".
Definition ty_role : bytes := str "tmos.core.rbac.v1alpha1.Role".
Definition ty_binding : bytes := str "tmos.core.rbac.v1alpha1.RoleBinding".
Definition ty_rbac_params : bytes := str "tmos.core.rbac.v1alpha1.Params".
Definition ty_balance : bytes := str "tmos.x.bank.v1alpha1.Balance".

(** Reflection on the fields that are keys. Go values fit their types; here a
    number outside of uint64 or a string of 2^63 bytes reads as another one. *)
Definition as_uint64 (n : N) : pvalue := VUint64 (n mod 2 ^ 64).
Definition as_string (s : bytes) : pvalue := VString (if (blen s <? 2 ^ 63)%N then s else []).
Definition object_get (o : object) (f : bytes) : pvalue :=
  match o with
  | OAccount a =>
      if bytes_eqb f (str "address") then as_string (ac_address a)
      else if bytes_eqb f (str "accountNumber") then as_uint64 (ac_number a) else VOther
  | ORole r => if bytes_eqb f (str "id") then as_string (rl_id r) else VOther
  | OBinding s r =>
      if bytes_eqb f (str "subject") then as_string s
      else if bytes_eqb f (str "roleRef") then as_string r else VOther
  | OBalance a _ => if bytes_eqb f (str "address") then as_string a else VOther
  | _ => VOther
  end.

(** Marshalling of these types (google.golang.org/protobuf). The theorems about
    the chain quantify over it; Marshal.v models the protobuf one. *)
Record codec := {
  cd_marshal : object -> option bytes;
  cd_unmarshal : bytes -> bytes -> option object
}.
Definition app_ops (C : codec) : objops object := {|
  oo_group := object_group; oo_kind := object_kind; oo_get := object_get;
  oo_marshal := cd_marshal C; oo_unmarshal := cd_unmarshal C |}.

(** The API definitions of transitions. *)
Definition transition_api (g : bytes) (k : string) : api_def :=
  {| ad_group := g; ad_kind := str k; ad_transition := true |}.
(** A transition type; [external] is the option state_transition_acl of its
    message. Simplification: of the proto files only its own message is kept (no
    file it depends on contains a message of the same short name). *)
Definition transition (g : bytes) (k : string) (external : bool) : transition_type :=
  {| tt_api := transition_api g k; tt_short := str k; tt_files := [[(str k, Some external)]] |}.

(** The ACL options: core/runtime/v1alpha1/module.proto:18-25,
    core/abci/v1alpha1/abci.proto, core/rbac/v1alpha1/rbac.proto:55-74,
    x/authn/v1alpha1/authn.proto:13-41, x/bank/v1alpha1/bank.proto:12-31. *)
Definition t_create_descriptors := transition runtime_group "CreateModuleDescriptors" false.
Definition t_set_init_chain := transition abci_group "MsgSetInitChain" false.
Definition t_set_check_tx := transition abci_group "MsgSetCheckTxState" false.
Definition t_set_begin_block := transition abci_group "MsgSetBeginBlockState" false.
Definition t_set_deliver_tx := transition abci_group "MsgSetDeliverTxState" false.
Definition t_set_end_block := transition abci_group "MsgSetEndBlockState" false.
Definition t_set_updates := transition abci_group "MsgSetValidatorUpdates" false.
Definition t_create_account := transition authn_group "MsgCreateAccount" true.
Definition t_update_account := transition authn_group "MsgUpdateAccount" false.
Definition t_delete_account := transition authn_group "MsgDeleteAccount" false.
Definition t_create_role := transition rbac_group "MsgCreateRole" false.
Definition t_bind_role := transition rbac_group "MsgBindRole" false.
Definition t_send_coins := transition bank_group "MsgSendCoins" true.
Definition t_set_balance := transition bank_group "MsgSetBalance" false.

Definition msg_type (m : msg) : transition_type :=
  match m with
  | CreateModuleDescriptors _ => t_create_descriptors
  | MsgSetInitChain _ => t_set_init_chain
  | MsgSetCheckTxState _ => t_set_check_tx
  | MsgSetBeginBlockState _ => t_set_begin_block
  | MsgSetDeliverTxState _ => t_set_deliver_tx
  | MsgSetEndBlockState _ => t_set_end_block
  | MsgSetValidatorUpdates _ => t_set_updates
  | MsgCreateAccount _ => t_create_account
  | MsgUpdateAccount _ => t_update_account
  | MsgDeleteAccount _ => t_delete_account
  | MsgCreateRole _ => t_create_role
  | MsgBindRole _ _ => t_bind_role
  | MsgSendCoins _ _ _ => t_send_coins
  | MsgSetBalance _ _ => t_set_balance
  end.
(** core/meta/meta.go:33-35 Name. *)
Definition msg_name (m : msg) : bytes := tt_name (msg_type m).

(** The descriptors and schemas of the state objects: the key fields and one
    field of each other message (core/runtime/v1alpha1/module.starport.go:65-67,
    core/abci/v1alpha1/abci.starport.go:433-463,
    core/rbac/v1alpha1/rbac.starport.go:231-242,
    x/authn/v1alpha1/authn.starport.go:210-221, x/bank/v1alpha1/bank.starport.go:110-112). *)
Definition field_of (name : string) (k : kind) (repeated : bool) (message : bytes) : field :=
  {| fd_json := str name; fd_kind := k; fd_repeated := repeated; fd_map := None; fd_message := message |}.
Definition object_type (g : bytes) (k : string) (fs : list field) : objtype :=
  {| ot_group := g; ot_kind := str k;
     ot_desc := {| md_name := api_name g (str k); md_fields := fs |} |}.
Definition singleton : definition :=
  {| def_singleton := true; def_primary_key := []; def_secondary_keys := [] |}.
Definition keyed (pk : string) (sk : list string) : definition :=
  {| def_singleton := false; def_primary_key := str pk; def_secondary_keys := map str sk |}.

Definition modules_object : objtype * definition :=
  (object_type runtime_group "ModuleDescriptors"
     [field_of "modules" MessageKind true (str "tmos.core.module.v1.Descriptor")], singleton).
Definition stage_object : objtype * definition :=
  (object_type abci_group "Stage" [field_of "stage" EnumKind false []], singleton).
Definition begin_block_object : objtype * definition :=
  (object_type abci_group "BeginBlockState"
     [field_of "beginBlock" MessageKind false (str "tendermint.abci.RequestBeginBlock")], singleton).
Definition deliver_tx_object : objtype * definition :=
  (object_type abci_group "DeliverTxState"
     [field_of "deliverTx" MessageKind false (str "tendermint.abci.RequestDeliverTx")], singleton).
Definition check_tx_object : objtype * definition :=
  (object_type abci_group "CheckTxState"
     [field_of "checkTx" MessageKind false (str "tendermint.abci.RequestCheckTx")], singleton).
Definition init_chain_object : objtype * definition :=
  (object_type abci_group "InitChainInfo" [field_of "chainId" StringKind false []], singleton).
Definition end_block_object : objtype * definition :=
  (object_type abci_group "EndBlockState"
     [field_of "endBlock" MessageKind false (str "tendermint.abci.RequestEndBlock")], singleton).
Definition current_block_object : objtype * definition :=
  (object_type abci_group "CurrentBlock" [field_of "blockNumber" Uint64Kind false []], singleton).
Definition updates_object : objtype * definition :=
  (object_type abci_group "ValidatorUpdates"
     [field_of "validatorUpdates" MessageKind true (str "tendermint.abci.ValidatorUpdate")], singleton).
Definition account_object : objtype * definition :=
  (object_type authn_group "Account"
     [field_of "address" StringKind false []; field_of "pubKey" MessageKind false (str "google.protobuf.Any");
      field_of "accountNumber" Uint64Kind false []; field_of "sequence" Uint64Kind false []],
   keyed "address" ["accountNumber"%string]).
Definition auth_params_object : objtype * definition :=
  (object_type authn_group "Params"
     [field_of "maxMemoCharacters" Uint64Kind false []; field_of "txSigLimit" Uint64Kind false [];
      field_of "txSizeCostPerByte" Uint64Kind false []; field_of "sigVerifyCostEd25519" Uint64Kind false [];
      field_of "sigVerifyCostSecp256k1" Uint64Kind false []], singleton).
Definition account_number_object : objtype * definition :=
  (object_type authn_group "CurrentAccountNumber" [field_of "number" Uint64Kind false []], singleton).
Definition role_object : objtype * definition :=
  (object_type rbac_group "Role"
     [field_of "id" StringKind false []; field_of "gets" StringKind true [];
      field_of "lists" StringKind true []; field_of "creates" StringKind true [];
      field_of "updates" StringKind true []; field_of "deletes" StringKind true [];
      field_of "delivers" StringKind true []], keyed "id" []).
Definition binding_object : objtype * definition :=
  (object_type rbac_group "RoleBinding"
     [field_of "subject" StringKind false []; field_of "roleRef" StringKind false []],
   keyed "subject" ["roleRef"%string]).
Definition rbac_params_object : objtype * definition :=
  (object_type rbac_group "Params" [], singleton).
Definition balance_object : objtype * definition :=
  (object_type bank_group "Balance"
     [field_of "address" StringKind false [];
      field_of "balance" MessageKind true (str "tmos.core.coin.v1alpha1.Coin")], keyed "address" []).

(** Descriptors of nested messages: never looked at (see [has_map_rec]). *)
Definition no_descs : descs := fun n => {| md_name := n; md_fields := [] |}.

(** Steps of handlers: [if err != nil { return err }]. *)
Definition pcall {A} (p : prog object msg A) (err : option goerr) : prog object msg A :=
  match err with None => p | Some e => PFail e end.
(** [client.Get] with no options, [client.Create], ... followed by the rest. *)
Definition get_ {A} ty id (ok : object -> prog object msg A) (bad : goerr -> prog object msg A)
  : prog object msg A :=
  PGet ty id [] (fun x => match x with inl o => ok o | inr e => bad e end).
Definition create_ {A} o (p : prog object msg A) := PCreate o (pcall p).
Definition update_ {A} o (p : prog object msg A) := PUpdate o (pcall p).
Definition deliver_ {A} m (p : prog object msg A) := PDeliver m [] (pcall p).
