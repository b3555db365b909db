(** Which bytes are a state object or a state transition: the protobuf messages
    of the application as relations between bytes and what they mean, with the
    numbers of their fields in the .proto files of /repo. *)
From Coq Require Import NArith ZArith List String.
From stdpp Require Import base list option gmap.
From Verif.Model Require Import Bytes Proto KindEncoder Schema Module Universe.
From Verif.Spec Require Import WireSpec.
Local Open Scope N_scope.

(** ** Text *)
(** Unicode code points and their UTF-8 form. *)
Definition scalar (c : N) : Prop := c < 0xD800 \/ 0xE000 <= c < 0x110000.
Definition utf8_char (c : N) : bytes :=
  if decide (c < 0x80) then [N2b c]
  else if decide (c < 0x800) then [N2b (0xC0 + c / 64); N2b (0x80 + c mod 64)]
  else if decide (c < 0x10000) then [N2b (0xE0 + c / 4096); N2b (0x80 + (c / 64) mod 64); N2b (0x80 + c mod 64)]
  else [N2b (0xF0 + c / 262144); N2b (0x80 + (c / 4096) mod 64); N2b (0x80 + (c / 64) mod 64); N2b (0x80 + c mod 64)].
Definition utf8_text (b : bytes) : Prop := exists cs, Forall scalar cs /\ b = concat (map utf8_char cs).

(** ** Fields *)
(** The values of the field of a number that are bytes, or that are numbers; the
    last one counts, or the default. *)
Definition every (n : N) (fs : list wfield) : list bytes :=
  omap (fun f => match snd f with WBytes b => if decide (fst f = n) then Some b else None | _ => None end) fs.
Definition every_number (n : N) (fs : list wfield) : list N :=
  omap (fun f => match snd f with WVarint v => if decide (fst f = n) then Some v else None | _ => None end) fs.
Definition final (n : N) (fs : list wfield) : bytes := default [] (last (every n fs)).
Definition final_number (n : N) (fs : list wfield) : N := default 0 (last (every_number n fs)).
Definition texts (n : N) (fs : list wfield) : Prop := Forall utf8_text (every n fs).
(** No fields but these. *)
Definition only (of_bytes of_numbers : list N) (fs : list wfield) : Prop :=
  Forall (fun f => match snd f with WBytes _ => fst f ∈ of_bytes | WVarint _ => fst f ∈ of_numbers | _ => False end) fs.
Definition any_message (b : bytes) : Prop := exists fs, message_text b fs.
(** A message field that occurs several times stands for the messages joined. *)
Definition merged {A} (is : bytes -> A -> Prop) (l : list bytes) (a : A) : Prop :=
  l <> [] /\ (forall b, b ∈ l -> exists a', is b a') /\ is (concat l) a.

(** A field: a string, strings, a message (missing, or the messages merged),
    messages, a number with a sign of so many bits, a truth value. *)
Definition text_at (n : N) (fs : list wfield) (b : bytes) : Prop := texts n fs /\ b = final n fs.
Definition texts_at (n : N) (fs : list wfield) (l : list bytes) : Prop := texts n fs /\ l = every n fs.
Definition message_at {A} (is : bytes -> A -> Prop) (n : N) (fs : list wfield) (o : option A) : Prop :=
  match o with None => every n fs = [] | Some a => merged is (every n fs) a end.
Definition messages_at {A} (is : bytes -> A -> Prop) (n : N) (fs : list wfield) (l : list A) : Prop :=
  Forall2 is (every n fs) l.
(** The number between -2^(w-1) and 2^(w-1) that is the same modulo 2^w. *)
Definition signed_at (w : Z) (n : N) (fs : list wfield) (z : Z) : Prop :=
  (- 2 ^ (w - 1) <= z < 2 ^ (w - 1))%Z /\ (z mod 2 ^ w = Z.of_N (final_number n fs) mod 2 ^ w)%Z.
Definition truth_at (n : N) (fs : list wfield) (b : bool) : Prop := b = true <-> final_number n fs <> 0.
(** A message field that reads as empty if it is missing. *)
Definition message_or_empty {A} (is : bytes -> A -> Prop) (n : N) (fs : list wfield) (a : A) : Prop :=
  (every n fs = [] /\ is [] a) \/ merged is (every n fs) a.

(** ** Messages *)
Definition any_text (b : bytes) (a : any) : Prop :=
  exists fs, message_text b fs /\ texts 1 fs /\ any_url a = final 1 fs /\ any_value a = final 2 fs.
Definition coin_text (b : bytes) (c : coin) : Prop :=
  exists fs, message_text b fs /\ texts 1 fs /\ texts 2 fs /\ co_denom c = final 1 fs /\ co_amount c = final 2 fs.
(** core/rbac/v1alpha1/rbac.proto, x/authn/v1alpha1/authn.proto. *)
Definition role_text (b : bytes) (r : role) : Prop :=
  exists fs, message_text b fs /\ text_at 1 fs (rl_id r) /\ texts_at 2 fs (rl_gets r) /\ texts_at 3 fs (rl_lists r)
    /\ texts_at 4 fs (rl_creates r) /\ texts_at 5 fs (rl_updates r) /\ texts_at 6 fs (rl_deletes r)
    /\ texts_at 7 fs (rl_delivers r).
Definition account_text (b : bytes) (a : account) : Prop :=
  exists fs, message_text b fs /\ text_at 1 fs (ac_address a) /\ message_at any_text 2 fs (ac_pubkey a)
    /\ ac_number a = final_number 3 fs /\ ac_sequence a = final_number 4 fs.
Definition params_text (b : bytes) (p : auth_params) : Prop :=
  exists fs, message_text b fs /\ pr_max_memo p = final_number 1 fs /\ pr_sig_limit p = final_number 2 fs
    /\ pr_size_cost p = final_number 3 fs /\ pr_ed25519_cost p = final_number 4 fs
    /\ pr_secp256k1_cost p = final_number 5 fs.

(** core/abci/tendermint: of a header the height, of the request to begin a block
    the hash and the header. *)
Definition header_text (b : bytes) (h : Z) : Prop := exists fs, message_text b fs /\ signed_at 64 3 fs h.
Definition begin_block_text (b : bytes) (r : begin_block_request) : Prop :=
  exists fs, message_text b fs /\ bb_rest r = final 1 fs /\ message_at header_text 2 fs (bb_height r).
Definition check_tx_text (b : bytes) (r : check_tx_request) : Prop :=
  exists fs, message_text b fs /\ ct_tx r = final 1 fs /\ signed_at 32 2 fs (ct_type r).
Definition deliver_tx_text (b : bytes) (t : bytes) : Prop := exists fs, message_text b fs /\ t = final 1 fs.
Definition end_block_text (b : bytes) (h : Z) : Prop := exists fs, message_text b fs /\ signed_at 64 1 fs h.
Definition pub_key_text (b : bytes) (k : bytes) : Prop := exists fs, message_text b fs /\ k = final 1 fs.
Definition update_text (b : bytes) (u : validator_update) : Prop :=
  exists fs, message_text b fs /\ message_or_empty pub_key_text 1 fs (vu_key u) /\ signed_at 64 2 fs (vu_power u).
Definition info_text (b : bytes) (chain_id : bytes) : Prop := exists fs, message_text b fs /\ text_at 1 fs chain_id.

(** core/meta/meta.proto, core/schema/schema.proto, core/module/module.proto and
    the files of descriptor.proto: the messages of a file with their name and the
    ACL option. *)
Definition api_text (b : bytes) (d : api_def) : Prop :=
  exists fs, message_text b fs /\ text_at 1 fs (ad_group d) /\ text_at 2 fs (ad_kind d)
    /\ exists z, signed_at 32 3 fs z /\ (ad_transition d = true <-> z = 1%Z).
Definition definition_text (b : bytes) (d : definition) : Prop :=
  exists fs, message_text b fs /\ truth_at 1 fs (def_singleton d) /\ text_at 2 fs (def_primary_key d)
    /\ texts_at 3 fs (def_secondary_keys d).
Definition acl_text (b : bytes) (external : bool) : Prop := exists fs, message_text b fs /\ truth_at 1 fs external.
Definition options_text (b : bytes) (o : option bool) : Prop :=
  exists fs, message_text b fs /\ message_at acl_text 12000000 fs o.
Definition file_message_text (b : bytes) (m : bytes * option bool) : Prop :=
  exists fs, message_text b fs /\ text_at 1 fs (fst m) /\ message_or_empty options_text 7 fs (snd m).
Definition file_text (b : bytes) (f : proto_file) : Prop :=
  exists fs, message_text b fs /\ messages_at file_message_text 4 fs f.
Definition state_object_text (b : bytes) (o : raw_object) : Prop :=
  exists fs, message_text b fs /\ message_or_empty api_text 1 fs (rw_api o)
    /\ message_or_empty definition_text 2 fs (rw_schema o).
Definition state_transition_text (b : bytes) (t : transition_type) : Prop :=
  exists fs, message_text b fs /\ message_or_empty api_text 1 fs (tt_api t) /\ text_at 2 fs (tt_short t)
    /\ messages_at file_text 3 fs (tt_files t).
Definition dependency_text (b : bytes) (d : api_def) : Prop :=
  exists fs, message_text b fs /\ message_or_empty api_text 1 fs d.
Definition descriptor_text (b : bytes) (d : raw_descriptor) : Prop :=
  exists fs, message_text b fs /\ text_at 1 fs (rd_name d) /\ messages_at state_object_text 2 fs (rd_objects d)
    /\ messages_at state_transition_text 3 fs (rd_transitions d) /\ messages_at dependency_text 4 fs (rd_needs d).

(** core/abci/v1alpha1/abci.proto ABCIStage. *)
Definition stages : list stage :=
  [StUnknown; StInitChain; StBeginBlock; StCheckTx; StReCheckTx; StDeliverTx; StEndBlock; StCommit].
Definition stage_at (n : N) (fs : list wfield) (s : stage) : Prop :=
  exists z, signed_at 32 n fs z
    /\ ((0 <= z)%Z /\ stages !! Z.to_nat z = Some s \/ ((z < 0)%Z \/ (8 <= z)%Z) /\ s = StUnknown).

(** ** State objects, by the name of their type *)
Inductive object_text : bytes -> bytes -> object -> Prop :=
| ob_modules b fs l : message_text b fs -> messages_at descriptor_text 1 fs l ->
    object_text (str "tmos.runtime.v1alpha1.ModuleDescriptors") b (OModules l)
| ob_stage b fs s : message_text b fs -> stage_at 1 fs s -> object_text (str "tmos.abci.v1alpha1.Stage") b (OStage s)
| ob_begin_block b fs r : message_text b fs -> message_at begin_block_text 1 fs r ->
    object_text (str "tmos.abci.v1alpha1.BeginBlockState") b (OBeginBlock r)
| ob_check_tx b fs r : message_text b fs -> message_at check_tx_text 1 fs r ->
    object_text (str "tmos.abci.v1alpha1.CheckTxState") b (OCheckTx r)
| ob_deliver_tx b fs r : message_text b fs -> message_at deliver_tx_text 1 fs r ->
    object_text (str "tmos.abci.v1alpha1.DeliverTxState") b (ODeliverTx r)
| ob_info b c : info_text b c -> object_text (str "tmos.abci.v1alpha1.InitChainInfo") b (OInitChainInfo c)
| ob_end_block b fs r : message_text b fs -> message_at end_block_text 1 fs r ->
    object_text (str "tmos.abci.v1alpha1.EndBlockState") b (OEndBlock r)
| ob_current_block b fs : message_text b fs ->
    object_text (str "tmos.abci.v1alpha1.CurrentBlock") b (OCurrentBlock (final_number 1 fs))
| ob_updates b fs l : message_text b fs -> messages_at update_text 1 fs l ->
    object_text (str "tmos.abci.v1alpha1.ValidatorUpdates") b (OUpdates l)
| ob_account b a : account_text b a -> object_text (str "tmos.x.authn.v1alpha1.Account") b (OAccount a)
| ob_params b p : params_text b p -> object_text (str "tmos.x.authn.v1alpha1.Params") b (OAuthParams p)
| ob_account_number b fs : message_text b fs ->
    object_text (str "tmos.x.authn.v1alpha1.CurrentAccountNumber") b (OAccountNumber (final_number 2 fs))
| ob_role b r : role_text b r -> object_text (str "tmos.core.rbac.v1alpha1.Role") b (ORole r)
| ob_binding b fs s r : message_text b fs -> text_at 1 fs s -> text_at 2 fs r ->
    object_text (str "tmos.core.rbac.v1alpha1.RoleBinding") b (OBinding s r)
| ob_rbac_params b fs : message_text b fs -> object_text (str "tmos.core.rbac.v1alpha1.Params") b ORbacParams
| ob_balance b fs a c : message_text b fs -> text_at 1 fs a -> messages_at coin_text 2 fs c ->
    object_text (str "tmos.x.bank.v1alpha1.Balance") b (OBalance a c).

(** ** State transitions, by the name of their type *)
Inductive transition_text : bytes -> bytes -> msg -> Prop :=
| tr_descriptors b fs l : message_text b fs -> messages_at descriptor_text 1 fs l ->
    transition_text (str "tmos.runtime.v1alpha1.CreateModuleDescriptors") b (CreateModuleDescriptors l)
| tr_init_chain b fs o : message_text b fs -> message_at info_text 1 fs o ->
    transition_text (str "tmos.abci.v1alpha1.MsgSetInitChain") b (MsgSetInitChain o)
| tr_check_tx b fs o : message_text b fs -> message_at check_tx_text 1 fs o ->
    transition_text (str "tmos.abci.v1alpha1.MsgSetCheckTxState") b (MsgSetCheckTxState o)
| tr_begin_block b fs o : message_text b fs -> message_at begin_block_text 1 fs o ->
    transition_text (str "tmos.abci.v1alpha1.MsgSetBeginBlockState") b (MsgSetBeginBlockState o)
| tr_deliver_tx b fs o : message_text b fs -> message_at deliver_tx_text 1 fs o ->
    transition_text (str "tmos.abci.v1alpha1.MsgSetDeliverTxState") b (MsgSetDeliverTxState o)
| tr_end_block b fs o : message_text b fs -> message_at end_block_text 1 fs o ->
    transition_text (str "tmos.abci.v1alpha1.MsgSetEndBlockState") b (MsgSetEndBlockState o)
| tr_updates b fs l : message_text b fs -> messages_at update_text 1 fs l ->
    transition_text (str "tmos.abci.v1alpha1.MsgSetValidatorUpdates") b (MsgSetValidatorUpdates l)
| tr_create_account b fs o : message_text b fs -> message_at account_text 1 fs o ->
    transition_text (str "tmos.x.authn.v1alpha1.MsgCreateAccount") b (MsgCreateAccount o)
| tr_update_account b fs o : message_text b fs -> message_at account_text 2 fs o ->
    transition_text (str "tmos.x.authn.v1alpha1.MsgUpdateAccount") b (MsgUpdateAccount o)
| tr_delete_account b fs o : message_text b fs -> message_at account_text 2 fs o ->
    transition_text (str "tmos.x.authn.v1alpha1.MsgDeleteAccount") b (MsgDeleteAccount o)
| tr_create_role b fs o : message_text b fs -> message_at role_text 1 fs o ->
    transition_text (str "tmos.core.rbac.v1alpha1.MsgCreateRole") b (MsgCreateRole o)
| tr_bind_role b fs r s : message_text b fs -> text_at 1 fs r -> text_at 2 fs s ->
    transition_text (str "tmos.core.rbac.v1alpha1.MsgBindRole") b (MsgBindRole r s)
| tr_send_coins b fs f t c : message_text b fs -> text_at 1 fs f -> text_at 2 fs t -> messages_at coin_text 3 fs c ->
    transition_text (str "tmos.x.bank.v1alpha1.MsgSendCoins") b (MsgSendCoins f t c)
| tr_set_balance b fs a c : message_text b fs -> text_at 1 fs a -> messages_at coin_text 2 fs c ->
    transition_text (str "tmos.x.bank.v1alpha1.MsgSetBalance") b (MsgSetBalance a c).
