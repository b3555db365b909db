(** The protobuf encoding of the state objects and of the messages in them:
    proto.Marshal and proto.Unmarshal as called by runtime/orm/objects.go. Each
    message has what is written, what is read, and whether Go can write it
    (numbers of 64 bits, strings in UTF-8). *)
From Coq Require Import NArith ZArith List Bool String.
From stdpp Require Import base list option.
From Verif.Model Require Import Bytes Wire Proto KindEncoder Desc Schema Module Universe.
Local Open Scope N_scope.

Definition fits64 (v : N) : bool := v <? 2 ^ 64.
Definition fits_int64 (z : Z) : bool := (- 2 ^ 63 <=? z)%Z && (z <? 2 ^ 63)%Z.
Definition fits_int32 (z : Z) : bool := (- 2 ^ 31 <=? z)%Z && (z <? 2 ^ 31)%Z.

(** google.protobuf.Any. *)
Definition enc_any (a : any) : list wfield := f_bytes 1 (any_url a) ++ f_bytes 2 (any_value a).
Definition dec_any (fs : list wfield) : option any :=
  u ← g_text 1 fs; Some {| any_url := u; any_value := g_bytes 2 fs |}.
Definition ok_any (a : any) : bool := utf8_valid (any_url a).

(** core/coin/v1alpha1/coin.proto:8-11. *)
Definition enc_coin (c : coin) : list wfield := f_bytes 1 (co_denom c) ++ f_bytes 2 (co_amount c).
Definition dec_coin (fs : list wfield) : option coin :=
  d ← g_text 1 fs; a ← g_text 2 fs; Some {| co_denom := d; co_amount := a |}.
Definition ok_coin (c : coin) : bool := utf8_valid (co_denom c) && utf8_valid (co_amount c).

(** core/rbac/v1alpha1/rbac.proto:19-40 Role. *)
Definition enc_role (r : role) : list wfield :=
  f_bytes 1 (rl_id r) ++ f_each 2 (rl_gets r) ++ f_each 3 (rl_lists r) ++ f_each 4 (rl_creates r)
  ++ f_each 5 (rl_updates r) ++ f_each 6 (rl_deletes r) ++ f_each 7 (rl_delivers r).
Definition dec_role (fs : list wfield) : option role :=
  i ← g_text 1 fs; g ← g_texts 2 fs; l ← g_texts 3 fs; c ← g_texts 4 fs; u ← g_texts 5 fs;
  d ← g_texts 6 fs; x ← g_texts 7 fs;
  Some {| rl_id := i; rl_gets := g; rl_lists := l; rl_creates := c; rl_updates := u; rl_deletes := d;
          rl_delivers := x |}.
Definition ok_role (r : role) : bool :=
  utf8_valid (rl_id r) && forallb utf8_valid (rl_gets r) && forallb utf8_valid (rl_lists r)
  && forallb utf8_valid (rl_creates r) && forallb utf8_valid (rl_updates r)
  && forallb utf8_valid (rl_deletes r) && forallb utf8_valid (rl_delivers r).

(** x/authn/v1alpha1/authn.proto:46-80 Account, Params. *)
Definition enc_account (a : account) : list wfield :=
  f_bytes 1 (ac_address a) ++ f_message enc_any 2 (ac_pubkey a) ++ f_uint 3 (ac_number a)
  ++ f_uint 4 (ac_sequence a).
Definition dec_account (fs : list wfield) : option account :=
  a ← g_text 1 fs; k ← g_message dec_any 2 fs;
  Some {| ac_address := a; ac_pubkey := k; ac_number := g_uint 3 fs; ac_sequence := g_uint 4 fs |}.
Definition ok_account (a : account) : bool :=
  utf8_valid (ac_address a) && forallb ok_any (option_list (ac_pubkey a)) && fits64 (ac_number a)
  && fits64 (ac_sequence a).
Definition enc_auth_params (p : auth_params) : list wfield :=
  f_uint 1 (pr_max_memo p) ++ f_uint 2 (pr_sig_limit p) ++ f_uint 3 (pr_size_cost p)
  ++ f_uint 4 (pr_ed25519_cost p) ++ f_uint 5 (pr_secp256k1_cost p).
Definition dec_auth_params (fs : list wfield) : option auth_params :=
  Some {| pr_max_memo := g_uint 1 fs; pr_sig_limit := g_uint 2 fs; pr_size_cost := g_uint 3 fs;
          pr_ed25519_cost := g_uint 4 fs; pr_secp256k1_cost := g_uint 5 fs |}.
Definition ok_auth_params (p : auth_params) : bool :=
  fits64 (pr_max_memo p) && fits64 (pr_sig_limit p) && fits64 (pr_size_cost p)
  && fits64 (pr_ed25519_cost p) && fits64 (pr_secp256k1_cost p).

(** core/abci/v1alpha1/abci.proto:11-20 ABCIStage. Simplification: a number that
    is no stage reads as Unknown. *)
Definition stage_number (s : stage) : N :=
  match s with
  | StUnknown => 0 | StInitChain => 1 | StBeginBlock => 2 | StCheckTx => 3 | StReCheckTx => 4
  | StDeliverTx => 5 | StEndBlock => 6 | StCommit => 7
  end.
Definition stage_of (z : Z) : stage :=
  match z with
  | 1 => StInitChain | 2 => StBeginBlock | 3 => StCheckTx | 4 => StReCheckTx
  | 5 => StDeliverTx | 6 => StEndBlock | 7 => StCommit | _ => StUnknown
  end%Z.

(** core/abci/tendermint/types/types.proto:51-75 Header (of it the height) and
    core/abci/tendermint/abci/types.proto:65-88,297-300. The rest of a
    RequestBeginBlock is its hash; the key of a validator is of type ed25519. *)
Definition enc_header (h : Z) : list wfield := f_int 3 h.
Definition dec_header (fs : list wfield) : option Z := Some (g_int 3 fs).
Definition enc_begin_block (b : begin_block_request) : list wfield :=
  f_bytes 1 (bb_rest b) ++ f_message enc_header 2 (bb_height b).
Definition dec_begin_block (fs : list wfield) : option begin_block_request :=
  h ← g_message dec_header 2 fs; Some {| bb_height := h; bb_rest := g_bytes 1 fs |}.
Definition ok_begin_block (b : begin_block_request) : bool := forallb fits_int64 (option_list (bb_height b)).
Definition enc_check_tx (c : check_tx_request) : list wfield := f_bytes 1 (ct_tx c) ++ f_int 2 (ct_type c).
Definition dec_check_tx (fs : list wfield) : option check_tx_request :=
  Some {| ct_tx := g_bytes 1 fs; ct_type := g_int32 2 fs |}.
Definition ok_check_tx (c : check_tx_request) : bool := fits_int32 (ct_type c).
Definition enc_deliver_tx (t : bytes) : list wfield := f_bytes 1 t.
Definition dec_deliver_tx (fs : list wfield) : option bytes := Some (g_bytes 1 fs).
Definition enc_end_block (h : Z) : list wfield := f_int 1 h.
Definition dec_end_block (fs : list wfield) : option Z := Some (g_int 1 fs).
Definition enc_key (k : bytes) : list wfield := [(1, WBytes k)].
Definition dec_key (fs : list wfield) : option bytes := Some (g_bytes 1 fs).
Definition enc_update (u : validator_update) : list wfield :=
  f_messages enc_key 1 [vu_key u] ++ f_int 2 (vu_power u).
Definition dec_update (fs : list wfield) : option validator_update :=
  k ← g_message dec_key 1 fs; Some {| vu_key := default [] k; vu_power := g_int 2 fs |}.
Definition ok_update (u : validator_update) : bool := fits_int64 (vu_power u).

(** core/meta/meta.proto:8-24 APIDefinition (a type other than StateTransition, 1,
    reads as StateObject); core/schema/schema.proto:8-21. *)
Definition enc_api (d : api_def) : list wfield :=
  f_bytes 1 (ad_group d) ++ f_bytes 2 (ad_kind d) ++ f_bool 3 (ad_transition d).
Definition dec_api (fs : list wfield) : option api_def :=
  g ← g_text 1 fs; k ← g_text 2 fs;
  Some {| ad_group := g; ad_kind := k; ad_transition := (g_int32 3 fs =? 1)%Z |}.
Definition ok_api (d : api_def) : bool := utf8_valid (ad_group d) && utf8_valid (ad_kind d).
Definition enc_definition (d : definition) : list wfield :=
  f_bool 1 (def_singleton d) ++ f_bytes 2 (def_primary_key d) ++ f_each 3 (def_secondary_keys d).
Definition dec_definition (fs : list wfield) : option definition :=
  p ← g_text 2 fs; s ← g_texts 3 fs;
  Some {| def_singleton := g_bool 1 fs; def_primary_key := p; def_secondary_keys := s |}.
Definition ok_definition (d : definition) : bool :=
  utf8_valid (def_primary_key d) && forallb utf8_valid (def_secondary_keys d).

(** Files (google/protobuf/descriptor.proto: the messages of a file have number
    4, their name 1 and options 7; the ACL option is extension 12000000,
    core/rbac/xt/rbac_extension.proto:9-18). What else is in files is left out. *)
Definition enc_acl (external : bool) : list wfield := f_bool 1 external.
Definition dec_acl (fs : list wfield) : option bool := Some (g_bool 1 fs).
Definition enc_options (acl : option bool) : list wfield := f_message enc_acl 12000000 acl.
Definition dec_options (fs : list wfield) : option (option bool) := g_message dec_acl 12000000 fs.
Definition enc_file_message (m : bytes * option bool) : list wfield :=
  f_each 1 [fst m] ++ f_message enc_options 7 (option_map Some (snd m)).
Definition dec_file_message (fs : list wfield) : option (bytes * option bool) :=
  n ← g_text 1 fs; o ← g_message dec_options 7 fs; Some (n, default None o).
Definition ok_file_message (m : bytes * option bool) : bool := utf8_valid (fst m).
Definition enc_file (f : proto_file) : list wfield := f_messages enc_file_message 4 f.
Definition dec_file (fs : list wfield) : option proto_file := g_messages dec_file_message 4 fs.
Definition ok_file (f : proto_file) : bool := forallb ok_file_message f.

(** core/module/module.proto:11-40 Descriptor. Simplification: a missing API
    definition or schema (nil in Go) reads as an empty one. *)
Definition no_api : api_def := {| ad_group := []; ad_kind := []; ad_transition := false |}.
Definition no_definition : definition :=
  {| def_singleton := false; def_primary_key := []; def_secondary_keys := [] |}.
Definition enc_raw_object (o : raw_object) : list wfield :=
  f_messages enc_api 1 [rw_api o] ++ f_messages enc_definition 2 [rw_schema o].
Definition dec_raw_object (fs : list wfield) : option raw_object :=
  a ← g_message dec_api 1 fs; d ← g_message dec_definition 2 fs;
  Some {| rw_api := default no_api a; rw_schema := default no_definition d |}.
Definition ok_raw_object (o : raw_object) : bool := ok_api (rw_api o) && ok_definition (rw_schema o).
Definition enc_transition (t : transition_type) : list wfield :=
  f_messages enc_api 1 [tt_api t] ++ f_bytes 2 (tt_short t) ++ f_messages enc_file 3 (tt_files t).
Definition dec_transition (fs : list wfield) : option transition_type :=
  a ← g_message dec_api 1 fs; s ← g_text 2 fs; l ← g_messages dec_file 3 fs;
  Some {| tt_api := default no_api a; tt_short := s; tt_files := l |}.
Definition ok_transition (t : transition_type) : bool :=
  ok_api (tt_api t) && utf8_valid (tt_short t) && forallb ok_file (tt_files t).
Definition enc_need (d : api_def) : list wfield := f_messages enc_api 1 [d].
Definition dec_need (fs : list wfield) : option api_def :=
  a ← g_message dec_api 1 fs; Some (default no_api a).
Definition enc_descriptor (d : raw_descriptor) : list wfield :=
  f_bytes 1 (rd_name d) ++ f_messages enc_raw_object 2 (rd_objects d)
  ++ f_messages enc_transition 3 (rd_transitions d) ++ f_messages enc_need 4 (rd_needs d).
Definition dec_descriptor (fs : list wfield) : option raw_descriptor :=
  n ← g_text 1 fs; o ← g_messages dec_raw_object 2 fs; t ← g_messages dec_transition 3 fs;
  d ← g_messages dec_need 4 fs;
  Some {| rd_name := n; rd_objects := o; rd_transitions := t; rd_needs := d |}.
Definition ok_descriptor (d : raw_descriptor) : bool :=
  utf8_valid (rd_name d) && forallb ok_raw_object (rd_objects d)
  && forallb ok_transition (rd_transitions d) && forallb ok_api (rd_needs d).

(** The state objects: core/runtime/v1alpha1/module.proto:10-16,
    core/abci/v1alpha1/abci.proto:22-82, core/rbac/v1alpha1/rbac.proto:10-52,
    x/authn/v1alpha1/authn.proto:46-80, x/bank/v1alpha1/bank.proto:33-42. *)
Definition enc_object (o : object) : list wfield :=
  match o with
  | OModules l => f_messages enc_descriptor 1 l
  | OStage s => f_uint 1 (stage_number s)
  | OBeginBlock b => f_message enc_begin_block 1 b
  | OCheckTx c => f_message enc_check_tx 1 c
  | ODeliverTx t => f_message enc_deliver_tx 1 t
  | OInitChainInfo id => f_bytes 1 id
  | OEndBlock h => f_message enc_end_block 1 h
  | OCurrentBlock n => f_uint 1 n
  | OUpdates l => f_messages enc_update 1 l
  | OAccount a => enc_account a
  | OAuthParams p => enc_auth_params p
  | OAccountNumber n => f_uint 2 n
  | ORole r => enc_role r
  | OBinding s r => f_bytes 1 s ++ f_bytes 2 r
  | ORbacParams => []
  | OBalance a c => f_bytes 1 a ++ f_messages enc_coin 2 c
  end.
Definition ok_object (o : object) : bool :=
  match o with
  | OModules l => forallb ok_descriptor l
  | OStage _ => true
  | OBeginBlock b => forallb ok_begin_block (option_list b)
  | OCheckTx c => forallb ok_check_tx (option_list c)
  | ODeliverTx _ => true
  | OInitChainInfo id => utf8_valid id
  | OEndBlock h => forallb fits_int64 (option_list h)
  | OCurrentBlock n => fits64 n
  | OUpdates l => forallb ok_update l
  | OAccount a => ok_account a
  | OAuthParams p => ok_auth_params p
  | OAccountNumber n => fits64 n
  | ORole r => ok_role r
  | OBinding s r => utf8_valid s && utf8_valid r
  | ORbacParams => true
  | OBalance a c => utf8_valid a && forallb ok_coin c
  end.
(** Reading an object of a type, given by its name. *)
Definition dec_object (ty : bytes) (fs : list wfield) : option object :=
  if bytes_eqb ty ty_modules then l ← g_messages dec_descriptor 1 fs; Some (OModules l)
  else if bytes_eqb ty ty_stage then Some (OStage (stage_of (g_int32 1 fs)))
  else if bytes_eqb ty ty_begin_block then b ← g_message dec_begin_block 1 fs; Some (OBeginBlock b)
  else if bytes_eqb ty ty_check_tx then c ← g_message dec_check_tx 1 fs; Some (OCheckTx c)
  else if bytes_eqb ty ty_deliver_tx then t ← g_message dec_deliver_tx 1 fs; Some (ODeliverTx t)
  else if bytes_eqb ty ty_init_chain_info then i ← g_text 1 fs; Some (OInitChainInfo i)
  else if bytes_eqb ty ty_end_block then h ← g_message dec_end_block 1 fs; Some (OEndBlock h)
  else if bytes_eqb ty ty_current_block then Some (OCurrentBlock (g_uint 1 fs))
  else if bytes_eqb ty ty_updates then l ← g_messages dec_update 1 fs; Some (OUpdates l)
  else if bytes_eqb ty ty_account then a ← dec_account fs; Some (OAccount a)
  else if bytes_eqb ty ty_auth_params then p ← dec_auth_params fs; Some (OAuthParams p)
  else if bytes_eqb ty ty_account_number then Some (OAccountNumber (g_uint 2 fs))
  else if bytes_eqb ty ty_role then r ← dec_role fs; Some (ORole r)
  else if bytes_eqb ty ty_binding then s ← g_text 1 fs; r ← g_text 2 fs; Some (OBinding s r)
  else if bytes_eqb ty ty_rbac_params then Some ORbacParams
  else if bytes_eqb ty ty_balance then a ← g_text 1 fs; c ← g_messages dec_coin 2 fs; Some (OBalance a c)
  else None.

(** runtime/orm/objects.go: proto.Marshal and proto.Unmarshal. Messages have less
    than 2^63 bytes, as slices do. *)
Definition protobuf : codec := {|
  cd_marshal o :=
    let b := encode_fields (enc_object o) in
    if ok_object o && (blen b <? 2 ^ 63) then Some b else None;
  cd_unmarshal ty b := read (dec_object ty) b
|}.
