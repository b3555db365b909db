(** x/authn/tx: how the bytes of a transaction are decoded. *)
From Coq Require Import NArith ZArith List Bool String.
From stdpp Require Import base list option gmap.
From Verif.Model Require Import Bytes Wire Proto KindEncoder Desc Schema Module Universe Marshal Users Prog Authn Bech32.
Local Open Scope N_scope.

(** ** The protobuf messages of v1alpha1/tx.proto *)
(** Fields by number and wire type; anything else is unknown. *)
Definition all_known (types : list (N * (wvalue -> bool))) (fs : list wfield) : bool := forallb (known types) fs.

(** tx.proto:33-46 TxRaw. *)
Record tx_raw := { tw_body : bytes; tw_auth : bytes; tw_signatures : list bytes }.
Definition tx_raw_fields : list (N * (wvalue -> bool)) := [(1, is_bytes); (2, is_bytes); (3, is_bytes)].
Definition dec_tx_raw (fs : list wfield) : option tx_raw :=
  Some {| tw_body := g_bytes 1 fs; tw_auth := g_bytes 2 fs; tw_signatures := payloads 3 fs |}.

(** tx.proto:68-94 TxBody; the extension options have to be messages, nothing
    reads them. *)
Record tx_body := { tb_messages : list any; tb_memo : bytes; tb_timeout : N }.
Definition tx_body_fields : list (N * (wvalue -> bool)) :=
  [(1, is_bytes); (2, is_bytes); (3, is_varint); (1023, is_bytes); (2047, is_bytes)].
Definition dec_tx_body (fs : list wfield) : option tx_body :=
  m ← g_messages dec_any 1 fs; t ← g_text 2 fs;
  _ ← g_messages dec_any 1023 fs; _ ← g_messages dec_any 2047 fs;
  Some {| tb_messages := m; tb_memo := t; tb_timeout := g_uint 3 fs |}.

(** tx.proto:131-159 ModeInfo: the single mode that is set at the end, if any.
    Two single ones are merged; a multi mode replaces a single one. *)
Fixpoint single_of (acc : option bytes) (fs : list wfield) : option bytes :=
  match fs with
  | [] => acc
  | (n, v) :: r =>
      match v with
      | WBytes b =>
          if n =? 1 then single_of (Some (default [] acc ++ b)) r
          else if n =? 2 then single_of None r
          else single_of acc r
      | _ => single_of acc r
      end
  end.
(** All parts have to be messages: single modes, bit arrays (multisig.proto:17-20)
    and, nested, the modes of a multi mode. The fuel bounds the nesting; the
    number of bytes suffices. *)
Definition is_message (b : bytes) : bool := match parse_fields b with Some _ => true | None => false end.
Fixpoint mode_readable (fuel : nat) (fs : list wfield) : bool :=
  match fuel with
  | O => false
  | S fuel =>
      forallb is_message (payloads 1 fs)
      && forallb (fun b => match parse_fields b with
                           | None => false
                           | Some gs =>
                               forallb is_message (payloads 1 gs)
                               && forallb (fun c => match parse_fields c with
                                                    | None => false
                                                    | Some hs => mode_readable fuel hs
                                                    end) (payloads 2 gs)
                           end) (payloads 2 fs)
  end.
(** The mode (an enum) of the single mode, [None] if there is no single mode. *)
Definition dec_mode (fs : list wfield) : option (option Z) :=
  if mode_readable (S (length (encode_fields fs))) fs
  then match single_of None fs with
       | None => Some None
       | Some b => match parse_fields b with Some gs => Some (Some (g_int32 1 gs)) | None => None end
       end
  else None.

(** tx.proto:114-128 SignerInfo; 164-181 Fee; 98-110 AuthInfo. *)
Record signer_info := { si_key : option any; si_mode : option (option Z); si_sequence : N }.
Definition dec_signer_info (fs : list wfield) : option signer_info :=
  k ← g_message dec_any 1 fs; m ← g_message dec_mode 2 fs;
  Some {| si_key := k; si_mode := m; si_sequence := g_uint 3 fs |}.
Record fee := { fe_amount : list coin; fe_payer : bytes }.
Definition dec_fee (fs : list wfield) : option fee :=
  a ← g_messages dec_coin 1 fs; p ← g_text 3 fs; _ ← g_text 4 fs;
  Some {| fe_amount := a; fe_payer := p |}.
Record auth_info := { ai_signers : list signer_info; ai_fee : option fee }.
Definition auth_info_fields : list (N * (wvalue -> bool)) := [(1, is_bytes); (2, is_bytes)].
Definition dec_auth_info (fs : list wfield) : option auth_info :=
  s ← g_messages dec_signer_info 1 fs; f ← g_message dec_fee 2 fs;
  Some {| ai_signers := s; ai_fee := f |}.

(** decode_unknowns.go:24-40 unmarshalAndRejectUnknowns. *)
Definition read_known {A} (types : list (N * (wvalue -> bool))) (dec : list wfield -> option A) (b : bytes) : res A :=
  match parse_fields b with
  | None => Fail EAnon
  | Some fs =>
      match dec fs with
      | None => Fail EAnon
      | Some x => if all_known types fs then Ok x else Fail EAnon
      end
  end.

(** ** The state transitions, by the full name of their protobuf message *)
Definition dec_msg (ty : bytes) (fs : list wfield) : option msg :=
  if bytes_eqb ty (tt_name t_create_descriptors)
  then l ← g_messages dec_descriptor 1 fs; Some (CreateModuleDescriptors l)
  else if bytes_eqb ty (tt_name t_set_init_chain)
  then i ← g_message (g_text 1) 1 fs; Some (MsgSetInitChain i)
  else if bytes_eqb ty (tt_name t_set_check_tx)
  then c ← g_message dec_check_tx 1 fs; Some (MsgSetCheckTxState c)
  else if bytes_eqb ty (tt_name t_set_begin_block)
  then b ← g_message dec_begin_block 1 fs; Some (MsgSetBeginBlockState b)
  else if bytes_eqb ty (tt_name t_set_deliver_tx)
  then t ← g_message dec_deliver_tx 1 fs; Some (MsgSetDeliverTxState t)
  else if bytes_eqb ty (tt_name t_set_end_block)
  then h ← g_message dec_end_block 1 fs; Some (MsgSetEndBlockState h)
  else if bytes_eqb ty (tt_name t_set_updates)
  then l ← g_messages dec_update 1 fs; Some (MsgSetValidatorUpdates l)
  else if bytes_eqb ty (tt_name t_create_account)
  then a ← g_message dec_account 1 fs; Some (MsgCreateAccount a)
  else if bytes_eqb ty (tt_name t_update_account)
  then a ← g_message dec_account 2 fs; Some (MsgUpdateAccount a)
  else if bytes_eqb ty (tt_name t_delete_account)
  then a ← g_message dec_account 2 fs; Some (MsgDeleteAccount a)
  else if bytes_eqb ty (tt_name t_create_role)
  then r ← g_message dec_role 1 fs; Some (MsgCreateRole r)
  else if bytes_eqb ty (tt_name t_bind_role)
  then r ← g_text 1 fs; s ← g_text 2 fs; Some (MsgBindRole r s)
  else if bytes_eqb ty (tt_name t_send_coins)
  then f ← g_text 1 fs; t ← g_text 2 fs; c ← g_messages dec_coin 3 fs; Some (MsgSendCoins f t c)
  else if bytes_eqb ty (tt_name t_set_balance)
  then a ← g_text 1 fs; c ← g_messages dec_coin 2 fs; Some (MsgSetBalance a c)
  else None.

(** protoregistry FindMessageByURL: the part after the last slash. *)
Fixpoint after_slash (acc url : bytes) : bytes :=
  match url with
  | [] => acc
  | x :: r => if decide (x = Byte.x2f) then after_slash r r else after_slash acc r
  end.
Definition url_name (url : bytes) : bytes := after_slash url url.
(** decode_unknowns.go:71-78 FindMessageByURL. *)
Definition message_name (url : bytes) : bytes :=
  if bytes_eqb url (str "/cosmos.bank.v1beta1.MsgSend") then tt_name t_send_coins else url_name url.
(** decode_unknowns.go:42-62 getTransitions. A message type that is no state
    transition, an unknown one and unreadable bytes are errors. *)
Definition transition_of (a : any) : res msg :=
  if bytes_eqb (any_url a) [] then Fail EAnon
  else match read (dec_msg (message_name (any_url a))) (any_value a) with
       | Some m => Ok m
       | None => Fail EAnon
       end.
Fixpoint transitions_of (l : list any) : res (list msg) :=
  match l with
  | [] => Ok []
  | a :: l' => res_bind (transition_of a) (fun m => res_bind (transitions_of l') (fun ms => Ok (m :: ms)))
  end.
Definition get_transitions (l : list any) : res (list msg) :=
  match l with [] => Fail EAnon | _ => transitions_of l end.

Section Decoder.
  (** PubKey.Address of crypto/secp256k1/secp256k1.go:117-126:
      RIPEMD160(SHA256(key)). *)
  Context (hash160 : bytes -> bytes).

  (** crypto/crypto.go:13-42,59-66: the names of the public key type, and
      resolving a key; secp256k1.proto:11-13 PubKey. *)
  Definition key_urls : list bytes :=
    [str "/tmos.x.authn.crypto.v1alpha1.PubKey"; str "/cosmos.crypto.secp256k1.PubKey"].
  Definition resolve_key (a : any) : res bytes :=
    if existsb (bytes_eqb (any_url a)) key_urls
    then match parse_fields (any_value a) with Some fs => Ok (g_bytes 1 fs) | None => Fail EAnon end
    else Fail EAnon.
  (** decoder.go:121 and secp256k1.go:118-120: another length panics. *)
  Definition key_address (key : bytes) : res bytes :=
    if (blen key =? 33) then Ok (bech32 (str "test") (hash160 key)) else Panic.

  (** decoder.go:100-136: one signer. SIGN_MODE_DIRECT is 1. *)
  Definition signer_of (si : signer_info) (signature : bytes) : res signer :=
    match si_key si with
    | None => Fail EAnon
    | Some k =>
        match si_mode si with
        | Some (Some mode) =>
            if (mode =? 1)%Z
            then res_bind (resolve_key k) (fun key =>
                 res_bind (key_address key) (fun addr =>
                 Ok {| sg_address := addr; sg_key := key; sg_signature := signature;
                       sg_sequence := si_sequence si |}))
            else Fail EAnon
        | _ => Fail EAnon
        end
    end.
  Fixpoint signers_of (l : list signer_info) (sigs : list bytes) : res (list signer) :=
    match l, sigs with
    | si :: l', s :: sigs' =>
        res_bind (signer_of si s) (fun x => res_bind (signers_of l' sigs') (fun xs => Ok (x :: xs)))
    | _, _ => Ok []
    end.
  (** decoder.go:89-145 authInfo. *)
  Definition signers_and_payer (signers : list signer_info) (payer : bytes) (sigs : list bytes)
    : res (bytes * list signer) :=
    match signers with
    | [] => Fail EAnon
    | _ =>
        if (length sigs =? length signers)%nat
        then res_bind (signers_of signers sigs) (fun l =>
             Ok (match payer, l with [], s :: _ => sg_address s | _, _ => payer end, l))
        else Fail EAnon
    end.

  (** decoder.go:30-87 Decode. *)
  Definition decode_tx (raw : bytes) : res tx :=
    res_bind (read_known tx_raw_fields dec_tx_raw raw) (fun w =>
    if bytes_eqb (tw_body w) [] then Fail EAnon
    else if bytes_eqb (tw_auth w) [] then Fail EAnon
    else match tw_signatures w with
    | [] => Fail EAnon
    | _ :: _ =>
        res_bind (read_known tx_body_fields dec_tx_body (tw_body w)) (fun body =>
        res_bind (read_known auth_info_fields dec_auth_info (tw_auth w)) (fun auth =>
        match ai_fee auth with
        | None => Fail EAnon
        | Some f =>
            match fe_amount f with
            | [] => Fail EAnon
            | _ :: _ =>
                res_bind (get_transitions (tb_messages body)) (fun msgs =>
                res_bind (signers_and_payer (ai_signers auth) (fe_payer f) (tw_signatures w)) (fun ps =>
                Ok {| tx_body_bytes := tw_body w; tx_auth_bytes := tw_auth w;
                      tx_memo := tb_memo body; tx_timeout := tb_timeout body;
                      tx_fee := fe_amount f; tx_payer := fst ps;
                      tx_users := users_from_string (map sg_address (snd ps));
                      tx_signers := snd ps; tx_msgs := msgs |}))
            end
        end))
    end).
End Decoder.
