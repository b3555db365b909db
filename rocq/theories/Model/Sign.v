(** testapp/module/sign.go: a transfer signed with the Cosmos SDK.

    The SDK (v0.42.4) is not part of the repository. That the SDK's transaction
    builder writes the messages of cosmos/tx/v1beta1/tx.proto, which have the same
    fields as x/authn/v1alpha1/tx.proto, is written here from knowledge of that
    version: empty fields are omitted, strings are not checked. *)
From Coq Require Import NArith ZArith List Bool String.
From stdpp Require Import base list option.
From Verif.Model Require Import Bytes Wire Proto KindEncoder Schema Users Module Universe Marshal Coin Prog Authn TxDecoder.
Local Open Scope N_scope.

(** encoding/hex DecodeString: pairs of digits, letters in either case. *)
Definition hex_digit (b : byte) : option N :=
  let n := b2N b in
  if (48 <=? n) && (n <=? 57) then Some (n - 48)
  else if (97 <=? n) && (n <=? 102) then Some (n - 87)
  else if (65 <=? n) && (n <=? 70) then Some (n - 55)
  else None.
Fixpoint hex_decode (s : bytes) : option bytes :=
  match s with
  | [] => Some []
  | [_] => None
  | a :: b :: s' =>
      match hex_digit a, hex_digit b, hex_decode s' with
      | Some x, Some y, Some r => Some (N2b (16 * x + y) :: r)
      | _, _, _ => None
      end
  end.

(** sign.go:23-27 legacybank.MsgSend, packed by SetMsgs (33): the sender, the
    receiver, the coins with their amounts in decimal. *)
Definition enc_send (s : bytes * bytes * sdk_coins) : list wfield :=
  f_bytes 1 (fst (fst s)) ++ f_bytes 2 (snd (fst s)) ++ f_messages enc_coin 3 (to_coins (snd s)).
Definition send_any (from to : bytes) (amount : sdk_coins) : any :=
  {| any_url := str "/cosmos.bank.v1beta1.MsgSend"; any_value := encode_fields (enc_send (from, to, amount)) |}.
(** TxBody with one message, without memo and timeout. *)
Definition send_body (from to : bytes) (amount : sdk_coins) : bytes :=
  encode_fields (f_messages enc_any 1 [send_any from to amount]).

(** sign.go:43-54,69-80 SignatureV2 and SetSignatures: SignerInfo with the public
    key, ModeInfo with the single mode SIGN_MODE_DIRECT (the default mode, 35), the
    sequence. *)
Definition sdk_key (key : bytes) : any :=
  {| any_url := str "/cosmos.crypto.secp256k1.PubKey"; any_value := encode_fields (f_bytes 1 key) |}.
Definition enc_single_mode (mode : N) : list wfield := f_uint 1 mode.
Definition enc_mode_info (mode : N) : list wfield := f_messages enc_single_mode 1 [mode].
Definition enc_signer_info (s : bytes * N) : list wfield :=
  f_messages enc_any 1 [sdk_key (fst s)] ++ f_messages enc_mode_info 2 [1] ++ f_uint 3 (snd s).
(** sign.go:30-31 SetFeeAmount, SetGasLimit: Fee without payer and granter. *)
Definition enc_sdk_fee (f : sdk_coins * N) : list wfield :=
  f_messages enc_coin 1 (to_coins (fst f)) ++ f_uint 2 (snd f).
(** AuthInfo. *)
Definition send_auth (key : bytes) (sequence : N) (fee : sdk_coins) (gas : N) : bytes :=
  encode_fields (f_messages enc_signer_info 1 [(key, sequence)] ++ f_messages enc_sdk_fee 2 [(fee, gas)]).
(** sign.go:37-41,59 GetSignBytes for SIGN_MODE_DIRECT: the SDK's SignDoc. *)
Definition sign_doc (body auth chain_id : bytes) (number : N) : bytes :=
  encode_fields (f_bytes 1 body ++ f_bytes 2 auth ++ f_bytes 3 chain_id ++ f_uint 4 number).
(** sign.go:85 TxEncoder: TxRaw. *)
Definition raw_tx (body auth signature : bytes) : bytes :=
  encode_fields (f_bytes 1 body ++ f_bytes 2 auth ++ f_each 3 [signature]).

Section Sign.
  (** PrivKey.PubKey and PrivKey.Sign of the SDK's crypto/keys/secp256k1. *)
  Context (public_key : bytes -> bytes) (sign_with : bytes -> bytes -> res bytes).

  (** sign.go:19-91 with the account number, the sequence, the fee and the gas,
      which are constants there, as arguments. The signature does not change what
      is signed, so the first SetSignatures (54) is left out. *)
  Definition signed_payment (key chain_id : bytes) (number sequence : N) (fee : sdk_coins) (gas : N)
      (from to : bytes) (amount : sdk_coins) : res bytes :=
    let body := send_body from to amount in
    let auth := send_auth (public_key key) sequence fee gas in
    res_bind (sign_with key (sign_doc body auth chain_id number)) (fun signature =>
    Ok (raw_tx body auth signature)).

  (** sign.go:14-91 Sign. *)
  Definition sign (key_hex chain_id from to : bytes) (amount : sdk_coins) : res bytes :=
    match hex_decode key_hex with
    | None => Fail EAnon
    | Some key => signed_payment key chain_id 0 0 [(str "test", 50%Z)] 5000 from to amount
    end.
End Sign.
