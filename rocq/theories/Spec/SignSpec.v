(** What a signed transfer is, and what is needed of a pair of keys. *)
From Coq Require Import NArith ZArith List Bool String.
From stdpp Require Import base list.
From Verif.Model Require Import Bytes Universe Module Schema Users Prog Coin Authn Bech32.
From Verif.Spec Require Import MessageSpec ChainSpec.
Local Open Scope N_scope.

(** The address of a key. *)
Definition address_of_key (hash160 : bytes -> bytes) (key : bytes) : bytes := bech32 (str "test") (hash160 key).

(** The transaction [t] only sends [amount] from [from] to [to]; the owner of
    [key] signs it once, with [sequence], and pays [fee]; the signature is for a
    chain and an account number. *)
Record pays (hash160 : bytes -> bytes) (signature_of : bytes -> bytes -> Prop)
    (t : tx) (key chain : bytes) (number sequence : N) (fee : list coin) (from to : bytes) (amount : list coin) : Prop := {
  ps_signer : exists signature,
    tx_signers t = [{| sg_address := address_of_key hash160 key; sg_key := key; sg_signature := signature; sg_sequence := sequence |}]
    /\ signature_of (direct_sign_bytes (tx_body_bytes t) (tx_auth_bytes t) chain number) signature;
  ps_message : tx_msgs t = [MsgSendCoins from to amount];
  ps_fee : tx_fee t = fee;
  ps_payer : tx_payer t = address_of_key hash160 key;
  ps_rest : tx_memo t = [] /\ tx_timeout t = 0
}.

(** What the private key signs can be verified with the public key, which has 33
    bytes. *)
Record key_pair (public_key : bytes -> bytes) (sign_with : bytes -> bytes -> res bytes)
    (verify : bytes -> bytes -> bytes -> bool) (private : bytes) : Prop := {
  kp_size : length (public_key private) = 33%nat;
  kp_verifies : forall m s, sign_with private m = Ok s -> verify (public_key private) m s = true
}.

(** Texts and sizes that protobuf can hold. *)
Definition coin_texts (l : sdk_coins) : Prop := Forall (fun c => utf8_text (fst c)) l.
Record writable (raw from to : bytes) (sequence gas : N) (fee amount : sdk_coins) : Prop := {
  wr_size : blen raw < 2 ^ 64;
  wr_addresses : utf8_text from /\ utf8_text to;
  wr_coins : coin_texts fee /\ coin_texts amount;
  wr_numbers : sequence < 2 ^ 64 /\ gas < 2 ^ 64
}.

(** The account of an address, which has some public key, with its number and
    sequence. *)
Definition has_account (v : view) (a : bytes) (number sequence : N) : Prop :=
  exists acc, v ty_account a (OAccount acc) /\ ac_pubkey acc <> None /\ ac_number acc = number /\ ac_sequence acc = sequence.
