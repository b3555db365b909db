(** Which bytes are a transaction: the messages of x/authn/v1alpha1/tx.proto as
    relations between bytes and what they mean. *)
From Coq Require Import NArith ZArith List String.
From stdpp Require Import base list option gmap.
From Verif.Model Require Import Bytes Proto KindEncoder Schema Module Universe Users Authn Bech32 TxDecoder.
From Verif.Spec Require Import WireSpec.
From Verif.Spec Require Export MessageSpec.
Local Open Scope N_scope.

(** ** Messages *)
Definition fee_text (b : bytes) (f : list coin * bytes) : Prop :=
  exists fs, message_text b fs /\ Forall2 coin_text (every 1 fs) (fst f)
    /\ texts 3 fs /\ texts 4 fs /\ snd f = final 3 fs.

(** How a signer signs: a single mode or many. *)
Inductive mode_text : bytes -> Prop :=
| mo_text b fs : message_text b fs -> (forall s, s ∈ every 1 fs -> any_message s) ->
    (forall m, m ∈ every 2 fs -> multi_text m) -> mode_text b
with multi_text : bytes -> Prop :=
| mu_text b fs : message_text b fs -> (forall s, s ∈ every 1 fs -> any_message s) ->
    (forall m, m ∈ every 2 fs -> mode_text m) -> multi_text b.
(** The single mode that is left when later fields replace earlier ones is
    number 1, direct. *)
Definition direct_text (b : bytes) : Prop :=
  exists pre post gs, message_text b (pre ++ post)
    /\ (pre = [] \/ exists pre' m, pre = pre' ++ [(2, WBytes m)]) /\ every 2 post = []
    /\ every 1 post <> [] /\ message_text (concat (every 1 post)) gs /\ final_number 1 gs mod 2 ^ 32 = 1.

Section Transactions.
  Context (hash160 : bytes -> bytes).
  Definition key_names : list bytes :=
    [str "/tmos.x.authn.crypto.v1alpha1.PubKey"; str "/cosmos.crypto.secp256k1.PubKey"].
  Definition key_text (b key : bytes) : Prop :=
    exists fs k ks, message_text b fs /\ merged any_text (every 1 fs) k /\ any_url k ∈ key_names
      /\ message_text (any_value k) ks /\ key = final 1 ks.
  Record signer_text (b : bytes) (s : signer) : Prop := {
    st_key : key_text b (sg_key s);
    st_size : length (sg_key s) = 33%nat;
    st_address : sg_address s = bech32 (str "test") (hash160 (sg_key s));
    st_fields : exists fs, message_text b fs
      /\ every 2 fs <> [] /\ Forall mode_text (every 2 fs) /\ direct_text (concat (every 2 fs))
      /\ sg_sequence s = final_number 3 fs
  }.

  (** The type of a message is what follows the last slash of its URL, but for
      one name of the Cosmos SDK. *)
  Definition type_of_url (url ty : bytes) : Prop :=
    if decide (url = str "/cosmos.bank.v1beta1.MsgSend") then ty = str "tmos.x.bank.v1alpha1.MsgSendCoins"
    else Byte.x2f ∉ ty /\ (url = ty \/ exists pre, url = pre ++ Byte.x2f :: ty).
  Definition msg_text (b : bytes) (m : msg) : Prop :=
    exists a ty, any_text b a /\ any_url a <> [] /\ type_of_url (any_url a) ty
      /\ transition_text ty (any_value a) m.

  Record tx_text (raw : bytes) (t : tx) : Prop := {
    tt_raw : exists fs, message_text raw fs /\ only [1; 2; 3] [] fs
      /\ tx_body_bytes t = final 1 fs /\ tx_auth_bytes t = final 2 fs /\ map sg_signature (tx_signers t) = every 3 fs;
    tt_present : tx_body_bytes t <> [] /\ tx_auth_bytes t <> [] /\ tx_signers t <> [];
    tt_body : exists fs, message_text (tx_body_bytes t) fs /\ only [1; 2; 1023; 2047] [3] fs
      /\ Forall2 msg_text (every 1 fs) (tx_msgs t) /\ tx_msgs t <> []
      /\ texts 2 fs /\ tx_memo t = final 2 fs /\ tx_timeout t = final_number 3 fs
      /\ (forall b, b ∈ every 1023 fs ++ every 2047 fs -> exists a, any_text b a);
    tt_auth : exists fs, message_text (tx_auth_bytes t) fs /\ only [1; 2] [] fs
      /\ Forall2 signer_text (every 1 fs) (tx_signers t)
      /\ exists payer, merged fee_text (every 2 fs) (tx_fee t, payer) /\ tx_fee t <> []
         /\ tx_payer t = match payer, tx_signers t with [], s :: _ => sg_address s | _, _ => payer end;
    tt_users : forall a, tx_users t !! a = if decide (a ∈ map sg_address (tx_signers t)) then Some (default_user a) else None
  }.

  (** A signer's key has another size than 33 bytes. *)
  Definition wrong_key_size (raw : bytes) : Prop :=
    exists fs gs b key, message_text raw fs /\ message_text (final 2 fs) gs /\ b ∈ every 1 gs
      /\ key_text b key /\ length key <> 33%nat.
End Transactions.
