(** Concrete signed transfers, used only in examples: in the toy scheme a key is
    its own public key, and a signature is the key with the message. *)
From Coq Require Import NArith ZArith List Bool String.
From stdpp Require Import base list.
From Verif.Model Require Import Bytes Users Prog Universe Coin Authn TestApp Abci Sign.
From Verif.Spec Require Import ChainSpec DemoChain.
Local Open Scope N_scope.

Definition demo_public (key : bytes) : bytes := key.
Definition demo_sign (key message : bytes) : res bytes := Ok (key ++ message).
Definition hex_char (n : N) : byte := N2b (if n <? 10 then 48 + n else 87 + n).
Definition hex_of (b : bytes) : bytes := flat_map (fun x => [hex_char (b2N x / 16); hex_char (b2N x mod 16)]) b.
Definition hex_genesis : bytes := Eval vm_compute in hex_of genesis_secret.
Definition three_hundred : sdk_coins := [(str "test", 300%Z)].
Definition fifty : sdk_coins := [(str "test", 50%Z)].
Definition bytes_of (r : res bytes) : bytes := match r with Ok b => b | _ => [] end.
(** Genesis pays alice; the same again with the next sequence. *)
Definition tx_signed : bytes := Eval vm_compute in
  bytes_of (sign demo_public demo_sign hex_genesis demo_chain genesis_address alice_address three_hundred).
Definition tx_signed_next : bytes := Eval vm_compute in
  bytes_of (signed_payment demo_public demo_sign genesis_secret demo_chain 0 1 fifty 5000 genesis_address alice_address three_hundred).
Definition signed_history : list abci_call := [CallBeginBlock 1%Z (str "hash"); CallDeliverTx tx_signed].
