(** Which messages stop the node, for addresses of any length: [fatal] of LiveSpec
    with the two places of FiledSpec kept apart. *)
From Coq Require Import NArith List Bool String.
From stdpp Require Import base list.
From Verif.Model Require Import Bytes Schema Orm Users Runtime Universe Coin Rbac Bank Authn.
From Verif.Spec Require Import UserSpec CoinSpec RbacSpec ChainSpec LiveSpec FiledSpec.

Section Fatal.
  Context (bits : N) (v : view).
  (** An account cannot be opened: something is on the shelf already. *)
  Definition shelf_taken (a : bytes) : Prop := has v ty_account (shelf a) \/ has v ty_binding (shelf a).
  (** Coins cannot be stored for [to], who is not found to have any: there are some
      on the shelf, or an account is to be opened and cannot. *)
  Definition barred (to : bytes) : Prop :=
    ~ has v ty_balance to
    /\ (has v ty_balance (shelf to) \/ (~ has v ty_account to /\ shelf_taken to)).

  Definition fatal_any (us : users) (m : msg) : Prop :=
    granted v VDeliver (msg_name m) us
    /\ match m with
       | MsgCreateAccount None => True
       | MsgCreateAccount (Some a) => ac_address a = [] \/ shelf_taken (ac_address a)
       | MsgSendCoins from to amt =>
           from = [] \/ (covers bits v from amt /\ has v ty_balance (shelf from) /\ (to = [] \/ barred to))
       | _ => False
       end.
End Fatal.
(** The addresses of a message have less than 2^63 bytes, as all slices of Go. *)
Definition possible_addresses (m : msg) : Prop :=
  match m with
  | MsgCreateAccount (Some a) => (blen (ac_address a) < 2 ^ 63)%N
  | MsgSendCoins from to _ => (blen from < 2 ^ 63 /\ blen to < 2 ^ 63)%N
  | _ => True
  end.

Section Runs.
  Context (C : codec) (bits : N) (verify : bytes -> bytes -> bytes -> bool).
  Context (enum : list (event object msg) -> users -> list user) (fuel : nat).
  Notation pay := (pay C bits verify enum fuel).
  Notation send := (send C bits verify enum fuel).
  (** Messages one after the other, all successful. *)
  Inductive all_sent (us : users) : list msg -> node -> node -> Prop :=
  | all_sent_nil x : all_sent us [] x x
  | all_sent_cons m l x x1 x2 : send us m x = (Ok tt, x1) -> all_sent us l x1 x2 -> all_sent us (m :: l) x x2.
  (** The fee is paid, the first messages succeed, and the next one is fatal then. *)
  Definition runs_into_fatal (t : tx) (x : node) : Prop :=
    exists before m after x1 x2, tx_msgs t = before ++ m :: after /\ pay t x = (Ok tt, x1)
      /\ all_sent (tx_users t) before x1 x2 /\ fatal_any bits (gets C bits verify x2) (tx_users t) m.
End Runs.

(** A transfer that can be made: the sender's coins are found, cover the amount and
    are also on the shelf; the receiver's are in both places and can be read, or in
    neither, and then there is an account or one can be opened. *)
Definition payable (bits : N) (v : view) (from to : bytes) (amt : list coin) : Prop :=
  covers bits v from amt /\ has v ty_balance (shelf from) /\ to <> []
  /\ ((exists a c, v ty_balance to (OBalance a c) /\ readable bits c) /\ has v ty_balance (shelf to)
      \/ ~ has v ty_balance to /\ ~ has v ty_balance (shelf to) /\ (has v ty_account to \/ ~ shelf_taken v to)).
