(** The ledger: what a transaction takes from an address and gives to it, and
    what of it was carried out. *)
From Coq Require Import NArith List.
From stdpp Require Import base list.
From Verif.Model Require Import Bytes Prog Universe Coin Authn Distribution TestApp.
From Verif.Spec Require Import ChainSpec.
Local Open Scope N_scope.

(** What the messages take from an address and give to it, of one denomination. *)
Fixpoint taken_from (bits : N) (l : list msg) (a d : bytes) : N :=
  match l with
  | [] => 0
  | MsgSendCoins from _ amt :: l => (if decide (from = a) then worth bits amt d else 0) + taken_from bits l a d
  | _ :: l => taken_from bits l a d
  end.
Fixpoint given_to (bits : N) (l : list msg) (a d : bytes) : N :=
  match l with
  | [] => 0
  | MsgSendCoins _ to amt :: l => (if decide (to = a) then worth bits amt d else 0) + given_to bits l a d
  | _ :: l => given_to bits l a d
  end.

(** Between [v] and [v'], the fee went from the payer to the fee collector, the
    messages [l] were paid, and no other balance changed: for every address and
    denomination, what there was and came in is what there is and went out. *)
Definition settled_as (bits : N) (v v' : view) (t : tx) (l : list msg) : Prop :=
  forall a d n n', balance bits v a d n -> balance bits v' a d n' ->
    n + (if decide (fee_collector = a) then worth bits (tx_fee t) d else 0) + given_to bits l a d
    = n' + (if decide (tx_payer t = a) then worth bits (tx_fee t) d else 0) + taken_from bits l a d.

(** The first messages of the transaction, all of them if it succeeded; otherwise
    the next one failed. *)
Definition carried_out (t : tx) (r : res unit) (l : list msg) : Prop :=
  (r = Ok tt /\ l = tx_msgs t) \/ (r <> Ok tt /\ exists m rest, tx_msgs t = l ++ m :: rest).
