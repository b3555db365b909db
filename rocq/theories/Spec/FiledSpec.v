(** What a transfer does for addresses of any length. The object of an address is
    stored under the address preceded by a part of its length, which is empty for
    addresses below 128 bytes; it is looked for under the address alone. *)
From Coq Require Import NArith List Bool String.
From stdpp Require Import base list.
From Verif.Model Require Import Bytes Wire Schema Orm Runtime Universe Coin Rbac Authn.
From Verif.Spec Require Import CoinSpec ChainSpec.

(** Where the object of an address is stored: the bytes of the length as a varint,
    but for the first, and the address. *)
Definition shelf (a : bytes) : bytes := drop 1 (append_varint (blen a)) ++ a.

(** Balances by the key they can be read with. *)
Notation balances := (bytes -> object -> Prop).
Definition written_at (b : balances) (k : bytes) (o : object) : balances :=
  fun k' o' => if decide (k' = k) then o' = o else b k' o'.
Definition nothing_at (b : balances) (k : bytes) : Prop := forall o, ~ b k o.
Definition something_at (b : balances) (k : bytes) : Prop := exists o, b k o.

(** The coins read under [from] less [amt] are written to the shelf of [from], in
    place of what is there. *)
Definition debited (bits : N) (b : balances) (from : bytes) (amt : list coin) (b' : balances) : Prop :=
  exists a c c', b from (OBalance a c) /\ readable bits c /\ readable bits amt
    /\ (forall d, worth bits amt d <= worth bits c d)%N
    /\ normal_set c' (fun d => worth bits c d - worth bits amt d)%N
    /\ something_at b (shelf from)
    /\ forall k o, b' k o <-> written_at b (shelf from) (OBalance from c') k o.
(** The coins read under [to] and [amt] are written to the shelf of [to]: in place
    of what is there, or there is nothing in both places. *)
Definition credited (bits : N) (b : balances) (to : bytes) (amt : list coin) (b' : balances) : Prop :=
  (exists a c c', b to (OBalance a c) /\ readable bits c
     /\ normal_set c' (fun d => worth bits c d + worth bits amt d)%N
     /\ something_at b (shelf to)
     /\ forall k o, b' k o <-> written_at b (shelf to) (OBalance to c') k o)
  \/ (nothing_at b to /\ nothing_at b (shelf to)
      /\ forall k o, b' k o <-> written_at b (shelf to) (OBalance to amt) k o).
(** The receiver cannot be credited. *)
Definition not_creditable (bits : N) (b : balances) (to : bytes) : Prop :=
  exists a c, b to (OBalance a c) /\ (~ readable bits c \/ nothing_at b (shelf to) \/ 2 ^ 63 <= blen to)%N.

(** An account has been opened, as [opened] of ChainSpec for any length. *)
Record opened_where_filed (v v' : view) (a : bytes) : Prop := {
  of_number : exists n, v ty_account_number singleton_id (OAccountNumber n)
    /\ v' ty_account_number singleton_id (OAccountNumber ((n + 1) mod 2 ^ 64))
    /\ v' ty_account (shelf a) (OAccount {| ac_address := a; ac_pubkey := None; ac_number := n; ac_sequence := 0 |});
  of_account : forall o, ~ v ty_account (shelf a) o;
  of_role : (forall o, ~ v ty_binding (shelf a) o) /\ v' ty_binding (shelf a) (OBinding a external_role_id);
  of_others : forall ty k o, ty <> ty_balance -> ty <> ty_account_number ->
    ~ (k = shelf a /\ (ty = ty_account \/ ty = ty_binding)) -> v' ty k o <-> v ty k o
}.

(** [amt] has been moved: the sender debited, the receiver credited, and an account
    opened for a receiver who has neither coins nor an account. *)
Definition moved_any (bits : N) (v v' : view) (from to : bytes) (amt : list coin) : Prop :=
  exists b, debited bits (v ty_balance) from amt b /\ credited bits b to amt (v' ty_balance)
    /\ ((something_at b to \/ something_at (v ty_account) to) /\ same_except [ty_balance] v v'
        \/ nothing_at b to /\ nothing_at (v ty_account) to /\ opened_where_filed v v' to).
(** [amt] has been taken from the sender and cannot be given to the receiver. *)
Definition taken_only (bits : N) (v v' : view) (from to : bytes) (amt : list coin) : Prop :=
  debited bits (v ty_balance) from amt (v' ty_balance) /\ not_creditable bits (v' ty_balance) to
  /\ same_except [ty_balance] v v'.

(** How much of a denomination is read under a key. *)
Definition read_at (bits : N) (b : balances) (k d : bytes) (n : N) : Prop :=
  (exists a c, b k (OBalance a c) /\ n = worth bits c d) \/ nothing_at b k /\ n = 0%N.
