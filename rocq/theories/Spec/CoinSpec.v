(** What sets of coins mean, independently of how the code parses them. *)
From Coq Require Import NArith ZArith List Bool Sorted.
From stdpp Require Import base list.
From Verif.Model Require Import Bytes Universe.
From Verif.Spec Require Import TextSpec.

(** Denominations: a letter followed by 2 to 127 letters, digits or slashes. *)
Definition letter (b : byte) : Prop := (65 <= b2N b <= 90)%N \/ (97 <= b2N b <= 122)%N.
Definition denomination (d : bytes) : Prop :=
  exists c r, d = c :: r /\ letter c /\ 2 <= length r <= 127
              /\ Forall (fun b => letter b \/ (48 <= b2N b <= 57)%N \/ b2N b = 47%N) r.

(** A list of coins is a set with these amounts: denominations are valid and
    not repeated, amounts are decimal numbers. *)
Definition coin_reads (c : coin) (n : N) : Prop :=
  denomination (co_denom c) /\ decimal_text (co_amount c) n.
Definition amount_in (l : list (bytes * N)) (d : bytes) : N :=
  fold_right (fun x acc => if decide (fst x = d) then snd x + acc else acc)%N 0%N l.
Definition coin_set (l : list coin) (amount : bytes -> N) : Prop :=
  exists ns, Forall2 coin_reads l ns /\ NoDup (map co_denom l)
             /\ forall d, amount d = amount_in (zip (map co_denom l) ns) d.

(** Its normal form: ascending denominations, no zero, amounts as short as
    possible. *)
Definition denom_below (a b : coin) : Prop :=
  bytes_leb (co_denom a) (co_denom b) = true /\ co_denom a <> co_denom b.
Definition normal_set (l : list coin) (amount : bytes -> N) : Prop :=
  coin_set l amount /\ StronglySorted denom_below l
  /\ Forall (fun c => exists n, (n <> 0)%N /\ co_amount c = decimal n) l.

(** Every amount is small enough for the SDK's decimals of [bits] bits and for
    its integers. *)
Definition within (bits : N) (amount : bytes -> N) : Prop :=
  forall d, (amount d * 10 ^ 18 < 2 ^ bits)%N /\ (amount d < 2 ^ 255)%N.
