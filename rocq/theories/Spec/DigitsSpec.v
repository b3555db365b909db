(** Bytes written as text: two digits for each, small or capital letters. *)
From Coq Require Import NArith List String.
From stdpp Require Import base list.
From Verif.Model Require Import Bytes.
Local Open Scope N_scope.

Definition digit_of (c : byte) (n : N) : Prop :=
  str "0123456789abcdef" !! N.to_nat n = Some c \/ str "0123456789ABCDEF" !! N.to_nat n = Some c.
Inductive digits_of : bytes -> bytes -> Prop :=
| no_digits : digits_of [] []
| two_digits c d x s b : digit_of c (b2N x / 16) -> digit_of d (b2N x mod 16) -> digits_of s b ->
    digits_of (c :: d :: s) (x :: b).
