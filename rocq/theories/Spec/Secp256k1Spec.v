(** What keys and signatures are. *)
From Coq Require Import NArith List Bool String.
From stdpp Require Import base list.
From Verif.Model Require Import Bytes.

(** The number written by bytes, most significant first. *)
Fixpoint number (b : bytes) : N :=
  match b with [] => 0%N | c :: b' => (b2N c * 256 ^ N.of_nat (length b') + number b')%N end.
(** A signature of 64 bytes holds two numbers. *)
Definition holds (sig : bytes) (r s : N) : Prop :=
  exists a b, length a = 32%nat /\ length b = 32%nat /\ sig = a ++ b /\ number a = r /\ number b = s.
(** The order of the group of the curve secp256k1, in decimals (SEC 2). *)
Definition group_order : N := 115792089237316195423570985008687907852837564279074904382605163141518161494337.

(** What is expected of the group and of the number library. *)
Record curve_ok {point : Type} (order : N) (base_mult : N -> point) (mult : N -> point -> point)
    (add : point -> point -> point) (first : point -> option N) (inverse : N -> option N) (nonce : N -> bytes -> N) : Prop := {
  cv_order : (1 < order)%N;
  cv_add : forall a b : N, add (base_mult a) (base_mult b) = base_mult ((a + b) mod order)%N;
  cv_mult : forall a b : N, mult a (base_mult b) = base_mult ((a * b) mod order)%N;
  cv_negated : forall a, (0 < a < order)%N -> first (base_mult (order - a)%N) = first (base_mult a);
  cv_finite : forall a, (0 < a < order)%N -> first (base_mult a) <> None;
  cv_inverse : forall a, (0 < a < order)%N -> exists w, inverse a = Some w /\ (w < order)%N /\ ((a * w) mod order = 1)%N;
  cv_nonce : forall d h, (0 < nonce d h < order)%N
}.
