(** Points of a curve y² = x³ + b over the integers modulo p, after the textbook. *)
From Coq Require Import NArith ZArith Znumtheory List.
From stdpp Require Import base list.
From Verif.Model Require Import Bytes.
From Verif.Spec Require Import Secp256k1Spec.
Local Open Scope Z_scope.

Definition reduced (p x : Z) : Prop := 0 <= x < p.
Definition lies_on (p b x y : Z) : Prop := (p | y ^ 2 - (x ^ 3 + b)).
(** A line of slope l through (x1, y1) that meets the curve at x1, x2 and a third
    point; (x3, y3) is the third point, reflected. *)
Definition line (p l x1 y1 x2 x3 y3 : Z) : Prop :=
  reduced p x3 /\ reduced p y3 /\ (p | x3 - (l ^ 2 - x1 - x2)) /\ (p | y3 - (l * (x1 - x3) - y1)).
(** The sum of two points with different first coordinates. *)
Definition chord (p x1 y1 x2 y2 x3 y3 : Z) : Prop :=
  exists l, (p | l * (x2 - x1) - (y2 - y1)) /\ line p l x1 y1 x2 x3 y3.
(** The double of a point whose second coordinate is not 0. *)
Definition tangent (p x y x3 y3 : Z) : Prop :=
  exists l, (p | l * (2 * y) - 3 * x ^ 2) /\ line p l x y x x3 y3.
(** Jacobian coordinates of a point. *)
Definition stands_for (p : Z) (j : Z * Z * Z) (x y : Z) : Prop :=
  let '(X, Y, Z) := j in rel_prime Z p /\ (p | X - x * Z ^ 2) /\ (p | Y - y * Z ^ 3).

(** A point written uncompressed: a byte 4 and the two numbers, [size] bytes each. *)
Definition uncompressed (size : nat) (data : bytes) (x y : N) : Prop :=
  exists a b, length a = size /\ length b = size /\ data = Byte.x04 :: a ++ b /\ number a = x /\ number b = y.
