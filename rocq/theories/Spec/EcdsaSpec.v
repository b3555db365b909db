(** What the texts of ECDSA keys and signatures are (X.690 DER, SEC 1). *)
From Coq Require Import NArith ZArith Znumtheory List Bool.
From stdpp Require Import base list.
From Verif.Model Require Import Bytes.
From Verif.Spec Require Import Secp256k1Spec.
Local Open Scope Z_scope.

(** Two's complement: the number in the range of that many bytes that agrees with
    the digits. *)
Definition twos (b : bytes) (z : Z) : Prop :=
  let m := 256 ^ Z.of_nat (length b) in (m | z - Z.of_N (number b)) /\ - m <= 2 * z < m.
(** A number takes as few bytes as it can, at least one. *)
Definition der_number (z : Z) (b : bytes) : Prop :=
  b <> [] /\ twos b z /\ forall b', b' <> [] -> twos b' z -> (length b <= length b')%nat.
(** A length is one byte below 128, or a count of bytes and its digits without
    leading zeros. Lengths from 2^31 on are not used. *)
Definition der_length (n : N) (l : bytes) : Prop :=
  (n < 128)%N /\ l = [N2b n]
  \/ (128 <= n < 2 ^ 31)%N /\ exists first digits, l = N2b (128 + N.of_nat (S (length digits))) :: first :: digits
      /\ b2N first <> 0%N /\ number (first :: digits) = n.
Definition der_item (tag : byte) (content text : bytes) : Prop :=
  exists l, der_length (N.of_nat (length content)) l /\ text = tag :: l ++ content.
(** Two numbers in a sequence, with anything behind them in the sequence
    ([inside]) and anything behind the sequence ([after]). *)
Definition der_pair (r s : Z) (inside after sig : bytes) : Prop :=
  exists a b ta tb t, der_number r a /\ der_number s b /\ der_item Byte.x02 a ta /\ der_item Byte.x02 b tb
    /\ der_item Byte.x30 (ta ++ tb ++ inside) t /\ sig = t ++ after.

(** Curves y^2 = x^3 - 3x + b. *)
Definition on_short (p b x y : Z) : Prop := (p | y ^ 2 - (x ^ 3 - 3 * x + b)).
(** A point written compressed: 2 or 3 as the second coordinate is even or odd, and
    the first coordinate in [size] bytes. *)
Definition compressed (size : nat) (data : bytes) (x : Z) (odd : bool) : Prop :=
  exists b, data = (if odd then Byte.x03 else Byte.x02) :: b /\ length b = size /\ Z.of_N (number b) = x.
(** Square roots modulo [p]. *)
Definition square_roots (p : Z) (root : Z -> Z -> option Z) : Prop :=
  forall a, match root a p with
            | Some y => 0 <= y < p /\ (p | y ^ 2 - a)
            | None => forall y, ~ (p | y ^ 2 - a)
            end.
