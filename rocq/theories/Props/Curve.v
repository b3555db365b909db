(** Theorems about points of the curve: C58, C59, C60. *)
From Coq Require Import NArith ZArith Znumtheory List Bool String.
From stdpp Require Import base list.
From Verif.Model Require Import Bytes Secp256k1 Curve.
From Verif.Spec Require Import Secp256k1Spec CurveSpec DemoCurve.
From Verif.Proofs Require Import CurveFacts PointFacts.
Local Open Scope Z_scope.

(** ** C58 *)
Section Points.
  (** For every odd modulus; those of the curve at hand are in the cases below. *)
  Context (c : bit_curve) (Hp : 1 < cu_p c) (Ho : Z.odd (cu_p c) = true).
  Notation p := (cu_p c).

  Theorem C58_on_curve x y : is_on_curve c x y = true <-> lies_on p (cu_b c) x y.
  Proof. exact (on_curve_iff c Hp x y). Qed.
  (** Add gives the third point of the line through the two points, reflected, and
      panics when the difference of the first coordinates has no inverse. *)
  Theorem C58_sum x1 y1 x2 y2 :
    match curve_add c x1 y1 x2 y2 with
    | Ok (x3, y3) => rel_prime (x2 - x1) p /\ forall x y, chord p x1 y1 x2 y2 x y <-> x = x3 /\ y = y3
    | Panic => ~ rel_prime (x2 - x1) p
    | _ => False
    end.
  Proof. exact (add_exact c Hp x1 y1 x2 y2 Ho). Qed.
  Theorem C58_double x y :
    match curve_double c x y with
    | Ok (x3, y3) => rel_prime y p /\ forall a b, tangent p x y a b <-> a = x3 /\ b = y3
    | Panic => ~ rel_prime y p
    | _ => False
    end.
  Proof. exact (double_exact c Hp x y Ho). Qed.
  Theorem C58_defined_exactly x1 y1 x2 y2 : prime p ->
    ((exists x3 y3, curve_add c x1 y1 x2 y2 = Ok (x3, y3)) <-> ~ (p | x2 - x1))
    /\ ((exists x3 y3, curve_double c x1 y1 = Ok (x3, y3)) <-> ~ (p | y1)).
  Proof. exact (fun HP => conj (add_defined c Hp Ho x1 y1 x2 y2 HP) (double_defined c Hp Ho x1 y1 HP)). Qed.
  (** The same in Jacobian coordinates. *)
  Theorem C58_jacobian_sum X1 Y1 Z1 X2 Y2 Z2 x1 y1 x2 y2 x3 y3 :
    stands_for p (X1, Y1, Z1) x1 y1 -> stands_for p (X2, Y2, Z2) x2 y2 -> rel_prime (x2 - x1) p ->
    chord p x1 y1 x2 y2 x3 y3 -> stands_for p (add_jacobian c X1 Y1 Z1 X2 Y2 Z2) x3 y3.
  Proof. exact (add_stands c Hp x1 y1 Z1 x2 y2 Z2 X1 Y1 X2 Y2 x3 y3 Ho). Qed.
  Theorem C58_jacobian_double X Y Z x y x3 y3 :
    stands_for p (X, Y, Z) x y -> rel_prime y p -> tangent p x y x3 y3 -> stands_for p (double_jacobian c X Y Z) x3 y3.
  Proof. exact (double_stands c Hp x y X Y Z x3 y3 Ho). Qed.
  Theorem C58_affine X Y Z x y : stands_for p (X, Y, Z) x y -> reduced p x -> reduced p y ->
    affine_from_jacobian c (X, Y, Z) = Ok (x, y).
  Proof. exact (affine_exact c Hp X Y Z x y). Qed.
  (** Sums stay on the curve and do not depend on the order. *)
  Theorem C58_stays_on_curve x1 y1 x2 y2 x3 y3 : is_on_curve c x1 y1 = true ->
    (is_on_curve c x2 y2 = true -> curve_add c x1 y1 x2 y2 = Ok (x3, y3) -> is_on_curve c x3 y3 = true)
    /\ (curve_double c x1 y1 = Ok (x3, y3) -> is_on_curve c x3 y3 = true).
  Proof. exact (fun H => conj (fun H' => add_on_curve c Hp Ho x1 y1 x2 y2 x3 y3 H H') (double_on_curve c Hp Ho x1 y1 x3 y3 H)). Qed.
  Theorem C58_commutes x1 y1 x2 y2 : curve_add c x1 y1 x2 y2 = curve_add c x2 y2 x1 y1.
  Proof. exact (add_comm c Hp Ho x1 y1 x2 y2). Qed.
  (** Not a group: Add panics for a point and itself, and for a point and its
      opposite, on every curve. *)
  Theorem C58_group_refuted x y y' : curve_add c x y x y' = Panic.
  Proof. exact (add_same_column c Hp Ho x y y'). Qed.
End Points.
Example C58_case : 1 < cu_p the_curve /\ Z.odd (cu_p the_curve) = true
  /\ is_on_curve the_curve (cu_gx the_curve) (cu_gy the_curve) = true
  /\ curve_double the_curve (cu_gx the_curve) (cu_gy the_curve) = Ok (g2x, g2y)
  /\ curve_add the_curve (cu_gx the_curve) (cu_gy the_curve) g2x g2y = Ok (g3x, g3y)
  /\ is_on_curve the_curve g3x (g3y + 1) = false.
Proof. repeat apply conj; vm_compute; reflexivity. Qed.
Example C58_case_jacobian : prime (cu_p small) /\ 1 < cu_p small /\ Z.odd (cu_p small) = true
  /\ stands_for (cu_p small) (9, 135, 3) 1 5 /\ stands_for (cu_p small) (8, 56, 2) 2 7 /\ rel_prime (2 - 1) (cu_p small) /\ rel_prime 5 (cu_p small)
  /\ curve_add small 1 5 2 7 = Ok (1, 12) /\ curve_double small 1 5 = Ok (2, 10).
Proof. exact small_case. Qed.
(** (0, 0), which stands for no point elsewhere in Go, is not neutral. *)
Theorem C58_neutral_refuted : exists x y, is_on_curve the_curve x y = true /\ curve_add the_curve x y 0 0 <> Ok (x, y).
Proof. exact not_neutral. Qed.

(** ** C59 *)
(** Numbers are written into buffers most significant byte first; what does not fit
    and the sign are lost. *)
Theorem C59_written_number x size : length (read_bits x size) = size /\ number (read_bits x size) = (Z.abs_N x mod 256 ^ N.of_nat size)%N.
Proof. exact (read_bits_exact x size). Qed.
(** Points that fit are read back as they were, and are written in the usual form. *)
Theorem C59_reads_back c x y : 0 <= x < 256 ^ Z.of_nat (byte_len c) -> 0 <= y < 256 ^ Z.of_nat (byte_len c) ->
  unmarshal_point c (marshal_point c x y) = Some (x, y) /\ uncompressed (byte_len c) (marshal_point c x y) (Z.to_N x) (Z.to_N y).
Proof. exact (marshal_reads_back c x y). Qed.
(** Accepted are exactly the texts of that form. *)
Theorem C59_accepted_exactly c data :
  match unmarshal_point c data with
  | Some (x, y) => 0 <= x /\ 0 <= y /\ uncompressed (byte_len c) data (Z.to_N x) (Z.to_N y)
  | None => forall x y, ~ uncompressed (byte_len c) data x y
  end.
Proof. exact (unmarshal_exact c data). Qed.
Theorem C59_one_text c data x y : unmarshal_point c data = Some (x, y) -> marshal_point c x y = data.
Proof. exact (unmarshal_writes_back c data x y). Qed.
(** Not only points of the curve are accepted. *)
Theorem C59_only_points_refuted : exists data x y, unmarshal_point the_curve data = Some (x, y) /\ is_on_curve the_curve x y = false.
Proof. exact off_the_curve. Qed.
(** Different points may be written alike: the sign is lost. *)
Theorem C59_injective_refuted c x y : marshal_point c (- x) y = marshal_point c x y.
Proof. exact (marshal_sign c x y). Qed.
Example C59_case :
  unmarshal_point the_curve (marshal_point the_curve g2x g2y) = Some (g2x, g2y)
  /\ 0 <= g2x < 256 ^ Z.of_nat (byte_len the_curve) /\ 0 <= g2y < 256 ^ Z.of_nat (byte_len the_curve)
  /\ marshal_point small 3 260 = [Byte.x04; Byte.x03; Byte.x04] /\ unmarshal_point small [Byte.x02; Byte.x03; Byte.x04] = None
  /\ unmarshal_point small [Byte.x04; Byte.x03; Byte.x04; Byte.x05] = None.
Proof. exact points_case. Qed.

(** ** C60 *)
(** The C library is handed the point and the scalar as 32-byte numbers, and its
    answer is read in the same way; longer scalars panic. *)
Theorem C60_scalar ext x y k : 0 <= x < 2 ^ 256 -> 0 <= y < 2 ^ 256 ->
  (forall point scalar, length (fst (ext point scalar)) = length point) ->
  match scalar_mult ext x y k with
  | Ok r => (length k <= 32)%nat /\ exists point scalar, holds point (Z.to_N x) (Z.to_N y) /\ length scalar = 32%nat /\ number scalar = number k
      /\ match r with
         | Some (a, b) => snd (ext point scalar) = true /\ 0 <= a /\ 0 <= b /\ holds (fst (ext point scalar)) (Z.to_N a) (Z.to_N b)
         | None => snd (ext point scalar) = false
         end
  | Panic => (32 < length k)%nat
  | _ => False
  end.
Proof. exact (scalar_mult_exact ext x y k). Qed.
(** Only the number of the scalar matters. *)
Theorem C60_leading_zeros ext x y k k' : (length k <= 32)%nat -> (length k' <= 32)%nat -> number k = number k' ->
  scalar_mult ext x y k = scalar_mult ext x y k'.
Proof. exact (scalar_mult_number ext x y k k'). Qed.
Section Library.
  (** For every C library. *)
  Context (seckey_verify : bytes -> bool) (sign_recoverable : bytes -> bytes -> option (bytes * byte))
    (ecdsa_recover : bytes -> bytes -> option bytes) (ecdsa_verify : bytes -> bytes -> bytes -> bool)
    (reencode : nat -> bytes -> option bytes).
  Notation sign := (lib_sign seckey_verify sign_recoverable).
  Notation recover := (recover_pubkey ecdsa_recover).
  Notation verify := (lib_verify ecdsa_verify).

  Theorem C60_sign msg key :
    match sign msg key with
    | inl sig => length msg = 32%nat /\ length key = 32%nat /\ seckey_verify key = true
        /\ exists rs recid, sign_recoverable msg key = Some (rs, recid) /\ sig = rs ++ [recid]
    | inr InvalidMsgLen => length msg <> 32%nat
    | inr InvalidKey => length msg = 32%nat /\ (length key <> 32%nat \/ seckey_verify key = false)
    | inr SignFailed => length msg = 32%nat /\ length key = 32%nat /\ seckey_verify key = true /\ sign_recoverable msg key = None
    | inr _ => False
    end.
  Proof. exact (lib_sign_exact seckey_verify sign_recoverable ecdsa_recover ecdsa_verify reencode msg key). Qed.
  Theorem C60_recover msg sig :
    match recover msg sig with
    | inl key => length msg = 32%nat /\ (exists rs recid, sig = rs ++ [recid] /\ length rs = 64%nat /\ (b2N recid < 4)%N) /\ ecdsa_recover sig msg = Some key
    | inr InvalidMsgLen => length msg <> 32%nat
    | inr InvalidSignatureLen => length msg = 32%nat /\ length sig <> 65%nat
    | inr InvalidRecoveryID => length msg = 32%nat /\ exists rs recid, sig = rs ++ [recid] /\ length rs = 64%nat /\ (4 <= b2N recid)%N
    | inr RecoverFailed => length msg = 32%nat /\ (exists rs recid, sig = rs ++ [recid] /\ length rs = 64%nat /\ (b2N recid < 4)%N) /\ ecdsa_recover sig msg = None
    | inr _ => False
    end.
  Proof. exact (recover_exact seckey_verify sign_recoverable ecdsa_recover ecdsa_verify reencode msg sig). Qed.
  Theorem C60_verify key msg sig : verify key msg sig = true <->
    length msg = 32%nat /\ length sig = 64%nat /\ key <> [] /\ ecdsa_verify sig msg key = true.
  Proof. exact (lib_verify_iff seckey_verify sign_recoverable ecdsa_recover ecdsa_verify reencode key msg sig). Qed.
  (** With a library that keeps its promises for a key, the 65 bytes of Sign recover
      the key; their first 64 verify; the 65 do not. *)
  Theorem C60_sign_then_verify msg key pub sig :
    (forall rs recid, sign_recoverable msg key = Some (rs, recid) -> length rs = 64%nat /\ (b2N recid < 4)%N
       /\ ecdsa_recover (rs ++ [recid]) msg = Some pub /\ ecdsa_verify rs msg pub = true) -> pub <> [] ->
    sign msg key = inl sig ->
    length sig = 65%nat /\ recover msg sig = inl pub /\ verify pub msg (take 64 sig) = true /\ verify pub msg sig = false.
  Proof. exact (sign_recover_verify seckey_verify sign_recoverable ecdsa_recover ecdsa_verify reencode msg key pub sig). Qed.
  (** Compressed keys are read back when the library undoes its own writing. *)
  Theorem C60_compressed x y : 0 <= x < 2 ^ 256 -> 0 <= y < 2 ^ 256 ->
    (forall data k, uncompressed 32 data (Z.to_N x) (Z.to_N y) -> reencode 33 data = Some k -> length k = 33%nat /\ reencode 65 k = Some data) ->
    match compress_pubkey reencode x y with
    | Ok k => length k = 33%nat /\ decompress_pubkey reencode k = Some (x, y)
    | Panic => exists data, uncompressed 32 data (Z.to_N x) (Z.to_N y) /\ reencode 33 data = None
    | _ => False
    end.
  Proof. exact (compress_decompress seckey_verify sign_recoverable ecdsa_recover ecdsa_verify reencode x y). Qed.
  Theorem C60_compressed_length k p : decompress_pubkey reencode k = Some p -> length k = 33%nat.
  Proof. exact (decompress_length seckey_verify sign_recoverable ecdsa_recover ecdsa_verify reencode k p). Qed.
End Library.
Example C60_case_scalar : (forall point scalar, length (fst (leave point scalar)) = length point)
  /\ scalar_base_mult the_curve leave [Byte.x01] = Ok (Some (cu_gx the_curve, cu_gy the_curve))
  /\ scalar_base_mult the_curve leave [] = Ok None /\ scalar_base_mult the_curve leave (replicate 33 Byte.x00) = Panic.
Proof. exact scalar_case. Qed.
Example C60_case_library : let msg := replicate 32 Byte.x07 in let key := replicate 32 Byte.x01 in
  (forall rs recid, repeat_message msg key = Some (rs, recid) -> length rs = 64%nat /\ (b2N recid < 4)%N
     /\ recover_repeated (rs ++ [recid]) msg = Some (str "public") /\ verify_repeated rs msg (str "public") = true)
  /\ lib_sign (fun _ => true) repeat_message msg key = inl (msg ++ msg ++ [Byte.x01])
  /\ (forall data k, uncompressed 32 data 1 2 -> one_key 33 data = Some k -> length k = 33%nat /\ one_key 65 k = Some data)
  /\ compress_pubkey one_key 1 2 = Ok (replicate 33 Byte.x02).
Proof. exact library_case. Qed.

Print Assumptions C58_on_curve.
Print Assumptions C58_sum.
Print Assumptions C58_double.
Print Assumptions C58_defined_exactly.
Print Assumptions C58_jacobian_sum.
Print Assumptions C58_jacobian_double.
Print Assumptions C58_affine.
Print Assumptions C58_stays_on_curve.
Print Assumptions C58_commutes.
Print Assumptions C58_group_refuted.
Print Assumptions C58_neutral_refuted.
Print Assumptions C59_written_number.
Print Assumptions C59_reads_back.
Print Assumptions C59_accepted_exactly.
Print Assumptions C59_one_text.
Print Assumptions C59_only_points_refuted.
Print Assumptions C59_injective_refuted.
Print Assumptions C60_scalar.
Print Assumptions C60_leading_zeros.
Print Assumptions C60_sign.
Print Assumptions C60_recover.
Print Assumptions C60_verify.
Print Assumptions C60_sign_then_verify.
Print Assumptions C60_compressed.
Print Assumptions C60_compressed_length.
