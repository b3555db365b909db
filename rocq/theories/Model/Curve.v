(** x/authn/crypto/secp256k1/internal/secp256k1: curve arithmetic and the Go side of
    the C library. *)
From Coq Require Import NArith ZArith List Bool String.
From stdpp Require Import base list.
From Verif.Model Require Import Bytes Secp256k1.
Local Open Scope Z_scope.

(** curve.go:84-90 BitCurve. *)
Record bit_curve := { cu_p : Z; cu_n : Z; cu_b : Z; cu_gx : Z; cu_gy : Z; cu_bits : N }.
(** curve.go:311-328 theCurve, S256. *)
Definition the_curve : bit_curve := {|
  cu_p := 0xFFFFFFFFFFFFFFFFFFFFFFFFFFFFFFFFFFFFFFFFFFFFFFFFFFFFFFFEFFFFFC2F;
  cu_n := 0xFFFFFFFFFFFFFFFFFFFFFFFFFFFFFFFEBAAEDCE6AF48A03BBFD25E8CD0364141;
  cu_b := 7;
  cu_gx := 0x79BE667EF9DCBBAC55A06295CE870B07029BFCDB2DCE28D959F2815B16F81798;
  cu_gy := 0x483ADA7726A3C4655DA4FBFC0E1108A8FD17B448A68554199C47D08FFB10D4B8;
  cu_bits := 256 |}.

(** math/big (library) Int.ModInverse for positive moduli: extended Euclid; [None]
    (nil) without an inverse. [s0], [s1] are the factors of the number. *)
Fixpoint euclid (fuel : nat) (r0 r1 s0 s1 : Z) : option (Z * Z) :=
  match fuel with
  | O => None
  | S fuel' =>
      if Z.eqb r1 0 then Some (r0, s0)
      else euclid fuel' r1 (r0 mod r1) s1 (s0 - r0 / r1 * s1)
  end.
Definition euclid_steps (n : Z) : nat := (2 * Z.to_nat (Z.log2 n) + 4)%nat.
Definition mod_inverse (g n : Z) : res (option Z) :=
  match euclid (euclid_steps n) (g mod n) n 1 0 with
  | None => OutOfFuel
  | Some (d, x) => Ok (if Z.eqb d 1 then Some (x mod n) else None)
  end.

Section Curve.
  Context (c : bit_curve).
  Notation P := (cu_p c).

  (** curve.go:104-116 IsOnCurve. Int.Mod of math/big is the modulus of Coq for
      positive moduli. *)
  Definition is_on_curve (x y : Z) : bool := Z.eqb ((x * x * x + cu_b c) mod P) ((y * y) mod P).

  (** curve.go:121-131 affineFromJacobian. Without an inverse, zinv is nil and the
      multiplication panics. *)
  Definition affine_from_jacobian (j : Z * Z * Z) : res (Z * Z) :=
    let '(x, y, z) := j in
    match mod_inverse z P with
    | Ok (Some zinv) =>
        let zinvsq := zinv * zinv in
        Ok ((x * zinvsq) mod P, (y * (zinvsq * zinv)) mod P)
    | Ok None => Panic
    | Fail e => Fail e | Panic => Panic | OutOfFuel => OutOfFuel
    end.

  (** if v.Sign() == -1 then v.Add(v, P). *)
  Definition lift (v : Z) : Z := if Z.ltb v 0 then v + P else v.

  (** curve.go:141-202 addJacobian. *)
  Definition add_jacobian (x1 y1 z1 x2 y2 z2 : Z) : Z * Z * Z :=
    let z1z1 := (z1 * z1) mod P in
    let z2z2 := (z2 * z2) mod P in
    let u1 := (x1 * z2z2) mod P in
    let u2 := (x2 * z1z1) mod P in
    let h := lift (u2 - u1) in
    let i := (2 * h) * (2 * h) in
    let j := h * i in
    let s1 := (y1 * z2 * z2z2) mod P in
    let s2 := (y2 * z1 * z1z1) mod P in
    let r := 2 * lift (s2 - s1) in
    let v := u1 * i in
    let x3 := (r * r - j - v - v) mod P in
    let y3 := (r * (v - x3) - 2 * (s1 * j)) mod P in
    let z3 := (lift (lift ((z1 + z2) * (z1 + z2) - z1z1) - z2z2) * h) mod P in
    (x3, y3, z3).
  (** curve.go:134-137 Add. *)
  Definition curve_add (x1 y1 x2 y2 : Z) : res (Z * Z) := affine_from_jacobian (add_jacobian x1 y1 1 x2 y2 1).

  (** curve.go:212-242 doubleJacobian. *)
  Definition double_jacobian (x y z : Z) : Z * Z * Z :=
    let a := x * x in
    let b := y * y in
    let c := b * b in
    let d := ((x + b) * (x + b) - a - c) * 2 in
    let e := 3 * a in
    let f := e * e in
    let x3 := (f - 2 * d) mod P in
    let y3 := (e * (d - x3) - 8 * c) mod P in
    let z3 := (2 * (y * z)) mod P in
    (x3, y3, z3).
  (** curve.go:205-208 Double. *)
  Definition curve_double (x y : Z) : res (Z * Z) := affine_from_jacobian (double_jacobian x y 1).
End Curve.

(** math/big Int.Bits (library): the words of the absolute value, least significant
    first, without leading zero words; words of 64 bits. *)
Fixpoint words (fuel : nat) (n : N) : list N :=
  match fuel with
  | O => []
  | S fuel' => if N.eqb n 0 then [] else (n mod 2 ^ 64)%N :: words fuel' (n / 2 ^ 64)%N
  end.
Definition int_words (x : Z) : list N := words (N.size_nat (Z.abs_N x)) (Z.abs_N x).
(** curve.go:60-69 readBits into a buffer of [room] zero bytes. The buffer is filled
    from its end: [done] are the bytes behind index i, [room] is i. *)
Fixpoint read_word (j : nat) (d : N) (room : nat) (done : bytes) : nat * bytes :=
  match j, room with
  | S j', S room' => read_word j' (N.shiftr d 8) room' (N2b d :: done)
  | _, _ => (room, done)
  end.
Fixpoint read_words (ws : list N) (room : nat) (done : bytes) : bytes :=
  match ws with
  | [] => replicate room Byte.x00 ++ done
  | d :: ws' => let '(room', done') := read_word 8 d room done in read_words ws' room' done'
  end.
Definition read_bits (x : Z) (size : nat) : bytes := read_words (int_words x) size [].

Section Points.
  Context (c : bit_curve).
  Definition byte_len : nat := N.to_nat (N.shiftr (cu_bits c + 7) 3).
  (** curve.go:287-294 Marshal. *)
  Definition marshal_point (x y : Z) : bytes := Byte.x04 :: read_bits x byte_len ++ read_bits y byte_len.
  (** curve.go:298-309 Unmarshal. *)
  Definition unmarshal_point (data : bytes) : option (Z * Z) :=
    if negb (Nat.eqb (length data) (1 + 2 * byte_len)) then None
    else match data with
         | Byte.x04 :: rest =>
             Some (Z.of_N (set_bytes (take byte_len rest)), Z.of_N (set_bytes (drop byte_len rest)))
         | _ => None
         end.

  (** The C function secp256k1_ext_scalar_mul: the point afterwards and whether it
      answers 1. *)
  Context (ext_scalar_mul : bytes -> bytes -> bytes * bool).
  (** curve.go:244-277 ScalarMult and 281-283 ScalarBaseMult; [Ok None] is (nil, nil). *)
  Definition scalar_mult (bx by_ : Z) (scalar : bytes) : res (option (Z * Z)) :=
    if Nat.ltb 32 (length scalar) then Panic
    else
      let padded := replicate (32 - length scalar) Byte.x00 ++ scalar in
      let '(point, one) := ext_scalar_mul (read_bits bx 32 ++ read_bits by_ 32) padded in
      Ok (if one then Some (Z.of_N (set_bytes (take 32 point)), Z.of_N (set_bytes (drop 32 point))) else None).
  Definition scalar_base_mult (k : bytes) : res (option (Z * Z)) := scalar_mult (cu_gx c) (cu_gy c) k.
End Points.

(** secp256.go:42-50. *)
Inductive lib_error := InvalidMsgLen | InvalidSignatureLen | InvalidRecoveryID | InvalidKey | SignFailed | RecoverFailed.
Section Library.
  (** The functions of the C library called: secp256k1_ec_seckey_verify;
      sign_recoverable with serialize_compact (64 bytes and the recovery number);
      ext_ecdsa_recover (65 bytes); ext_ecdsa_verify; ext_reencode_pubkey into as many
      bytes as asked. *)
  Context (seckey_verify : bytes -> bool) (sign_recoverable : bytes -> bytes -> option (bytes * byte))
    (ecdsa_recover : bytes -> bytes -> option bytes) (ecdsa_verify : bytes -> bytes -> bytes -> bool)
    (reencode : nat -> bytes -> option bytes).
  (** secp256.go:58-87 Sign. *)
  Definition lib_sign (msg seckey : bytes) : bytes + lib_error :=
    if negb (Nat.eqb (length msg) 32) then inr InvalidMsgLen
    else if negb (Nat.eqb (length seckey) 32) then inr InvalidKey
    else if negb (seckey_verify seckey) then inr InvalidKey
    else match sign_recoverable msg seckey with
         | None => inr SignFailed
         | Some (sig, recid) => inl (sig ++ [recid])
         end.
  (** secp256.go:159-167 checkSignature. *)
  Definition check_signature (sig : bytes) : option lib_error :=
    if negb (Nat.eqb (length sig) 65) then Some InvalidSignatureLen
    else if N.leb 4 (b2N (nth 64 sig Byte.x00)) then Some InvalidRecoveryID
    else None.
  (** secp256.go:93-110 RecoverPubkey. *)
  Definition recover_pubkey (msg sig : bytes) : bytes + lib_error :=
    if negb (Nat.eqb (length msg) 32) then inr InvalidMsgLen
    else match check_signature sig with
         | Some e => inr e
         | None => match ecdsa_recover sig msg with None => inr RecoverFailed | Some k => inl k end
         end.
  (** secp256.go:114-122 VerifySignature. *)
  Definition lib_verify (pubkey msg sig : bytes) : bool :=
    if negb (Nat.eqb (length msg) 32) || negb (Nat.eqb (length sig) 64) || Nat.eqb (length pubkey) 0 then false
    else ecdsa_verify sig msg pubkey.
  (** secp256.go:126-141 DecompressPubkey; [None] is (nil, nil). *)
  Definition decompress_pubkey (pubkey : bytes) : option (Z * Z) :=
    if negb (Nat.eqb (length pubkey) 33) then None
    else match reencode 65 pubkey with
         | None => None
         | Some out => Some (Z.of_N (set_bytes (take 32 (drop 1 out))), Z.of_N (set_bytes (drop 33 out)))
         end.
  (** secp256.go:144-157 CompressPubkey. *)
  Definition compress_pubkey (x y : Z) : res bytes :=
    match reencode 33 (marshal_point the_curve x y) with
    | None => Panic
    | Some out => Ok out
    end.
End Library.
