(** A small curve and simple stand-ins for the libraries. *)
From Coq Require Import NArith ZArith List Bool String.
From stdpp Require Import base list.
From Verif.Model Require Import Bytes Secp256k1 Ecdsa.
Local Open Scope Z_scope.

(** y^2 = x^3 - 3x + 9 modulo 23: (3, 2), (10, 17) and (6, 0) lie on it. *)
Definition toy : params := {| pa_p := 23; pa_b := 9; pa_bits := 5 |}.
Definition search_root (a p : Z) : option Z :=
  List.find (fun y => Z.eqb ((y * y - a) mod p) 0) (map Z.of_nat (seq 0 (Z.to_nat p))).
Definition toy_hash (b : bytes) : bytes := take 4 (rev b ++ replicate 4 Byte.x00).
Definition toy_public : ec_public := {| pk_key := Some (toy, (3, 2)); pk_address := None |}.
(** What is signed, plus the key, stands for a signature. *)
Definition toy_base (c : params) (b : bytes) : Z * Z := (Z.of_N (set_bytes b), Z.of_N (set_bytes b)).
Definition toy_sign (c : params) (d : Z) (h : bytes) (r : N) : option (N * N) := Some ((r mod 128 + 128)%N, (Z.to_N d mod 256 + set_bytes (take 2 h))%N).
Definition toy_verify (c : params) (q : Z * Z) (h : bytes) (r s : Z) : bool := Z.eqb s (fst q mod 256 + Z.of_N (set_bytes (take 2 h))).
Definition toy_private : ec_private := {| sk_curve := toy; sk_point := (300, 300); sk_scalar := 300 |}.
