(** Points for the cases. *)
From Coq Require Import NArith ZArith List String.
From stdpp Require Import base list.
From Verif.Model Require Import Bytes Curve.
Local Open Scope Z_scope.

(** Twice and three times the base point of secp256k1. *)
Definition g2x : Z := 0xC6047F9441ED7D6D3045406E95C07CD85C778E4B8CEF3CA7ABAC09B95C709EE5.
Definition g2y : Z := 0x1AE168FEA63DC339A3C58419466CEAEEF7F632653266D0E1236431A950CFE52A.
Definition g3x : Z := 0xF9308A019258C31049344F85F89D5229B531C845836F99B08601F113BCE036F9.
Definition g3y : Z := 0x388F7B0F632DE8140FE337E62A37F3566500A99934C2231B6CB9FD7584B8E672.
(** A small curve. *)
Definition small : bit_curve := {| cu_p := 17; cu_n := 18; cu_b := 7; cu_gx := 1; cu_gy := 5; cu_bits := 5 |}.
(** Libraries for the cases: one that leaves points alone, and a signer that repeats
    the message. *)
Definition leave (point scalar : bytes) : bytes * bool := (point, negb (bytes_eqb scalar (replicate 32 Byte.x00))).
Definition repeat_message (msg key : bytes) : option (bytes * byte) := Some (msg ++ msg, Byte.x01).
Definition recover_repeated (sig msg : bytes) : option bytes := Some (str "public").
Definition verify_repeated (sig msg key : bytes) : bool := bytes_eqb sig (msg ++ msg) && bytes_eqb key (str "public").
(** A library that knows one key. *)
Definition one_key (size : nat) (data : bytes) : option bytes :=
  if Nat.eqb size 33 then
    if bytes_eqb data (marshal_point the_curve 1 2) then Some (replicate 33 Byte.x02) else None
  else if bytes_eqb data (replicate 33 Byte.x02) then Some (marshal_point the_curve 1 2) else None.
