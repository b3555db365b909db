(** A small group and a node that looks only at the form of signatures; only for
    the examples. *)
From Coq Require Import NArith List Bool String.
From stdpp Require Import base list option.
From Verif.Model Require Import Bytes Errors Runtime Universe Marshal Abci Secp256k1.
From Verif.Spec Require Import ChainSpec Secp256k1Spec DemoChain.
Local Open Scope N_scope.

(** The numbers modulo 11 with addition; the first coordinate of k and of -k is the
    smaller of the two. *)
Definition small_order : N := 11.
Definition small_base (a : N) : N := a mod 11.
Definition small_mult (a p : N) : N := (a * p) mod 11.
Definition small_add (p q : N) : N := (p + q) mod 11.
Definition small_first (p : N) : option N := if N.eqb p 0 then None else Some (N.min p (11 - p)).
Definition small_inverse (a : N) : option N := List.find (fun w => N.eqb ((a * w) mod 11) 1) (map N.of_nat (seq 0 11)).
Definition small_nonce (d : N) (h : bytes) : N := 1 + (d + set_bytes h) mod 10.
Definition small_hash (m : bytes) : bytes := [N2b (set_bytes m)].
Definition small_parse (b : bytes) : option N := match b with [c] => Some (b2N c mod 11) | _ => None end.
Definition small_write (p : N) : bytes := [N2b p].
Definition small_sign := sign small_hash (ecdsa_sign small_order small_base small_first small_inverse small_nonce).
Definition small_verify := verify_signature small_parse small_order small_hash
  (ecdsa_verify small_order small_base small_mult small_add small_first small_inverse).
Definition small_pub := pub_key small_write small_base.

Definition form_verify : bytes -> bytes -> bytes -> bool :=
  verify_signature Some curve_order (fun m => m) (fun _ _ _ _ => true).
Definition form_after : option node :=
  calls protobuf 255 form_verify demo_users 4 demo_decode [CallInitChain demo_chain None] new_node.
Definition form_node : node := default new_node form_after.
