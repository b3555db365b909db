(** The node of the examples on a plain map, and a chain whose name is no text. *)
From Coq Require Import NArith ZArith List Bool String.
From stdpp Require Import base list option gmap.
From Verif.Model Require Import Bytes Users Errors Prog Runtime Builder Universe Marshal Authn TestApp Abci.
From Verif.Spec Require Import ChainSpec PlainSpec DemoChain.

Definition demo_plain (cs : list abci_call) := plain_calls protobuf 255 demo_verify demo_users 4 demo_decode
  (CallInitChain demo_chain None :: cs) new_plain.
Definition plain_object (cs : list abci_call) (ty id : bytes) : option object :=
  y ← demo_plain cs; w_store (rt_world y) !! (ty, id).
(** A name that is not UTF-8. *)
Definition odd_name : bytes := [Byte.xff].
