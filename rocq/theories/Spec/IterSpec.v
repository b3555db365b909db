(** Specifications of iteration and of the decoders of index bookkeeping. *)
From Coq Require Import NArith List Bool String.
From stdpp Require Import base list gmap.
From Verif.Model Require Import Bytes Wire KV Indexes.

(** What the loop [for ; it.Valid(); it.Next() { ... it.Key() ... }] sees:
    the keys, in the order of the visits. *)
Inductive visits (prefix : bytes) : iterator -> list bytes -> Prop :=
| visits_end it : piter_valid prefix it = false -> visits prefix it []
| visits_step it k it' l :
    piter_valid prefix it = true -> piter_key prefix it = Ok k ->
    piter_next prefix it = Ok it' -> visits prefix it' l -> visits prefix it (k :: l).

(** [p] is a length and [x] that many bytes. *)
Definition length_delimited (w x : bytes) : Prop :=
  exists p, consume_varint p = inl (blen x, []) /\ w = p ++ x.
