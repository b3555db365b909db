(** What the criteria of a listing stand for. *)
From Coq Require Import NArith ZArith List.
From stdpp Require Import base list.
From Verif.Model Require Import Bytes KindEncoder Schema Indexes.
From Verif.Spec Require Import TextSpec.

(** The criteria in the order of their list: first those by value, then those by text. *)
Inductive criterion := ByValue (f : bytes) (g : goval) | ByText (f t : bytes).
Definition asks (opt : list_options) : list criterion :=
  map (fun c => ByValue (fst c) (snd c)) (lo_interface opt) ++ map (fun c => ByText (fst c) (snd c)) (lo_string opt).

(** A criterion asks for value [v] of the indexed field [f]. *)
Definition means (s : schema) (c : criterion) (f : bytes) (v : pvalue) : Prop :=
  exists k, {| ix_name := f; ix_kind := k |} ∈ sch_indexes s /\
  match c with
  | ByValue f' g => f' = f /\ g = go_of v /\ value_ok k v = true
  | ByText f' t => f' = f /\ denotes k t v
  end.

(** Values of Go types and strings that fit into memory. *)
Definition in_memory (c : criterion) : Prop :=
  match c with
  | ByValue _ (GInt32 z) => (- 2 ^ 31 <= z < 2 ^ 31)%Z
  | ByValue _ (GInt64 z) => (- 2 ^ 63 <= z < 2 ^ 63)%Z
  | ByValue _ (GUint32 n) => (n < 2 ^ 32)%N
  | ByValue _ (GUint64 n) => (n < 2 ^ 64)%N
  | ByValue _ (GString t) | ByValue _ (GBytes t) | ByText _ t => (blen t < 2 ^ 63)%N
  | ByValue _ _ => True
  end.
