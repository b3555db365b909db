(** The protobuf wire format as a grammar: which bytes are a message with which
    fields. Written from the protobuf encoding specification, without the reader
    of Model/Proto.v; only the type of fields is shared. *)
From Coq Require Import NArith List.
From stdpp Require Import base list.
From Verif.Model Require Import Bytes Proto.
Local Open Scope N_scope.

(** Numbers in base 128, least significant digit first; all bytes but the last
    have the high bit set. At most ten bytes, below 2^64. *)
Inductive base128 : bytes -> N -> Prop :=
| b128_last x : b2N x < 128 -> base128 [x] (b2N x)
| b128_more x b v : 128 <= b2N x -> base128 b v -> base128 (x :: b) (b2N x - 128 + 128 * v).
Definition number_text (b : bytes) (v : N) : Prop := base128 b v /\ (length b <= 10)%nat /\ v < 2 ^ 64.

(** The number of a field with the type of what follows. *)
Definition tag_text (b : bytes) (n ty : N) : Prop := number_text b (n * 8 + ty) /\ 1 <= n < 2 ^ 29 /\ ty < 8.

Inductive field_text : bytes -> wfield -> Prop :=
| ft_number t b n v : tag_text t n 0 -> number_text b v -> field_text (t ++ b) (n, WVarint v)
| ft_fixed64 t b n : tag_text t n 1 -> length b = 8%nat -> field_text (t ++ b) (n, WFixed64 b)
| ft_bytes t l b n : tag_text t n 2 -> number_text l (blen b) -> field_text (t ++ l ++ b) (n, WBytes b)
| ft_group t g e n gs : tag_text t n 3 -> message_text g gs -> tag_text e n 4 -> field_text (t ++ g ++ e) (n, WGroup)
| ft_fixed32 t b n : tag_text t n 5 -> length b = 4%nat -> field_text (t ++ b) (n, WFixed32 b)
with message_text : bytes -> list wfield -> Prop :=
| mt_none : message_text [] []
| mt_field a f b fs : field_text a f -> message_text b fs -> message_text (a ++ b) (f :: fs).
