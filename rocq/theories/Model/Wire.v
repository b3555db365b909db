(** The part of google.golang.org/protobuf/encoding/protowire (v1.26.0, a
    library the repository calls) that the repository uses, and the
    little-endian length prefix of runtime/orm/indexes/types.go.

    The library source is not part of /repo; these definitions follow the
    protobuf wire format specification and the library's documented limits (a
    varint has at most ten bytes and fits 64 bits). *)
From Coq Require Import NArith ZArith List Bool.
From stdpp Require Import base list.
From Verif.Model Require Import Bytes.
Local Open Scope N_scope.

Definition two64 : N := 18446744073709551616.

(** protowire.AppendVarint on a uint64 (without the destination buffer): seven
    bits per byte, least significant first, the high bit set on all but the last
    byte. The fuel is the number of continuation bytes still possible; the tenth
    byte carries what is left (one bit for a uint64). *)
Fixpoint varint_bytes (fuel : nat) (v : N) : bytes :=
  match fuel with
  | O => [N2b v]
  | S f => if v <? 128 then [N2b v]
           else N2b (v mod 128 + 128) :: varint_bytes f (v / 128)
  end.
Definition append_varint (v : N) : bytes := varint_bytes 9 v.

(** Decoding failures of protowire; only "some error" matters to callers. *)
Inductive wire_err := WTruncated | WOverflow | WFieldNumber | WReserved | WEndGroup.

(** protowire.ConsumeVarint. The library returns the value and the number of
    bytes read; here the bytes that remain are returned instead of their count
    (callers only use the count to skip them). [i] is the index of the byte,
    [acc] the value so far. The tenth byte must be 0 or 1. *)
Fixpoint consume_varint_at (i : nat) (acc : N) (b : bytes) : (N * bytes) + wire_err :=
  match b with
  | [] => inr WTruncated
  | x :: b' =>
      let v := b2N x in
      let p := 2 ^ (7 * N.of_nat i) in
      if (9 <=? i)%nat
      then if v <? 2 then inl (acc + v * p, b') else inr WOverflow
      else if v <? 128 then inl (acc + v * p, b')
      else consume_varint_at (S i) (acc + (v - 128) * p) b'
  end.
Definition consume_varint (b : bytes) : (N * bytes) + wire_err :=
  consume_varint_at 0 0 b.

(** protowire.AppendBytes / AppendString: length, then the bytes. *)
Definition append_bytes (v : bytes) : bytes := append_varint (blen v) ++ v.

(** protowire.ConsumeBytes. *)
Definition consume_bytes (b : bytes) : (bytes * bytes) + wire_err :=
  match consume_varint b with
  | inr e => inr e
  | inl (m, r) =>
      if blen r <? m then inr WTruncated
      else inl (take (N.to_nat m) r, drop (N.to_nat m) r)
  end.

(** The eight length bytes of appendLengthPrefixed,
    runtime/orm/indexes/types.go:80-88 (little endian). *)
Definition le64 (v : N) : bytes :=
  [ N2b v; N2b (N.shiftr v 8); N2b (N.shiftr v 16); N2b (N.shiftr v 24);
    N2b (N.shiftr v 32); N2b (N.shiftr v 40); N2b (N.shiftr v 48); N2b (N.shiftr v 56) ].

(** The expression of runtime/orm/indexes/types.go:64:
    [uint64(buf[0])<<0 | uint64(buf[1])<<8 | ...]. *)
Definition le64_decode (b0 b1 b2 b3 b4 b5 b6 b7 : byte) : N :=
  N.lor (N.shiftl (b2N b0) 0) (N.lor (N.shiftl (b2N b1) 8)
  (N.lor (N.shiftl (b2N b2) 16) (N.lor (N.shiftl (b2N b3) 24)
  (N.lor (N.shiftl (b2N b4) 32) (N.lor (N.shiftl (b2N b5) 40)
  (N.lor (N.shiftl (b2N b6) 48) (N.shiftl (b2N b7) 56))))))).
