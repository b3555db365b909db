(** Specification of the textual forms of field values, independent of the
    parsers of the model: printers, and a positional reading of digits. *)
From Coq Require Import NArith ZArith List Bool String.
From stdpp Require Import base list.
From Verif.Model Require Import Bytes KindEncoder.

(** The digit character of a number below ten. *)
Definition digit_char (d : N) : byte := N2b (48 + d).

(** Value of a list of decimal digits, most significant first: d_0 .. d_k stands
    for the sum of d_i * 10^(k-i). *)
Fixpoint positional (ds : list N) : N :=
  match ds with
  | [] => 0
  | d :: r => d * 10 ^ N.of_nat (length r) + positional r
  end%N.

(** [s] consists of at least one decimal digit and denotes [n]. *)
Definition decimal_text (s : bytes) (n : N) : Prop :=
  exists ds, ds <> [] /\ Forall (fun d => d < 10)%N ds
             /\ s = map digit_char ds /\ positional ds = n.

(** [s] is an optionally signed decimal text and denotes [z]. *)
Definition signed_decimal_text (s : bytes) (z : Z) : Prop :=
  exists t n, decimal_text t n /\
    ((s = t /\ z = Z.of_N n) \/ (s = str "+" ++ t /\ z = Z.of_N n)
     \/ (s = str "-" ++ t /\ z = (- Z.of_N n)%Z)).

(** The shortest decimal text of a number: what clients send. *)
Fixpoint digits_fuel (f : nat) (n : N) (acc : list N) : list N :=
  match f with
  | O => acc
  | S f' => if (n <? 10)%N then n :: acc
            else digits_fuel f' (n / 10)%N (n mod 10 :: acc)%N
  end.
Definition decimal (n : N) : bytes :=
  map digit_char (digits_fuel (S (N.to_nat (N.log2 n))) n []).
Definition signed_decimal (z : Z) : bytes :=
  if (z <? 0)%Z then str "-" ++ decimal (Z.to_N (- z)) else decimal (Z.to_N z).

(** Standard base64 without padding (RFC 4648, section 4, without "="). *)
Definition b64_char (v : N) : byte :=
  nth (N.to_nat v)
    (str "ABCDEFGHIJKLMNOPQRSTUVWXYZabcdefghijklmnopqrstuvwxyz0123456789+/")
    (N2b 0).
Fixpoint base64 (b : bytes) : bytes :=
  match b with
  | [] => []
  | [x] => let x := b2N x in
           [b64_char (x / 4)%N; b64_char (x mod 4 * 16)%N]
  | [x; y] => let x := b2N x in let y := b2N y in
           [b64_char (x / 4)%N; b64_char (x mod 4 * 16 + y / 16)%N;
            b64_char (y mod 16 * 4)%N]
  | x :: y :: z :: r =>
      let x := b2N x in let y := b2N y in let z := b2N z in
      b64_char (x / 4)%N :: b64_char (x mod 4 * 16 + y / 16)%N
      :: b64_char (y mod 16 * 4 + z / 64)%N :: b64_char (z mod 64)%N
      :: base64 r
  end.

(** The usual text of a field value. *)
Definition text_of (v : pvalue) : bytes :=
  match v with
  | VBool true => str "true"
  | VBool false => str "false"
  | VInt32 z | VInt64 z => signed_decimal z
  | VUint32 n | VUint64 n => decimal n
  | VString s => s
  | VBytes b => base64 b
  | VOther => []
  end.

(** The Go value with the same content. *)
Definition go_of (v : pvalue) : goval :=
  match v with
  | VBool b => GBool b
  | VInt32 z => GInt32 z
  | VInt64 z => GInt64 z
  | VUint32 n => GUint32 n
  | VUint64 n => GUint64 n
  | VString s => GString s
  | VBytes b => GBytes b
  | VOther => GOther
  end.

(** What a text stands for, by kind of field. *)

(** Base64 as Go reads it: line breaks are skipped; four characters stand for
    three bytes, 24 bits either way; a last group of three (two) characters
    stands for two bytes (one byte) and its surplus two (four) bits are ignored. *)
Definition b64_alphabet : bytes :=
  str "ABCDEFGHIJKLMNOPQRSTUVWXYZabcdefghijklmnopqrstuvwxyz0123456789+/".
Definition char_bits (c : byte) (v : N) : Prop :=
  nth_error b64_alphabet (N.to_nat v) = Some c.
Inductive bits_of : list N -> bytes -> Prop :=
| bits_nil : bits_of [] []
| bits_two a b x junk :
    (a * 2 ^ 6 + b = b2N x * 2 ^ 4 + junk)%N -> (junk < 2 ^ 4)%N -> bits_of [a; b] [x]
| bits_three a b c x y junk :
    (a * 2 ^ 12 + b * 2 ^ 6 + c = (b2N x * 2 ^ 8 + b2N y) * 2 ^ 2 + junk)%N ->
    (junk < 2 ^ 2)%N -> bits_of [a; b; c] [x; y]
| bits_four a b c d x y z r t :
    (a * 2 ^ 18 + b * 2 ^ 12 + c * 2 ^ 6 + d = b2N x * 2 ^ 16 + b2N y * 2 ^ 8 + b2N z)%N ->
    bits_of r t -> bits_of (a :: b :: c :: d :: r) (x :: y :: z :: t).
Definition line_break (c : byte) : bool := bool_decide (c = Byte.x0a) || bool_decide (c = Byte.x0d).
Definition base64_text (s : bytes) (b : bytes) : Prop :=
  exists vs, Forall2 char_bits (List.filter (fun c => negb (line_break c)) s) vs /\ bits_of vs b.

Definition denotes (k : kind) (s : bytes) (v : pvalue) : Prop :=
  match k, v with
  | StringKind, VString t => t = s
  | BoolKind, VBool true => s ∈ [str "1"; str "t"; str "T"; str "TRUE"; str "true"; str "True"]
  | BoolKind, VBool false => s ∈ [str "0"; str "f"; str "F"; str "FALSE"; str "false"; str "False"]
  | Int32Kind, VInt32 z => signed_decimal_text s z /\ (- 2 ^ 31 <= z < 2 ^ 31)%Z
  | Int64Kind, VInt64 z => signed_decimal_text s z /\ (- 2 ^ 63 <= z < 2 ^ 63)%Z
  | Uint32Kind, VUint32 n => decimal_text s n /\ (n < 2 ^ 32)%N
  | Uint64Kind, VUint64 n => decimal_text s n /\ (n < 2 ^ 64)%N
  | BytesKind, VBytes b => base64_text s b
  | _, _ => False
  end.
