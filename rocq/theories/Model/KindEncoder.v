(** pkg/protoutils/kindencoder/kindencoder.go: conversion of field values to the
    bytes used as primary keys and index values, and of query texts and Go
    values to field values. *)
From Coq Require Import NArith ZArith List Bool String.
From stdpp Require Import base list decidable.
From Verif.Model Require Import Bytes Wire.

(** protoreflect.Kind, all constants. *)
Inductive kind :=
| BoolKind | EnumKind | Int32Kind | Sint32Kind | Uint32Kind | Int64Kind
| Sint64Kind | Uint64Kind | Sfixed32Kind | Fixed32Kind | FloatKind
| Sfixed64Kind | Fixed64Kind | DoubleKind | StringKind | BytesKind
| MessageKind | GroupKind.

Global Instance kind_eq_dec : EqDecision kind.
Proof. solve_decision. Defined.

(** protoreflect.Value as far as the encoders look at it. [VOther] stands for
    every value no encoder accepts (enums, messages, lists, maps, floats). *)
Inductive pvalue :=
| VBool (b : bool)
| VInt32 (z : Z)
| VInt64 (z : Z)
| VUint32 (n : N)
| VUint64 (n : N)
| VString (s : bytes)
| VBytes (b : bytes)
| VOther.

Global Instance pvalue_eq_dec : EqDecision pvalue.
Proof. solve_decision. Defined.

(** The dynamic type and content of a Go [interface{}] handed to
    EncodeInterface. [GOther] is any other dynamic type (int, nil, ...). *)
Inductive goval :=
| GBool (b : bool)
| GInt32 (z : Z)
| GInt64 (z : Z)
| GUint32 (n : N)
| GUint64 (n : N)
| GString (s : bytes)
| GBytes (b : bytes)
| GOther.

(** kindencoder.go:19-36, NewKindEncoder: the kinds that have an encoder. *)
Definition new_kind_encoder (k : kind) : res kind :=
  match k with
  | BoolKind | Int32Kind | Uint32Kind | Int64Kind | Sint64Kind | Uint64Kind
  | StringKind | BytesKind => Ok k
  | _ => Fail EAnon
  end.

(** Go [strconv.ParseBool]. *)
Definition parse_bool (s : bytes) : option bool :=
  if existsb (bytes_eqb s) [str "1"; str "t"; str "T"; str "TRUE"; str "true"; str "True"]
  then Some true
  else if existsb (bytes_eqb s) [str "0"; str "f"; str "F"; str "FALSE"; str "false"; str "False"]
  then Some false
  else None.

(** Value of an ASCII digit. *)
Definition digit (b : byte) : option N :=
  let n := b2N b in
  if (48 <=? n)%N && (n <=? 57)%N then Some (n - 48)%N else None.

(** The loop of Go [strconv.ParseUint] in base 10, [max] being the largest
    value of the bit size. Simplification: an overflow and an invalid character
    are the same failure (callers do not tell them apart). *)
Fixpoint parse_digits (max acc : N) (s : bytes) : option N :=
  match s with
  | [] => Some acc
  | c :: s' =>
      match digit c with
      | None => None
      | Some d =>
          let acc' := (acc * 10 + d)%N in
          if (max <? acc')%N then None else parse_digits max acc' s'
      end
  end.

(** Go [strconv.ParseUint(s, 10, bits)]. *)
Definition parse_uint (bits : N) (s : bytes) : option N :=
  match s with
  | [] => None
  | _ => parse_digits (2 ^ bits - 1)%N 0%N s
  end.

(** Go [strconv.ParseInt(s, 10, bits)]: an optional sign, then ParseUint, then
    the range check against [1 << (bits-1)]. *)
Definition parse_int (bits : N) (s : bytes) : option Z :=
  let '(neg, s') :=
    match s with
    | c :: r => if (b2N c =? 45)%N then (true, r)
                else if (b2N c =? 43)%N then (false, r)
                else (false, s)
    | [] => (false, s)
    end in
  match parse_uint bits s' with
  | None => None
  | Some un =>
      let cutoff := (2 ^ (bits - 1))%N in
      if neg
      then if (cutoff <? un)%N then None else Some (- Z.of_N un)%Z
      else if (cutoff <=? un)%N then None else Some (Z.of_N un)
  end.

(** The alphabet of base64.StdEncoding. *)
Definition b64_val (b : byte) : option N :=
  let n := b2N b in
  if (65 <=? n)%N && (n <=? 90)%N then Some (n - 65)%N
  else if (97 <=? n)%N && (n <=? 122)%N then Some (n - 97 + 26)%N
  else if (48 <=? n)%N && (n <=? 57)%N then Some (n - 48 + 52)%N
  else if (n =? 43)%N then Some 62%N
  else if (n =? 47)%N then Some 63%N
  else None.

(** Go's decoder skips carriage returns and line feeds. *)
Definition is_newline (b : byte) : bool := (b2N b =? 10)%N || (b2N b =? 13)%N.

(** Groups of four characters to three bytes; a last group of two or three
    characters gives one or two bytes (surplus bits are ignored, the encoding is
    not "strict"); a last group of one character is an error. *)
Fixpoint b64_groups (s : list N) : option bytes :=
  match s with
  | [] => Some []
  | [_] => None
  | [a; b] => Some [N2b (a * 4 + b / 16)%N]
  | [a; b; c] => Some [N2b (a * 4 + b / 16)%N; N2b (b mod 16 * 16 + c / 4)%N]
  | a :: b :: c :: d :: r =>
      match b64_groups r with
      | None => None
      | Some t => Some (N2b (a * 4 + b / 16)%N :: N2b (b mod 16 * 16 + c / 4)%N
                        :: N2b (c mod 4 * 64 + d)%N :: t)
      end
  end.

Fixpoint b64_vals (s : bytes) : option (list N) :=
  match s with
  | [] => Some []
  | c :: s' =>
      if is_newline c then b64_vals s'
      else match b64_val c, b64_vals s' with
           | Some v, Some r => Some (v :: r)
           | _, _ => None
           end
  end.

(** Go [base64.RawStdEncoding.DecodeString]. *)
Definition b64_decode (s : bytes) : option bytes :=
  match b64_vals s with
  | None => None
  | Some vs => b64_groups vs
  end.

Definition opt_res {A B} (f : A -> B) (o : option A) : res B :=
  match o with Some a => Ok (f a) | None => Fail EAnon end.

(** KindEncoder.EncodeString of each encoder:
    kString 45-47, kBool 74-80, kInt32 103-109, kUint32 131-137, kInt64Kind
    159-165, kSint64Kind 188-190 (panics), kUint64Kind 207-213, kBytes 236-242. *)
Definition encode_string (k : kind) (s : bytes) : res pvalue :=
  match k with
  | StringKind => Ok (VString s)
  | BoolKind => opt_res VBool (parse_bool s)
  | Int32Kind => opt_res VInt32 (parse_int 32 s)
  | Uint32Kind => opt_res VUint32 (parse_uint 32 s)
  | Int64Kind => opt_res VInt64 (parse_int 64 s)
  | Sint64Kind => Panic
  | Uint64Kind => opt_res VUint64 (parse_uint 64 s)
  | BytesKind => opt_res VBytes (b64_decode s)
  | _ => Fail EAnon
  end.

(** KindEncoder.EncodeInterface of each encoder: the dynamic type must be the
    Go type of the kind. Lines 49-55, 82-88, 111-117, 139-145, 167-173,
    192-194 (panics), 215-221, 244-250. *)
Definition encode_interface (k : kind) (v : goval) : res pvalue :=
  match k, v with
  | StringKind, GString s => Ok (VString s)
  | BoolKind, GBool b => Ok (VBool b)
  | Int32Kind, GInt32 z => Ok (VInt32 z)
  | Uint32Kind, GUint32 n => Ok (VUint32 n)
  | Int64Kind, GInt64 z => Ok (VInt64 z)
  | Sint64Kind, _ => Panic
  | Uint64Kind, GUint64 n => Ok (VUint64 n)
  | BytesKind, GBytes b => Ok (VBytes b)
  | _, _ => Fail EAnon
  end.

(** Go [b[1:]]; the buffer always holds at least the length byte. *)
Definition drop1 (b : bytes) : bytes := tail b.

(** KindEncoder.EncodeValueToBytes of each encoder:
    kString 57-65, kBool 90-94, kInt32 119-123, kUint32 147-151, kInt64Kind
    175-179, kSint64Kind 196-198 (panics), kUint64Kind 223-227, kBytes 252-257.
    Accessing a value of another type panics in protoreflect. Simplification:
    [Value.String] of a non-string value yields debug text instead of a panic;
    it is modelled as a panic, since no caller relies on it. *)
Definition encode_value (k : kind) (v : pvalue) : res bytes :=
  match k, v with
  | StringKind, VString s => Ok (drop1 (append_bytes s))
  | BoolKind, VBool b => Ok (append_varint (if b then 1 else 0)%N)
  | Int32Kind, VInt32 z => Ok (append_varint (Z.to_N (z mod 2 ^ 64)))
  | Uint32Kind, VUint32 n => Ok (append_varint (n mod 2 ^ 32)%N)
  | Int64Kind, VInt64 z => Ok (append_varint (Z.to_N (z mod 2 ^ 64)))
  | Uint64Kind, VUint64 n => Ok (append_varint n)
  | BytesKind, VBytes b => Ok (drop1 (append_bytes b))
  | _, _ => Panic
  end.

(** The values a field of kind [k] can hold: the Go types bound the integers,
    and a Go slice length is below 2^63. *)
Definition value_ok (k : kind) (v : pvalue) : bool :=
  match k, v with
  | StringKind, VString s => (blen s <? 2 ^ 63)%N
  | BoolKind, VBool _ => true
  | Int32Kind, VInt32 z => (-(2 ^ 31) <=? z)%Z && (z <? 2 ^ 31)%Z
  | Uint32Kind, VUint32 n => (n <? 2 ^ 32)%N
  | Int64Kind, VInt64 z => (-(2 ^ 63) <=? z)%Z && (z <? 2 ^ 63)%Z
  | Uint64Kind, VUint64 n => (n <? 2 ^ 64)%N
  | BytesKind, VBytes b => (blen b <? 2 ^ 63)%N
  | _, _ => false
  end.
