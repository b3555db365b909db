(** Protobuf messages on the wire, as google.golang.org/protobuf (v1.26.0, a
    library the repository calls) writes and reads them.

    The library source is not part of /repo; these definitions follow the
    protobuf encoding specification and the library's documented behaviour:
    fields are written in the order of their numbers and omitted when empty; a
    field that is read twice is replaced (or merged, if a message); a field of
    another wire type counts as unknown; strings have to be UTF-8. *)
From Coq Require Import NArith ZArith List Bool String.
From stdpp Require Import base list option.
From Verif.Model Require Import Bytes Wire.
Local Open Scope N_scope.

(** A field with its value; the fields of a group are not kept, as no message
    here has one. *)
Inductive wvalue :=
| WVarint (v : N) | WFixed64 (b : bytes) | WBytes (b : bytes) | WGroup | WFixed32 (b : bytes).
Notation wfield := (N * wvalue)%type.

(** ** Writing *)
Definition encode_field (f : wfield) : bytes :=
  match f with
  | (n, WVarint v) => append_varint (n * 8) ++ append_varint v
  | (n, WFixed64 b) => append_varint (n * 8 + 1) ++ b
  | (n, WBytes b) => append_varint (n * 8 + 2) ++ append_bytes b
  | (n, WGroup) => append_varint (n * 8 + 3) ++ append_varint (n * 8 + 4)
  | (n, WFixed32 b) => append_varint (n * 8 + 5) ++ b
  end.
Definition encode_fields (fs : list wfield) : bytes := concat (map encode_field fs).

(** Fields by their type: omitted if they have the default value. *)
Definition f_bytes (n : N) (b : bytes) : list wfield := match b with [] => [] | _ => [(n, WBytes b)] end.
Definition f_each (n : N) (l : list bytes) : list wfield := map (fun b => (n, WBytes b)) l.
Definition f_uint (n : N) (v : N) : list wfield := if v =? 0 then [] else [(n, WVarint v)].
Definition f_int (n : N) (z : Z) : list wfield := f_uint n (Z.to_N (z mod 2 ^ 64)).
Definition f_bool (n : N) (b : bool) : list wfield := f_uint n (if b then 1 else 0).
(** Messages: any number of them, or one that may be nil. *)
Definition f_messages {A} (enc : A -> list wfield) (n : N) (l : list A) : list wfield :=
  f_each n (map (fun x => encode_fields (enc x)) l).
Definition f_message {A} (enc : A -> list wfield) (n : N) (o : option A) : list wfield :=
  f_messages enc n (option_list o).

(** ** Reading *)
(** Number, wire type, rest. Numbers are from 1 to 2^29 - 1. *)
Definition consume_tag (b : bytes) : option (N * N * bytes) :=
  match consume_varint b with
  | inr _ => None
  | inl (v, r) =>
      if (v / 8 <? 1) || (2 ^ 29 <=? v / 8) then None else Some (v / 8, v mod 8, r)
  end.
Definition consume_fixed (n : nat) (b : bytes) : option (bytes * bytes) :=
  if (length b <? n)%nat then None else Some (take n b, drop n b).
(** Values that are no groups. *)
Definition consume_value (ty : N) (b : bytes) : option (wvalue * bytes) :=
  match ty with
  | 0 => match consume_varint b with inl (v, r) => Some (WVarint v, r) | inr _ => None end
  | 1 => match consume_fixed 8 b with Some (v, r) => Some (WFixed64 v, r) | None => None end
  | 2 => match consume_bytes b with inl (v, r) => Some (WBytes v, r) | inr _ => None end
  | 5 => match consume_fixed 4 b with Some (v, r) => Some (WFixed32 v, r) | None => None end
  | _ => None
  end.
(** The rest after the end of the groups that are open, innermost first. *)
Fixpoint skip_groups (fuel : nat) (open : list N) (b : bytes) : option bytes :=
  match open with
  | [] => Some b
  | num :: outer =>
      match fuel with
      | O => None
      | S fuel =>
          match consume_tag b with
          | None => None
          | Some (n, ty, r) =>
              if ty =? 4 then (if n =? num then skip_groups fuel outer r else None)
              else if ty =? 3 then skip_groups fuel (n :: open) r
              else match consume_value ty r with
                   | None => None
                   | Some (_, r') => skip_groups fuel open r'
                   end
          end
      end
  end.
Definition consume_field (b : bytes) : option (wfield * bytes) :=
  match consume_tag b with
  | None => None
  | Some (n, ty, r) =>
      if ty =? 3
      then match skip_groups (length r) [n] r with Some r' => Some ((n, WGroup), r') | None => None end
      else match consume_value ty r with Some (v, r') => Some ((n, v), r') | None => None end
  end.
(** All fields; each has at least one byte, so that the fuel, the number of
    bytes, suffices. *)
Fixpoint parse_from (fuel : nat) (b : bytes) : option (list wfield) :=
  match b with
  | [] => Some []
  | _ :: _ =>
      match fuel with
      | O => None
      | S fuel =>
          match consume_field b with
          | None => None
          | Some (f, r) => match parse_from fuel r with Some l => Some (f :: l) | None => None end
          end
      end
  end.
Definition parse_fields (b : bytes) : option (list wfield) := parse_from (length b) b.

(** utf8.Valid of Go's unicode/utf8. *)
Definition in_range (lo hi : N) (b : byte) : bool := (lo <=? b2N b) && (b2N b <=? hi).
Definition continuation : byte -> bool := in_range 128 191.
Fixpoint utf8_valid (b : bytes) : bool :=
  match b with
  | [] => true
  | x :: r =>
      if in_range 0 127 x then utf8_valid r
      else match r with
      | [] => false
      | y :: r =>
          if in_range 194 223 x then continuation y && utf8_valid r
          else match r with
          | [] => false
          | z :: r =>
              if in_range 224 224 x then in_range 160 191 y && continuation z && utf8_valid r
              else if in_range 237 237 x then in_range 128 159 y && continuation z && utf8_valid r
              else if in_range 225 239 x then continuation y && continuation z && utf8_valid r
              else match r with
              | [] => false
              | w :: r =>
                  if in_range 240 240 x
                  then in_range 144 191 y && continuation z && continuation w && utf8_valid r
                  else if in_range 241 243 x
                  then continuation y && continuation z && continuation w && utf8_valid r
                  else in_range 244 244 x && in_range 128 143 y && continuation z && continuation w && utf8_valid r
              end
          end
      end
  end.

(** The values of a field. *)
Definition values (n : N) (fs : list wfield) : list wvalue :=
  map snd (List.filter (fun f => fst f =? n) fs).
Definition payloads (n : N) (fs : list wfield) : list bytes :=
  concat (map (fun v => match v with WBytes b => [b] | _ => [] end) (values n fs)).
Definition varints (n : N) (fs : list wfield) : list N :=
  concat (map (fun v => match v with WVarint b => [b] | _ => [] end) (values n fs)).

(** Reading a field by its type. *)
Definition g_bytes (n : N) (fs : list wfield) : bytes := List.last (payloads n fs) [].
Definition g_texts (n : N) (fs : list wfield) : option (list bytes) :=
  if forallb utf8_valid (payloads n fs) then Some (payloads n fs) else None.
Definition g_text (n : N) (fs : list wfield) : option bytes :=
  match g_texts n fs with Some l => Some (List.last l []) | None => None end.
Definition g_uint (n : N) (fs : list wfield) : N := List.last (varints n fs) 0.
Definition g_int (n : N) (fs : list wfield) : Z :=
  let v := g_uint n fs in if v <? 2 ^ 63 then Z.of_N v else (Z.of_N v - 2 ^ 64)%Z.
Definition g_int32 (n : N) (fs : list wfield) : Z :=
  let v := g_uint n fs mod 2 ^ 32 in if v <? 2 ^ 31 then Z.of_N v else (Z.of_N v - 2 ^ 32)%Z.
Definition g_bool (n : N) (fs : list wfield) : bool := negb (g_uint n fs =? 0).
Definition read {A} (dec : list wfield -> option A) (b : bytes) : option A :=
  match parse_fields b with Some fs => dec fs | None => None end.
Definition g_messages {A} (dec : list wfield -> option A) (n : N) (fs : list wfield) : option (list A) :=
  mapM (read dec) (payloads n fs).
(** Merging messages is reading their bytes one after the other; each has to be
    a message. *)
Definition g_message {A} (dec : list wfield -> option A) (n : N) (fs : list wfield) : option (option A) :=
  match payloads n fs with
  | [] => Some None
  | l => match mapM (read dec) l with
         | None => None
         | Some _ => match read dec (concat l) with Some x => Some (Some x) | None => None end
         end
  end.

(** Fields of a message that nobody knows: other numbers or wire types. *)
Definition is_bytes (v : wvalue) : bool := match v with WBytes _ => true | _ => false end.
Definition is_varint (v : wvalue) : bool := match v with WVarint _ => true | _ => false end.
Definition known (types : list (N * (wvalue -> bool))) (f : wfield) : bool :=
  existsb (fun x => (fst x =? fst f) && snd x (snd f)) types.
