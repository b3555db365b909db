(** runtime/orm/indexes: secondary indexes in their own key-value store. *)
From Coq Require Import NArith List Bool String.
From stdpp Require Import base list gmap.
From Verif.Model Require Import Bytes Wire KindEncoder Desc Schema KV Objects.

(** indexes/store.go:11-12. *)
Definition indexers_prefix : byte := Byte.x00.
Definition primary_key_indexes : byte := Byte.x01.

(** indexes/types.go:9-14 indexObjectWithSecondaryKey. *)
Record index_key := {
  ik_object : bytes;     (** objectPrefix *)
  ik_index : bytes;      (** indexPrefix *)
  ik_value : bytes;      (** secondaryKeyValue *)
  ik_primary : bytes     (** primaryKey *)
}.

(** types.go:76-92 appendLengthPrefixed: eight bytes, little endian, then the value. *)
Definition length_prefixed (v : bytes) : bytes := le64 (blen v) ++ v.

(** types.go:19-32 marshal. *)
Definition ik_marshal (s : index_key) : bytes :=
  indexers_prefix ::
    (length_prefixed (ik_object s) ++ length_prefixed (ik_index s)
     ++ length_prefixed (ik_value s) ++ ik_primary s).

(** types.go:59-74 consumeLengthPrefixed: the value and what follows it. The
    conversion [int(length)] of a length from 2^63 on is negative (and adding
    8 to one just below overflows), the test of line 65 then passes and the
    allocation of line 68 panics. *)
Definition consume_length_prefixed (buf : bytes) : res (bytes * bytes) :=
  match buf with
  | b0 :: b1 :: b2 :: b3 :: b4 :: b5 :: b6 :: b7 :: rest =>
      let len := le64_decode b0 b1 b2 b3 b4 b5 b6 b7 in
      if (9223372036854775800 <=? len)%N then Panic
      else if (blen buf <? 8 + len)%N then Fail EAnon
      else Ok (take (N.to_nat len) rest, drop (N.to_nat len) rest)
  | _ => Fail EAnon
  end.

(** types.go:34-57 unmarshal ([buf[1:]] panics on an empty buffer). *)
Definition ik_unmarshal (buf : bytes) : res index_key :=
  match buf with
  | [] => Panic
  | _ :: buf =>
      match consume_length_prefixed buf with
      | Ok (obj, r1) =>
          match consume_length_prefixed r1 with
          | Ok (idx, r2) =>
              match consume_length_prefixed r2 with
              | Ok (val, r3) =>
                  Ok {| ik_object := obj; ik_index := idx; ik_value := val; ik_primary := r3 |}
              | r => res_cast r
              end
          | r => res_cast r
          end
      | r => res_cast r
      end
  end.

(** types.go:97-107 indexList.marshal ([nil] and the empty slice are the same value). *)
Definition index_list_marshal (l : list bytes) : bytes :=
  match l with
  | [] => []
  | _ => primary_key_indexes :: append_varint (N.of_nat (length l)) ++ concat (map append_bytes l)
  end.

(** types.go:118-128, the loop; [n] elements are left to read. The value
    [inl] is the early return of line 120 (nothing is stored). *)
Fixpoint index_list_loop (fuel : nat) (n : N) (buf : bytes) (acc : list bytes)
  : res (unit + (list bytes * bytes)) :=
  if (n =? 0)%N then Ok (inr (rev acc, buf))
  else
    match buf with
    | [] => Ok (inl tt)
    | _ =>
        match fuel with
        | O => OutOfFuel
        | S f =>
            match consume_bytes buf with
            | inr _ => Fail EAnon
            | inl (b, rest) => index_list_loop f (n - 1) rest (b :: acc)
            end
        end
    end.

(** types.go:109-134 indexList.unmarshal into a new list. Line 117 panics when
    the number of slice headers (24 bytes each) exceeds the 2^48 bytes Go can
    allocate; smaller counts are assumed to fit the memory. *)
Definition index_list_unmarshal (buf : bytes) : res (list bytes) :=
  match buf with
  | [] => Panic
  | _ :: buf =>
      match consume_varint buf with
      | inr _ => Fail EAnon
      | inl (n, buf) =>
          if (11728124029610 <? n)%N then Panic
          else
            match index_list_loop (length buf) n buf [] with
            | Ok (inl _) => Ok []
            | Ok (inr (l, rest)) =>
                match rest with
                | [] => Ok l
                | _ => Fail EAnon
                end
            | r => res_cast r
            end
      end
  end.

(** types.go:141-147 typePrefixedKey.bytes. *)
Definition type_prefixed_key (ty pk : bytes) : bytes := ty ++ str "/" ++ pk.

(** runtime/orm/store.go:125-149 ListOptions. *)
Record list_options := {
  lo_interface : list (bytes * goval);
  lo_string : list (bytes * bytes);
  lo_start : N;
  lo_end : N
}.

Section WithObj.
  Context {Obj : Type} (O : objops Obj).

  (** The index key of an object for one indexer (store.go:33-39). *)
  Definition index_key_of (s : schema) (pk : bytes) (ix : indexer) (o : Obj) : res bytes :=
    match ix_encode_object O ix o with
    | Ok v => Ok (ik_marshal {| ik_object := sch_name s; ik_index := ix_name ix;
                                ik_value := v; ik_primary := pk |})
    | r => res_cast r
    end.

  (** indexes/store.go:32-45, the loop over the indexers. *)
  Fixpoint index_loop (s : schema) (pk : bytes) (ixs : list indexer) (o : Obj)
      (keys : list bytes) (m : kv) : res (list bytes) * kv :=
    match ixs with
    | [] => (Ok keys, m)
    | ix :: ixs' =>
        match index_key_of s pk ix o with
        | Ok kb =>
            match kv_has m kb with
            | Ok true => (Fail EAnon, m)
            | Ok false =>
                match kv_set m kb [] with
                | Ok m' => index_loop s pk ixs' o (keys ++ [kb]) m'
                | r => (res_cast r, m)
                end
            | r => (res_cast r, m)
            end
        | r => (res_cast r, m)
        end
    end.

  (** indexes/store.go:24-53 Index. *)
  Definition indexes_index (s : schema) (o : Obj) (m : kv) : res unit * kv :=
    if negb (has_indexes s) then (Ok tt, m)
    else
      match encode_primary_key O s o with
      | Ok pk =>
          match index_loop s pk (sch_indexes s) o [] m with
          | (Ok keys, m') =>
              match kv_set m' (type_prefixed_key (sch_name s) pk) (index_list_marshal keys) with
              | Ok m'' => (Ok tt, m'')
              | r => (res_cast r, m')
              end
          | (r, m') => (res_cast r, m')
          end
      | r => (res_cast r, m)
      end.

  (** indexes/store.go:73-78, the loop ([Delete] always reports true). *)
  Fixpoint clear_loop (keys : list bytes) (m : kv) : res unit * kv :=
    match keys with
    | [] => (Ok tt, m)
    | k :: keys' =>
        match kv_delete m k with
        | Ok (true, m') => clear_loop keys' m'
        | Ok (false, m') => (Panic, m')
        | r => (res_cast r, m)
        end
    end.

  (** indexes/store.go:55-80 ClearIndexes. *)
  Definition indexes_clear (s : schema) (o : Obj) (m : kv) : res unit * kv :=
    if negb (has_indexes s) then (Ok tt, m)
    else
      match encode_primary_key O s o with
      | Ok pk =>
          match kv_get m (type_prefixed_key (sch_name s) pk) with
          | Ok None => (Fail EAnon, m)
          | Ok (Some b) =>
              match index_list_unmarshal b with
              | Ok keys => clear_loop keys m
              | r => (res_cast r, m)
              end
          | r => (res_cast r, m)
          end
      | r => (res_cast r, m)
      end.

  (** indexes/list.go:31-45 and 47-61: one prefix per requested field. *)
  Fixpoint prefixes_interface (s : schema) (l : list (bytes * goval)) : res (list index_key) :=
    match l with
    | [] => Ok []
    | (f, v) :: l' =>
        match indexer_of s f with
        | Ok ix =>
            match ix_encode_interface ix v with
            | Ok b =>
                match prefixes_interface s l' with
                | Ok ps => Ok ({| ik_object := sch_name s; ik_index := ix_name ix;
                                  ik_value := b; ik_primary := [] |} :: ps)
                | r => r
                end
            | Fail _ => Fail EAnon
            | r => res_cast r
            end
        | _ => Fail EAnon
        end
    end.

  Fixpoint prefixes_string (s : schema) (l : list (bytes * bytes)) : res (list index_key) :=
    match l with
    | [] => Ok []
    | (f, v) :: l' =>
        match indexer_of s f with
        | Ok ix =>
            match ix_encode_string ix v with
            | Ok b =>
                match prefixes_string s l' with
                | Ok ps => Ok ({| ik_object := sch_name s; ik_index := ix_name ix;
                                  ik_value := b; ik_primary := [] |} :: ps)
                | r => r
                end
            | Fail _ => Fail EAnon
            | r => res_cast r
            end
        | _ => Fail EAnon
        end
    end.

  (** indexes/list.go:29-64 prefixesToScan. *)
  Definition prefixes_to_scan (s : schema) (opt : list_options) : res (list index_key) :=
    match prefixes_interface s (lo_interface opt) with
    | Ok a =>
        match prefixes_string s (lo_string opt) with
        | Ok b => Ok (a ++ b)
        | r => r
        end
    | r => r
    end.

  (** indexes/list.go:11-25 List: only the first prefix is scanned, Start and
      End are not looked at. The result is the prefix and the iterator. *)
  Definition indexes_list (s : schema) (opt : list_options) (m : kv) : res (bytes * iterator) :=
    match prefixes_to_scan s opt with
    | Ok [] => Fail EAnon
    | Ok (p :: _) =>
        let prefix := ik_marshal p in
        let it := iterate_prefix m prefix in
        if piter_valid prefix it then Ok (prefix, it)
        else Fail (EWrap (ESent IndexNoResults))
    | r => res_cast r
    end.
End WithObj.
