(** runtime/kv: the key-value store.

    Badger (an external library, opened in memory) is modelled as a finite map
    from keys to values with iteration in ascending byte order. Its documented
    key limits are kept: it refuses empty keys, keys longer than 65000 bytes
    and keys that begin with its internal prefix; the wrapper panics then.
    Not modelled: size limits of values and transactions, I/O errors. *)
From Coq Require Import NArith List Bool String.
From stdpp Require Import base list gmap sorting.
From Verif.Model Require Import Bytes.

Notation kv := (gmap bytes bytes).

Definition max_key_size : N := 65000.
Definition key_allowed (k : bytes) : bool :=
  negb (bytes_eqb k []) && (blen k <=? max_key_size)%N
  && negb (has_prefix (str "!badger!") k).

(** runtime/kv/badger.go:23-34 Set. *)
Definition kv_set (m : kv) (k v : bytes) : res kv :=
  if key_allowed k then Ok (<[k := v]> m) else Panic.

(** badger.go:36-59 Get: an empty key makes badger fail, which panics. *)
Definition kv_get (m : kv) (k : bytes) : res (option bytes) :=
  if bytes_eqb k [] then Panic else Ok (m !! k).

(** badger.go:61-64 Has. *)
Definition kv_has (m : kv) (k : bytes) : res bool :=
  match kv_get m k with
  | Ok (Some _) => Ok true
  | Ok None => Ok false
  | Fail e => Fail e
  | Panic => Panic
  | OutOfFuel => OutOfFuel
  end.

(** badger.go:66-77 Delete: always reports that the key existed. *)
Definition kv_delete (m : kv) (k : bytes) : res (bool * kv) :=
  if key_allowed k then Ok (true, delete k m) else Panic.

(** Badger's iteration order: all keys, ascending. *)
Definition bytes_le (a b : bytes) : Prop := bytes_leb a b = true.
Global Instance bytes_le_dec : RelDecision bytes_le.
Proof. intros a b. unfold bytes_le. apply _. Defined.
Definition sorted_keys (m : kv) : list bytes := merge_sort bytes_le (map_to_list m).*1.

(** An iterator: the keys still to visit, current one first. *)
Definition iterator := list bytes.

Fixpoint drop_while {A} (p : A -> bool) (l : list A) : list A :=
  match l with
  | [] => []
  | x :: l' => if p x then drop_while p l' else l
  end.

(** badger.go:96-105 IteratePrefix: seek to the first key not below the prefix. *)
Definition iterate_prefix (m : kv) (prefix : bytes) : iterator :=
  drop_while (fun k => negb (bytes_leb prefix k)) (sorted_keys m).

(** badger.go:132-134 Valid: there is a current key and it has the prefix. *)
Definition piter_valid (prefix : bytes) (it : iterator) : bool :=
  match it with
  | [] => false
  | k :: _ => has_prefix prefix k
  end.

(** badger.go:113-118 Next. *)
Definition piter_next (prefix : bytes) (it : iterator) : res iterator :=
  if piter_valid prefix it then Ok (tail it) else Panic.

(** badger.go:120-122 Key: the current key without the prefix. *)
Definition piter_key (prefix : bytes) (it : iterator) : res bytes :=
  match it with
  | [] => Panic
  | k :: _ => Ok (drop (length prefix) k)
  end.

(** The loop every caller writes: [for ; it.Valid(); it.Next() { it.Key() }]. *)
Fixpoint piter_collect (prefix : bytes) (it : iterator) : list bytes :=
  match it with
  | [] => []
  | k :: it' =>
      if has_prefix prefix k then drop (length prefix) k :: piter_collect prefix it' else []
  end.

(** badger.go:79-94 Iterate and 140-179 BadgerIterator: badger's
    NewKeyIterator(start) visits only the key [start] itself (its versions). *)
Definition iterate_range (m : kv) (start finish : bytes) : iterator :=
  match m !! start with Some _ => [start] | None => [] end.
Definition riter_valid (finish : bytes) (it : iterator) : bool :=
  match it with
  | [] => false
  | k :: _ => if negb (Nat.eqb (length finish) 0) then bytes_leb k finish else true
  end.
Fixpoint riter_collect (finish : bytes) (it : iterator) : list bytes :=
  match it with
  | [] => []
  | k :: it' => if riter_valid finish it then k :: riter_collect finish it' else []
  end.
