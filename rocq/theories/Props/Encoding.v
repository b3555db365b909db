(** Properties of the encodings, the key-value store and the index entries:
    C05, C09, C10, C14. *)
From Coq Require Import NArith ZArith List Bool String Sorted.
From stdpp Require Import base list gmap.
From Verif.Model Require Import Bytes Wire KindEncoder KV Indexes.
From Verif.Spec Require Import StoreSpec TextSpec IterSpec.
From Verif.Proofs Require Import KindEncoderFacts IndexFacts StoreProps.

(** C05: different values of one kind have different encodings. *)
Theorem C05_field_encodings_injective :
  forall k v w b,
    value_ok k v = true -> value_ok k w = true ->
    encode_value k v = Ok b -> encode_value k w = Ok b -> v = w.
Proof. exact encode_value_inj_ok. Qed.
Print Assumptions C05_field_encodings_injective.

(** C05: every value a field of a supported kind can hold has an encoding. *)
Theorem C05_field_encodings_total :
  forall k v, value_ok k v = true -> exists b, encode_value k v = Ok b.
Proof. exact encode_value_total. Qed.
Print Assumptions C05_field_encodings_total.

Example C05_case :
  value_ok Int32Kind (VInt32 (-1)) = true /\ value_ok Int32Kind (VInt32 1) = true
  /\ encode_value Int32Kind (VInt32 (-1)) <> encode_value Int32Kind (VInt32 1)
  /\ encode_value StringKind (VString (repeat Byte.x61 200)) <> encode_value StringKind (VString (Byte.x01 :: repeat Byte.x61 200)).
Proof. repeat split; vm_compute; discriminate. Qed.

(** C09: the scan prefix for (type, field, value) is a prefix of exactly the
    entries written for this type, field and value. *)
Theorem C09_scan_meets_only_its_entries :
  forall a o i v,
    (blen (ik_marshal a) < 2 ^ 63)%N ->
    (blen (ik_marshal {| ik_object := o; ik_index := i; ik_value := v; ik_primary := [] |}) < 2 ^ 63)%N ->
    has_prefix (ik_marshal {| ik_object := o; ik_index := i; ik_value := v; ik_primary := [] |})
               (ik_marshal a) = true
    <-> ik_object a = o /\ ik_index a = i /\ ik_value a = v.
Proof. exact scan_prefix_exact. Qed.
Print Assumptions C09_scan_meets_only_its_entries.

Definition entry (o i v p : string) : index_key :=
  {| ik_object := str o; ik_index := str i; ik_value := str v; ik_primary := str p |}.
Example C09_case :
  has_prefix (ik_marshal (entry "t" "f" "v" "")) (ik_marshal (entry "t" "f" "v" "pk")) = true
  /\ has_prefix (ik_marshal (entry "t" "f" "v" "")) (ik_marshal (entry "t" "f" "vv" "pk")) = false
  /\ has_prefix (ik_marshal (entry "t" "f" "v" "")) (ik_marshal (entry "tf" "" "v" "pk")) = false.
Proof. vm_compute. auto. Qed.

(** C10: round trips. *)
Theorem C10_index_key_roundtrip :
  forall k, (blen (ik_marshal k) < 2 ^ 63)%N -> ik_unmarshal (ik_marshal k) = Ok k.
Proof. exact ik_roundtrip. Qed.
Print Assumptions C10_index_key_roundtrip.

Theorem C10_index_list_roundtrip :
  forall l, l <> [] -> Forall (fun b => blen b < two64)%N l -> (N.of_nat (length l) <= 11728124029610)%N ->
    index_list_unmarshal (index_list_marshal l) = Ok l.
Proof. exact index_list_roundtrip. Qed.
Print Assumptions C10_index_list_roundtrip.

(** C10: a key that decodes has no byte (but the type byte) left unaccounted
    for: damaged keys give an error, or the key of which they are the encoding. *)
Theorem C10_decoded_key_is_complete :
  forall buf k, ik_unmarshal buf = Ok k -> tail buf = tail (ik_marshal k) /\ buf <> [].
Proof. exact ik_unmarshal_inv. Qed.
Print Assumptions C10_decoded_key_is_complete.

(** C10: a list that decodes to something is completely there; the case of the
    empty answer is excluded (see below). *)
Theorem C10_decoded_list_is_complete_partial :
  forall b l, index_list_unmarshal b = Ok l -> l <> [] ->
    exists x p ws, b = x :: p ++ concat ws
      /\ consume_varint p = inl (N.of_nat (length l), []) /\ Forall2 length_delimited ws l.
Proof. exact index_list_unmarshal_inv. Qed.
Print Assumptions C10_decoded_list_is_complete_partial.

(** The full statement is false: the encoding of a list of three keys, cut off
    after the second key, decodes without error to the empty list; and nine
    bytes that announce a huge length panic instead of giving an error. *)
Theorem C10_damage_is_reported_refuted :
  (exists l b r, b ++ r = index_list_marshal l /\ r <> [] /\ length l = 3%nat
                 /\ index_list_unmarshal b = Ok [])
  /\ exists b, ik_unmarshal b = Panic.
Proof.
  split.
  - exists [str "aa"; str "bb"; str "cc"], (take 8 (index_list_marshal [str "aa"; str "bb"; str "cc"])),
      (drop 8 (index_list_marshal [str "aa"; str "bb"; str "cc"])).
    vm_compute. repeat split; discriminate.
  - exists (repeat Byte.xff 9). vm_compute. reflexivity.
Qed.
Print Assumptions C10_damage_is_reported_refuted.

Example C10_case :
  ik_unmarshal (ik_marshal (entry "t" "f" "v" "pk")) = Ok (entry "t" "f" "v" "pk")
  /\ index_list_unmarshal (index_list_marshal [str "aa"; []; str "b"]) = Ok [str "aa"; []; str "b"].
Proof. vm_compute. auto. Qed.

(** C14: the loop over a prefix iterator has exactly one course; it visits
    the stored keys with the prefix, stripped, strictly ascending. *)
Theorem C14_prefix_iteration :
  forall (m : kv) p,
    exists l, (forall l', visits p (iterate_prefix m p) l' <-> l' = l)
      /\ StronglySorted strictly_below l
      /\ forall s, s ∈ l <-> is_Some (m !! (p ++ s)).
Proof. exact prefix_iteration. Qed.
Print Assumptions C14_prefix_iteration.

Example C14_case :
  let m : kv := <[str "b":=[]]> (<[str "ab":=[]]> (<[str "a":=[]]> (<[str "ac":=[]]> (<[str "A":=[]]> ∅)))) in
  piter_collect (str "a") (iterate_prefix m (str "a")) = [[]; str "b"; str "c"].
Proof. vm_compute. reflexivity. Qed.
