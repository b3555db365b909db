(** x/authn/crypto/secp256k1: keys and signatures (the build without the tag
    libsecp256k1). *)
From Coq Require Import NArith List Bool String.
From stdpp Require Import base list.
From Verif.Model Require Import Bytes.

(** btcec.S256().N (library): the order of the group. secp256k1_nocgo.go:17
    secp256k1halfN. *)
Definition curve_order : N := 0xFFFFFFFFFFFFFFFFFFFFFFFFFFFFFFFEBAAEDCE6AF48A03BBFD25E8CD0364141.
Definition half_order (order : N) : N := N.shiftr order 1.

(** math/big (library) Int.SetBytes and Int.Bytes: big-endian, without leading zeros. *)
Definition set_bytes (b : bytes) : N := fold_left (fun n c => n * 256 + b2N c)%N b 0%N.
Fixpoint digits (fuel : nat) (n : N) (acc : bytes) : bytes :=
  match fuel with
  | O => acc
  | S fuel' => if N.eqb n 0 then acc else digits fuel' (n / 256) (N2b n :: acc)
  end.
Definition int_bytes (n : N) : bytes := digits (N.size_nat n) n [].

(** copy(dst[32-len(b):32], b) into 32 zero bytes: the slice expression panics for
    more than 32 bytes. *)
Definition pad32 (b : bytes) : res bytes :=
  if Nat.leb (length b) 32 then Ok (replicate (32 - length b) Byte.x00 ++ b) else Panic.

(** secp256k1_nocgo.go:53-58 signatureFromBytes. *)
Definition signature_from_bytes (sig : bytes) : N * N := (set_bytes (take 32 sig), set_bytes (take 32 (drop 32 sig))).
(** secp256k1_nocgo.go:62-70 serializeSig. *)
Definition serialize_sig (r s : N) : res bytes :=
  match pad32 (int_bytes r) with
  | Ok a => match pad32 (int_bytes s) with Ok b => Ok (a ++ b) | e => e end
  | e => e
  end.

(** secp256k1.go:56-75 genPrivKey. The reader is the list of bytes it has to give;
    a read beyond its end is an error, and panics. *)
Definition valid_scalar (d : N) : bool := ((0 <? d) && (d <? curve_order))%N.
Fixpoint gen_priv_key_loop (fuel : nat) (reader : bytes) : res bytes :=
  match fuel with
  | O => OutOfFuel
  | S fuel' =>
      if Nat.ltb (length reader) 32 then Panic
      else let key := take 32 reader in
           if valid_scalar (set_bytes key) then Ok key else gen_priv_key_loop fuel' (drop 32 reader)
  end.
Definition gen_priv_key (reader : bytes) : res bytes := gen_priv_key_loop (S (length reader)) reader.

(** secp256k1.go:89-106 GenPrivKeyFromSecret; the hash is a parameter. *)
Definition priv_key_from_secret (sha256 : bytes -> bytes) (secret : bytes) : res bytes :=
  pad32 (int_bytes (set_bytes (sha256 secret) mod (curve_order - 1) + 1)).

Section Curve.
  (** The library btcec: points, parsing and writing of public keys. *)
  Context {point : Type} (parse_point : bytes -> option point) (write_point : point -> bytes).
  Context (order : N) (sha256 : bytes -> bytes).
  (** signature.Verify and priv.Sign of btcec, on a hash. *)
  Context (point_verify : point -> bytes -> N -> N -> bool).
  Context (scalar_sign : N -> bytes -> res (N * N)) (base_mult : N -> point).

  (** secp256k1_nocgo.go:33-49 VerifySignature. *)
  Definition verify_signature (key msg sig : bytes) : bool :=
    if negb (Nat.eqb (length sig) 64) then false
    else match parse_point key with
         | None => false
         | Some pub =>
             let '(r, s) := signature_from_bytes sig in
             if (half_order order <? s)%N then false else point_verify pub (sha256 msg) r s
         end.
  (** secp256k1_nocgo.go:21-29 Sign. *)
  Definition sign (key msg : bytes) : res bytes :=
    match scalar_sign (set_bytes key) (sha256 msg) with
    | Ok (r, s) => serialize_sig r s
    | Fail e => Fail e | Panic => Panic | OutOfFuel => OutOfFuel
    end.
  (** secp256k1.go:33-37 PubKey. *)
  Definition pub_key (key : bytes) : bytes := write_point (base_mult (set_bytes key)).
End Curve.

Section Ecdsa.
  (** What btcec and crypto/ecdsa (libraries) compute, over the operations of the
      group: its order, the multiples of the base point and of any point, the sum,
      the first coordinate ([None] for the point at infinity), inverses modulo the
      order, and the nonce of RFC 6979. *)
  Context {point : Type} (order : N) (base_mult : N -> point) (mult : N -> point -> point) (add : point -> point -> point)
    (first : point -> option N) (inverse : N -> option N) (nonce : N -> bytes -> N).

  (** crypto/ecdsa hashToInt. *)
  Definition hash_to_int (hash : bytes) : N :=
    let bits := N.size order in
    let size := N.to_nat ((bits + 7) / 8) in
    let h := take size hash in
    let n := set_bytes h in
    if (bits <? blen h * 8)%N then N.shiftr n (blen h * 8 - bits) else n.
  (** crypto/ecdsa Verify. *)
  Definition ecdsa_verify (pub : point) (hash : bytes) (r s : N) : bool :=
    if ((r =? 0) || (s =? 0) || (order <=? r) || (order <=? s))%N then false
    else match inverse s with
         | None => false
         | Some w =>
             let u1 := ((hash_to_int hash * w) mod order)%N in
             let u2 := ((r * w) mod order)%N in
             match first (add (base_mult u1) (mult u2 pub)) with
             | None => false
             | Some x => N.eqb (x mod order) r
             end
         end.
  (** btcec signRFC6979. A nonce without an inverse does not occur (panic). *)
  Definition ecdsa_sign (d : N) (hash : bytes) : res (N * N) :=
    let k := nonce d hash in
    match inverse k, first (base_mult k) with
    | Some i, Some x =>
        let r := (x mod order)%N in
        if N.eqb r 0 then Fail EAnon
        else let s := (((d * r + hash_to_int hash) * i) mod order)%N in
             let s := if (half_order order <? s)%N then (order - s)%N else s in
             if N.eqb s 0 then Fail EAnon else Ok (r, s)
    | _, _ => Panic
    end.
End Ecdsa.
