(** x/authn/crypto/internal/ecdsa: ECDSA keys over the curves of crypto/elliptic.
    The library is that of Go 1.15, the version of go.mod. *)
From Coq Require Import NArith ZArith List Bool String.
From stdpp Require Import base list.
From Verif.Model Require Import Bytes Secp256k1 Curve.
Local Open Scope Z_scope.

(** encoding/asn1 (library), the part Unmarshal needs for a struct of two *big.Int.
    Error texts are left out: [None]. *)
Section Asn1.
  (** parseTagAndLength, the loop over the bytes of a long length. *)
  Fixpoint long_length (count : nat) (acc : N) (b : bytes) : option (N * bytes) :=
    match count with
    | O => Some (acc, b)
    | S count' =>
        match b with
        | [] => None
        | d :: b' =>
            if N.leb (2 ^ 23) acc then None
            else let acc' := (acc * 256 + b2N d)%N in
                 if N.eqb acc' 0 then None else long_length count' acc' b'
        end
    end.
  (** parseTagAndLength behind the tag. *)
  Definition read_length (b : bytes) : option (N * bytes) :=
    match b with
    | [] => None
    | d :: b' =>
        if N.ltb (b2N d) 128 then Some (b2N d, b')
        else if N.eqb (b2N d) 128 then None
        else match long_length (N.to_nat (b2N d - 128)) 0 b' with
             | Some (n, r) => if N.ltb n 128 then None else Some (n, r)
             | None => None
             end
    end.
  (** parseField up to the content: the tag has to be the expected one, and as much
      content as announced has to be there. Tags with more than one byte never are
      the expected ones. *)
  Definition read_field (tag : byte) (b : bytes) : option (bytes * bytes) :=
    match b with
    | [] => None
    | t :: b' =>
        if negb (Byte.eqb t tag) then None
        else match read_length b' with
             | Some (n, r) => if N.ltb (N.of_nat (length r)) n then None else Some (take (N.to_nat n) r, drop (N.to_nat n) r)
             | None => None
             end
    end.
  (** checkInteger. *)
  Definition check_integer (b : bytes) : bool :=
    match b with
    | [] => false
    | [_] => true
    | a :: d :: _ =>
        negb (N.eqb (b2N a) 0 && N.ltb (b2N d) 128 || N.eqb (b2N a) 255 && negb (N.ltb (b2N d) 128))
    end.
  (** parseBigInt: two's complement. *)
  Definition parse_big_int (b : bytes) : option Z :=
    if check_integer b then
      Some (match b with
            | a :: _ => if N.ltb (b2N a) 128 then Z.of_N (set_bytes b) else Z.of_N (set_bytes b) - 256 ^ Z.of_nat (length b)
            | [] => 0
            end)
    else None.
  Definition read_integer (b : bytes) : option (Z * bytes) :=
    match read_field Byte.x02 b with
    | Some (c, r) => match parse_big_int c with Some z => Some (z, r) | None => None end
    | None => None
    end.
  (** Unmarshal into a signature; bytes behind the two numbers, and behind the
      sequence, are not looked at. *)
  Definition asn1_signature (sig : bytes) : option (Z * Z) :=
    match read_field Byte.x30 sig with
    | Some (c, _) =>
        match read_integer c with
        | Some (r, c') => match read_integer c' with Some (s, _) => Some (r, s) | None => None end
        | None => None
        end
    | None => None
    end.

  (** Marshal of two numbers that are not negative. *)
  Definition write_length (n : N) : bytes :=
    if N.ltb n 128 then [N2b n] else let d := int_bytes n in N2b (128 + N.of_nat (length d)) :: d.
  Definition write_field (tag : byte) (c : bytes) : bytes := tag :: write_length (N.of_nat (length c)) ++ c.
  Definition big_int_content (n : N) : bytes :=
    match int_bytes n with
    | [] => [Byte.x00]
    | a :: d => if N.ltb (b2N a) 128 then a :: d else Byte.x00 :: a :: d
    end.
  Definition write_signature (r s : N) : bytes :=
    write_field Byte.x30 (write_field Byte.x02 (big_int_content r) ++ write_field Byte.x02 (big_int_content s)).
End Asn1.

(** crypto/elliptic (library) CurveParams: y^2 = x^3 - 3x + b modulo p. *)
Record params := { pa_p : Z; pa_b : Z; pa_bits : N }.
Definition field_size (c : params) : nat := N.to_nat (N.div (pa_bits c + 7) 8).
Definition polynomial (c : params) (x : Z) : Z := (x * x * x - 3 * x + pa_b c) mod pa_p c.
Definition on_params (c : params) (x y : Z) : bool := Z.eqb (polynomial c x) ((y * y) mod pa_p c).
(** math/big (library) FillBytes: the absolute value, which has to fit. *)
Definition fill_bytes (x : Z) (size : nat) : res bytes :=
  if Z.leb (256 ^ Z.of_nat size) (Z.abs x) then Panic else Ok (read_bits x size).

Section Keys.
  (** math/big ModSqrt; ScalarBaseMult of the curve; crypto/sha256; crypto/ecdsa's
      Verify and, with what the random reader gives, Sign. *)
  Context (mod_sqrt : Z -> Z -> option Z) (base_mult : params -> bytes -> Z * Z) (sha256 : bytes -> bytes).
  Context (point_verify : params -> Z * Z -> bytes -> Z -> Z -> bool).
  Context {random : Type} (scalar_sign : params -> Z -> bytes -> random -> option (N * N)).

  (** elliptic.MarshalCompressed and UnmarshalCompressed (library). *)
  Definition marshal_compressed (c : params) (x y : Z) : res bytes :=
    match fill_bytes x (field_size c) with
    | Ok b => Ok ((if Z.odd y then Byte.x03 else Byte.x02) :: b)
    | e => e
    end.
  Definition unmarshal_compressed (c : params) (data : bytes) : option (Z * Z) :=
    if negb (Nat.eqb (length data) (1 + field_size c)) then None
    else match data with
         | [] => None
         | d :: rest =>
             if negb (Byte.eqb d Byte.x02 || Byte.eqb d Byte.x03) then None
             else
               let x := Z.of_N (set_bytes rest) in
               if Z.leb (pa_p c) x then None
               else match mod_sqrt (polynomial c x) (pa_p c) with
                    | None => None
                    | Some y =>
                        let y' := if Bool.eqb (Z.odd y) (Byte.eqb d Byte.x03) then y else (- y) mod pa_p c in
                        if on_params c x y' then Some (x, y') else None
                    end
         end.

  (** pubkey.go:21-26 PubKey. [None]: the zero value, without a curve. *)
  Record ec_public := { pk_key : option (params * (Z * Z)); pk_address : option bytes }.
  (** pubkey.go:40-45 Bytes, of a key that is not nil. *)
  Definition pub_bytes (pk : ec_public) : res bytes :=
    match pk_key pk with
    | Some (c, (x, y)) => marshal_compressed c x y
    | None => Panic
    end.
  (** pubkey.go:93-113 Hash. *)
  Definition adr28 (typ key : bytes) : bytes := sha256 (sha256 typ ++ key).
  (** pubkey.go:31-36 Address. The key afterwards, and the address. *)
  Definition pub_address (name : bytes) (pk : ec_public) : res (ec_public * bytes) :=
    match pk_address pk with
    | Some a => Ok (pk, a)
    | None =>
        match pub_bytes pk with
        | Ok b => Ok ({| pk_key := pk_key pk; pk_address := Some (adr28 name b) |}, adr28 name b)
        | Fail e => Fail e | Panic => Panic | OutOfFuel => OutOfFuel
        end
    end.
  (** pubkey.go:48-56 VerifySignature. *)
  Definition pub_verify (pk : ec_public) (msg sig : bytes) : res bool :=
    match asn1_signature sig with
    | None => Ok false
    | Some (r, s) => match pk_key pk with Some (c, q) => Ok (point_verify c q (sha256 msg) r s) | None => Panic end
    end.
  (** pubkey.go:59-61 String: %X writes capital hexadecimal digits. *)
  Definition capital (n : N) : byte := N2b (if N.ltb n 10 then 48 + n else 55 + n).
  Definition capitals (b : bytes) : bytes := flat_map (fun x => [capital (N.div (b2N x) 16); capital (N.modulo (b2N x) 16)]) b.
  Definition pub_string (name : bytes) (pk : ec_public) : res bytes :=
    match pub_bytes pk with
    | Ok b => Ok (name ++ str "{" ++ capitals b ++ str "}")
    | e => e
    end.
  (** pubkey.go:66-70 and privkey.go:54-58 MarshalTo: the buffer afterwards and the
      number answered; no error. *)
  Definition copy_into (buffer b : bytes) : bytes := take (length buffer) b ++ drop (length b) buffer.
  Definition marshal_to (bytes_of : res bytes) (buffer : bytes) : res (bytes * nat) :=
    match bytes_of with
    | Ok b => Ok (copy_into buffer b, length b)
    | Fail e => Fail e | Panic => Panic | OutOfFuel => OutOfFuel
    end.
  (** pubkey.go:73-84 Unmarshal. The key afterwards; [Fail]: the error, the key is as
      before. The text of the second error reads the first byte. *)
  Definition pub_unmarshal (bz : bytes) (c : params) (expected : nat) (pk : ec_public) : res ec_public :=
    if negb (Nat.eqb (length bz) expected) then Fail EAnon
    else match unmarshal_compressed c bz with
         | Some q => Ok {| pk_key := Some (c, q); pk_address := pk_address pk |}
         | None => match bz with [] => Panic | _ => Fail EAnon end
         end.

  (** privkey.go:21-23 PrivKey. *)
  Record ec_private := { sk_curve : params; sk_point : Z * Z; sk_scalar : Z }.
  (** privkey.go:26-28 PubKey. *)
  Definition priv_public (sk : ec_private) : ec_public := {| pk_key := Some (sk_curve sk, sk_point sk); pk_address := None |}.
  (** privkey.go:31-39 Bytes, of a key that is not nil. *)
  Definition priv_bytes (sk : ec_private) : res bytes := fill_bytes (sk_scalar sk) (field_size (sk_curve sk)).
  (** privkey.go:42-45 Sign. [Fail]: the random reader failed. *)
  Definition priv_sign (sk : ec_private) (msg : bytes) (rand : random) : res bytes :=
    match scalar_sign (sk_curve sk) (sk_scalar sk) (sha256 msg) rand with
    | Some (r, s) => Ok (write_signature r s)
    | None => Fail EAnon
    end.
  (** privkey.go:48-50 String. *)
  Definition priv_string (name : bytes) (sk : ec_private) : bytes := name ++ str "{-}".
  (** privkey.go:61-70 Unmarshal. *)
  Definition priv_unmarshal (bz : bytes) (c : params) (expected : nat) : res ec_private :=
    if negb (Nat.eqb (length bz) expected) then Fail EAnon
    else Ok {| sk_curve := c; sk_point := base_mult c bz; sk_scalar := Z.of_N (set_bytes bz) |}.
End Keys.
