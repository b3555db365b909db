(** Theorems about the ECDSA keys of x/authn/crypto/internal/ecdsa: C75. *)
From Coq Require Import NArith ZArith Znumtheory List Bool String.
From stdpp Require Import base list.
From Verif.Model Require Import Bytes Secp256k1 Ecdsa.
From Verif.Spec Require Import Secp256k1Spec EcdsaSpec DigitsSpec DemoEcdsa.
From Verif.Proofs Require Import DerFacts EcdsaFacts EcdsaProps.
Local Open Scope Z_scope.

(** ** C75 *)
Section Public.
  (** For every curve over a prime field, and every square root that is one. *)
  Context (c : params) (mod_sqrt : Z -> Z -> option Z).
  Notation p := (pa_p c).
  Context (HP : prime p) (HO : Z.odd p = true) (HR : square_roots p mod_sqrt).
  Notation read := (pub_unmarshal mod_sqrt).

  Theorem C75_public_key_reads_back x y a : p <= 256 ^ Z.of_nat (field_size c) -> 0 <= x < p -> 0 <= y < p -> on_short p (pa_b c) x y ->
    exists bz, pub_bytes {| pk_key := Some (c, (x, y)); pk_address := a |} = Ok bz
      /\ forall pk, exists pk', read bz c (S (field_size c)) pk = Ok pk' /\ pk_key pk' = Some (c, (x, y)).
  Proof. exact (public_reads_back c mod_sqrt HP HO HR x y a). Qed.
  (** Accepted are exactly the compressed points of the curve. *)
  Theorem C75_public_key_accepted_exactly bz expected pk :
    match read bz c expected pk with
    | Ok pk' => length bz = expected
        /\ exists x y odd, pk_key pk' = Some (c, (x, y)) /\ 0 <= x < p /\ 0 <= y < p /\ on_short p (pa_b c) x y
             /\ compressed (field_size c) bz x odd /\ (odd = Z.odd y \/ y = 0)
    | Fail _ => length bz <> expected
        \/ bz <> [] /\ forall x y odd, compressed (field_size c) bz x odd -> 0 <= x < p -> 0 <= y < p -> ~ on_short p (pa_b c) x y
    | Panic => bz = [] /\ expected = 0%nat
    | OutOfFuel => False
    end.
  Proof. exact (public_exact c mod_sqrt HP HO HR bz expected pk). Qed.
  (** One text for each key, but for points on the first axis. *)
  Theorem C75_public_key_one_text_partial bz expected pk pk' x y :
    read bz c expected pk = Ok pk' -> pk_key pk' = Some (c, (x, y)) -> y <> 0 -> pub_bytes pk' = Ok bz.
  Proof. exact (public_one_text c mod_sqrt HP HO HR bz expected pk pk' x y). Qed.
End Public.
Theorem C75_public_key_one_text_refuted : exists bz bz' pk', bz <> bz' /\ forall pk, pk_address pk = None ->
  pub_unmarshal search_root bz toy 2 pk = Ok pk' /\ pub_unmarshal search_root bz' toy 2 pk = Ok pk'.
Proof. exact two_texts. Qed.
Example C75_case_public : prime (pa_p toy) /\ Z.odd (pa_p toy) = true /\ square_roots (pa_p toy) search_root
  /\ pa_p toy <= 256 ^ Z.of_nat (field_size toy) /\ on_short (pa_p toy) (pa_b toy) 3 2
  /\ pub_bytes toy_public = Ok [Byte.x02; Byte.x03]
  /\ pub_unmarshal search_root [Byte.x03; Byte.x0a] toy 2 toy_public = Ok {| pk_key := Some (toy, (10, 17)); pk_address := None |}
  /\ pub_unmarshal search_root [Byte.x04; Byte.x0a] toy 2 toy_public = Fail EAnon
  /\ pub_unmarshal search_root [Byte.x02; Byte.x01] toy 2 toy_public = Fail EAnon
  /\ pub_unmarshal search_root [] toy 0 toy_public = Panic.
Proof. split; [exact prime_23|]. split; [done|]. split; [by apply search_roots|]. split; [done|]. split; [by exists (-1)|]. repeat apply conj; vm_compute; reflexivity. Qed.

Section Libraries.
  (** For all libraries. *)
  Context (mod_sqrt : Z -> Z -> option Z) (base_mult : params -> bytes -> Z * Z) (sha256 : bytes -> bytes).
  Context (point_verify : params -> Z * Z -> bytes -> Z -> Z -> bool).
  Context {random : Type} (scalar_sign : params -> Z -> bytes -> random -> option (N * N)).
  Notation address := (pub_address sha256).
  Notation verify := (pub_verify sha256 point_verify).

  (** The address of a key asked for the first time. *)
  Theorem C75_first_address_partial name pk : pk_address pk = None ->
    match address name pk with
    | Ok (pk', a) => pk_key pk' = pk_key pk /\ (exists bz, pub_bytes pk = Ok bz /\ a = sha256 (sha256 name ++ bz)) /\ address name pk' = Ok (pk', a)
    | Panic => forall bz, pub_bytes pk <> Ok bz
    | _ => False
    end.
  Proof. exact (first_address sha256 name pk). Qed.
  (** Once asked, it stays the same under other names and for other keys read into
      the same place. *)
  Theorem C75_address_refuted name name' bz c n pk pk1 a pk2 : address name pk = Ok (pk1, a) ->
    address name' pk1 = Ok (pk1, a) /\ (pub_unmarshal mod_sqrt bz c n pk1 = Ok pk2 -> address name' pk2 = Ok (pk2, a)).
  Proof. exact (address_stays mod_sqrt sha256 name name' bz c n pk pk1 a pk2). Qed.

  (** Accepted are exactly two numbers in DER that the curve accepts; what stands
      behind them is not looked at. *)
  Theorem C75_verifies_exactly pk msg sig :
    match verify pk msg sig with
    | Ok true => exists c q r s inside after, pk_key pk = Some (c, q) /\ der_pair r s inside after sig /\ point_verify c q (sha256 msg) r s = true
    | Ok false => forall c q r s inside after, pk_key pk = Some (c, q) -> der_pair r s inside after sig -> point_verify c q (sha256 msg) r s = false
    | Panic => pk_key pk = None /\ exists r s inside after, der_pair r s inside after sig
    | _ => False
    end.
  Proof. exact (verify_exact sha256 point_verify pk msg sig). Qed.
  Theorem C75_changed_signature_refuted pk msg sig more : verify pk msg sig = Ok true -> verify pk msg (sig ++ more) = Ok true.
  Proof. exact (verify_appended sha256 point_verify pk msg sig more). Qed.
  (** What a key signs, its public key accepts. *)
  Theorem C75_own_signature sk size msg rand sig :
    (N.of_nat size < 2 ^ 29)%N ->
    (forall h rand r s, scalar_sign (sk_curve sk) (sk_scalar sk) h rand = Some (r, s) ->
       (r < 256 ^ N.of_nat size)%N /\ (s < 256 ^ N.of_nat size)%N
       /\ point_verify (sk_curve sk) (sk_point sk) h (Z.of_N r) (Z.of_N s) = true) ->
    priv_sign sha256 scalar_sign sk msg rand = Ok sig ->
    verify (priv_public sk) msg sig = Ok true /\ exists r s, der_pair (Z.of_N r) (Z.of_N s) [] [] sig.
  Proof. exact (own_signature sha256 point_verify scalar_sign sk size msg rand sig). Qed.

  (** Private keys: every text of the expected length is accepted, whatever its
      number; it is written back unless the number does not fit the field. *)
  Theorem C75_private_key_accepted_exactly bz c expected :
    match priv_unmarshal base_mult bz c expected with
    | Ok sk => length bz = expected /\ sk_curve sk = c /\ sk_scalar sk = Z.of_N (number bz) /\ pk_key (priv_public sk) = Some (c, base_mult c bz)
        /\ (expected = field_size c -> priv_bytes sk = Ok bz)
        /\ (priv_bytes sk = Panic <-> 256 ^ Z.of_nat (field_size c) <= Z.of_N (number bz))
    | Fail _ => length bz <> expected
    | _ => False
    end.
  Proof. exact (private_exact base_mult bz c expected). Qed.
  Theorem C75_private_key_reads_back sk : 0 <= sk_scalar sk < 256 ^ Z.of_nat (field_size (sk_curve sk)) ->
    exists bz, priv_bytes sk = Ok bz /\ length bz = field_size (sk_curve sk)
      /\ exists sk', priv_unmarshal base_mult bz (sk_curve sk) (field_size (sk_curve sk)) = Ok sk' /\ sk_scalar sk' = sk_scalar sk /\ sk_curve sk' = sk_curve sk.
  Proof. exact (private_own base_mult sk). Qed.
End Libraries.
(** MarshalTo writes into the buffer it is given; a buffer too short is filled and the
    full length answered all the same. *)
Theorem C75_marshal_to text buffer :
  match marshal_to text buffer with
  | Ok (buffer', n) => exists bz, text = Ok bz /\ n = length bz /\ length buffer' = length buffer
      /\ ((length bz <= length buffer)%nat -> take n buffer' = bz /\ drop n buffer' = drop n buffer)
      /\ ((length buffer < length bz)%nat -> buffer' = take (length buffer) bz)
  | _ => forall bz, text <> Ok bz
  end.
Proof. exact (written_to text buffer). Qed.
(** The text shown of a public key has its bytes in hexadecimal digits. *)
Theorem C75_shown name pk t : pub_string name pk = Ok t ->
  exists bz digits, pub_bytes pk = Ok bz /\ t = name ++ str "{" ++ digits ++ str "}" /\ digits_of digits bz.
Proof. exact (shown name pk t). Qed.

Example C75_case_signature :
  priv_sign toy_hash toy_sign toy_private (str "hello") 5%N = Ok [Byte.x30; Byte.x08; Byte.x02; Byte.x02; Byte.x00; Byte.x85; Byte.x02; Byte.x02; Byte.x6f; Byte.x98]
  /\ (forall h rand r s, toy_sign toy (sk_scalar toy_private) h rand = Some (r, s) ->
       (r < 256 ^ N.of_nat 3)%N /\ (s < 256 ^ N.of_nat 3)%N /\ toy_verify toy (sk_point toy_private) h (Z.of_N r) (Z.of_N s) = true)
  /\ pub_verify toy_hash toy_verify (priv_public toy_private) (str "hello") [Byte.x30; Byte.x08; Byte.x02; Byte.x02; Byte.x00; Byte.x85; Byte.x02; Byte.x02; Byte.x6f; Byte.x98; Byte.x01] = Ok true
  /\ pub_verify toy_hash toy_verify (priv_public toy_private) (str "hello") [Byte.x30; Byte.x09; Byte.x02; Byte.x02; Byte.x00; Byte.x85; Byte.x02; Byte.x02; Byte.x6f; Byte.x98; Byte.x01] = Ok true
  /\ pub_verify toy_hash toy_verify (priv_public toy_private) (str "hello") [Byte.x30; Byte.x09; Byte.x02; Byte.x02; Byte.x00; Byte.x85; Byte.x02; Byte.x02; Byte.x6f; Byte.x98] = Ok false
  /\ pub_verify toy_hash toy_verify (priv_public toy_private) (str "hello") [Byte.x30; Byte.x09; Byte.x02; Byte.x03; Byte.x00; Byte.x00; Byte.x85; Byte.x02; Byte.x02; Byte.x6f; Byte.x98] = Ok false.
Proof. exact toy_signature. Qed.
Example C75_case_address : exists pk1 a pk2,
  pub_address toy_hash (str "key") toy_public = Ok (pk1, a) /\ pub_unmarshal search_root [Byte.x03; Byte.x0a] toy 2 pk1 = Ok pk2
  /\ pub_address toy_hash (str "key") {| pk_key := pk_key pk2; pk_address := None |} <> Ok (pk2, a) /\ a <> [].
Proof. exact toy_address. Qed.
Example C75_case_text :
  priv_unmarshal toy_base [Byte.x00] toy 1 = Ok {| sk_curve := toy; sk_point := (0, 0); sk_scalar := 0 |}
  /\ priv_bytes toy_private = Panic
  /\ marshal_to (pub_bytes toy_public) [Byte.xff] = Ok ([Byte.x02], 2%nat)
  /\ marshal_to (pub_bytes toy_public) [Byte.xff; Byte.xff; Byte.xff] = Ok ([Byte.x02; Byte.x03; Byte.xff], 2%nat)
  /\ pub_string (str "toy") {| pk_key := Some (toy, (10, 17)); pk_address := None |} = Ok (str "toy{030A}").
Proof. repeat apply conj; vm_compute; reflexivity. Qed.

Print Assumptions C75_public_key_reads_back.
Print Assumptions C75_public_key_accepted_exactly.
Print Assumptions C75_public_key_one_text_partial.
Print Assumptions C75_public_key_one_text_refuted.
Print Assumptions C75_first_address_partial.
Print Assumptions C75_address_refuted.
Print Assumptions C75_verifies_exactly.
Print Assumptions C75_changed_signature_refuted.
Print Assumptions C75_own_signature.
Print Assumptions C75_private_key_accepted_exactly.
Print Assumptions C75_private_key_reads_back.
Print Assumptions C75_marshal_to.
Print Assumptions C75_shown.
