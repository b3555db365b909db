(** Theorems about the bytes of transactions: what is signed, which bytes are
    transactions, what protobuf messages are, addresses of signers: C37, C39,
    C54, C55, C56. *)
From Coq Require Import NArith ZArith List Bool String.
From stdpp Require Import base list option.
From Verif.Model Require Import Bytes Proto Schema Orm Universe Marshal Errors Authn Bech32 TxDecoder.
From Verif.Spec Require Import WireSpec TxSpec AddressSpec DemoChain.
From Verif.Proofs Require Import ProtoFacts WireFacts Utf8Facts TxTextFacts AddressFacts DemoRuns DemoFacts.
Local Open Scope N_scope.

(** ** C37. The bytes to sign are the message SignDoc, from which all four parts
    can be read; so different parts have different bytes to sign. The sizes are
    those of Go's slices and of uint64. *)
Theorem C37_sign_bytes_are_a_sign_doc body auth chain n :
  blen body < 2 ^ 64 -> blen auth < 2 ^ 64 -> blen chain < 2 ^ 64 -> n < 2 ^ 64 ->
  exists fs, message_text (direct_sign_bytes body auth chain n) fs
    /\ final 1 fs = body /\ final 2 fs = auth /\ final 3 fs = chain /\ final_number 4 fs = n.
Proof. exact (sign_bytes_read body auth chain n). Qed.
Print Assumptions C37_sign_bytes_are_a_sign_doc.
Theorem C37_sign_bytes_injective body auth chain n body' auth' chain' n' :
  blen body < 2 ^ 64 -> blen auth < 2 ^ 64 -> blen chain < 2 ^ 64 -> n < 2 ^ 64 ->
  blen body' < 2 ^ 64 -> blen auth' < 2 ^ 64 -> blen chain' < 2 ^ 64 -> n' < 2 ^ 64 ->
  direct_sign_bytes body auth chain n = direct_sign_bytes body' auth' chain' n' ->
  body = body' /\ auth = auth' /\ chain = chain' /\ n = n'.
Proof. exact (sign_bytes_inj body auth chain n body' auth' chain' n'). Qed.
Print Assumptions C37_sign_bytes_injective.

(** Moving a byte from one part to the next, and empty parts. *)
Example C37_case :
  direct_sign_bytes (str "ab") (str "c") (str "d") 1 <> direct_sign_bytes (str "a") (str "bc") (str "d") 1
  /\ direct_sign_bytes (str "ab") [] (str "d") 0 <> direct_sign_bytes [] (str "ab") (str "d") 0.
Proof. split; vm_compute; discriminate. Qed.

(** ** C39. The decoder answers a transaction exactly for the bytes that are
    one. *)
Theorem C39_decodes_exactly hash160 raw t : decode_tx hash160 raw = Ok t <-> tx_text hash160 raw t.
Proof. exact (decode_text hash160 raw t). Qed.
Print Assumptions C39_decodes_exactly.
(** Other bytes are refused with an error, unless a key has the wrong size. *)
Theorem C39_other_bytes_refused_partial hash160 raw :
  (forall t, ~ tx_text hash160 raw t) -> ~ wrong_key_size raw -> exists e, decode_tx hash160 raw = Fail e.
Proof. exact (other_bytes hash160 raw). Qed.
Print Assumptions C39_other_bytes_refused_partial.
(** With a key of 32 bytes the decoder panics. *)
Theorem C39_other_bytes_refused_refuted :
  ~ forall raw, (forall t, ~ tx_text demo_hash raw t) -> exists e, decode_tx demo_hash raw = Fail e.
Proof. exact short_key_panics. Qed.
Print Assumptions C39_other_bytes_refused_refuted.

(** A transaction; the same with one more field; without a signature; with a
    message whose type is not known; with bytes missing at the end. *)
Example C39_case : exists t, tx_text demo_hash tx_alice_bob t /\ List.length (tx_signers t) = 1%nat /\ List.length (tx_msgs t) = 1%nat.
Proof. exists (demo_tx tx_alice_bob). split; [apply decode_text; apply demo_tx_decoded; computed|]; vm_compute; auto. Qed.
Example C39_case_refused :
  map (fun raw => refused (decode_tx demo_hash raw))
    [tx_alice_bob ++ encode_fields [(9, WVarint 1)]; [];
     encode_fields [(1, WBytes (str "x")); (2, WBytes (str "y"))]; removelast tx_alice_bob]
  = [true; true; true; true].
Proof. vm_compute. reflexivity. Qed.

(** ** C54. Bytes are read as a protobuf message exactly when they are one in the
    wire format, with the fields in it; strings exactly when they are UTF-8. *)
Theorem C54_messages_read_exactly b fs : parse_fields b = Some fs <-> message_text b fs.
Proof. exact (parse_fields_spec b fs). Qed.
Print Assumptions C54_messages_read_exactly.
Theorem C54_text_checked_exactly b : utf8_valid b = true <-> utf8_text b.
Proof. exact (utf8_valid_spec b). Qed.
Print Assumptions C54_text_checked_exactly.

(** Two fields; a number cut short, a number of eleven bytes, a group that ends
    with another number, field zero; a two-byte character, an overlong one, a
    surrogate. *)
Example C54_case :
  map parse_fields [[Byte.x08; Byte.x96; Byte.x01; Byte.x12; Byte.x01; Byte.x61]; [Byte.x08; Byte.x96];
                    Byte.x08 :: repeat Byte.x80 10 ++ [Byte.x00]; [Byte.x0b; Byte.x14]; [Byte.x00; Byte.x00]]
  = [Some [(1, WVarint 150); (2, WBytes [Byte.x61])]; None; None; None; None]
  /\ map utf8_valid [[Byte.xc3; Byte.xa9]; [Byte.xc0; Byte.x80]; [Byte.xed; Byte.xa0; Byte.x80]] = [true; false; false].
Proof. split; vm_compute; reflexivity. Qed.

(** ** C55. What is written of a state object reads back as that object; every
    object Go can write is written. *)
Theorem C55_objects_read_back o b :
  cd_marshal protobuf o = Some b -> cd_unmarshal protobuf (object_group o ++ str "." ++ object_kind o) b = Some o.
Proof. exact (protobuf_ok o b). Qed.
Print Assumptions C55_objects_read_back.
Theorem C55_objects_written o : ok_object o = true -> blen (encode_fields (enc_object o)) < 2 ^ 63 -> exists b, cd_marshal protobuf o = Some b.
Proof. intros H1 H2. exact (ex_intro _ _ (protobuf_total o H1 H2)). Qed.
Print Assumptions C55_objects_written.
(** Bytes are read as an object exactly when they are its message in the .proto
    files, and this is what is written. *)
Theorem C55_objects_read_exactly ty b o : cd_unmarshal protobuf ty b = Some o <-> object_text ty b o.
Proof. exact (unmarshal_exactly ty b o). Qed.
Print Assumptions C55_objects_read_exactly.
Theorem C55_objects_written_as_messages o b :
  cd_marshal protobuf o = Some b -> object_text (object_group o ++ str "." ++ object_kind o) b o.
Proof. exact (marshal_text o b). Qed.
Print Assumptions C55_objects_written_as_messages.

Example C55_case :
  let o := OBalance (str "alice") [{| co_denom := str "test"; co_amount := str "12" |}; {| co_denom := []; co_amount := [] |}] in
  ok_object o = true
  /\ cd_marshal protobuf o = Some ([Byte.x0a; Byte.x05] ++ str "alice" ++ [Byte.x12; Byte.x0a; Byte.x0a; Byte.x04] ++ str "test"
       ++ [Byte.x12; Byte.x02] ++ str "12" ++ [Byte.x12; Byte.x00]).
Proof. split; vm_compute; reflexivity. Qed.

(** A role; a balance with an address that is not UTF-8 and an unknown type are
    not read. *)
Example C55_case_read :
  cd_unmarshal protobuf (str "tmos.core.rbac.v1alpha1.Role")
    ([Byte.x0a; Byte.x01] ++ str "x" ++ [Byte.x3a; Byte.x01] ++ str "m" ++ [Byte.x0a; Byte.x01] ++ str "y")
  = Some (ORole {| rl_id := str "y"; rl_gets := []; rl_lists := []; rl_creates := []; rl_updates := []; rl_deletes := [];
                   rl_delivers := [str "m"] |})
  /\ cd_unmarshal protobuf (str "tmos.x.bank.v1alpha1.Balance") [Byte.x0a; Byte.x01; Byte.xff] = None
  /\ cd_unmarshal protobuf (str "tmos.x.bank.v1alpha1.Nothing") [] = None.
Proof. repeat split; vm_compute; reflexivity. Qed.

(** ** C56. The address of a signer is a text of the hash of the key after BIP
    173; if hashes of keys have 20 bytes, it is 43 bytes long and different hashes
    have different addresses. *)
Theorem C56_addresses_are_texts hash160 raw t : decode_tx hash160 raw = Ok t ->
  Forall (fun s => bech32_text (str "test") (hash160 (sg_key s)) (sg_address s)) (tx_signers t).
Proof. exact (signer_addresses hash160 raw t). Qed.
Print Assumptions C56_addresses_are_texts.
Theorem C56_addresses_are_short hash160 raw t : (forall k, List.length k = 33%nat -> List.length (hash160 k) = 20%nat) -> decode_tx hash160 raw = Ok t ->
  Forall (fun s => List.length (sg_address s) = 43%nat) (tx_signers t).
Proof. exact (signer_address_length hash160 raw t). Qed.
Print Assumptions C56_addresses_are_short.
Theorem C56_addresses_identify hash160 raw raw' t t' s s' : (forall k, List.length k = 33%nat -> List.length (hash160 k) = 20%nat) ->
  decode_tx hash160 raw = Ok t -> decode_tx hash160 raw' = Ok t' -> s ∈ tx_signers t -> s' ∈ tx_signers t' ->
  sg_address s = sg_address s' -> hash160 (sg_key s) = hash160 (sg_key s').
Proof. exact (signer_addresses_differ hash160 raw raw' t t' s s'). Qed.
Print Assumptions C56_addresses_identify.

(** A text from the list of valid ones in BIP 173; the signer of a transaction;
    the hash of the case has 20 bytes. *)
Example C56_case_hash k : List.length k = 33%nat -> List.length (demo_hash k) = 20%nat.
Proof. exact (demo_hash_length k). Qed.
Example C56_case : bech32 (str "a") [] = str "a12uel5l"
  /\ Forall (fun s => List.length (sg_address s) = 43%nat) (tx_signers (demo_tx tx_alice_bob)).
Proof. split; [vm_compute; reflexivity|]. vm_compute. repeat constructor. Qed.
