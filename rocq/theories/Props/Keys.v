(** Theorems about keys and signatures: C47, C57. *)
From Coq Require Import NArith ZArith List Bool String.
From stdpp Require Import base list option gmap.
From Verif.Model Require Import Bytes Users Errors Runtime Universe Marshal Authn Abci Secp256k1.
From Verif.Spec Require Import ChainSpec Secp256k1Spec DemoChain DemoKeys.
From Verif.Proofs Require Import Secp256k1Facts DemoRuns DemoFacts KeyFacts.
Local Open Scope N_scope.

(** ** C47 *)
(** Written signatures have 64 bytes and hold the same two numbers, and only those;
    numbers of more than 32 bytes panic. *)
Theorem C47_written_signature r s :
  match serialize_sig r s with
  | Ok sig => (forall r' s', holds sig r' s' <-> r' = r /\ s' = s) /\ signature_from_bytes sig = (r, s)
  | Panic => 2 ^ 256 <= r \/ 2 ^ 256 <= s
  | _ => False
  end.
Proof. exact (serialize_exact r s). Qed.
(** Reading 64 bytes loses nothing. *)
Theorem C47_read_signature sig : length sig = 64%nat ->
  let '(r, s) := signature_from_bytes sig in holds sig r s /\ serialize_sig r s = Ok sig.
Proof. exact (read_signature sig). Qed.
Example C47_case_written :
  serialize_sig 258 7 = Ok (replicate 30 Byte.x00 ++ [Byte.x01; Byte.x02] ++ replicate 31 Byte.x00 ++ [Byte.x07])
  /\ serialize_sig 1 (2 ^ 256) = Panic.
Proof. split; reflexivity. Qed.

(** Keys come from the first block of 32 bytes that is in range, as it is. *)
Theorem C47_generated_key reader :
  match gen_priv_key reader with
  | Ok key => exists skipped rest, reader = concat skipped ++ key ++ rest /\ length key = 32%nat /\ 0 < number key < group_order
      /\ Forall (fun b => length b = 32%nat /\ ~ (0 < number b < group_order)) skipped
  | Panic => exists skipped rest, reader = concat skipped ++ rest /\ (length rest < 32)%nat
      /\ Forall (fun b => length b = 32%nat /\ ~ (0 < number b < group_order)) skipped
  | _ => False
  end.
Proof. exact (gen_exact reader). Qed.
Theorem C47_key_from_secret sha256 secret :
  exists key, priv_key_from_secret sha256 secret = Ok key /\ length key = 32%nat /\ 0 < number key < group_order
    /\ number key = number (sha256 secret) mod (group_order - 1) + 1.
Proof. exact (secret_exact sha256 secret). Qed.
Example C47_case_keys :
  gen_priv_key (replicate 64 Byte.xff ++ replicate 32 Byte.x00 ++ replicate 32 Byte.x05 ++ [Byte.x09]) = Ok (replicate 32 Byte.x05)
  /\ gen_priv_key (replicate 32 Byte.xff ++ replicate 31 Byte.x05) = Panic
  /\ priv_key_from_secret (fun m => m) [] = Ok (replicate 31 Byte.x00 ++ [Byte.x01]).
Proof. repeat apply conj; reflexivity. Qed.

Section Verify.
  (** For any parsing of public keys, hash, and check of the two numbers. *)
  Context {point : Type} (parse_point : bytes -> option point) (sha256 : bytes -> bytes) (point_verify : point -> bytes -> N -> N -> bool).
  Notation verify := (verify_signature parse_point curve_order sha256 point_verify).

  (** Accepted are 64 bytes with the second number in the lower half that check. *)
  Theorem C47_accepted_exactly key msg sig :
    verify key msg sig = true <->
    exists pub r s, parse_point key = Some pub /\ holds sig r s /\ 2 * s <= group_order /\ point_verify pub (sha256 msg) r s = true.
  Proof. exact (verify_iff parse_point sha256 point_verify curve_order key msg sig). Qed.
  Theorem C47_twin_refused key msg key' msg' sig twin r s :
    verify key msg sig = true -> holds sig r s -> holds twin r (group_order - s) -> verify key' msg' twin = false.
  Proof. exact (twin_refused parse_point sha256 point_verify key msg key' msg' sig twin r s). Qed.

  (** On the chain: a transaction with a signature in another form is refused and
      changes nothing. *)
  Theorem C47_chain_refuses C bits enum fuel decode id cs raw t s x : sound C enum decode -> bits <= 314 ->
    running C bits verify enum fuel decode id cs x -> decode raw = Ok t -> s ∈ tx_signers t ->
    (forall a b, holds (sg_signature s) a b -> group_order < 2 * b) ->
    exists e x', call C bits verify enum fuel decode (CallDeliverTx raw) x = (Fail e, x')
      /\ call C bits verify enum fuel decode (CallCheckTx raw) x = (Fail e, x') /\ unchanged x x'.
  Proof. exact (uncanonical_refused parse_point sha256 point_verify C bits enum fuel decode id cs raw t s x). Qed.
End Verify.
Example C47_case_accepted :
  let sig := replicate 31 Byte.x00 ++ [Byte.x05] ++ replicate 31 Byte.x00 ++ [Byte.x07] in
  form_verify (str "key") (str "message") sig = true /\ holds sig 5 7
  /\ (exists twin, holds twin 5 (group_order - 7) /\ serialize_sig 5 (group_order - 7) = Ok twin)
  /\ form_verify (str "key") (str "message") (sig ++ [Byte.x00]) = false.
Proof. exact twin_case. Qed.
Example C47_case_chain : sound protobuf demo_users demo_decode
  /\ running protobuf 255 form_verify demo_users 4 demo_decode demo_chain [] form_node
  /\ demo_decode tx_alice_bob = Ok (demo_tx tx_alice_bob)
  /\ exists s, s ∈ tx_signers (demo_tx tx_alice_bob) /\ forall a b, holds (sg_signature s) a b -> group_order < 2 * b.
Proof. exact (conj demo_sound (conj form_running (conj (demo_tx_decoded _ (proj1 alice_bob_tx)) form_case))). Qed.

(** ** C57 *)
(** What a private key signs, its public key accepts, in any group as [curve_ok]
    says whose points are written and read back. *)
Theorem C57_signed_is_accepted {point : Type} (parse_point : bytes -> option point) write_point sha256
    order base_mult mult add first inverse nonce key msg sig :
  curve_ok order base_mult mult add first inverse nonce -> order <= 2 ^ 256 ->
  (forall a, parse_point (write_point (base_mult a)) = Some (base_mult a)) ->
  sign sha256 (ecdsa_sign order base_mult first inverse nonce) key msg = Ok sig ->
  verify_signature parse_point order sha256 (ecdsa_verify order base_mult mult add first inverse)
    (pub_key write_point base_mult key) msg sig = true.
Proof. intros HC HO HP. exact (signed_is_accepted parse_point write_point sha256 order base_mult mult add first inverse nonce HC HO HP key msg sig). Qed.
Example C57_case : curve_ok small_order small_base small_mult small_add small_first small_inverse small_nonce
  /\ (forall a, small_parse (small_write (small_base a)) = Some (small_base a))
  /\ small_sign [Byte.x03] (str "m") = Ok (replicate 31 Byte.x00 ++ [Byte.x03] ++ replicate 31 Byte.x00 ++ [Byte.x05])
  /\ small_verify (small_pub [Byte.x03]) (str "m") (replicate 31 Byte.x00 ++ [Byte.x03] ++ replicate 31 Byte.x00 ++ [Byte.x05]) = true
  /\ small_verify (small_pub [Byte.x05]) (str "m") (replicate 31 Byte.x00 ++ [Byte.x03] ++ replicate 31 Byte.x00 ++ [Byte.x05]) = false.
Proof. repeat apply conj; [exact small_curve|exact small_parsed|vm_compute; reflexivity..]. Qed.

Print Assumptions C47_written_signature.
Print Assumptions C47_read_signature.
Print Assumptions C47_generated_key.
Print Assumptions C47_key_from_secret.
Print Assumptions C47_accepted_exactly.
Print Assumptions C47_twin_refused.
Print Assumptions C47_chain_refuses.
Print Assumptions C57_signed_is_accepted.
