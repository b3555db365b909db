(** Signatures at the chain, and the small group of the examples. *)
From Coq Require Import NArith ZArith List Bool String Lia.
From stdpp Require Import base list option gmap.
From Verif.Model Require Import Bytes Wire Proto Schema Orm Users Errors Prog Runtime Builder Module Universe Marshal Coin
  Authn Distribution TxDecoder TestApp Abci Secp256k1.
From Verif.Spec Require Import StoreSpec ChainSpec Secp256k1Spec DemoChain DemoKeys.
From Verif.Proofs Require Import BytesFacts Secp256k1Facts ChainProps DecoderFacts DemoRuns DemoFacts.
Local Open Scope N_scope.

Section Chain.
  Context {point : Type} (parse_point : bytes -> option point) (sha256 : bytes -> bytes) (point_verify : point -> bytes -> N -> N -> bool).
  Context (C : codec) (bits : N) (enum : list (event object msg) -> users -> list user) (fuel : nat) (decode : bytes -> res tx).
  Notation verify := (verify_signature parse_point curve_order sha256 point_verify).
  Lemma uncanonical_refused id cs raw t s x : sound C enum decode -> bits <= 314 ->
    running C bits verify enum fuel decode id cs x -> decode raw = Ok t -> s ∈ tx_signers t ->
    (forall a b, holds (sg_signature s) a b -> group_order < 2 * b) ->
    exists e x', call C bits verify enum fuel decode (CallDeliverTx raw) x = (Fail e, x')
      /\ call C bits verify enum fuel decode (CallCheckTx raw) x = (Fail e, x') /\ unchanged x x'.
  Proof.
    intros HS Hb Hr Hd Hs Hc. apply (inadmissible_running C bits verify enum fuel decode HS id cs raw t x Hb Hr Hd).
    intros HA. destruct (am_signed _ _ _ _ HA) as (chain & _ & H). destruct (H s Hs) as (acc & _ & _ & _ & HV).
    apply verify_iff in HV as (p & r & b & _ & Hh & Hl & _). pose proof (Hc r b Hh) as Hlt.
    change curve_order with group_order in Hl. lia.
  Qed.
End Chain.

Lemma small_inverse_ok a : 0 < a < 11 -> exists w, small_inverse a = Some w /\ w < 11 /\ (a * w) mod 11 = 1.
Proof.
  intros Ha. assert (a = 1 \/ a = 2 \/ a = 3 \/ a = 4 \/ a = 5 \/ a = 6 \/ a = 7 \/ a = 8 \/ a = 9 \/ a = 10) as H by lia.
  repeat destruct H as [->|H]; [..|subst a]; eexists; (split; [reflexivity|split; reflexivity]).
Qed.
Lemma small_curve : curve_ok small_order small_base small_mult small_add small_first small_inverse small_nonce.
Proof.
  constructor; unfold small_order, small_base, small_mult, small_add, small_first.
  - lia.
  - intros a b. rewrite N.mod_mod by lia. rewrite <- N.add_mod by lia. done.
  - intros a b. rewrite N.mod_mod by lia. rewrite N.mul_mod_idemp_r by lia. done.
  - intros a Ha. rewrite !N.mod_small by lia. destruct (N.eqb_spec (11 - a) 0); [lia|]. destruct (N.eqb_spec a 0); [lia|]. f_equal. lia.
  - intros a Ha. rewrite N.mod_small by lia. destruct (N.eqb_spec a 0); [lia|discriminate].
  - exact small_inverse_ok.
  - intros d h. unfold small_nonce. pose proof (N.mod_lt (d + set_bytes h) 10). lia.
Qed.
Lemma small_parsed a : small_parse (small_write (small_base a)) = Some (small_base a).
Proof. unfold small_parse, small_write, small_base. pose proof (N.mod_lt a 11). rewrite b2N_N2b_small by lia. by rewrite N.mod_mod. Qed.

Lemma form_runs : from_option rt_enabled false form_after = true.
Proof. computed. Qed.
Lemma form_running : running protobuf 255 form_verify demo_users 4 demo_decode demo_chain [] form_node.
Proof.
  pose proof form_runs as H. revert H. unfold running, form_node, form_after.
  generalize (calls protobuf 255 form_verify demo_users 4 demo_decode [CallInitChain demo_chain None] new_node).
  intros [x|] H; [reflexivity|discriminate H].
Qed.
Lemma form_signers : forallb (fun s => negb (Nat.eqb (length (sg_signature s)) 64)) (tx_signers (demo_tx tx_alice_bob)) = true
  /\ length (tx_signers (demo_tx tx_alice_bob)) = 1%nat.
Proof. all_computed. Qed.
Lemma form_case : exists s, s ∈ tx_signers (demo_tx tx_alice_bob)
  /\ forall a b, holds (sg_signature s) a b -> group_order < 2 * b.
Proof.
  destruct form_signers as [H1 H2]. destruct (tx_signers (demo_tx tx_alice_bob)) as [|s l]; [discriminate H2|].
  exists s. split; [left|]. intros a b Hh. apply holds_iff in Hh as [HL _].
  cbn [forallb] in H1. rewrite HL in H1. discriminate H1.
Qed.
Lemma twin_case :
  let sig := replicate 31 Byte.x00 ++ [Byte.x05] ++ replicate 31 Byte.x00 ++ [Byte.x07] in
  form_verify (str "key") (str "message") sig = true /\ holds sig 5 7
  /\ (exists twin, holds twin 5 (group_order - 7) /\ serialize_sig 5 (group_order - 7) = Ok twin)
  /\ form_verify (str "key") (str "message") (sig ++ [Byte.x00]) = false.
Proof.
  cbv zeta. split; [reflexivity|]. split; [apply holds_iff; split; reflexivity|]. split; [|reflexivity].
  destruct (serialize_holds 5 (group_order - 7)) as (sig & E & H); [reflexivity..|].
  exists sig. split; [exact (proj2 (H _ _) (conj eq_refl eq_refl))|exact E].
Qed.
