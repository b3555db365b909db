(** Concrete cases of signed transfers. *)
From Coq Require Import NArith ZArith List Bool String Lia.
From stdpp Require Import base list option gmap.
From Verif.Model Require Import Bytes KindEncoder Wire Proto Schema Orm Users Errors Prog Runtime Builder Module Universe Marshal Coin Rbac
  Authn Distribution TxDecoder TestApp Abci Query ApiServer Sign.
From Verif.Spec Require Import TextSpec UserSpec StoreSpec CoinSpec RbacSpec ChainSpec MessageSpec SignSpec LedgerSpec DemoChain DemoRoles DemoService DemoSign.
From Verif.Proofs Require Import Utf8Facts CoinFacts KindEncoderFacts SupplyFacts DecoderFacts DemoRuns DemoFacts LiveProto LiveProps SignFacts SignChain.
Local Open Scope N_scope.

Definition signed_facts (x : node) : Prop :=
  map (demo_balance x) [genesis_address; alice_address; fee_collector]
    = [Some (genesis_address, tests "4999999650"); Some (alice_address, tests "300"); Some (fee_collector, tests "50")]
  /\ map (fun raw => demo_answer x (CallDeliverTx raw)) [tx_signed; tx_signed_next] = [Fail (EWrap (ESent RtBadRequest)); Ok tt]
  /\ sequence_of (demo_get x ty_account genesis_address) = Some 1.
Lemma signed_computed : demo_runs signed_history = true /\ signed_facts (demo_node signed_history).
Proof. history_computed signed_history signed_facts. Qed.
Definition unsigned_facts (x : node) : Prop :=
  demo_answer x (CallDeliverTx tx_signed) = Ok tt
  /\ demo_get x ty_balance genesis_address = Ok (OBalance genesis_address (tests "5000000000"))
  /\ demo_get x ty_account genesis_address
     = Ok (OAccount {| ac_address := genesis_address; ac_pubkey := Some genesis_key; ac_number := 0; ac_sequence := 0 |}).
Lemma unsigned_computed : demo_runs [] = true /\ unsigned_facts (demo_node []).
Proof. history_computed (@nil abci_call) unsigned_facts. Qed.

Lemma demo_key_pair k : length k = 33%nat -> key_pair demo_public demo_sign demo_verify k.
Proof.
  intros H. split; [exact H|]. intros m s [= <-]. unfold demo_verify, demo_public. apply bool_decide_eq_true. reflexivity.
Qed.
Lemma genesis_own : address_of_key demo_hash genesis_secret = genesis_address.
Proof. vm_compute. reflexivity. Qed.
Lemma signed_ok : signed_payment demo_public demo_sign genesis_secret demo_chain 0 0 fifty 5000 genesis_address alice_address three_hundred = Ok tx_signed
  /\ sign demo_public demo_sign hex_genesis demo_chain genesis_address alice_address three_hundred = Ok tx_signed
  /\ hex_decode hex_genesis = Some genesis_secret /\ length genesis_secret = 33%nat.
Proof. all_computed. Qed.
Lemma ascii_text b : forallb (fun x => b2N x <? 128) b = true -> utf8_text b.
Proof.
  intros H. apply utf8_valid_spec, ascii_valid. rewrite forallb_forall in H. apply Forall_forall. intros x Hx.
  apply elem_of_list_In, H, N.ltb_lt in Hx. exact Hx.
Qed.
Lemma signed_writable : writable tx_signed genesis_address alice_address 0 5000 fifty three_hundred.
Proof.
  split.
  - vm_compute. reflexivity.
  - split; apply ascii_text; vm_compute; reflexivity.
  - split; constructor; try constructor; apply ascii_text; vm_compute; reflexivity.
  - split; vm_compute; reflexivity.
Qed.
Lemma genesis_has : has_account (demo_gets (demo_node [])) genesis_address 0 0.
Proof.
  exists {| ac_address := genesis_address; ac_pubkey := Some genesis_key; ac_number := 0; ac_sequence := 0 |}.
  split; [|split; [|split]].
  - change (demo_get (demo_node []) ty_account genesis_address = Ok (OAccount {| ac_address := genesis_address; ac_pubkey := Some genesis_key; ac_number := 0; ac_sequence := 0 |})).
    apply unsigned_computed.
  - discriminate.
  - reflexivity.
  - reflexivity.
Qed.
Lemma genesis_covers d n : balance 255 (demo_gets (demo_node [])) genesis_address d n -> of_test 50 d + of_test 300 d <= n.
Proof.
  assert (demo_gets (demo_node []) ty_balance genesis_address (OBalance genesis_address (tests "5000000000"))) as Hb.
  { change (demo_get (demo_node []) ty_balance genesis_address = Ok (OBalance genesis_address (tests "5000000000"))). apply unsigned_computed. }
  intros [(c & Hc & ->)|[Hc _]]; [|destruct (Hc _ Hb)].
  injection (gets_one _ _ _ _ _ _ _ _ Hb Hc) as <-. rewrite (worth_tests "5000000000" 5000000000 d) by (vm_compute; reflexivity).
  destruct (decide _); clear; lia.
Qed.
Lemma stale_genesis acc : demo_gets (demo_node signed_history) ty_account genesis_address (OAccount acc) -> ac_sequence acc <> 0.
Proof.
  intros H. destruct signed_computed as [_ (_ & _ & Hs)].
  change (demo_get (demo_node signed_history) ty_account genesis_address = Ok (OAccount acc)) in H.
  rewrite H in Hs. cbn [sequence_of] in Hs. injection Hs as ->. discriminate.
Qed.
Lemma signed_case :
  ChainSpec.reachable protobuf 255 demo_verify demo_users 4 demo_decode demo_chain (demo_node [])
  /\ orderly 255 (demo_gets (demo_node [])) /\ key_pair demo_public demo_sign demo_verify genesis_secret
  /\ address_of_key demo_hash (demo_public genesis_secret) = genesis_address
  /\ normal_set (to_coins fifty) (of_test 50) /\ normal_set (to_coins three_hundred) (of_test 300)
  /\ has_account (demo_gets (demo_node [])) genesis_address 0 0
  /\ (forall d n, balance 255 (demo_gets (demo_node [])) genesis_address d n -> of_test 50 d + of_test 300 d <= n)
  /\ demo_answer (demo_node []) (CallDeliverTx tx_signed) = Ok tt
  /\ map (demo_balance (demo_node signed_history)) [genesis_address; alice_address; fee_collector]
     = [Some (genesis_address, tests "4999999650"); Some (alice_address, tests "300"); Some (fee_collector, tests "50")].
Proof.
  split; [exact (demo_reachable [] (proj1 unsigned_computed))|]. split; [exact (demo_orderly [] (proj1 unsigned_computed) eq_refl)|].
  split; [apply demo_key_pair, signed_ok|]. split; [exact genesis_own|].
  split; [apply tests_normal; [discriminate|vm_compute; reflexivity]|]. split; [apply tests_normal; [discriminate|vm_compute; reflexivity]|].
  split; [exact genesis_has|]. split; [exact genesis_covers|]. split; [apply unsigned_computed|apply signed_computed].
Qed.
