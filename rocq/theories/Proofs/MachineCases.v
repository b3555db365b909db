(** A concrete history on the program of MachineSpec. *)
From Coq Require Import NArith ZArith List Bool String.
From stdpp Require Import base list option gmap.
From Verif.Model Require Import Bytes Users Errors Prog Runtime Builder Universe Marshal Coin Authn Distribution TxDecoder TestApp Abci.
From Verif.Spec Require Import ChainSpec MachineSpec DemoChain.
From Verif.Proofs Require Import DemoRuns.

Definition short_text (a : bytes) : bool := bool_decide (List.length a < 128).
Definition short_text_msg (m : msg) : bool :=
  match m with
  | MsgSendCoins from to _ => short_text from && short_text to
  | MsgCreateAccount (Some acc) => short_text (ac_address acc)
  | _ => true
  end.
Definition short_text_call (c : abci_call) : bool :=
  match c with CallDeliverTx raw => match demo_decode raw with Ok t => forallb short_text_msg (tx_msgs t) | _ => true end | _ => true end.
Lemma short_text_calls cs : forallb short_text_call cs = true ->
  forall raw t, CallDeliverTx raw ∈ cs -> demo_decode raw = Ok t -> addressed_shortly t.
Proof.
  intros H raw t Hc Ht. rewrite forallb_forall in H. specialize (H (CallDeliverTx raw) (proj1 (elem_of_list_In _ _) Hc)).
  cbn [short_text_call] in H. rewrite Ht in H. rewrite forallb_forall in H. split.
  - intros from to amt Hm. specialize (H _ (proj1 (elem_of_list_In _ _) Hm)). cbn [short_text_msg] in H.
    apply andb_true_iff in H as [H1 H2]. unfold short_text in *. split; by eapply bool_decide_eq_true_1.
  - intros acc Hm. specialize (H _ (proj1 (elem_of_list_In _ _) Hm)). cbn [short_text_msg] in H. by eapply bool_decide_eq_true_1.
Qed.

Notation demo_do := (do_call 255 demo_verify demo_chain demo_decode).
Notation demo_book cs := (do_calls 255 demo_verify demo_chain demo_decode cs first_book).
Definition tests_in (b : book) (a : bytes) : option N := (fun p => p (str "test")) <$> bk_purse b a.
Definition number_in (b : book) (a : bytes) : option (N * N) := (fun acc => (ac_number acc, ac_sequence acc)) <$> bk_account b a.
(** genesis paid 10 for opening alice's account and paying them 1000; alice paid
    bob 300 and a fee of 1. *)
Definition bob_book (b : book) : Prop :=
  map (tests_in b) [genesis_address; alice_address; bob_address; fee_collector] = [Some 4999998990; Some 699; Some 300; Some 11]%N
  /\ map (number_in b) [genesis_address; fee_collector; alice_address; bob_address] = [Some (0, 1); Some (1, 0); Some (2, 1); Some (3, 0)]%N
  /\ bk_next b = 4%N /\ bk_height b = 2%N
  /\ fst <$> demo_do (CallDeliverTx tx_alice_bob) b = Some false.
Definition bank_book (b : book) : Prop :=
  fst <$> demo_do (CallDeliverTx tx_alice_bank) b = None /\ fst <$> demo_do (CallDeliverTx tx_alice_bob) b = Some true.
Lemma bob_runs : match demo_book bob_history with Some b => bob_book b | None => False end.
Proof. all_computed. Qed.
Lemma alice_runs : match demo_book demo_history with Some b => bank_book b | None => False end.
Proof. all_computed. Qed.
Lemma all_short : forallb short_text_call (bob_history ++ [CallDeliverTx tx_alice_bank]) = true.
Proof. vm_compute. reflexivity. Qed.
