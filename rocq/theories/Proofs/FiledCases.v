(** A transfer to the address another one is stored under. *)
From Coq Require Import NArith ZArith List Bool String.
From stdpp Require Import base list gmap.
From Verif.Model Require Import Bytes Schema Orm Users Errors Prog Runtime Builder Universe Coin Rbac Authn Distribution Marshal TestApp Abci.
From Verif.Spec Require Import UserSpec StoreSpec CoinSpec RbacSpec ChainSpec DemoChain FiledSpec.
From Verif.Proofs Require Import ChainProps DemoRuns DemoFacts.

Definition lost_history : list abci_call :=
  [CallDeliverTx (tx_long 0 [MsgSendCoins genesis_address long_address (tests "100")])].
Definition sends_to_longer (x : node) : res unit * node :=
  demo_send (tx_users (demo_tx tx_open_alice)) (MsgSendCoins genesis_address longer_address (tests "7")) x.
Definition lost_coins (x : node) : Prop :=
  demo_get x ty_balance genesis_address = Ok (OBalance genesis_address (tests "4999999890"))
  /\ fst (sends_to_longer x) = Fail (EWrap (ESent RtNotFound))
  /\ demo_get (snd (sends_to_longer x)) ty_balance genesis_address = Ok (OBalance genesis_address (tests "4999999883"))
  /\ demo_get (snd (sends_to_longer x)) ty_balance longer_address = Ok (OBalance long_address (tests "100"))
  /\ demo_get (snd (sends_to_longer x)) ty_balance fee_collector = Ok (OBalance fee_collector (tests "10")).
Lemma lost_computed : demo_runs lost_history = true /\ lost_coins (demo_node lost_history).
Proof. history_computed lost_history lost_coins. Qed.
Lemma coins_lost : lost_coins (demo_node lost_history).
Proof. exact (proj2 lost_computed). Qed.

Lemma failed_transfer_loses :
  ~ forall cs x t from to amt e x', demo_running cs x -> proper t ->
      demo_send (tx_users t) (MsgSendCoins from to amt) x = (Fail e, x') ->
      forall k o, demo_gets x' ty_balance k o <-> demo_gets x ty_balance k o.
Proof.
  intros H. destruct lost_computed as [R HL]. apply (demo_node_running lost_history) in R.
  pose proof (demo_tx_proper tx_open_alice ltac:(fact)) as HP.
  revert R HL. generalize (demo_node lost_history). intros x R HL. unfold lost_coins, sends_to_longer in HL.
  revert HP HL. generalize (demo_tx tx_open_alice). intros t HP (G1 & E & G & _).
  pose proof (H _ x t genesis_address longer_address (tests "7") _ _ R HP (pair_of _ _ E) genesis_address
    (OBalance genesis_address (tests "4999999890"))) as HH.
  clear H E R. revert G HH. generalize (snd (demo_send (tx_users t) (MsgSendCoins genesis_address longer_address (tests "7")) x)).
  intros x' G HH. unfold demo_get, gets in *. apply (proj2 HH) in G1. clear HH. rewrite G1 in G. discriminate G.
Qed.

(** genesis names the same address as payer. *)
Definition tx_unpaid : bytes := Eval vm_compute in signed_tx [(genesis_secret, 1%N, 0%N)] "5" longer_address [MsgCreateAccount None].
Definition pays (t : tx) (x : node) : res unit * node := demo_pay t x.
Definition unpaid_facts (t : tx) (x : node) : Prop :=
  tx_payer t = longer_address /\ tx_fee t = tests "5"
  /\ is_ok (fst (demo_tx_admission t x)) = true
  /\ fst (pays t x) = Fail (EWrap (ESent RtBadRequest))
  /\ demo_get (snd (pays t x)) ty_balance longer_address = Ok (OBalance long_address (tests "100"))
  /\ demo_get (snd (pays t x)) ty_balance fee_collector = Ok (OBalance fee_collector (tests "10"))
  /\ map (fun x => sequence_of (demo_get x ty_account genesis_address)) [x; snd (pays t x)] = [Some 1; Some 2]%N.
Definition unpaid (x : node) : Prop := unpaid_facts (demo_tx tx_unpaid) x.
Lemma unpaid_decoded : is_ok (demo_decode tx_unpaid) = true.
Proof. computed. Qed.
Lemma unpaid_computed : demo_runs lost_history = true /\ unpaid (demo_node lost_history).
Proof. history_computed lost_history unpaid. Qed.
Lemma nobody_pays : unpaid (demo_node lost_history).
Proof. exact (proj2 unpaid_computed). Qed.
Lemma admissible_unpaid :
  ~ forall cs x t r x', demo_running cs x -> proper t -> admissible 255 demo_verify (demo_gets x) t ->
      demo_pay t x = (r, x') -> alive r -> r = Ok tt.
Proof.
  intros H. destruct unpaid_computed as [R HL].
  assert (admissible 255 demo_verify (demo_gets (demo_node lost_history)) (demo_tx tx_unpaid)) as HA.
  { apply (demo_admissible lost_history tx_unpaid R unpaid_decoded). exact (proj1 (proj2 (proj2 HL))). }
  apply (demo_node_running lost_history) in R. pose proof (demo_tx_proper tx_unpaid unpaid_decoded) as HP.
  unfold unpaid in HL. revert HP HA HL R. generalize (demo_node lost_history), (demo_tx tx_unpaid).
  intros x t HP HA (_ & _ & _ & E & _) R. unfold pays in E.
  specialize (H _ x t _ _ R HP HA (pair_of _ _ E) I). discriminate H.
Qed.
