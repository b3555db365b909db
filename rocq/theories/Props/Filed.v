(** What a transfer does for senders and receivers of any length (C31 and C33
    without the bound on addresses). *)
From Coq Require Import NArith ZArith List Bool String.
From stdpp Require Import base list gmap.
From Verif.Model Require Import Bytes Schema Orm Users Errors Prog Runtime Builder Universe Coin Rbac Authn Distribution Marshal TestApp Abci.
From Verif.Spec Require Import UserSpec StoreSpec CoinSpec RbacSpec ChainSpec DemoChain FiledSpec.
From Verif.Proofs Require Import ChainProps DemoRuns DemoFacts FiledFacts FiledCases.

Section Chain.
  Context (C : codec) (bits : N) (verify : bytes -> bytes -> bytes -> bool).
  Context (enum : list (event object msg) -> users -> list user) (fuel : nat) (decode : bytes -> res tx).
  Notation reachable := (reachable C bits verify enum fuel decode).
  Notation gets := (gets C bits verify).
  Notation pay := (pay C bits verify enum fuel).
  Notation send := (send C bits verify enum fuel).
  Notation reachable_demo := (ChainSpec.reachable protobuf 255 demo_verify demo_users 4 demo_decode demo_chain).
  Implicit Types (x : node) (t : tx) (from to a d : bytes).

  (** Addresses below 128 bytes are stored where they are looked for, and no others. *)
  Theorem C33_stored_where_looked_for a : shelf a = a <-> length a < 128.
  Proof. exact (shelf_short a). Qed.

  (** A transfer that succeeds: the sender is debited, then the receiver credited,
      and an account is opened for a receiver who has neither coins nor an account.
      Nothing else changes. *)
  Theorem C33_transfer_any_length id x t from to amt x' : sound C enum decode ->
    reachable id x -> proper t -> send (tx_users t) (MsgSendCoins from to amt) x = (Ok tt, x') ->
    moved_any bits (gets x) (gets x') from to amt.
  Proof. intros HS. exact (send_effect C bits verify enum fuel decode HS id x t from to amt x'). Qed.

  (** A transfer that fails changes nothing, or the sender has been debited and the
      receiver is one that cannot be credited. *)
  Theorem C33_failed_transfer_any_length id x t from to amt e x' : sound C enum decode ->
    reachable id x -> proper t -> send (tx_users t) (MsgSendCoins from to amt) x = (Fail e, x') ->
    (forall ty k o, gets x' ty k o <-> gets x ty k o) \/ taken_only bits (gets x) (gets x') from to amt.
  Proof. intros HS. exact (send_fail_effect C bits verify enum fuel decode HS id x t from to amt e x'). Qed.

  (** The supply after a transfer: what is read under sender and receiver is
      counted once more, what was in the places written to is lost. For addresses
      below 128 bytes both are the same. *)
  Theorem C31_supply_any_length id x t from to amt x' : sound C enum decode ->
    reachable id x -> proper t -> send (tx_users t) (MsgSendCoins from to amt) x = (Ok tt, x') ->
    (forall d n, supply bits (gets x) d n -> 2 * n * 10 ^ 18 < 2 ^ bits /\ 2 * n < 2 ^ 255)%N ->
    exists b, debited bits (gets x ty_balance) from amt b /\ credited bits b to amt (gets x' ty_balance)
      /\ forall d n n' nf ns nt nr, supply bits (gets x) d n -> supply bits (gets x') d n' ->
         read_at bits (gets x ty_balance) from d nf -> read_at bits (gets x ty_balance) (shelf from) d ns ->
         read_at bits b to d nt -> read_at bits b (shelf to) d nr ->
         (n' + ns + nr = n + nf + nt)%N.
  Proof. intros HS. exact (send_counts C bits verify enum fuel decode HS id x t from to amt x'). Qed.
  (** After a transfer that fails: as before, or [amt] is gone as well. *)
  Theorem C31_supply_failed_any_length id x t from to amt e x' : sound C enum decode ->
    reachable id x -> proper t -> send (tx_users t) (MsgSendCoins from to amt) x = (Fail e, x') ->
    (forall d n, supply bits (gets x') d n <-> supply bits (gets x) d n)
    \/ forall d n n' nf ns, supply bits (gets x) d n -> supply bits (gets x') d n' ->
         read_at bits (gets x ty_balance) from d nf -> read_at bits (gets x ty_balance) (shelf from) d ns ->
         (n' + ns + worth bits amt d = n + nf)%N.
  Proof. intros HS. exact (send_fail_counts C bits verify enum fuel decode HS id x t from to amt e x'). Qed.

  (** The fee for payers of any length: a transaction that is not admissible changes
      nothing; else the signers have used a sequence number, and the fee has been
      moved. If it could not be: the payer's balance is not where it would be
      written, or the collector cannot be credited. *)
  Theorem C41_fee_any_length id x t r x' : sound C enum decode ->
    reachable id x -> proper t -> pay t x = (r, x') -> alive r ->
    ~ admissible bits verify (gets x) t /\ (exists e, r = Fail e) /\ (forall ty k o, gets x' ty k o <-> gets x ty k o)
    \/ admissible bits verify (gets x) t /\ exists v1, sequenced (gets x) v1 t
       /\ (r = Ok tt /\ moved_any bits v1 (gets x') (tx_payer t) fee_collector (tx_fee t)
           \/ (exists e, r = Fail e)
              /\ ((nothing_at (gets x ty_balance) (shelf (tx_payer t)) \/ (2 ^ 63 <= blen (tx_payer t))%N)
                  /\ (forall ty k o, gets x' ty k o <-> v1 ty k o)
                  \/ taken_only bits v1 (gets x') (tx_payer t) fee_collector (tx_fee t))).
  Proof. intros HS. exact (pay_any_length C bits verify enum fuel decode HS id x t r x'). Qed.

  (** A receiver of 128 bytes: the coins are found under another address. *)
  Example C33_case_any_length : reachable_demo (demo_node []) /\ proper (demo_tx tx_open_alice)
    /\ shelf long_address = longer_address /\ shelf alice_address = alice_address
    /\ fst (demo_send (tx_users (demo_tx tx_open_alice)) (MsgSendCoins genesis_address long_address (tests "100")) (demo_node [])) = Ok tt
    /\ demo_get (after_long (demo_node [])) ty_balance longer_address = Ok (OBalance long_address (tests "100")).
  Proof. demo. Qed.
End Chain.
(** The other address cannot be credited; who sends to it loses the coins. *)
Example C33_case_lost : lost_coins (demo_node lost_history).
Proof. exact coins_lost. Qed.
(** A transaction that names this address as payer: it is admissible, nobody pays. *)
Example C41_case_unpaid : unpaid (demo_node lost_history).
Proof. exact nobody_pays. Qed.
(** C41: a transaction that passes admission need not be paid for. *)
Theorem C41_fee_charged_refuted :
  ~ forall cs x t r x', demo_running cs x -> proper t -> admissible 255 demo_verify (demo_gets x) t ->
      demo_pay t x = (r, x') -> alive r -> r = Ok tt.
Proof. exact admissible_unpaid. Qed.
(** C31: a transfer that fails can make coins disappear. *)
Theorem C31_failed_transfer_refuted :
  ~ forall cs x t from to amt e x', demo_running cs x -> proper t ->
      demo_send (tx_users t) (MsgSendCoins from to amt) x = (Fail e, x') ->
      forall k o, demo_gets x' ty_balance k o <-> demo_gets x ty_balance k o.
Proof. exact failed_transfer_loses. Qed.
Print Assumptions C33_stored_where_looked_for.
Print Assumptions C33_transfer_any_length.
Print Assumptions C33_failed_transfer_any_length.
Print Assumptions C31_supply_any_length.
Print Assumptions C31_supply_failed_any_length.
Print Assumptions C41_fee_any_length.
Print Assumptions C41_fee_charged_refuted.
Print Assumptions C31_failed_transfer_refuted.
