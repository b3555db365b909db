(** Theorems about signed transfers: C69. The private key's operations are given
    by [public_key] and [sign_with]. *)
From Coq Require Import NArith ZArith List Bool String.
From stdpp Require Import base list.
From Verif.Model Require Import Bytes Users Prog Runtime Builder Universe Marshal Coin Authn Distribution TxDecoder TestApp Abci Sign.
From Verif.Spec Require Import UserSpec CoinSpec ChainSpec LiveSpec SignSpec DigitsSpec DemoChain DemoSign.
From Verif.Proofs Require Import SignFacts SignChain SignCases DigitsFacts DemoFacts DemoRuns.

Section Sign.
  Context (bits : N) (verify : bytes -> bytes -> bytes -> bool) (hash160 : bytes -> bytes).
  Context (public_key : bytes -> bytes) (sign_with : bytes -> bytes -> res bytes).
  Context (enum : list (event object msg) -> users -> list user) (fuel : nat).
  Notation call := (call protobuf bits verify enum fuel (decode_tx hash160)).
  Notation gets := (gets protobuf bits verify).
  Notation reachable := (reachable protobuf bits verify enum fuel (decode_tx hash160)).
  Notation own private := (address_of_key hash160 (public_key private)).

  (** ** C69: what Sign writes is read by the node as the transfer it was asked for. *)
  Theorem C69_signed_payment_is_read private chain number sequence fee gas from to amount raw :
    signed_payment public_key sign_with private chain number sequence fee gas from to amount = Ok raw ->
    writable raw from to sequence gas fee amount -> fee <> [] -> length (public_key private) = 33 ->
    exists t, decode_tx hash160 raw = Ok t
      /\ pays hash160 (fun m s => sign_with private m = Ok s) t (public_key private) chain number sequence
           (to_coins fee) from to (to_coins amount).
  Proof. exact (payment_decodes hash160 public_key sign_with private chain number sequence fee gas from to amount raw). Qed.
  Example C69_case_read :
    signed_payment demo_public demo_sign genesis_secret demo_chain 0 0 fifty 5000 genesis_address alice_address three_hundred = Ok tx_signed
    /\ writable tx_signed genesis_address alice_address 0 5000 fifty three_hundred /\ length genesis_secret = 33.
  Proof. split; [apply signed_ok|]. split; [exact signed_writable|apply signed_ok]. Qed.

  (** The node admits it when the signer's account has the number and the sequence
      that were signed, and the signer can pay the fee. *)
  Theorem C69_signed_payment_is_admitted id x private number sequence fee gas from to amount raw F :
    (forall tr, fair_order (enum tr)) -> reachable id x -> orderly bits (gets x) -> key_pair public_key sign_with verify private ->
    signed_payment public_key sign_with private id number sequence fee gas from to amount = Ok raw ->
    writable raw from to sequence gas fee amount ->
    normal_set (to_coins fee) F -> within bits F -> fee <> [] ->
    has_account (gets x) (own private) number sequence ->
    (forall d n, balance bits (gets x) (own private) d n -> F d <= n)%N ->
    exists t, decode_tx hash160 raw = Ok t /\ admissible bits verify (gets x) t
      /\ pays hash160 (fun m s => sign_with private m = Ok s) t (public_key private) id number sequence
           (to_coins fee) from to (to_coins amount).
  Proof.
    intros HE. exact (payment_admitted bits verify hash160 public_key sign_with enum fuel HE id x private number sequence fee gas from to amount raw F).
  Qed.

  (** The coins are sent: the signer has the amount and the fee less, the receiver
      the amount more, the fee collector the fee more, nobody else anything, and
      the account's sequence is the next one. *)
  Theorem C69_signed_payment_is_made id x private number sequence fee gas to amount raw F A :
    (forall tr, fair_order (enum tr)) -> (bits <= 313)%N -> 3 <= fuel ->
    reachable id x -> orderly bits (gets x) -> key_pair public_key sign_with verify private ->
    signed_payment public_key sign_with private id number sequence fee gas (own private) to amount = Ok raw ->
    writable raw (own private) to sequence gas fee amount ->
    normal_set (to_coins fee) F -> within bits F -> fee <> [] -> normal_set (to_coins amount) A -> within bits A ->
    has_account (gets x) (own private) number sequence ->
    (forall d n, balance bits (gets x) (own private) d n -> F d + A d <= n)%N ->
    to <> [] -> length to < 128 -> to ∉ modules_of_app ->
    succeeds oversized (call (CallDeliverTx raw) x)
    /\ forall x', call (CallDeliverTx raw) x = (Ok tt, x') ->
         (forall a d n n', balance bits (gets x) a d n -> balance bits (gets x') a d n' ->
            n' + (if decide (a = own private) then F d + A d else 0)
            = n + (if decide (a = fee_collector) then F d else 0) + (if decide (a = to) then A d else 0))%N
         /\ has_account (gets x') (own private) number ((sequence + 1) mod 2 ^ 64).
  Proof.
    intros HE. exact (payment_made bits verify hash160 public_key sign_with enum fuel HE id x private number sequence fee gas to amount raw F A).
  Qed.
  (** Sign itself: account number 0, sequence 0, a fee of 50 test. *)
  Theorem C69_sign_is_made id x key_hex private to amount raw A :
    (forall tr, fair_order (enum tr)) -> (66 <= bits <= 313)%N -> 3 <= fuel -> reachable id x -> orderly bits (gets x) ->
    digits_of key_hex private -> key_pair public_key sign_with verify private ->
    sign public_key sign_with key_hex id (own private) to amount = Ok raw ->
    writable raw (own private) to 0 5000 [(str "test", 50%Z)] amount ->
    normal_set (to_coins amount) A -> within bits A ->
    has_account (gets x) (own private) 0 0 ->
    let F d := (if decide (str "test" = d) then 50 else 0)%N in
    (forall d n, balance bits (gets x) (own private) d n -> F d + A d <= n)%N ->
    to <> [] -> length to < 128 -> to ∉ modules_of_app ->
    succeeds oversized (call (CallDeliverTx raw) x)
    /\ forall x', call (CallDeliverTx raw) x = (Ok tt, x') ->
         (forall a d n n', balance bits (gets x) a d n -> balance bits (gets x') a d n' ->
            n' + (if decide (a = own private) then F d + A d else 0)
            = n + (if decide (a = fee_collector) then F d else 0) + (if decide (a = to) then A d else 0))%N
         /\ has_account (gets x') (own private) 0 1.
  Proof.
    intros HE H1 H2 H3 H4 Hh.
    exact (sign_made bits verify hash160 public_key sign_with enum fuel HE id x key_hex private to amount raw A H1 H2 H3 H4 (proj2 (digits_read _ _) Hh)).
  Qed.
  Example C69_case_made :
    ChainSpec.reachable protobuf 255 demo_verify demo_users 4 demo_decode demo_chain (demo_node [])
    /\ orderly 255 (demo_gets (demo_node [])) /\ key_pair demo_public demo_sign demo_verify genesis_secret
    /\ address_of_key demo_hash (demo_public genesis_secret) = genesis_address
    /\ normal_set (to_coins fifty) (fun d => if decide (str "test" = d) then 50 else 0)%N
    /\ normal_set (to_coins three_hundred) (fun d => if decide (str "test" = d) then 300 else 0)%N
    /\ has_account (demo_gets (demo_node [])) genesis_address 0 0
    /\ (forall d n, balance 255 (demo_gets (demo_node [])) genesis_address d n ->
         (if decide (str "test" = d) then 50 else 0) + (if decide (str "test" = d) then 300 else 0) <= n)%N
    /\ demo_answer (demo_node []) (CallDeliverTx tx_signed) = Ok tt
    /\ map (demo_balance (demo_node signed_history)) [genesis_address; alice_address; fee_collector]
       = [Some (genesis_address, tests "4999999650"); Some (alice_address, tests "300"); Some (fee_collector, tests "50")].
  Proof. exact signed_case. Qed.

  (** Sign signs with the key that the digits name, and answers an error for any
      other text. *)
  Theorem C69_sign_reads_digits key_hex chain from to amount :
    (forall private, digits_of key_hex private ->
       sign public_key sign_with key_hex chain from to amount
       = signed_payment public_key sign_with private chain 0 0 [(str "test", 50%Z)] 5000 from to amount)
    /\ ((forall private, ~ digits_of key_hex private) ->
        exists e, sign public_key sign_with key_hex chain from to amount = Fail e).
  Proof. exact (sign_digits public_key sign_with key_hex chain from to amount). Qed.
  Example C69_case_digits : digits_of (str "0aFf") [Byte.x0a; Byte.xff]
    /\ (forall private, ~ digits_of (str "0x") private) /\ (forall private, ~ digits_of (str "0ab") private).
  Proof. exact digits_cases. Qed.

  (** Sign always signs with account number 0 and sequence 0: what it writes for an
      account with another sequence is refused and changes nothing. *)
  Theorem C69_sign_works_once id x key_hex private chain from to amount raw :
    (forall tr, fair_order (enum tr)) -> (bits <= 314)%N -> reachable id x ->
    digits_of key_hex private -> length (public_key private) = 33 ->
    sign public_key sign_with key_hex chain from to amount = Ok raw ->
    writable raw from to 0 5000 [(str "test", 50%Z)] amount ->
    (forall acc, gets x ty_account (own private) (OAccount acc) -> ac_sequence acc <> 0%N) ->
    exists e x', call (CallDeliverTx raw) x = (Fail e, x') /\ call (CallCheckTx raw) x = (Fail e, x') /\ unchanged x x'.
  Proof.
    intros HE H1 H2 Hh.
    exact (sign_once bits verify hash160 public_key sign_with enum fuel HE id x key_hex private chain from to amount raw H1 H2 (proj2 (digits_read _ _) Hh)).
  Qed.
  Example C69_case_once :
    ChainSpec.reachable protobuf 255 demo_verify demo_users 4 demo_decode demo_chain (demo_node signed_history)
    /\ digits_of hex_genesis genesis_secret
    /\ sign demo_public demo_sign hex_genesis demo_chain genesis_address alice_address three_hundred = Ok tx_signed
    /\ (forall acc, demo_gets (demo_node signed_history) ty_account genesis_address (OAccount acc) -> ac_sequence acc <> 0%N)
    /\ map (fun raw => demo_answer (demo_node signed_history) (CallDeliverTx raw)) [tx_signed; tx_signed_next]
       = [Fail (EWrap (ESent RtBadRequest)); Ok tt].
  Proof.
    split; [exact (demo_reachable _ (proj1 signed_computed))|]. split; [apply digits_read, signed_ok|]. split; [apply signed_ok|].
    split; [exact stale_genesis|apply signed_computed].
  Qed.
  (** The account of genesis, for which Sign is meant, keeps its number 0 and its key. *)
  Theorem C69_genesis_account_stays id x : (forall tr, fair_order (enum tr)) -> reachable id x ->
    exists sequence, has_account (gets x) genesis_address 0 sequence.
  Proof. intros HE. exact (genesis_account_stays bits verify hash160 enum fuel HE id x). Qed.
End Sign.

Print Assumptions C69_signed_payment_is_read.
Print Assumptions C69_signed_payment_is_admitted.
Print Assumptions C69_signed_payment_is_made.
Print Assumptions C69_sign_is_made.
Print Assumptions C69_sign_reads_digits.
Print Assumptions C69_sign_works_once.
Print Assumptions C69_genesis_account_stays.
