(** Theorems about the node of the test application: for every protobuf codec,
    order of users and transaction decoder that is [sound] (ChainSpec), every
    signature scheme [verify], limit of decimals [bits], and every history of
    consensus calls. *)
From Coq Require Import NArith ZArith List Bool String.
From stdpp Require Import base list gmap.
From Verif.Model Require Import Bytes Schema Orm Users Errors Prog Runtime Builder Universe Coin Rbac Authn Distribution Marshal TestApp Abci.
From Verif.Spec Require Import UserSpec StoreSpec CoinSpec RbacSpec ChainSpec DemoChain DemoRoles.
From Verif.Proofs Require Import ChainProps ConsentFacts DemoRuns DemoFacts.

Section Chain.
  Context (C : codec) (bits : N) (verify : bytes -> bytes -> bytes -> bool).
  Context (enum : list (event object msg) -> users -> list user) (fuel : nat) (decode : bytes -> res tx).
  Notation call := (call C bits verify enum fuel decode).
  Notation calls := (calls C bits verify enum fuel decode).
  Notation running := (running C bits verify enum fuel decode).
  Notation reachable := (reachable C bits verify enum fuel decode).
  Notation written := (written C bits verify).
  Notation gets := (gets C bits verify).
  Notation pay := (pay C bits verify enum fuel).
  Notation send := (send C bits verify enum fuel).
  Notation message_admission := (message_admission C bits verify enum fuel).
  Notation admission := (admission C bits verify enum fuel).
  Notation reachable_demo := (ChainSpec.reachable protobuf 255 demo_verify demo_users 4 demo_decode demo_chain).
  Implicit Types (x : node) (t : tx) (m : msg) (o : object) (k a from to d : bytes).

  (** DeliverTx of a transaction is admission with the fee, then each message. *)
  Theorem C46_transaction_is_its_parts raw t x : decode raw = Ok t ->
    call (CallDeliverTx raw) x = then_do (pay t x) (each_msg (send (tx_users t)) (tx_msgs t)).
  Proof. exact (deliver_tx_parts C bits verify enum fuel decode raw t x). Qed.
  (** A fee and two messages, the second of which fails. *)
  Example C46_case : demo_decode tx_half = Ok (demo_tx tx_half) /\ length (tx_msgs (demo_tx tx_half)) = 2
    /\ fst (demo_pay (demo_tx tx_half) (demo_node [])) = Ok tt /\ demo_answer (demo_node []) (CallDeliverTx tx_half) = Fail EAnon.
  Proof. demo. Qed.

  (** ** C28: a message that is not for outsiders is refused and runs nothing. *)
  Theorem C28_internal_message_refused id x t m : sound C enum decode ->
    reachable id x -> proper t -> ~ for_outsiders m -> fuel <> 0 ->
    exists e x', send (tx_users t) m x = (Fail e, x') /\ errors_is e RtUnauthorized = true /\ unchanged x x'
      /\ w_trace (rt_world x') = w_trace (rt_world x) ++ [EvCheck VDeliver (msg_name m) (tx_users t) false].
  Proof. intros HS. exact (internal_refused C bits verify enum fuel decode HS id x t m). Qed.
  Example C28_case : sound protobuf demo_users demo_decode
    /\ reachable_demo (demo_node demo_history) /\ proper (demo_tx tx_alice_mints)
    /\ fst (demo_send (tx_users (demo_tx tx_alice_mints)) (MsgSetBalance alice_address (tests "1000000")) (demo_node demo_history))
       = Fail (EWrap (ESent RtUnauthorized)).
  Proof. demo. Qed.
  Theorem C28_transaction_stops_there id raw t x pre m post x1 : sound C enum decode ->
    reachable id x -> decode raw = Ok t -> tx_msgs t = pre ++ m :: post -> ~ for_outsiders m -> fuel <> 0 ->
    then_do (pay t x) (each_msg (send (tx_users t)) pre) = (Ok tt, x1) ->
    exists e x2, call (CallDeliverTx raw) x = (Fail e, x2) /\ errors_is e RtUnauthorized = true /\ unchanged x1 x2
      /\ w_trace (rt_world x2) = w_trace (rt_world x1) ++ [EvCheck VDeliver (msg_name m) (tx_users t) false].
  Proof. intros HS. exact (internal_message C bits verify enum fuel decode HS id raw t x pre m post x1). Qed.
  Example C28_case_transaction : demo_decode tx_alice_mints = Ok (demo_tx tx_alice_mints)
    /\ tx_msgs (demo_tx tx_alice_mints) = [] ++ [MsgSetBalance alice_address (tests "1000000")]
    /\ fst (demo_pay (demo_tx tx_alice_mints) (demo_node demo_history)) = Ok tt
    /\ demo_answer (demo_node demo_history) (CallDeliverTx tx_alice_mints) = Fail (EWrap (ESent RtUnauthorized)).
  Proof. demo. Qed.

  (** ** C29 *)
  Theorem C29_roles_and_bindings_immutable id cs x cs' x' : sound C enum decode ->
    running id cs x -> calls cs' x = Some x' ->
    (forall k o, gets x' ty_role k o <-> gets x ty_role k o)
    /\ (forall k o, gets x ty_binding k o -> gets x' ty_binding k o)
    /\ (forall k o, gets x' ty_binding k o -> gets x ty_binding k o
          \/ (forall o', ~ gets x ty_binding k o') /\ exists s, o = OBinding s external_role_id).
  Proof. intros HS. exact (roles_immutable C bits verify enum fuel decode HS id cs x cs' x'). Qed.
  (** Roles are there, and a binding appears for bob. *)
  Example C29_case : demo_running demo_history (demo_node demo_history) /\ demo_running bob_history (demo_node bob_history)
    /\ refused (demo_get (demo_node demo_history) ty_binding bob_address) = true
    /\ demo_get (demo_node bob_history) ty_binding bob_address = Ok (OBinding bob_address external_role_id)
    /\ demo_get (demo_node demo_history) ty_binding alice_address = Ok (OBinding alice_address external_role_id).
  Proof. demo. Qed.

  (** ** C31: supply. Missing: receivers of 128 bytes and more (C31_supply_refuted). *)
  Theorem C31_supply_exists x d : sound C enum decode -> written x ->
    exists n, forall n', supply bits (gets x) d n' <-> n' = n.
  Proof. intros HS. exact (supply_unique C bits verify enum decode HS x d). Qed.
  Theorem C31_transfer_conserves_partial id x t from to amt r x' : sound C enum decode ->
    reachable id x -> orderly bits (gets x) -> proper t -> length to < 128 ->
    send (tx_users t) (MsgSendCoins from to amt) x = (r, x') -> alive r ->
    orderly bits (gets x') /\ forall d n, supply bits (gets x') d n <-> supply bits (gets x) d n.
  Proof. intros HS. exact (send_supply C bits verify enum fuel decode HS id x t from to amt r x'). Qed.
  Example C31_case : reachable_demo (demo_node demo_history) /\ orderly 255 (demo_gets (demo_node demo_history))
    /\ proper (demo_tx tx_alice_bob)
    /\ fst (demo_send (tx_users (demo_tx tx_alice_bob)) (MsgSendCoins alice_address bob_address (tests "300")) (demo_node demo_history)) = Ok tt.
  Proof. demo. Qed.
  Theorem C31_fee_conserves id x t r x' : sound C enum decode ->
    reachable id x -> orderly bits (gets x) -> proper t -> pay t x = (r, x') -> alive r ->
    orderly bits (gets x') /\ forall d n, supply bits (gets x') d n <-> supply bits (gets x) d n.
  Proof. intros HS. exact (pay_supply C bits verify enum fuel decode HS id x t r x'). Qed.
  Example C31_case_fee : orderly 255 (demo_gets (demo_node demo_history))
    /\ fst (demo_pay (demo_tx tx_alice_bob) (demo_node demo_history)) = Ok tt.
  Proof. demo. Qed.
  Theorem C31_chain_conserves_partial id cs x : sound C enum decode -> (93 <= bits)%N -> running id cs x ->
    (forall raw t from to amt, CallDeliverTx raw ∈ cs -> decode raw = Ok t -> MsgSendCoins from to amt ∈ tx_msgs t ->
       length to < 128) ->
    orderly bits (gets x)
    /\ forall d n, supply bits (gets x) d n <-> n = if decide (d = str "test") then 5000000000%N else 0%N.
  Proof. intros HS. exact (running_supply C bits verify enum fuel decode HS id cs x). Qed.
  (** Three balances that add up to what genesis gave. *)
  Example C31_case_chain : demo_running demo_history (demo_node demo_history) /\ forallb short_receivers demo_history = true
    /\ map (demo_balance (demo_node demo_history)) [genesis_address; alice_address; fee_collector]
       = [Some (genesis_address, tests "4999998990"); Some (alice_address, tests "1000"); Some (fee_collector, tests "10")].
  Proof. demo. Qed.

  (** ** C32: any sender, any receiver. *)
  Theorem C32_transfer_is_affordable id x t from to amt x' : sound C enum decode ->
    reachable id x -> proper t -> send (tx_users t) (MsgSendCoins from to amt) x = (Ok tt, x') ->
    exists a c, gets x ty_balance from (OBalance a c) /\ readable bits c /\ readable bits amt
      /\ forall d, (worth bits amt d <= worth bits c d)%N.
  Proof. intros HS. exact (send_affordable C bits verify enum fuel decode HS id x t from to amt x'). Qed.
  Example C32_case : reachable_demo (demo_node demo_history) /\ proper (demo_tx tx_alice_bob)
    /\ fst (demo_send (tx_users (demo_tx tx_alice_bob)) (MsgSendCoins alice_address bob_address (tests "300")) (demo_node demo_history)) = Ok tt.
  Proof. demo. Qed.
  Theorem C32_overspending_has_no_effect id x t from to amt r x' : sound C enum decode ->
    reachable id x -> proper t ->
    (forall a c, gets x ty_balance from (OBalance a c) -> ~ readable bits c \/ exists d, (worth bits c d < worth bits amt d)%N) ->
    send (tx_users t) (MsgSendCoins from to amt) x = (r, x') -> alive r ->
    (exists e, r = Fail e) /\ forall ty k o, gets x' ty k o <-> gets x ty k o.
  Proof. intros HS. exact (send_overspent C bits verify enum fuel decode HS id x t from to amt r x'). Qed.
  Example C32_case_overspending : reachable_demo (demo_node demo_history) /\ proper (demo_tx tx_alice_overspends)
    /\ demo_get (demo_node demo_history) ty_balance alice_address = Ok (OBalance alice_address (tests "1000"))
    /\ worth 255 (tests "1000") (str "test") = 1000%N /\ worth 255 (tests "5000") (str "test") = 5000%N
    /\ demo_answer (demo_node demo_history) (CallDeliverTx tx_alice_overspends) = Fail EAnon.
  Proof. demo. Qed.

  (** ** C33. Missing: addresses of 128 bytes and more (C33_third_party_refuted),
      receivers whose balance cannot be read. *)
  Theorem C33_transfer_moves_exactly_partial id x t from to amt x' : sound C enum decode ->
    reachable id x -> proper t -> length from < 128 -> length to < 128 ->
    send (tx_users t) (MsgSendCoins from to amt) x = (Ok tt, x') ->
    transferred bits (gets x) (gets x') from to amt.
  Proof. intros HS. exact (send_transferred C bits verify enum fuel decode HS id x t from to amt x'). Qed.
  Example C33_case : reachable_demo (demo_node demo_history) /\ proper (demo_tx tx_alice_bob)
    /\ fst (demo_send (tx_users (demo_tx tx_alice_bob)) (MsgSendCoins alice_address bob_address (tests "300")) (demo_node demo_history)) = Ok tt
    /\ map (demo_balance (demo_node bob_history)) [alice_address; bob_address; fee_collector]
       = [Some (alice_address, tests "699"); Some (bob_address, tests "300"); Some (fee_collector, tests "11")].
  Proof. demo. Qed.
  Theorem C33_failed_transfer_moves_nothing_partial id x t from to amt e x' : sound C enum decode ->
    reachable id x -> proper t -> length to < 128 ->
    (forall a c, gets x ty_balance to (OBalance a c) -> readable bits c) ->
    send (tx_users t) (MsgSendCoins from to amt) x = (Fail e, x') ->
    forall ty k o, gets x' ty k o <-> gets x ty k o.
  Proof. intros HS. exact (send_failed C bits verify enum fuel decode HS id x t from to amt e x'). Qed.
  Example C33_case_failed : proper (demo_tx tx_alice_overspends)
    /\ fst (demo_send (tx_users (demo_tx tx_alice_overspends)) (MsgSendCoins alice_address bob_address (tests "5000")) (demo_node demo_history)) = Fail EAnon.
  Proof. demo. Qed.

  (** ** C35 *)
  Theorem C35_numbers_in_order id cs x cs' x' : sound C enum decode -> running id cs x -> calls cs' x = Some x' ->
    exists l new, by_number (gets x) l /\ by_number (gets x') (l ++ new).
  Proof. intros HS. exact (running_numbers C bits verify enum fuel decode HS id cs x cs' x'). Qed.
  (** genesis, the fee collector, alice and then bob. *)
  Example C35_case : demo_running demo_history (demo_node demo_history) /\ demo_running bob_history (demo_node bob_history)
    /\ map (fun a => number_of (demo_get (demo_node bob_history) ty_account a)) [genesis_address; fee_collector; alice_address; bob_address]
       = [Some 0; Some 1; Some 2; Some 3]%N
    /\ demo_get (demo_node bob_history) ty_account_number singleton_id = Ok (OAccountNumber 4).
  Proof. demo. Qed.
  Theorem C35_numbers_distinct (v : view) (l : list bytes) a b acc acc' :
    by_number v l -> (N.of_nat (length l) < 2 ^ 64)%N ->
    v ty_account a (OAccount acc) -> v ty_account b (OAccount acc') ->
    (a <> b -> ac_number acc <> ac_number acc')
    /\ exists n, v ty_account_number singleton_id (OAccountNumber n) /\ (ac_number acc < n)%N.
  Proof. exact (by_number_distinct (fun _ _ _ => true) v l a b acc acc'). Qed.
  Theorem C35_creation_takes_next_number id x t acc x' : sound C enum decode ->
    reachable id x -> proper t -> length (ac_address acc) < 128 ->
    send (tx_users t) (MsgCreateAccount (Some acc)) x = (Ok tt, x') ->
    exists n, gets x ty_account_number singleton_id (OAccountNumber n)
      /\ gets x' ty_account_number singleton_id (OAccountNumber ((n + 1) mod 2 ^ 64))
      /\ (forall o, ~ gets x ty_account (ac_address acc) o)
      /\ gets x' ty_account (ac_address acc)
           (OAccount {| ac_address := ac_address acc; ac_pubkey := ac_pubkey acc; ac_number := n; ac_sequence := 0 |})
      /\ (forall o, ~ gets x ty_binding (ac_address acc) o)
      /\ gets x' ty_binding (ac_address acc) (OBinding (ac_address acc) external_role_id)
      /\ forall ty k o, ty <> ty_account_number -> ~ (k = ac_address acc /\ (ty = ty_account \/ ty = ty_binding)) ->
           gets x' ty k o <-> gets x ty k o.
  Proof. intros HS. exact (send_created C bits verify enum fuel decode HS id x t acc x'). Qed.
  Example C35_case_creation : reachable_demo (demo_node []) /\ proper (demo_tx tx_open_alice)
    /\ fst (demo_send (tx_users (demo_tx tx_open_alice)) (new_account alice) (demo_node [])) = Ok tt
    /\ demo_get (demo_node []) ty_account_number singleton_id = Ok (OAccountNumber 1).
  Proof. demo. Qed.

  (** ** C36 *)
  Theorem C36_no_replay id cs x raw t r x1 cs' x2 : sound C enum decode -> (bits <= 314)%N ->
    running id cs x -> decode raw = Ok t -> admissible bits verify (gets x) t ->
    call (CallDeliverTx raw) x = (r, x1) -> alive r ->
    calls cs' x1 = Some x2 -> (N.of_nat (deliveries cs') < 2 ^ 64 - 1)%N ->
    exists e x3, call (CallDeliverTx raw) x2 = (Fail e, x3) /\ call (CallCheckTx raw) x2 = (Fail e, x3) /\ unchanged x2 x3.
  Proof. intros HS. exact (replay_refused C bits verify enum fuel decode HS id cs x raw t r x1 cs' x2). Qed.
  Example C36_case : demo_running demo_history (demo_node demo_history)
    /\ admissible 255 demo_verify (demo_gets (demo_node demo_history)) (demo_tx tx_alice_bob)
    /\ demo_answer (demo_node demo_history) (CallDeliverTx tx_alice_bob) = Ok tt
    /\ demo_answer (demo_node bob_history) (CallDeliverTx tx_alice_bob) = Fail (EWrap (ESent RtBadRequest)).
  Proof. demo. Qed.

  (** ** C38: with any parameters, heights and accounts in the store. *)
  Theorem C38_admission_is_exact t x : sound C enum decode -> (bits <= 314)%N ->
    written x -> rt_enabled x = true -> proper t ->
    unchanged x (snd (admission t x))
    /\ (fst (admission t x) = Ok tt /\ admissible bits verify (gets x) t
        \/ (exists e, fst (admission t x) = Fail e) /\ ~ admissible bits verify (gets x) t).
  Proof. intros HS. exact (admission_written C bits verify enum fuel decode HS t x). Qed.
  Example C38_case : ChainSpec.written protobuf 255 demo_verify (demo_node demo_history) /\ rt_enabled (demo_node demo_history) = true
    /\ proper (demo_tx tx_alice_bob) /\ admissible 255 demo_verify (demo_gets (demo_node demo_history)) (demo_tx tx_alice_bob)
    /\ proper (demo_tx tx_wrong_sequence) /\ ~ admissible 255 demo_verify (demo_gets (demo_node demo_history)) (demo_tx tx_wrong_sequence).
  Proof. demo. Qed.

  (** ** C40 *)
  Theorem C40_inadmissible_has_no_effect raw t x : sound C enum decode -> (bits <= 314)%N ->
    written x -> rt_enabled x = true -> decode raw = Ok t -> ~ admissible bits verify (gets x) t ->
    exists e x', call (CallDeliverTx raw) x = (Fail e, x') /\ call (CallCheckTx raw) x = (Fail e, x') /\ unchanged x x'.
  Proof. intros HS. exact (inadmissible_written C bits verify enum fuel decode HS raw t x). Qed.
  Example C40_case : ChainSpec.written protobuf 255 demo_verify (demo_node demo_history) /\ rt_enabled (demo_node demo_history) = true
    /\ demo_decode tx_wrong_sequence = Ok (demo_tx tx_wrong_sequence)
    /\ ~ admissible 255 demo_verify (demo_gets (demo_node demo_history)) (demo_tx tx_wrong_sequence)
    /\ demo_answer (demo_node demo_history) (CallDeliverTx tx_wrong_sequence) = Fail (EWrap (ESent RtBadRequest)).
  Proof. demo. Qed.
  Theorem C40_undecodable_has_no_effect raw x e : decode raw = Fail e ->
    call (CallDeliverTx raw) x = (Fail e, x) /\ call (CallCheckTx raw) x = (Fail e, x).
  Proof. exact (undecodable C bits verify enum fuel decode raw x e). Qed.
  Example C40_case_undecodable : refused (demo_decode (str "transaction")) = true /\ refused (demo_decode (tx_alice_bob ++ str "x")) = true.
  Proof. demo. Qed.

  (** ** C41. Missing: the payer need not be a signer (see C41_payer_signs_refuted),
      payers of 128 bytes and more. *)
  Theorem C41_fee_charged_once_partial id x t r x' : sound C enum decode ->
    reachable id x -> proper t -> length (tx_payer t) < 128 ->
    (forall a c, gets x ty_balance fee_collector (OBalance a c) -> readable bits c) ->
    pay t x = (r, x') -> alive r ->
    r = Ok tt /\ admissible bits verify (gets x) t
      /\ (exists v1, sequenced (gets x) v1 t /\ transferred bits v1 (gets x') (tx_payer t) fee_collector (tx_fee t))
    \/ (exists e, r = Fail e) /\ ~ admissible bits verify (gets x) t /\ forall ty k o, gets x' ty k o <-> gets x ty k o.
  Proof. intros HS. exact (pay_fee C bits verify enum fuel decode HS id x t r x'). Qed.
  Example C41_case : reachable_demo (demo_node demo_history) /\ proper (demo_tx tx_alice_bob)
    /\ tx_payer (demo_tx tx_alice_bob) = alice_address /\ tx_fee (demo_tx tx_alice_bob) = tests "1"
    /\ fst (demo_pay (demo_tx tx_alice_bob) (demo_node demo_history)) = Ok tt.
  Proof. demo. Qed.

  (** ** C34. Missing: the owner's consent (C34_sender_signs_refuted). A balance
      falls only in a transaction that names the address as payer or sender, and by
      no more than it names. *)
  Theorem C34_balance_falls_only_if_named_partial id cs c x r x' a d n n' : sound C enum decode -> (93 <= bits)%N ->
    running id cs x -> call c x = (r, x') -> alive r ->
    (forall raw t from to amt, CallDeliverTx raw ∈ cs ++ [c] -> decode raw = Ok t -> MsgSendCoins from to amt ∈ tx_msgs t ->
       length to < 128) ->
    balance bits (gets x) a d n -> balance bits (gets x') a d n' ->
    n' = n \/ exists t, executes bits verify decode (gets x) c t /\ (n <= n' + spent bits t a d)%N.
  Proof. intros HS. exact (call_takes C bits verify enum fuel decode HS id cs c x r x' a d n n'). Qed.
  Example C34_case : demo_running demo_history (demo_node demo_history)
    /\ forallb short_receivers (demo_history ++ [CallDeliverTx tx_alice_bob]) = true
    /\ demo_answer (demo_node demo_history) (CallDeliverTx tx_alice_bob) = Ok tt
    /\ demo_get (demo_node demo_history) ty_balance alice_address = Ok (OBalance alice_address (tests "1000"))
    /\ demo_balance (after_call (CallDeliverTx tx_alice_bob) (demo_node demo_history)) alice_address = Some (alice_address, tests "699")
    /\ spent 255 (demo_tx tx_alice_bob) alice_address (str "test") = 301%N.
  Proof. demo. Qed.

  (** ** C42 *)
  Theorem C42_sequences_advance_by_one id cs x c r x' : sound C enum decode ->
    running id cs x -> call c x = (r, x') -> alive r ->
    (forall a acc, gets x ty_account a (OAccount acc) ->
       (exists t, executes bits verify decode (gets x) c t /\ signs t a)
       /\ gets x' ty_account a (OAccount {| ac_address := ac_address acc; ac_pubkey := ac_pubkey acc;
            ac_number := ac_number acc; ac_sequence := (ac_sequence acc + 1) mod 2 ^ 64 |})
       \/ ~ (exists t, executes bits verify decode (gets x) c t /\ signs t a) /\ gets x' ty_account a (OAccount acc))
    /\ forall a acc, (forall o, ~ gets x ty_account a o) -> gets x' ty_account a (OAccount acc) -> ac_sequence acc = 0%N.
  Proof. intros HS. exact (call_sequence C bits verify enum fuel decode HS id cs x c r x'). Qed.
  Example C42_case : demo_running demo_history (demo_node demo_history) /\ demo_answer (demo_node demo_history) (CallDeliverTx tx_alice_bob) = Ok tt
    /\ map (fun a => sequence_of (demo_get (demo_node []) ty_account a)) [genesis_address; alice_address] = [Some 0; None]%N
    /\ map (fun a => sequence_of (demo_get (demo_node demo_history) ty_account a)) [genesis_address; alice_address] = [Some 1; Some 0]%N
    /\ map (fun a => sequence_of (demo_get (demo_node bob_history) ty_account a)) [genesis_address; alice_address] = [Some 1; Some 1]%N.
  Proof. demo. Qed.

  (** ** C43 *)
  Theorem C43_height_and_stage_follow_calls id cs x c r x' : sound C enum decode ->
    running id cs x -> call c x = (r, x') -> alive r ->
    (forall o, gets x' ty_current_block singleton_id o <->
       match c with CallBeginBlock h _ => o = OCurrentBlock (Z.to_N (h mod 2 ^ 64)) | _ => gets x ty_current_block singleton_id o end)
    /\ forall o, gets x' ty_stage singleton_id o <->
       match c with CallBeginBlock _ _ => o = OStage StBeginBlock | CallEndBlock _ => o = OStage StEndBlock
                  | _ => gets x ty_stage singleton_id o end.
  Proof. intros HS. exact (call_heights C bits verify enum fuel decode HS id cs x c r x'). Qed.
  Example C43_case : demo_running bob_history (demo_node bob_history)
    /\ demo_get (demo_node []) ty_current_block singleton_id = Ok (OCurrentBlock 0)
    /\ demo_get (demo_node demo_history) ty_current_block singleton_id = Ok (OCurrentBlock 1)
    /\ demo_get (demo_node bob_history) ty_current_block singleton_id = Ok (OCurrentBlock 2)
    /\ demo_get (demo_node []) ty_stage singleton_id = Ok (OStage StInitChain)
    /\ demo_get (demo_node mallory_history) ty_stage singleton_id = Ok (OStage StBeginBlock)
    /\ demo_get (demo_node bob_history) ty_stage singleton_id = Ok (OStage StEndBlock).
  Proof. demo. Qed.

  (** ** C44: in any state whatever. *)
  Theorem C44_check_changes_nothing raw x r x' : call (CallCheckTx raw) x = (r, x') -> unchanged x x'.
  Proof. exact (check_unchanged C bits verify enum fuel decode raw x r x'). Qed.
  Example C44_case : map (fun raw => demo_answer (demo_node demo_history) (CallCheckTx raw)) [tx_alice_bob; tx_wrong_sequence]
    = [Ok tt; Fail (EWrap (ESent RtBadRequest))].
  Proof. demo. Qed.

  (** ** C50 is false: an account without public key, as transfers create it
      (C33, [opened]), can never send a transaction. *)
  Theorem C50_keyless_account_never_sends_refuted id cs x a acc cs' x' raw t : sound C enum decode -> (bits <= 314)%N ->
    running id cs x -> gets x ty_account a (OAccount acc) -> ac_pubkey acc = None -> calls cs' x = Some x' ->
    decode raw = Ok t -> signs t a ->
    exists e x'', call (CallDeliverTx raw) x' = (Fail e, x'') /\ call (CallCheckTx raw) x' = (Fail e, x'') /\ unchanged x' x''.
  Proof. intros HS. exact (keyless_refused C bits verify enum fuel decode HS id cs x a acc cs' x' raw t). Qed.
  (** bob's account was opened by a transfer. *)
  Example C50_case : demo_running bob_history (demo_node bob_history)
    /\ demo_get (demo_node bob_history) ty_account bob_address
       = Ok (OAccount {| ac_address := bob_address; ac_pubkey := None; ac_number := 3; ac_sequence := 0 |})
    /\ demo_decode tx_bob = Ok (demo_tx tx_bob) /\ map sg_address (tx_signers (demo_tx tx_bob)) = [bob_address]
    /\ demo_answer (demo_node bob_history) (CallDeliverTx tx_bob) = Fail (EWrap (ESent RtBadRequest)).
  Proof. demo. Qed.

  (** ** C52. Missing: messages that run and fail (C52_refused_message_refuted). *)
  Theorem C52_successful_message_is_admitted_partial id x t m x' : sound C enum decode ->
    reachable id x -> proper t -> send (tx_users t) m x = (Ok tt, x') ->
    message_admission (tx_users t) m x = (Ok tt, x).
  Proof. intros HS. exact (success_admitted C bits verify enum fuel decode HS id x t m x'). Qed.
  Example C52_case : reachable_demo (demo_node demo_history) /\ proper (demo_tx tx_alice_bob)
    /\ fst (demo_send (tx_users (demo_tx tx_alice_bob)) (MsgSendCoins alice_address bob_address (tests "300")) (demo_node demo_history)) = Ok tt.
  Proof. demo. Qed.
End Chain.
Print Assumptions C46_transaction_is_its_parts.
Print Assumptions C28_internal_message_refused.
Print Assumptions C28_transaction_stops_there.
Print Assumptions C29_roles_and_bindings_immutable.
Print Assumptions C31_supply_exists.
Print Assumptions C31_transfer_conserves_partial.
Print Assumptions C31_fee_conserves.
Print Assumptions C31_chain_conserves_partial.
Print Assumptions C32_transfer_is_affordable.
Print Assumptions C32_overspending_has_no_effect.
Print Assumptions C33_transfer_moves_exactly_partial.
Print Assumptions C33_failed_transfer_moves_nothing_partial.
Print Assumptions C35_numbers_in_order.
Print Assumptions C35_numbers_distinct.
Print Assumptions C35_creation_takes_next_number.
Print Assumptions C36_no_replay.
Print Assumptions C38_admission_is_exact.
Print Assumptions C40_inadmissible_has_no_effect.
Print Assumptions C40_undecodable_has_no_effect.
Print Assumptions C41_fee_charged_once_partial.
Print Assumptions C42_sequences_advance_by_one.
Print Assumptions C43_height_and_stage_follow_calls.
Print Assumptions C44_check_changes_nothing.
Print Assumptions C50_keyless_account_never_sends_refuted.
Print Assumptions C34_balance_falls_only_if_named_partial.
Print Assumptions C52_successful_message_is_admitted_partial.

(** * What is false *)
(** C31: with receivers of 128 bytes the supply grows (DemoChain, [long_history]). *)
Theorem C31_supply_refuted :
  ~ forall cs x d n, demo_running cs x -> supply 255 (demo_gets x) d n -> n = if decide (d = str "test") then 5000000000%N else 0%N.
Proof. exact supply_grows. Qed.
Print Assumptions C31_supply_refuted.
(** C33: a transfer to a receiver of 128 bytes shows in the balance of a third
    address. *)
Theorem C33_third_party_refuted :
  ~ forall cs x t from to amt x' a o, demo_running cs x -> proper t ->
      demo_send (tx_users t) (MsgSendCoins from to amt) x = (Ok tt, x') -> a <> from -> a <> to ->
      demo_gets x' ty_balance a o -> demo_gets x ty_balance a o.
Proof. exact third_party_affected. Qed.
Print Assumptions C33_third_party_refuted.
(** C34: somebody else's coins can be sent. *)
Theorem C34_sender_signs_refuted :
  ~ forall cs x raw t from to amt x', demo_running cs x -> demo_decode raw = Ok t -> tx_msgs t = [MsgSendCoins from to amt] ->
      demo_call (CallDeliverTx raw) x = (Ok tt, x') -> signs t from.
Proof. exact sender_need_not_sign. Qed.
Print Assumptions C34_sender_signs_refuted.
(** C41: somebody else can be made to pay. *)
Theorem C41_payer_signs_refuted :
  ~ forall cs x raw t x', demo_running cs x -> demo_decode raw = Ok t ->
      demo_call (CallDeliverTx raw) x = (Ok tt, x') -> signs t (tx_payer t).
Proof. exact payer_need_not_sign. Qed.
Print Assumptions C41_payer_signs_refuted.
(** C46: after a failure more than the fee remains. *)
Theorem C46_no_message_effects_refuted :
  ~ forall cs x raw t x1 e x2, demo_running cs x -> demo_decode raw = Ok t ->
      demo_pay t x = (Ok tt, x1) -> demo_call (CallDeliverTx raw) x = (Fail e, x2) ->
      forall ty k o, demo_gets x2 ty k o <-> demo_gets x1 ty k o.
Proof. exact first_message_stays. Qed.
Print Assumptions C46_no_message_effects_refuted.
(** C52: a handler runs for a message that admission refuses. *)
Theorem C52_refused_message_refuted :
  ~ forall cs x raw t x1 m us, demo_running cs x -> demo_decode raw = Ok t ->
      demo_pay t x = (Ok tt, x1) -> tx_msgs t = [m] ->
      EvDeliver m us ∈ w_trace (rt_world (snd (demo_call (CallDeliverTx raw) x))) ->
      fst (demo_admission (tx_users t) m x1) = Ok tt.
Proof. exact refused_message_runs. Qed.
Print Assumptions C52_refused_message_refuted.
