(** What the concrete node of the examples answers, computed once for each of a
    few histories. *)
From Coq Require Import NArith ZArith List Bool String.
From stdpp Require Import base list option gmap.
From Verif.Model Require Import Bytes Wire Proto Schema Orm Users Errors Prog Runtime Builder Module Universe Marshal Coin Rbac
  Authn Distribution TxDecoder TestApp Abci Query ApiServer.
From Verif.Spec Require Import UserSpec StoreSpec CoinSpec RbacSpec ChainSpec QuerySpec DemoChain DemoRoles DemoService.
Local Open Scope N_scope.
Local Open Scope list_scope.

Ltac computed := vm_compute; reflexivity.
Ltac all_computed := vm_compute; repeat apply conj; reflexivity.
(** ** Transactions *)
Lemma demo_tx_of raw (P : tx -> Prop) :
  match demo_decode raw with Ok t => P t | _ => False end -> is_ok (demo_decode raw) = true /\ P (demo_tx raw).
Proof. unfold demo_tx. destruct (demo_decode raw) as [t| | |]; intros H; [|contradiction..]. split; [reflexivity|exact H]. Qed.
Definition short_receiver (m : msg) : bool := match m with MsgSendCoins _ to _ => bool_decide (length to < 128)%nat | _ => true end.
Ltac tx_computed raw P := let H := fresh in assert (match demo_decode raw with Ok t => P t | _ => False end) as H by all_computed;
  exact (demo_tx_of raw P H).
Lemma open_alice_tx : is_ok (demo_decode tx_open_alice) = true /\ forallb short_receiver (tx_msgs (demo_tx tx_open_alice)) = true.
Proof. tx_computed tx_open_alice (fun t => forallb short_receiver (tx_msgs t) = true). Qed.
Lemma alice_bob_tx : is_ok (demo_decode tx_alice_bob) = true
  /\ tx_payer (demo_tx tx_alice_bob) = alice_address /\ tx_fee (demo_tx tx_alice_bob) = tests "1"
  /\ spent 255 (demo_tx tx_alice_bob) alice_address (str "test") = 301
  /\ tx_msgs (demo_tx tx_alice_bob) = [MsgSendCoins alice_address bob_address (tests "300")]
  /\ forallb short_receiver (tx_msgs (demo_tx tx_alice_bob)) = true.
Proof.
  tx_computed tx_alice_bob (fun t => tx_payer t = alice_address /\ tx_fee t = tests "1" /\ spent 255 t alice_address (str "test") = 301
    /\ tx_msgs t = [MsgSendCoins alice_address bob_address (tests "300")] /\ forallb short_receiver (tx_msgs t) = true).
Qed.
Lemma alice_mints_tx : is_ok (demo_decode tx_alice_mints) = true
  /\ tx_msgs (demo_tx tx_alice_mints) = [] ++ [MsgSetBalance alice_address (tests "1000000")].
Proof. tx_computed tx_alice_mints (fun t => tx_msgs t = [] ++ [MsgSetBalance alice_address (tests "1000000")]). Qed.
Lemma half_tx : is_ok (demo_decode tx_half) = true /\ length (tx_msgs (demo_tx tx_half)) = 2%nat.
Proof. tx_computed tx_half (fun t => length (tx_msgs t) = 2%nat). Qed.
Lemma bob_tx : is_ok (demo_decode tx_bob) = true /\ map sg_address (tx_signers (demo_tx tx_bob)) = [bob_address].
Proof. tx_computed tx_bob (fun t => map sg_address (tx_signers t) = [bob_address]). Qed.
Lemma steal_tx : is_ok (demo_decode tx_steal) = true /\ map sg_address (tx_signers (demo_tx tx_steal)) = [mallory_address]
  /\ tx_payer (demo_tx tx_steal) = genesis_address
  /\ tx_msgs (demo_tx tx_steal) = [MsgSendCoins genesis_address mallory_address (tests "4000000000")].
Proof.
  tx_computed tx_steal (fun t => map sg_address (tx_signers t) = [mallory_address] /\ tx_payer t = genesis_address
    /\ tx_msgs t = [MsgSendCoins genesis_address mallory_address (tests "4000000000")]).
Qed.
Lemma alice_bank_tx : is_ok (demo_decode tx_alice_bank) = true
  /\ tx_msgs (demo_tx tx_alice_bank) = [MsgSendCoins alice_address (str "bank") (tests "5")]
  /\ tx_users (demo_tx tx_alice_bank) = users_from_string [alice_address].
Proof.
  tx_computed tx_alice_bank (fun t => tx_msgs t = [MsgSendCoins alice_address (str "bank") (tests "5")]
    /\ tx_users t = users_from_string [alice_address]).
Qed.
Lemma alice_binds_tx : is_ok (demo_decode tx_alice_binds) = true /\ tx_msgs (demo_tx tx_alice_binds) = [MsgBindRole [] alice_address].
Proof. tx_computed tx_alice_binds (fun t => tx_msgs t = [MsgBindRole [] alice_address]). Qed.
Lemma nameless_tx : is_ok (demo_decode tx_nameless) = true /\ tx_msgs (demo_tx tx_nameless) = [MsgCreateAccount None].
Proof. tx_computed tx_nameless (fun t => tx_msgs t = [MsgCreateAccount None]). Qed.
Lemma other_txs : is_ok (demo_decode tx_alice_overspends) = true /\ is_ok (demo_decode tx_wrong_sequence) = true
  /\ refused (demo_decode (str "transaction")) = true /\ refused (demo_decode (tx_alice_bob ++ str "x")) = true.
Proof. all_computed. Qed.

(** ** Histories *)
Lemma node_of cs (P : node -> Prop) :
  match demo_after cs with Some x => rt_enabled x = true /\ P x | None => False end -> demo_runs cs = true /\ P (demo_node cs).
Proof. unfold demo_runs, demo_node. destruct (demo_after cs) as [x|]; intros H; [exact H|contradiction]. Qed.
Ltac history_computed cs P :=
  let H := fresh in assert (match demo_after cs with Some x => rt_enabled x = true /\ P x | None => False end) as H by all_computed;
  exact (node_of cs P H).

Definition ran_message (tr : list (event object msg)) : bool :=
  existsb (fun e => match e with EvDeliver (MsgCreateAccount None) _ => true | _ => false end) tr.
Definition after_call (c : abci_call) (x : node) : node := snd (demo_call c x).
Definition after_updates (x : node) : node := snd (demo_deliver abci_users (MsgSetValidatorUpdates two_updates) x).
Definition after_role (x : node) : node := snd (demo_deliver (acting ["rbac"%string]) (MsgCreateRole (Some long_role)) x).
Definition after_long (x : node) : node :=
  snd (demo_send (tx_users (demo_tx tx_open_alice)) (MsgSendCoins genesis_address long_address (tests "100")) x).
Definition after_fee (t : tx) (x : node) : node := snd (demo_pay t x).

Definition first_facts (x : node) : Prop :=
  demo_query x (account_path genesis_address) = Panic
  /\ fst (demo_pay (demo_tx tx_half) x) = Ok tt
  /\ is_ok (demo_get (after_fee (demo_tx tx_half) x) ty_balance alice_address) = false
  /\ demo_answer x (CallDeliverTx tx_half) = Fail EAnon
  /\ demo_get (after_call (CallDeliverTx tx_half) x) ty_balance alice_address = Ok (OBalance alice_address (tests "10"))
  /\ fst (demo_send (tx_users (demo_tx tx_open_alice)) (new_account alice) x) = Ok tt
  /\ demo_get x ty_account_number singleton_id = Ok (OAccountNumber 1)
  /\ demo_get x ty_current_block singleton_id = Ok (OCurrentBlock 0)
  /\ demo_get x ty_stage singleton_id = Ok (OStage StInitChain)
  /\ map (fun a => sequence_of (demo_get x ty_account a)) [genesis_address; alice_address] = [Some 0; None]
  /\ fst (demo_pay (demo_tx tx_nameless) x) = Ok tt
  /\ is_ok (fst (demo_admission (tx_users (demo_tx tx_nameless)) (MsgCreateAccount None) (after_fee (demo_tx tx_nameless) x))) = false
  /\ ran_message (w_trace (rt_world (after_call (CallDeliverTx tx_nameless) x))) = true
  /\ map (fun r => fst (demo_admission (acting ["rbac"%string]) (MsgCreateRole r) x))
       [None; Some (role_with (str "auditor") [ty_balance] [msg_name (MsgSetBalance [] [])]);
        Some (role_with (str "auditor") [msg_name (MsgSetBalance [] [])] [msg_name (MsgSetBalance [] [])]);
        Some (role_with external_role_id [] []); Some (role_with [] [] [])]
     = (let no := Fail (EWrap (ESent RtBadRequest)) in [no; Ok tt; no; no; no])
  /\ map (fun r => fst (demo_admission (acting ["rbac"%string]) (MsgBindRole r bob_address) x)) [external_role_id; str "nobody"; []]
     = [Ok tt; Fail (EWrap (ESent RtBadRequest)); Panic]
  /\ fst (demo_deliver (acting ["rbac"%string]) (MsgCreateRole (Some long_role)) x) = Ok tt
  /\ fst (demo_admission (acting ["rbac"%string]) (MsgCreateRole (Some long_role)) (after_role x)) = Ok tt
  /\ fst (demo_deliver abci_users (MsgSetValidatorUpdates two_updates) x) = Ok tt
  /\ fst (demo_end 1%Z (after_updates x)) = Ok two_updates
  /\ fst (demo_end 2%Z (snd (demo_end 1%Z (after_updates x)))) = Ok two_updates
  /\ fst (demo_send (tx_users (demo_tx tx_open_alice)) (MsgSendCoins genesis_address long_address (tests "100")) x) = Ok tt
  /\ demo_get (after_long x) ty_balance longer_address = Ok (OBalance long_address (tests "100"))
  /\ is_ok (demo_get x ty_balance longer_address) = false.
Lemma first_computed : demo_runs [] = true /\ first_facts (demo_node []).
Proof. history_computed (@nil abci_call) first_facts. Qed.

Definition demo_facts (x : node) : Prop :=
  is_ok (demo_query x (account_path alice_address)) = true
  /\ fst (demo_send (tx_users (demo_tx tx_alice_mints)) (MsgSetBalance alice_address (tests "1000000")) x) = Fail (EWrap (ESent RtUnauthorized))
  /\ fst (demo_pay (demo_tx tx_alice_mints) x) = Ok tt
  /\ demo_answer x (CallDeliverTx tx_alice_mints) = Fail (EWrap (ESent RtUnauthorized))
  /\ refused (demo_get x ty_binding bob_address) = true
  /\ demo_get x ty_binding alice_address = Ok (OBinding alice_address external_role_id)
  /\ fst (demo_send (tx_users (demo_tx tx_alice_bob)) (MsgSendCoins alice_address bob_address (tests "300")) x) = Ok tt
  /\ fst (demo_pay (demo_tx tx_alice_bob) x) = Ok tt
  /\ map (demo_balance x) [genesis_address; alice_address; fee_collector]
     = [Some (genesis_address, tests "4999998990"); Some (alice_address, tests "1000"); Some (fee_collector, tests "10")]
  /\ demo_get x ty_balance alice_address = Ok (OBalance alice_address (tests "1000"))
  /\ demo_answer x (CallDeliverTx tx_alice_overspends) = Fail EAnon
  /\ fst (demo_send (tx_users (demo_tx tx_alice_overspends)) (MsgSendCoins alice_address bob_address (tests "5000")) x) = Fail EAnon
  /\ is_ok (fst (demo_tx_admission (demo_tx tx_alice_bob) x)) = true
  /\ demo_answer x (CallDeliverTx tx_alice_bob) = Ok tt
  /\ demo_balance (after_call (CallDeliverTx tx_alice_bob) x) alice_address = Some (alice_address, tests "699")
  /\ is_ok (fst (demo_tx_admission (demo_tx tx_wrong_sequence) x)) = false
  /\ demo_answer x (CallDeliverTx tx_wrong_sequence) = Fail (EWrap (ESent RtBadRequest))
  /\ map (fun raw => demo_answer x (CallCheckTx raw)) [tx_alice_bob; tx_wrong_sequence] = [Ok tt; Fail (EWrap (ESent RtBadRequest))]
  /\ demo_get x ty_current_block singleton_id = Ok (OCurrentBlock 1)
  /\ demo_get x ty_stage singleton_id = Ok (OStage StEndBlock)
  /\ map (fun a => sequence_of (demo_get x ty_account a)) [genesis_address; alice_address] = [Some 1; Some 0]
  /\ fst (demo_deliver abci_users (MsgSetValidatorUpdates two_updates) x) = Ok tt
  /\ map (fun q => demo_decision (fst (fst q)) (snd (fst q)) (users_from_string (snd q)) x)
       [(VDeliver, msg_name (MsgSendCoins [] [] []), [alice_address]); (VDeliver, msg_name (MsgSetBalance [] []), [alice_address]);
        (VDeliver, msg_name (MsgSetBalance [] []), [alice_address; str "bank"]);
        (VDeliver, msg_name (MsgSetBalance [] []), [bob_address; str "bank"]); (VGet, ty_balance, [[]])]
     = [Ok (true, None); Ok (false, Some EAnon); Ok (true, None); Ok (false, Some (EWrap (ESent RtNotFound))); Panic]
  /\ demo_answers x chain_requests = chain_responses
  /\ map (fun raw => demo_answer x (CallCheckTx raw)) [tx_alice_bank; tx_alice_binds] = [Ok tt; Panic]
  /\ demo_answer x (CallDeliverTx tx_alice_bank) = Panic
  /\ is_ok (demo_get x ty_binding (str "bank")) = true
  /\ map (fun ty => refused (demo_get x ty (str "bank"))) [ty_balance; ty_account] = [true; true]
  /\ refused (demo_get x ty_account bob_address) = true
  /\ demo_answer x (CallBeginBlock 2%Z (str "next")) = Ok tt
  /\ demo_answer x (CallEndBlock 1%Z) = Ok tt.
Lemma demo_computed : demo_runs demo_history = true /\ demo_facts (demo_node demo_history).
Proof. history_computed demo_history demo_facts. Qed.

Definition bob_facts (x : node) : Prop :=
  demo_get x ty_binding bob_address = Ok (OBinding bob_address external_role_id)
  /\ map (demo_balance x) [alice_address; bob_address; fee_collector]
     = [Some (alice_address, tests "699"); Some (bob_address, tests "300"); Some (fee_collector, tests "11")]
  /\ map (fun a => number_of (demo_get x ty_account a)) [genesis_address; fee_collector; alice_address; bob_address]
     = [Some 0; Some 1; Some 2; Some 3]
  /\ demo_get x ty_account_number singleton_id = Ok (OAccountNumber 4)
  /\ demo_answer x (CallDeliverTx tx_alice_bob) = Fail (EWrap (ESent RtBadRequest))
  /\ map (fun a => sequence_of (demo_get x ty_account a)) [genesis_address; alice_address] = [Some 1; Some 1]
  /\ demo_get x ty_current_block singleton_id = Ok (OCurrentBlock 2)
  /\ demo_get x ty_stage singleton_id = Ok (OStage StEndBlock)
  /\ demo_get x ty_account bob_address
     = Ok (OAccount {| ac_address := bob_address; ac_pubkey := None; ac_number := 3; ac_sequence := 0 |})
  /\ demo_answer x (CallDeliverTx tx_bob) = Fail (EWrap (ESent RtBadRequest)).
Lemma bob_computed : demo_runs bob_history = true /\ bob_facts (demo_node bob_history).
Proof. history_computed bob_history bob_facts. Qed.

Definition mallory_facts (x : node) : Prop :=
  demo_get x ty_stage singleton_id = Ok (OStage StBeginBlock)
  /\ demo_answer x (CallDeliverTx tx_steal) = Ok tt
  /\ fst (demo_deliver abci_users (MsgSetValidatorUpdates two_updates) x) = Fail EAnon.
Lemma mallory_computed : demo_runs mallory_history = true /\ mallory_facts (demo_node mallory_history).
Proof. history_computed mallory_history mallory_facts. Qed.

Definition long_facts (x : node) : Prop :=
  demo_get x ty_balance genesis_address = Ok (OBalance genesis_address (tests "4999999969"))
  /\ demo_get x ty_balance fee_collector = Ok (OBalance fee_collector (tests "30"))
  /\ demo_get x ty_balance longer_address = Ok (OBalance long_address (tests "100")).
Lemma long_computed : demo_runs long_history = true /\ long_facts (demo_node long_history).
Proof. history_computed long_history long_facts. Qed.

Definition odd_facts (x : node) : Prop :=
  demo_get x ty_account (str "a/b") = Ok (OAccount {| ac_address := str "a/b"; ac_pubkey := None; ac_number := 2; ac_sequence := 0 |})
  /\ demo_get x ty_account (str "odd") = Ok (OAccount {| ac_address := str "odd"; ac_pubkey := Some odd_key; ac_number := 3; ac_sequence := 0 |})
  /\ refused (demo_query x (account_path (str "a/b"))) = true
  /\ demo_query x (account_path (str "odd")) = Panic
  /\ demo_answers x [ask_at (account_at (str "a/b")) []; ask_at (account_at (str "odd")) []]
     = [HNotFound; HObject (OAccount {| ac_address := str "odd"; ac_pubkey := Some odd_key; ac_number := 3; ac_sequence := 0 |})].
Lemma odd_computed : demo_runs odd_history = true /\ odd_facts (demo_node odd_history).
Proof. history_computed odd_history odd_facts. Qed.

(** A goal that is one of these facts. *)
Ltac pick H T :=
  lazymatch T with
  | ?A /\ ?B => first [ match goal with |- ?G => constr_eq G A end; exact (@proj1 A B H) | pick (@proj2 A B H) B ]
  | _ => match goal with |- ?G => constr_eq G T end; exact H
  end.
Ltac fact_of H :=
  let T := type of H in
  let T' := eval cbv beta delta [first_facts demo_facts bob_facts mallory_facts long_facts odd_facts] in T in pick H T'.
Ltac fact := first [ fact_of open_alice_tx | fact_of alice_bob_tx | fact_of alice_mints_tx | fact_of half_tx | fact_of bob_tx | fact_of steal_tx
  | fact_of nameless_tx | fact_of alice_bank_tx | fact_of alice_binds_tx | fact_of other_txs | fact_of first_computed | fact_of demo_computed | fact_of bob_computed
  | fact_of mallory_computed | fact_of long_computed | fact_of odd_computed ].
