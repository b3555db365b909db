(** Paying an address of 128 bytes twice. *)
From Coq Require Import NArith ZArith List Bool String.
From stdpp Require Import base list gmap.
From Verif.Model Require Import Bytes Schema Orm Users Errors Prog Runtime Builder Universe Coin Rbac Authn Distribution Marshal TestApp Abci.
From Verif.Spec Require Import UserSpec StoreSpec CoinSpec RbacSpec ChainSpec LiveSpec DemoChain DemoRoles FiledSpec HaltSpec.
From Verif.Proofs Require Import UserFacts RoleFacts ChainProps LiveProps DemoRuns DemoFacts FiledCases.

Definition twice_msg : msg := MsgSendCoins genesis_address long_address (tests "100").
Definition twice_facts (us : users) (x : node) : Prop :=
  demo_decision VDeliver (msg_name (MsgSendCoins [] [] [])) us x = Ok (true, None)
  /\ demo_get x ty_balance genesis_address = Ok (OBalance genesis_address (tests "4999999890"))
  /\ refused (demo_get x ty_balance long_address) = true
  /\ is_ok (demo_get x ty_balance (shelf long_address)) = true
  /\ fst (demo_send us twice_msg x) = Panic.
Definition twice (x : node) : Prop := twice_facts (users_from_string [genesis_address]) x.
Lemma twice_computed : demo_runs lost_history = true /\ twice (demo_node lost_history).
Proof. history_computed lost_history twice. Qed.
(** A transaction signed by genesis. *)
Definition twice_tx : tx :=
  {| tx_body_bytes := []; tx_auth_bytes := []; tx_memo := []; tx_timeout := 0; tx_fee := []; tx_payer := genesis_address;
     tx_users := users_from_string [genesis_address];
     tx_signers := [{| sg_address := genesis_address; sg_key := []; sg_signature := []; sg_sequence := 0 |}]; tx_msgs := [twice_msg; twice_msg] |}.
Lemma twice_proper : proper twice_tx.
Proof.
  split; [discriminate|reflexivity|repeat constructor; discriminate| |discriminate].
  repeat constructor. apply (bool_decide_unpack _). vm_compute. exact I.
Qed.

Lemma twice_fatal_case (x : node) us : written protobuf 255 demo_verify x -> wf_users us -> twice_facts us x ->
  fatal_any 255 (demo_gets x) us twice_msg.
Proof.
  intros Hw Hu (Hd & Hb & H1 & H2 & _). split.
  - pose proof (decision_exact protobuf 255 demo_verify demo_users demo_decode demo_sound VDeliver (msg_name (MsgSendCoins [] [] [])) us x Hw Hu) as H.
    rewrite Hd in H. destruct H as [[H _]|[_ [e H]]]; [exact H|discriminate H].
  - right. split; [|split; [|right; split; [|left]]].
    + exists genesis_address, (tests "4999999890"). eexists. split; [exact Hb|]. vm_compute. reflexivity.
    + exists (OBalance genesis_address (tests "4999999890")). exact Hb.
    + intros [o Ho]. exact (got_none x ty_balance long_address H1 o Ho).
    + exact (got_some x ty_balance (shelf long_address) H2).
Qed.
Lemma twice_fatal : fatal_any 255 (demo_gets (demo_node lost_history)) (tx_users twice_tx) twice_msg.
Proof.
  destruct twice_computed as [R HT].
  exact (twice_fatal_case (demo_node lost_history) _ (demo_written lost_history R) (from_string_wf _) HT).
Qed.
Lemma twice_stops : fst (demo_send (tx_users twice_tx) twice_msg (demo_node lost_history)) = Panic.
Proof. destruct twice_computed as [_ (_ & _ & _ & _ & H)]. exact H. Qed.

(** The other address is not fatal: the coins are lost instead. *)
Definition longer_msg : msg := MsgSendCoins genesis_address longer_address (tests "7").
Lemma longer_case (x : node) us : has (demo_gets x) ty_balance longer_address -> ~ fatal_any 255 (demo_gets x) us longer_msg.
Proof. intros H [_ [E|(_ & _ & [E|[E _]])]]; [discriminate E|discriminate E|exact (E H)]. Qed.
Lemma longer_not_fatal : ~ fatal_any 255 (demo_gets (demo_node lost_history)) (tx_users twice_tx) longer_msg.
Proof.
  apply longer_case. change longer_address with (shelf long_address).
  destruct twice_computed as [_ (_ & _ & _ & H & _)].
  exact (got_some (demo_node lost_history) ty_balance (shelf long_address) H).
Qed.

Lemma shelves_case : shelf long_address = longer_address /\ shelf long_address <> shelf longer_address.
Proof. split; [computed|]. vm_compute. discriminate. Qed.
Lemma twice_case : reachable protobuf 255 demo_verify demo_users 4 demo_decode demo_chain (demo_node lost_history)
  /\ proper twice_tx /\ possible_addresses twice_msg /\ possible_addresses longer_msg
  /\ fatal_any 255 (demo_gets (demo_node lost_history)) (tx_users twice_tx) twice_msg
  /\ fst (demo_send (tx_users twice_tx) twice_msg (demo_node lost_history)) = Panic
  /\ ~ fatal_any 255 (demo_gets (demo_node lost_history)) (tx_users twice_tx) longer_msg.
Proof.
  split; [exact (demo_reachable lost_history (proj1 twice_computed))|]. split; [exact twice_proper|].
  split; [split; reflexivity|]. split; [split; reflexivity|].
  split; [exact twice_fatal|]. split; [exact twice_stops|exact longer_not_fatal].
Qed.

(** The same in a transaction, that CheckTx accepts. *)
Definition tx_twice : bytes := Eval vm_compute in tx_long 1 [twice_msg].
Definition answers_twice (x : node) : Prop :=
  map (fun c => fst (demo_call c x)) [CallCheckTx tx_twice; CallDeliverTx tx_twice] = [Ok tt; Panic].
Lemma twice_decoded : is_ok (demo_decode tx_twice) = true /\ tx_msgs (demo_tx tx_twice) = [twice_msg].
Proof. tx_computed tx_twice (fun t => tx_msgs t = [twice_msg]). Qed.
Lemma twice_answers : demo_runs lost_history = true /\ answers_twice (demo_node lost_history).
Proof. history_computed lost_history answers_twice. Qed.
Lemma twice_delivered : reachable protobuf 255 demo_verify demo_users 4 demo_decode demo_chain (demo_node lost_history)
  /\ demo_decode tx_twice = Ok (demo_tx tx_twice) /\ Forall possible_addresses (tx_msgs (demo_tx tx_twice))
  /\ map (fun c => fst (demo_call c (demo_node lost_history))) [CallCheckTx tx_twice; CallDeliverTx tx_twice] = [Ok tt; Panic].
Proof.
  split; [exact (demo_reachable lost_history (proj1 twice_answers))|].
  split; [exact (demo_tx_decoded tx_twice (proj1 twice_decoded))|].
  split; [|exact (proj2 twice_answers)].
  rewrite (proj2 twice_decoded). constructor; [split; reflexivity|constructor].
Qed.

(** The first payment can be made. *)
Definition opening_facts (x : node) : Prop :=
  is_ok (demo_get x ty_balance (shelf genesis_address)) = true
  /\ match demo_get x ty_balance genesis_address with Ok (OBalance _ c) => is_ok (safe_sub 255 c (tests "100")) | _ => false end = true
  /\ map (fun q => refused (demo_get x (fst q) (snd q)))
       [(ty_balance, long_address); (ty_balance, shelf long_address); (ty_account, shelf long_address); (ty_binding, shelf long_address)]
     = [true; true; true; true]
  /\ demo_decision VDeliver (msg_name (MsgSendCoins [] [] [])) (users_from_string [genesis_address]) x = Ok (true, None)
  /\ fst (demo_send (users_from_string [genesis_address]) twice_msg x) = Ok tt.
Lemma first_pays : demo_runs [] = true /\ opening_facts (demo_node []).
Proof. history_computed (@nil abci_call) opening_facts. Qed.
Lemma map_four {A B} (f : A -> B) a b c d u v w z : map f [a; b; c; d] = [u; v; w; z] -> f a = u /\ f b = v /\ f c = w /\ f d = z.
Proof. cbn. intros [= H1 H2 H3 H4]. auto. Qed.
Lemma covers_of (g : res object) amt :
  match g with Ok (OBalance _ c) => is_ok (safe_sub 255 c amt) | _ => false end = true ->
  exists a c r, g = Ok (OBalance a c) /\ safe_sub 255 c amt = Ok r.
Proof.
  destruct g as [[]| | |]; try discriminate. intros H. apply is_ok_of in H as [r H]. exists address, coins, r. exact (conj eq_refl H).
Qed.
Lemma first_case (x : node) : written protobuf 255 demo_verify x -> opening_facts x ->
  granted (demo_gets x) VDeliver (msg_name twice_msg) (tx_users twice_tx)
  /\ payable 255 (demo_gets x) genesis_address long_address (tests "100")
  /\ fst (demo_send (tx_users twice_tx) twice_msg x) = Ok tt.
Proof.
  intros Hw (H1 & H2 & H3 & Hd & H4). apply (map_four (fun q => refused (demo_get x (fst q) (snd q)))) in H3 as (N1 & N2 & N3 & N4).
  apply covers_of in H2. split; [|split; [|exact H4]].
  - pose proof (decision_exact protobuf 255 demo_verify demo_users demo_decode demo_sound VDeliver (msg_name (MsgSendCoins [] [] []))
      (users_from_string [genesis_address]) x Hw (from_string_wf _)) as H.
    rewrite Hd in H. destruct H as [[H _]|[_ [e H]]]; [exact H|discriminate H].
  - split; [|split; [exact (got_some x ty_balance (shelf genesis_address) H1)|split; [discriminate|right; split; [|split; [|right]]]]].
    + exact H2.
    + intros [o Ho]. exact (got_none x ty_balance long_address N1 o Ho).
    + intros [o Ho]. exact (got_none x ty_balance (shelf long_address) N2 o Ho).
    + intros [[o Ho]|[o Ho]]; [exact (got_none x ty_account (shelf long_address) N3 o Ho)|exact (got_none x ty_binding (shelf long_address) N4 o Ho)].
Qed.
Lemma first_paid : reachable protobuf 255 demo_verify demo_users 4 demo_decode demo_chain (demo_node [])
  /\ granted (demo_gets (demo_node [])) VDeliver (msg_name twice_msg) (tx_users twice_tx)
  /\ payable 255 (demo_gets (demo_node [])) genesis_address long_address (tests "100")
  /\ fst (demo_send (tx_users twice_tx) twice_msg (demo_node [])) = Ok tt.
Proof.
  split; [exact (demo_reachable [] (proj1 first_pays))|].
  exact (first_case (demo_node []) (demo_written [] (proj1 first_pays)) (proj2 first_pays)).
Qed.
