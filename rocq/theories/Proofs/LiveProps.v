(** The theorems about answers, for any codec and for protobuf, and the cases
    beside them. *)
From Coq Require Import NArith ZArith List Bool String Lia.
From stdpp Require Import base list option gmap.
From Verif.Model Require Import Bytes KindEncoder Desc Schema Orm Users Errors Prog Runtime Services Module Builder
  Universe Coin CoreModules Rbac Bank Authn Distribution TestApp Abci Wire Proto Marshal TxDecoder.
From Verif.Spec Require Import UserSpec StoreSpec RbacSpec ChainSpec LiveSpec DemoChain DemoRoles.
From Verif.Proofs Require Import BytesFacts RegistryFacts OrmFacts AppFacts UserFacts RbacFacts RoleFacts ChainInv ChainView ChainProps DecoderFacts
  TotalRun TotalNode LiveFacts LiveProto DemoRuns DemoFacts.

Section Any.
  Context (C : codec) (bits : N) (verify : bytes -> bytes -> bytes -> bool).
  Context (enum : list (event object msg) -> users -> list user) (fuel : nat) (decode : bytes -> res tx).
  Context (HS : sound C enum decode) (Hbits : (bits <= 313)%N).
  Notation call := (call C bits verify enum fuel decode).
  Notation gets := (gets C bits verify).
  Notation pay := (pay C bits verify enum fuel).
  Notation send := (send C bits verify enum fuel).
  Notation reachable := (reachable C bits verify enum fuel decode).
  Notation stuck := (cannot_store C bits verify).
  Local Notation all := (fun _ : object => True).
  Local Notation HK := (keeps_all C bits).
  Local Lemma all_to to amt : good_to all to amt.
  Proof. by repeat split. Qed.
  Local Lemma all_msg m : good_msg all m.
  Proof. destruct m as [| | | | | | |[]| | | | | |]; try exact I; by repeat split. Qed.
  Local Lemma all_msgs l : Forall (good_msg all) l.
  Proof. apply Forall_forall. intros m _. apply all_msg. Qed.

  Lemma begin_any id x h rest : reachable id x -> 1 <= fuel -> succeeds stuck (call (CallBeginBlock h rest) x).
  Proof.
    intros Hx Hf. eapply succeeds_mono; [intros o Ho; exact (cannot_store_intro C bits verify o Ho)|].
    exact (begin_succeeds C bits verify enum fuel decode HS all HK Hbits id x h rest Hx Hf I I I).
  Qed.
  Lemma end_any id x h : reachable id x -> 1 <= fuel -> succeeds stuck (call (CallEndBlock h) x).
  Proof.
    intros Hx Hf. eapply succeeds_mono; [intros o Ho; exact (cannot_store_intro C bits verify o Ho)|].
    exact (end_succeeds C bits verify enum fuel decode HS all HK Hbits id x h Hx Hf I I).
  Qed.
  Lemma check_any id x raw : reachable id x -> alive (decode raw) -> (forall t, decode raw = Ok t -> named_roles t) ->
    alive (fst (call (CallCheckTx raw) x)).
  Proof. exact (check_answers C bits verify enum fuel decode HS Hbits id x raw). Qed.
  Lemma message_any id x t m : reachable id x -> proper t -> 3 <= fuel -> short_addresses m ->
    (fatal bits (gets x) (tx_users t) m -> ~ alive (fst (send (tx_users t) m x)))
    /\ (~ fatal bits (gets x) (tx_users t) m -> answers stuck (send (tx_users t) m x)).
  Proof.
    intros Hx HP Hf Hs. split; intros Hm.
    - exact (fatal_stops C bits verify enum fuel decode HS Hbits id x t m Hx HP Hs Hm).
    - eapply answers_mono; [intros o Ho; exact (cannot_store_intro C bits verify o Ho)|].
      exact (message_answers C bits verify enum fuel decode HS all HK Hbits id x t m Hx HP Hf Hs (all_msg m) Hm).
  Qed.
  Lemma pay_any id x t : reachable id x -> proper t -> 3 <= fuel -> answers stuck (pay t x).
  Proof.
    intros Hx HP Hf. eapply answers_mono; [intros o Ho; exact (cannot_store_intro C bits verify o Ho)|].
    exact (pay_answers C bits verify enum fuel decode HS all HK Hbits id x t Hx HP Hf (all_to _ _)).
  Qed.
  Lemma deliver_any id x raw : reachable id x -> alive (decode raw) -> 3 <= fuel ->
    (forall t, decode raw = Ok t -> tame_tx (gets x) t) -> answers stuck (call (CallDeliverTx raw) x).
  Proof.
    intros Hx Hd Hf Ht. eapply answers_mono; [intros o Ho; exact (cannot_store_intro C bits verify o Ho)|].
    apply (deliver_answers C bits verify enum fuel decode HS all HK Hbits id x raw Hx Hd Hf).
    intros t Et. split; [apply all_to|]. split; [apply all_msgs|by apply Ht].
  Qed.
  Lemma fee_any id x t : reachable id x -> orderly bits (gets x) -> proper t -> admissible bits verify (gets x) t -> 3 <= fuel ->
    succeeds stuck (pay t x).
  Proof.
    intros Hx HO HP Ha Hf. eapply succeeds_mono; [intros o Ho; exact (cannot_store_intro C bits verify o Ho)|].
    exact (fee_succeeds C bits verify enum fuel decode HS all HK Hbits id x t Hx HO HP Ha Hf (all_to _ _)).
  Qed.
  Lemma payments_any id x raw t : reachable id x -> orderly bits (gets x) -> decode raw = Ok t ->
    admissible bits verify (gets x) t -> 3 <= fuel -> payments bits (gets x) t -> succeeds stuck (call (CallDeliverTx raw) x).
  Proof.
    intros Hx HO Hd Ha Hf [H1 H2]. eapply succeeds_mono; [intros o Ho; exact (cannot_store_intro C bits verify o Ho)|].
    exact (payments_succeed C bits verify enum fuel decode HS all HK Hbits id x raw t Hx HO Hd Ha Hf (all_to _ _) (all_msgs _) H1 H2).
  Qed.
End Any.

Section Protobuf.
  Context (bits : N) (verify : bytes -> bytes -> bytes -> bool) (hash160 : bytes -> bytes).
  Context (enum : list (event object msg) -> users -> list user) (fuel : nat) (HE : forall tr, fair_order (enum tr)).
  Context (Hbits : (bits <= 313)%N).
  Notation decode := (decode_tx hash160).
  Notation call := (call protobuf bits verify enum fuel decode).
  Notation gets := (gets protobuf bits verify).
  Notation pay := (pay protobuf bits verify enum fuel).
  Notation reachable := (reachable protobuf bits verify enum fuel decode).
  Local Notation HS := (protobuf_sound hash160 enum HE).
  Local Notation HK := (keeps_protobuf bits).

  Lemma begin_protobuf id x h rest : reachable id x -> 1 <= fuel -> (- 2 ^ 63 <= h < 2 ^ 63)%Z ->
    succeeds oversized (call (CallBeginBlock h rest) x).
  Proof.
    intros Hx Hf Hh. eapply succeeds_mono; [exact fits_oversized|].
    apply (begin_succeeds protobuf bits verify enum fuel decode HS fits HK Hbits id x h rest Hx Hf).
    - by split.
    - split; [|reflexivity]. cbn. unfold ok_begin_block. cbn. rewrite !andb_true_r. unfold fits_int64.
      apply andb_true_intro. split; [apply Z.leb_le|apply Z.ltb_lt]; lia.
    - split; [|reflexivity]. cbn [ok_object]. unfold fits64. apply N.ltb_lt. clear. pose proof (Z.mod_pos_bound h (2 ^ 64)). lia.
  Qed.
  Lemma end_protobuf id x h : reachable id x -> 1 <= fuel -> (- 2 ^ 63 <= h < 2 ^ 63)%Z ->
    succeeds oversized (call (CallEndBlock h) x).
  Proof.
    intros Hx Hf Hh. eapply succeeds_mono; [exact fits_oversized|].
    apply (end_succeeds protobuf bits verify enum fuel decode HS fits HK Hbits id x h Hx Hf).
    - by split.
    - split; [|reflexivity]. cbn. rewrite !andb_true_r. unfold fits_int64.
      apply andb_true_intro. split; [apply Z.leb_le|apply Z.ltb_lt]; lia.
  Qed.
  Lemma decoded_msgs raw t : decode raw = Ok t -> Forall short_addresses (tx_msgs t) -> Forall (good_msg fits) (tx_msgs t).
  Proof.
    intros Hd Hs. destruct (decoded_good hash160 raw t Hd) as [_ H]. rewrite Forall_forall in *. intros m Hm. apply H; [exact Hm|]. by apply short_addresses_written, Hs.
  Qed.
  Lemma deliver_protobuf id x raw : reachable id x -> alive (decode raw) -> 3 <= fuel ->
    (forall t, decode raw = Ok t -> tame_tx (gets x) t) -> answers oversized (call (CallDeliverTx raw) x).
  Proof.
    intros Hx Hd Hf Ht. eapply answers_mono; [exact fits_oversized|].
    apply (deliver_answers protobuf bits verify enum fuel decode HS fits HK Hbits id x raw Hx Hd Hf).
    intros t Et. destruct (decoded_good hash160 raw t Et) as [H1 _]. split; [exact H1|]. split; [|by apply Ht].
    apply (decoded_msgs raw t Et). eapply tame_short, Ht, Et.
  Qed.
  Lemma payments_protobuf id x raw t : reachable id x -> orderly bits (gets x) -> decode raw = Ok t ->
    admissible bits verify (gets x) t -> 3 <= fuel -> payments bits (gets x) t -> succeeds oversized (call (CallDeliverTx raw) x).
  Proof.
    intros Hx HO Hd Ha Hf [H1 H2]. destruct (decoded_good hash160 raw t Hd) as [Hg Hm]. eapply succeeds_mono; [exact fits_oversized|].
    refine (payments_succeed protobuf bits verify enum fuel decode HS fits HK Hbits id x raw t Hx HO Hd Ha Hf Hg _ H1 H2).
    rewrite Forall_forall in *. intros m Hi. destruct (H1 m Hi) as (from & to & amt & -> & _ & Hl & _).
    exact (Hm _ Hi Hl).
  Qed.
End Protobuf.

(** ** Cases *)
Lemma gets_one C bits verify x ty k o o' : gets C bits verify x ty k o -> gets C bits verify x ty k o' -> o = o'.
Proof. unfold gets. congruence. Qed.
Lemma is_ok_of {A} (r : res A) : is_ok r = true -> exists a, r = Ok a.
Proof. destruct r as [a| | |]; try discriminate. eauto. Qed.
Lemma refused_of {A} (r : res A) : refused r = true -> forall a, r <> Ok a.
Proof. destruct r as [a| | |]; try discriminate. Qed.
Lemma got_none (x : node) ty k : refused (demo_get x ty k) = true -> forall o, ~ demo_gets x ty k o.
Proof. exact (refused_of (demo_get x ty k)). Qed.
Lemma got_some (x : node) ty k : is_ok (demo_get x ty k) = true -> has (demo_gets x) ty k.
Proof. exact (is_ok_of (demo_get x ty k)). Qed.

Lemma worth_tests n k d : new_balance 255 (tests n) = Ok [(str "test", Z.of_N k)] ->
  worth 255 (tests n) d = if decide (str "test" = d) then k else 0%N.
Proof. intros H. unfold worth. rewrite H. cbn [fold_right fst snd]. destruct (decide (str "test" = d)); [|reflexivity]. lia. Qed.
Lemma payment_case (v : view) t : (forall ty k o o', v ty k o -> v ty k o' -> o = o') ->
  tx_payer t = alice_address -> tx_fee t = tests "1" -> tx_msgs t = [MsgSendCoins alice_address bob_address (tests "300")] ->
  v ty_balance alice_address (OBalance alice_address (tests "1000")) -> payments 255 v t.
Proof.
  intros Hv Hp Hf Hm Hb. split.
  - rewrite Hm. intros m Hi. apply elem_of_list_singleton in Hi as ->. exists alice_address, bob_address, (tests "300").
    split; [done|]. split; [done|]. split; [apply (bool_decide_unpack _); vm_compute; exact I|].
    split; [apply (bool_decide_unpack _); vm_compute; exact I|]. split; [|by eexists].
    eexists. vm_compute. reflexivity.
  - intros a d n Hn. unfold spent. rewrite Hp, Hf, Hm. cbn [fold_right]. rewrite N.add_0_r.
    destruct (decide (alice_address = a)) as [<-|Hne]; [|clear; lia].
    rewrite (worth_tests "1" 1 d), (worth_tests "300" 300 d) by (vm_compute; reflexivity).
    destruct Hn as [(c & Hc & ->)|[Hc _]]; [|by apply Hc in Hb].
    injection (Hv _ _ _ _ Hb Hc) as <-. rewrite (worth_tests "1000" 1000 d) by (vm_compute; reflexivity).
    destruct (decide _); clear; lia.
Qed.
Lemma bob_payment : payments 255 (demo_gets (demo_node demo_history)) (demo_tx tx_alice_bob).
Proof.
  apply payment_case; [intros ty k o o'; apply gets_one|fact|fact|fact|].
  change (demo_get (demo_node demo_history) ty_balance alice_address = Ok (OBalance alice_address (tests "1000"))). fact.
Qed.
Lemma bob_tame : tame_tx (demo_gets (demo_node demo_history)) (demo_tx tx_alice_bob).
Proof.
  unfold tame_tx. assert (tx_msgs (demo_tx tx_alice_bob) = [MsgSendCoins alice_address bob_address (tests "300")]) as -> by fact.
  cbn [tame]. split; [|split; [|split; [|split; [|exact I]]]].
  - split; apply (bool_decide_unpack _); vm_compute; exact I.
  - intros E; discriminate E.
  - intros E; discriminate E.
  - apply (bool_decide_unpack _); vm_compute; exact I.
Qed.
Lemma bank_fatal_case (x : node) us : written protobuf 255 demo_verify x -> wf_users us ->
  decision protobuf 255 demo_verify demo_users VDeliver (msg_name (MsgSendCoins [] [] [])) us x = Ok (true, None) ->
  demo_gets x ty_balance alice_address (OBalance alice_address (tests "1000")) ->
  is_ok (demo_get x ty_binding (str "bank")) = true ->
  refused (demo_get x ty_balance (str "bank")) = true -> refused (demo_get x ty_account (str "bank")) = true ->
  fatal 255 (demo_gets x) us (MsgSendCoins alice_address (str "bank") (tests "5")).
Proof.
  intros Hw Hu Hd Hb H1 H2 H3. split.
  - pose proof (decision_exact protobuf 255 demo_verify demo_users demo_decode demo_sound VDeliver (msg_name (MsgSendCoins [] [] [])) us x Hw Hu) as H.
    rewrite Hd in H. destruct H as [[H _]|[_ [e H]]]; [exact H|discriminate H].
  - right. split; [|right; split; [|split]].
    + exists alice_address, (tests "1000"). eexists. split; [exact Hb|]. vm_compute. reflexivity.
    + intros [o Ho]. exact (got_none x ty_balance (str "bank") H2 o Ho).
    + intros [o Ho]. exact (got_none x ty_account (str "bank") H3 o Ho).
    + exact (got_some x ty_binding (str "bank") H1).
Qed.
Lemma map_two {A B} (f : A -> B) a b u v : map f [a; b] = [u; v] -> f a = u /\ f b = v.
Proof. cbn. intros [= H1 H2]. auto. Qed.
Lemma bank_fatal : fatal 255 (demo_gets (demo_node demo_history)) (tx_users (demo_tx tx_alice_bank))
  (MsgSendCoins alice_address (str "bank") (tests "5")).
Proof.
  assert (map (fun ty => refused (demo_get (demo_node demo_history) ty (str "bank"))) [ty_balance; ty_account] = [true; true]) as H by fact.
  apply map_two in H as [H1 H2].
  assert (tx_users (demo_tx tx_alice_bank) = users_from_string [alice_address]) as -> by fact.
  refine (bank_fatal_case (demo_node demo_history) (users_from_string [alice_address]) (demo_written demo_history ltac:(fact)) (from_string_wf _) _ _ ltac:(fact) H1 H2).
  - assert (map (fun q => demo_decision (fst (fst q)) (snd (fst q)) (users_from_string (snd q)) (demo_node demo_history))
       [(VDeliver, msg_name (MsgSendCoins [] [] []), [alice_address]); (VDeliver, msg_name (MsgSetBalance [] []), [alice_address]);
        (VDeliver, msg_name (MsgSetBalance [] []), [alice_address; str "bank"]);
        (VDeliver, msg_name (MsgSetBalance [] []), [bob_address; str "bank"]); (VGet, ty_balance, [[]])]
     = [Ok (true, None); Ok (false, Some EAnon); Ok (true, None); Ok (false, Some (EWrap (ESent RtNotFound))); Panic]) as H by fact.
    exact (f_equal (fun l => nth 0 l Panic) H).
  - change (demo_get (demo_node demo_history) ty_balance alice_address = Ok (OBalance alice_address (tests "1000"))). fact.
Qed.
Lemma bob_not_fatal : ~ fatal 255 (demo_gets (demo_node demo_history)) (tx_users (demo_tx tx_alice_bob))
  (MsgSendCoins alice_address bob_address (tests "300")).
Proof.
  assert (refused (demo_get (demo_node demo_history) ty_binding bob_address) = true) as H by fact.
  intros [_ [E|[_ [E|[_ [_ [o Ho]]]]]]]; [discriminate E|discriminate E|].
  exact (got_none (demo_node demo_history) ty_binding bob_address H o Ho).
Qed.
Lemma checks : demo_answer (demo_node demo_history) (CallCheckTx tx_alice_bank) = Ok tt
  /\ demo_answer (demo_node demo_history) (CallCheckTx tx_alice_binds) = Panic.
Proof.
  assert (map (fun raw => demo_answer (demo_node demo_history) (CallCheckTx raw)) [tx_alice_bank; tx_alice_binds] = [Ok tt; Panic]) as H by fact.
  exact (map_two (fun raw => demo_answer (demo_node demo_history) (CallCheckTx raw)) _ _ _ _ H).
Qed.
Lemma check_stops : ~ forall cs x raw, demo_running cs x -> alive (demo_decode raw) -> alive (fst (demo_call (CallCheckTx raw) x)).
Proof.
  intros H. specialize (H demo_history (demo_node demo_history) tx_alice_binds (demo_node_running demo_history ltac:(fact))).
  rewrite (demo_tx_decoded tx_alice_binds ltac:(fact)) in H. specialize (H I).
  assert (demo_answer (demo_node demo_history) (CallCheckTx tx_alice_binds) = Panic) as E by exact (proj2 checks).
  unfold demo_answer in E. rewrite E in H. exact H.
Qed.
Lemma accepted_stops : ~ forall cs x raw, demo_running cs x -> fst (demo_call (CallCheckTx raw) x) = Ok tt ->
  alive (fst (demo_call (CallDeliverTx raw) x)).
Proof.
  intros H. specialize (H demo_history (demo_node demo_history) tx_alice_bank (demo_node_running demo_history ltac:(fact)) (proj1 checks)).
  assert (demo_answer (demo_node demo_history) (CallDeliverTx tx_alice_bank) = Panic) as E by fact.
  unfold demo_answer in E. rewrite E in H. exact H.
Qed.
