(** Facts about the concrete node of the examples. *)
From Coq Require Import NArith ZArith List Bool String Lia.
From stdpp Require Import base list option gmap.
From Verif.Model Require Import Bytes Wire Proto Schema Orm Users Errors Prog Runtime Builder Module Universe Marshal Coin
  Authn Distribution TxDecoder TestApp Abci Query.
From Verif.Spec Require Import UserSpec StoreSpec CoinSpec RbacSpec ChainSpec QuerySpec TxSpec DemoChain DemoRoles.
From Verif.Proofs Require Import UserFacts WrittenFacts ChainProps DecoderFacts TxTextFacts DemoRuns.

Lemma demo_sound : sound protobuf demo_users demo_decode.
Proof. apply protobuf_sound. intros tr. unfold demo_users. apply users_list_fair. Qed.
Lemma demo_node_running cs : demo_runs cs = true -> demo_running cs (demo_node cs).
Proof.
  unfold demo_runs, running, demo_node, demo_after.
  generalize (calls protobuf 255 demo_verify demo_users 4 demo_decode (CallInitChain demo_chain None :: cs) new_node).
  intros [x|] H; [reflexivity|discriminate H].
Qed.
Lemma demo_node_enabled cs : demo_runs cs = true -> rt_enabled (demo_node cs) = true.
Proof. unfold demo_runs, demo_node. generalize (demo_after cs). intros [x|] H; [exact H|discriminate H]. Qed.
Lemma pair_of {A B} (p : A * B) (a : A) : fst p = a -> p = (a, snd p).
Proof. destruct p. intros <-. reflexivity. Qed.
Lemma new_node_written C bits verify : written C bits verify new_node.
Proof. exists [], []. reflexivity. Qed.

(** ** Roles *)
Lemma long_name_no_role :
  ~ forall us l x x', written protobuf 255 demo_verify x -> rt_enabled x = false -> wf_users us ->
      demo_deliver us (CreateModuleDescriptors l) x = (Ok tt, x') ->
      forall d, d ∈ l -> exists r, has_role (demo_gets x') (rd_name d) r.
Proof.
  intros H. set (us := acting ["runtime"%string]).
  assert (fst (demo_deliver us (CreateModuleDescriptors [long_module]) new_node) = Ok tt) as E by (vm_compute; reflexivity).
  apply pair_of in E.
  assert (match demo_get (snd (demo_deliver us (CreateModuleDescriptors [long_module]) new_node)) ty_binding (rd_name long_module) with
          | Fail _ => true | _ => false end = true) as Hb by (vm_compute; reflexivity).
  revert E Hb. generalize (snd (demo_deliver us (CreateModuleDescriptors [long_module]) new_node)). intros x' E Hb.
  destruct (H us _ new_node x' (new_node_written _ _ _) eq_refl (from_string_wf _) E long_module (elem_of_list_here _ _)) as (r & s & ref & Hg & _).
  unfold gets in Hg. unfold demo_get in Hb. rewrite Hg in Hb. discriminate Hb.
Qed.
Lemma long_identifier_again :
  ~ forall cs x us r x', demo_running cs x -> demo_deliver us (MsgCreateRole (Some r)) x = (Ok tt, x') ->
      fst (demo_admission us (MsgCreateRole (Some r)) x') <> Ok tt.
Proof.
  intros H. assert (fst (demo_deliver (acting ["rbac"%string]) (MsgCreateRole (Some long_role)) (demo_node [])) = Ok tt) as E by fact.
  apply (H [] (demo_node []) (acting ["rbac"%string]) long_role (after_role (demo_node [])) (demo_node_running [] ltac:(fact)) (pair_of _ _ E)).
  fact.
Qed.

(** ** Validator updates *)
Lemma updates_reported_twice :
  ~ forall cs x l x1 l1 h1 x2 l2 h2 x3, demo_running cs x -> l <> [] ->
      demo_deliver abci_users (MsgSetValidatorUpdates l) x = (Ok tt, x1) ->
      demo_end h1 x1 = (Ok l1, x2) -> demo_end h2 x2 = (Ok l2, x3) -> ~ (l1 = l /\ l2 = l).
Proof.
  intros H. set (x1 := after_updates (demo_node [])).
  assert (fst (demo_deliver abci_users (MsgSetValidatorUpdates two_updates) (demo_node [])) = Ok tt) as E1 by fact.
  assert (fst (demo_end 1%Z (after_updates (demo_node []))) = Ok two_updates) as E2 by fact.
  assert (fst (demo_end 2%Z (snd (demo_end 1%Z (after_updates (demo_node []))))) = Ok two_updates) as E3 by fact.
  eapply (H [] (demo_node []) two_updates x1 two_updates 1%Z (snd (demo_end 1%Z x1)) two_updates 2%Z _
           (demo_node_running [] ltac:(fact)));
    [intros E; discriminate E|exact (pair_of _ _ E1)|exact (pair_of _ _ E2)|exact (pair_of _ _ E3)|split; reflexivity].
Qed.

(** ** Transactions *)
Lemma demo_tx_decoded raw : is_ok (demo_decode raw) = true -> demo_decode raw = Ok (demo_tx raw).
Proof. unfold demo_tx. destruct (demo_decode raw) as [t| | |]; try discriminate. reflexivity. Qed.
Lemma demo_tx_proper raw : is_ok (demo_decode raw) = true -> proper (demo_tx raw).
Proof. intros H. exact (so_decoder _ _ _ demo_sound raw _ (demo_tx_decoded raw H)). Qed.
Lemma demo_reachable cs : demo_runs cs = true ->
  reachable protobuf 255 demo_verify demo_users 4 demo_decode demo_chain (demo_node cs).
Proof. intros H. exact (re_running _ _ _ _ _ _ _ _ _ (demo_node_running cs H)). Qed.
Lemma demo_written cs : demo_runs cs = true ->
  written protobuf 255 demo_verify (demo_node cs).
Proof. intros H. exact (running_written protobuf 255 demo_verify demo_users 4 demo_decode demo_chain cs _ (demo_node_running cs H)). Qed.
Lemma demo_admits cs raw : demo_runs cs = true -> is_ok (demo_decode raw) = true ->
  is_ok (fst (demo_tx_admission (demo_tx raw) (demo_node cs))) = true <-> admissible 255 demo_verify (demo_gets (demo_node cs)) (demo_tx raw).
Proof.
  intros H1 H2.
  destruct (admission_written protobuf 255 demo_verify demo_users 4 demo_decode demo_sound (demo_tx raw) (demo_node cs)
    ltac:(vm_compute; discriminate) (demo_written cs H1) (demo_node_enabled cs H1) (demo_tx_proper raw H2)) as [_ HA].
  revert HA. generalize (fst (demo_tx_admission (demo_tx raw) (demo_node cs))). intros r [[-> HA]|[[e ->] HA]]; split; intros H; first [discriminate H|reflexivity|exact HA|contradiction].
Qed.
Lemma demo_admissible cs raw : demo_runs cs = true -> is_ok (demo_decode raw) = true ->
  is_ok (fst (demo_tx_admission (demo_tx raw) (demo_node cs))) = true -> admissible 255 demo_verify (demo_gets (demo_node cs)) (demo_tx raw).
Proof. intros H1 H2. exact (proj1 (demo_admits cs raw H1 H2)). Qed.
Lemma demo_inadmissible cs raw : demo_runs cs = true -> is_ok (demo_decode raw) = true ->
  is_ok (fst (demo_tx_admission (demo_tx raw) (demo_node cs))) = false -> ~ admissible 255 demo_verify (demo_gets (demo_node cs)) (demo_tx raw).
Proof. intros H1 H2 H3 H4. apply (demo_admits cs raw H1 H2) in H4. congruence. Qed.

(** Receivers below 128 bytes. *)
Definition short_receivers (c : abci_call) : bool :=
  match c with CallDeliverTx raw => forallb short_receiver (tx_msgs (demo_tx raw)) | _ => true end.
Lemma short_receivers_spec cs : forallb short_receivers cs = true ->
  forall raw t from to amt, CallDeliverTx raw ∈ cs -> demo_decode raw = Ok t -> MsgSendCoins from to amt ∈ tx_msgs t -> length to < 128.
Proof.
  intros H raw t from to amt Hi Ht Hm. rewrite forallb_forall in H. apply elem_of_list_In in Hi, Hm. specialize (H _ Hi).
  cbn [short_receivers] in H. unfold demo_tx in H. rewrite Ht in H. rewrite forallb_forall in H. specialize (H _ Hm).
  by apply bool_decide_eq_true in H.
Qed.
Lemma demo_orderly cs : demo_runs cs = true -> forallb short_receivers cs = true ->
  orderly 255 (demo_gets (demo_node cs)).
Proof.
  intros H1 H2. refine (proj1 (running_supply protobuf 255 demo_verify demo_users 4 demo_decode demo_sound demo_chain cs _ _ (demo_node_running cs H1) (short_receivers_spec cs H2))).
  vm_compute. discriminate.
Qed.

Lemma demo_short raw : forallb short_receiver (tx_msgs (demo_tx raw)) = true -> short_receivers (CallDeliverTx raw) = true.
Proof. intros H. exact H. Qed.
Lemma demo_history_short : forallb short_receivers demo_history = true.
Proof. unfold demo_history. cbn [forallb]. rewrite (demo_short tx_open_alice ltac:(fact)). reflexivity. Qed.
Lemma bob_history_short : forallb short_receivers (demo_history ++ [CallDeliverTx tx_alice_bob]) = true.
Proof. rewrite forallb_app, demo_history_short. cbn [forallb andb]. rewrite (demo_short tx_alice_bob ltac:(fact)). reflexivity. Qed.

(** Facts about the concrete node are looked up or computed. *)
Ltac found := first [fact | exact demo_history_short | exact bob_history_short].
Ltac demo := repeat apply conj;
  first [ found | apply demo_node_running; found | apply demo_node_enabled; found | apply demo_tx_decoded; found | apply demo_tx_proper; found
        | apply demo_reachable; found | apply demo_written; found | apply demo_orderly; found
        | apply demo_admissible; found | apply demo_inadmissible; found | exact demo_sound
        | apply (bool_decide_unpack _); vm_compute; exact I | computed ].

(** ** Coins *)
(** The receiver of the coins signs, the sender does not. *)
Lemma sender_need_not_sign :
  ~ forall cs x raw t from to amt x', demo_running cs x -> demo_decode raw = Ok t -> tx_msgs t = [MsgSendCoins from to amt] ->
      demo_call (CallDeliverTx raw) x = (Ok tt, x') -> signs t from.
Proof.
  intros H. assert (demo_answer (demo_node mallory_history) (CallDeliverTx tx_steal) = Ok tt) as E by fact.
  assert (map sg_address (tx_signers (demo_tx tx_steal)) = [mallory_address]) as E2 by fact.
  specialize (H mallory_history (demo_node mallory_history) tx_steal (demo_tx tx_steal) genesis_address mallory_address (tests "4000000000")
    (after_call (CallDeliverTx tx_steal) (demo_node mallory_history))
    (demo_node_running mallory_history ltac:(fact)) (demo_tx_decoded tx_steal ltac:(fact)) ltac:(fact) (pair_of _ _ E)).
  unfold signs in H. rewrite E2 in H. apply elem_of_list_singleton in H. vm_compute in H. discriminate H.
Qed.
Lemma payer_need_not_sign :
  ~ forall cs x raw t x', demo_running cs x -> demo_decode raw = Ok t ->
      demo_call (CallDeliverTx raw) x = (Ok tt, x') -> signs t (tx_payer t).
Proof.
  intros H. assert (demo_answer (demo_node mallory_history) (CallDeliverTx tx_steal) = Ok tt) as E by fact.
  assert (map sg_address (tx_signers (demo_tx tx_steal)) = [mallory_address]) as E2 by fact.
  assert (tx_payer (demo_tx tx_steal) = genesis_address) as E1 by fact.
  specialize (H mallory_history (demo_node mallory_history) tx_steal (demo_tx tx_steal) (after_call (CallDeliverTx tx_steal) (demo_node mallory_history))
    (demo_node_running mallory_history ltac:(fact)) (demo_tx_decoded tx_steal ltac:(fact)) (pair_of _ _ E)).
  unfold signs in H. rewrite E1, E2 in H. apply elem_of_list_singleton in H. vm_compute in H. discriminate H.
Qed.

(** The first of two messages stays when the second fails. *)
Lemma first_message_stays :
  ~ forall cs x raw t x1 e x2, demo_running cs x -> demo_decode raw = Ok t ->
      pay protobuf 255 demo_verify demo_users 4 t x = (Ok tt, x1) -> demo_call (CallDeliverTx raw) x = (Fail e, x2) ->
      forall ty k o, demo_gets x2 ty k o <-> demo_gets x1 ty k o.
Proof.
  intros H. assert (demo_answer (demo_node []) (CallDeliverTx tx_half) = Fail EAnon) as E by fact.
  assert (demo_get (after_call (CallDeliverTx tx_half) (demo_node [])) ty_balance alice_address = Ok (OBalance alice_address (tests "10"))) as G by fact.
  assert (fst (demo_pay (demo_tx tx_half) (demo_node [])) = Ok tt) as P1 by fact.
  assert (is_ok (demo_get (after_fee (demo_tx tx_half) (demo_node [])) ty_balance alice_address) = false) as P2 by fact.
  pose proof (H [] (demo_node []) tx_half (demo_tx tx_half) (after_fee (demo_tx tx_half) (demo_node [])) EAnon
    (after_call (CallDeliverTx tx_half) (demo_node []))
    (demo_node_running [] ltac:(fact)) (demo_tx_decoded tx_half ltac:(fact)) (pair_of _ _ P1) (pair_of _ _ E)
    ty_balance alice_address (OBalance alice_address (tests "10"))) as H'.
  clear H E P1. apply (proj1 H') in G. unfold gets in G. unfold demo_get in P2. rewrite G in P2. discriminate P2.
Qed.

(** A message that admission refuses is run. *)
Lemma ran_message_spec tr : ran_message tr = true -> exists us, EvDeliver (MsgCreateAccount None) us ∈ tr.
Proof.
  unfold ran_message. rewrite existsb_exists. intros (e & Hi & He). apply elem_of_list_In in Hi.
  destruct e as [| |m us|]; try discriminate He. destruct m as [| | | | | | |[]| | | | | |]; try discriminate He. eauto.
Qed.
Lemma refused_message_runs :
  ~ forall cs x raw t x1 m us, demo_running cs x -> demo_decode raw = Ok t ->
      pay protobuf 255 demo_verify demo_users 4 t x = (Ok tt, x1) -> tx_msgs t = [m] ->
      EvDeliver m us ∈ w_trace (rt_world (snd (demo_call (CallDeliverTx raw) x))) ->
      fst (demo_admission (tx_users t) m x1) = Ok tt.
Proof.
  intros H. assert (ran_message (w_trace (rt_world (after_call (CallDeliverTx tx_nameless) (demo_node [])))) = true) as E by fact.
  apply ran_message_spec in E as [us E].
  assert (fst (demo_pay (demo_tx tx_nameless) (demo_node [])) = Ok tt) as P1 by fact.
  assert (is_ok (fst (demo_admission (tx_users (demo_tx tx_nameless)) (MsgCreateAccount None) (after_fee (demo_tx tx_nameless) (demo_node [])))) = false)
    as P2 by fact.
  pose proof (H [] (demo_node []) tx_nameless (demo_tx tx_nameless) (after_fee (demo_tx tx_nameless) (demo_node [])) (MsgCreateAccount None) us
    (demo_node_running [] ltac:(fact)) (demo_tx_decoded tx_nameless ltac:(fact)) (pair_of _ _ P1) ltac:(fact) E) as H'.
  clear H E P1. rewrite H' in P2. discriminate P2.
Qed.

(** Coins out of nothing. *)
Lemma sum_at_least (v : view) d n (l : list (bytes * object)) : supply 255 v d n -> NoDup l -> (forall k o, (k, o) ∈ l -> v ty_balance k o) ->
  (fold_right (fun x acc => match snd x with OBalance _ c => worth 255 c d | _ => 0 end + acc) 0 l <= n)%N.
Proof.
  intros (l' & H1 & H2 & ->) Hn Hl. assert (l ⊆+ l') as HS.
  { apply NoDup_submseteq; [exact Hn|]. intros [k o] Hi. apply H1, Hl, Hi. }
  clear H1 H2 Hn Hl. induction HS as [|x l1 l2 _ IH|x y l1|x l1 l2 _ IH|l1 l2 l3 _ IH1 _ IH2]; cbn [fold_right]; lia.
Qed.
Lemma supply_grows :
  ~ forall cs x d n, demo_running cs x -> supply 255 (demo_gets x) d n -> n = if decide (d = str "test") then 5000000000%N else 0%N.
Proof.
  intros H. pose proof (demo_node_running long_history ltac:(fact)) as Hr.
  destruct (supply_unique protobuf 255 demo_verify demo_users demo_decode demo_sound (demo_node long_history) (str "test")) as [n Hn].
  { exact (running_written protobuf 255 demo_verify demo_users 4 demo_decode demo_chain long_history _ Hr). }
  pose proof (proj2 (Hn n) eq_refl) as Hs. pose proof (H _ _ _ _ Hr Hs) as E. rewrite decide_True in E by reflexivity.
  set (l := [(genesis_address, OBalance genesis_address (tests "4999999969")); (fee_collector, OBalance fee_collector (tests "30"));
             (longer_address, OBalance long_address (tests "100"))]).
  assert (demo_get (demo_node long_history) ty_balance genesis_address = Ok (OBalance genesis_address (tests "4999999969"))) as G1 by fact.
  assert (demo_get (demo_node long_history) ty_balance fee_collector = Ok (OBalance fee_collector (tests "30"))) as G2 by fact.
  assert (demo_get (demo_node long_history) ty_balance longer_address = Ok (OBalance long_address (tests "100"))) as G3 by fact.
  pose proof (sum_at_least (demo_gets (demo_node long_history)) (str "test") n l Hs) as HL.
  assert (fold_right (fun x acc => match snd x with OBalance _ c => worth 255 c (str "test") | _ => 0 end + acc)%N 0%N l = 5000000099%N) as EL by (vm_compute; reflexivity).
  rewrite EL, E in HL. clear EL E Hs Hn H Hr. unfold demo_get in G1, G2, G3.
  assert (NoDup l) as HN by (apply (NoDup_fmap_1 fst); apply (bool_decide_unpack _); vm_compute; exact I).
  specialize (HL HN). assert (5000000099 <= 5000000000)%N as B; [|vm_compute in B; exact (B eq_refl)]. apply HL.
  intros k o Hi. unfold l in Hi. repeat (apply elem_of_cons in Hi as [Hi|Hi]; [injection Hi as -> ->; first [exact G1|exact G2|exact G3]|]). exact (False_ind _ (not_elem_of_nil _ Hi)).
Qed.

Lemma third_party_affected :
  ~ forall cs x t from to amt x' a o, demo_running cs x -> proper t ->
      demo_send (tx_users t) (MsgSendCoins from to amt) x = (Ok tt, x') -> a <> from -> a <> to ->
      demo_gets x' ty_balance a o -> demo_gets x ty_balance a o.
Proof.
  intros H. set (t := demo_tx tx_open_alice).
  assert (fst (demo_send (tx_users (demo_tx tx_open_alice)) (MsgSendCoins genesis_address long_address (tests "100")) (demo_node [])) = Ok tt) as E by fact.
  assert (demo_get (after_long (demo_node [])) ty_balance longer_address = Ok (OBalance long_address (tests "100"))) as G1 by fact.
  assert (is_ok (demo_get (demo_node []) ty_balance longer_address) = false) as G2 by fact.
  pose proof (H [] (demo_node []) (demo_tx tx_open_alice) genesis_address long_address (tests "100") (after_long (demo_node [])) longer_address
    (OBalance long_address (tests "100")) (demo_node_running [] ltac:(fact)) (demo_tx_proper tx_open_alice ltac:(fact)) (pair_of _ _ E)) as HH.
  unfold demo_get in G1, G2. unfold gets in HH. rewrite HH in G2; [discriminate G2|intros K; discriminate K|intros K; discriminate K|exact G1].
Qed.

(** ** Keys *)
Lemma demo_hash_length k : length k = 33%nat -> length (demo_hash k) = 20%nat.
Proof. intros H. unfold demo_hash. destruct (bytes_eqb k genesis_secret); [reflexivity|]. rewrite take_length, H. reflexivity. Qed.
Lemma short_key_panics :
  ~ forall raw, (forall t, ~ tx_text demo_hash raw t) -> exists e, decode_tx demo_hash raw = Fail e.
Proof.
  intros H. assert (decode_tx demo_hash tx_short_key = Panic) as E by (vm_compute; reflexivity).
  destruct (H tx_short_key) as [e He]; [|congruence]. intros t Ht. apply decode_text in Ht. congruence.
Qed.

(** ** Queries *)
Lemma query_may_crash : ~ forall cs x path, demo_running cs x -> demo_query x path <> Panic.
Proof.
  intros H. apply (H [] (demo_node []) (account_path genesis_address)).
  - apply demo_node_running. fact.
  - fact.
Qed.
Lemma query_may_miss :
  ~ forall cs x g k id o, demo_running cs x -> holds protobuf 255 demo_verify x g k id o -> renderable demo_resolves o ->
      demo_query x (path_of [str "get"; g; k; id]) = Ok (RObject o).
Proof.
  intros H. assert (refused (demo_query (demo_node odd_history) (account_path (str "a/b"))) = true) as HR by fact.
  assert (demo_get (demo_node odd_history) ty_account (str "a/b")
    = Ok (OAccount {| ac_address := str "a/b"; ac_pubkey := None; ac_number := 2; ac_sequence := 0 |})) as HG by fact.
  specialize (H odd_history (demo_node odd_history) (str "tmos.x.authn.v1alpha1") (str "Account") (str "a/b")
    (OAccount {| ac_address := str "a/b"; ac_pubkey := None; ac_number := 2; ac_sequence := 0 |})).
  change (path_of [str "get"; str "tmos.x.authn.v1alpha1"; str "Account"; str "a/b"]) with (account_path (str "a/b")) in H.
  rewrite H in HR; [discriminate HR|apply demo_node_running; fact|split; [split; reflexivity|exact HG]|].
  intros a k [= <-] [=].
Qed.
Lemma alice_path : get_path (str "tmos.x.authn.v1alpha1") (str "Account") alice_address [] (account_path alice_address).
Proof.
  split; [|reflexivity]. assert (forall p, existsb (fun c => bool_decide (c = slash)) p = false -> no_slash p) as H.
  { intros p Hp Hi. assert (existsb (fun c => bool_decide (c = slash)) p = true) as E; [|congruence].
    apply existsb_exists. exists slash. split; [done|]. by apply bool_decide_eq_true. }
  repeat (apply Forall_cons; split; [apply H; vm_compute; reflexivity|]). apply List.Forall_nil.
Qed.
