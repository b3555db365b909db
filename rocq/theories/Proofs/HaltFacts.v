(** Which messages stop the node, for addresses of any length. *)
From Coq Require Import NArith ZArith List Bool String Lia.
From stdpp Require Import base list gmap relations.
From Verif.Model Require Import Bytes KindEncoder Desc Schema Indexes Orm Users Prog Router Runtime
  Services Module Builder Universe Coin CoreModules Rbac Bank Authn Distribution TestApp Abci.
From Verif.Spec Require Import UserSpec StoreSpec RuntimeSpec CoinSpec RbacSpec ChainSpec LiveSpec FiledSpec HaltSpec.
From Verif.Proofs Require Import BytesFacts KindEncoderFacts RegistryFacts OrmFacts UserFacts RuntimeFacts
  BuilderFacts SimFacts AppFacts AppSim RbacFacts MapExec ChainInv ChainWp ChainRun ChainHist ReadOnlyFacts ChainView
  ChainFacts CoinFacts AdmissionFacts SupplyFacts ChainProps ConsentFacts TotalExec TotalRun TotalChain TotalNode LiveFacts LiveProto FiledFacts.

Local Notation all := (fun _ : object => True).
Local Ltac known := apply (bool_decide_unpack _); vm_compute; exact I.
Local Ltac perm := apply module_can; [done|vm_compute; reflexivity].
Local Ltac nm := apply named_one; discriminate.
Local Lemma self_wf n : wf_users (users_from_string [n]).
Proof. apply from_string_wf. Qed.

Lemma possible_key a : a <> [] -> (blen a < 2 ^ 63)%N -> string_key a <> [] /\ string_key a = shelf a.
Proof.
  intros Ha Hl. assert (string_key a <> []) as Hk.
  { intros E. destruct (string_key_nil a E) as [?|E']; [done|]. clear - E' Hl. lia. }
  split; [done|]. by apply filed_key.
Qed.
Lemma shelf_inj a b : (blen a < 2 ^ 63)%N -> (blen b < 2 ^ 63)%N -> shelf a = shelf b -> a = b.
Proof.
  intros Ha Hb E.
  assert (forall c, shelf c = [] -> c = []) as Hn.
  { intros c Hc. unfold shelf in Hc. by apply app_eq_nil in Hc as [_ ?]. }
  destruct (decide (a = [])) as [->|Na].
  { symmetry. apply Hn. by rewrite <- E. }
  destruct (decide (b = [])) as [->|Nb].
  { apply Hn. by rewrite E. }
  destruct (possible_key a Na Ha) as [K1 E1], (possible_key b Nb Hb) as [K2 E2].
  apply string_key_inj; [|congruence]. done.
Qed.

Section Total.
  Context (C : codec) (HC : codec_ok (app_ops C)) (bits : N) (verify : bytes -> bytes -> bytes -> bool).
  Context (app : application object msg tx) (HA : test_like bits verify app).
  Context (enum : list (event object msg) -> users -> list user) (HE : forall tr, fair_order (enum tr)).
  Context (Hbits : (bits <= 313)%N).
  Notation HK := (keeps_all C bits).
  Notation twp := (twp C app enum all).
  Notation twpd := (twpd C app enum all).
  Notation sane := (sane C).
  Implicit Types (S : amap) (f : nat) (us self : users) (Q : res unit -> amap -> Prop).

  (** Coins can be sent there. *)
  Definition receives_any S (to : bytes) : Prop :=
    to <> [] /\ (blen to < 2 ^ 63)%N
    /\ (S !! at_balance to = None -> S !! at_balance (string_key to) = None
        /\ (S !! at_account to = None -> S !! at_account (string_key to) = None /\ S !! at_binding (string_key to) = None)).

  Lemma twp_send_any f us from to amt S Q : sane S -> from <> [] ->
    (affords bits S from amt -> receives_any S to) ->
    (forall r S', sent bits S from to amt r S' -> sane S' -> Q r S') ->
    twp (Datatypes.S (Datatypes.S f)) (users_from_string [str "bank"]) (send_coins_exec bits us (MsgSendCoins from to amt)) S Q.
  Proof.
    intros HS Hfrom Hto HQ. pose proof HS as [HI HG].
    cbn [send_coins_exec]. apply (twp_get C HC bits verify app HA); [known|done|..].
    2:{ intros Hn. apply twp_fail. apply HQ; [by constructor|done]. }
    intros o Ho. destruct (wt_balance S (iv_wt S HI) _ _ Ho) as (x & c & -> & Ex).
    apply twp_lift; [apply safe_sub_alive; lia|..].
    2:{ intros e He. apply HQ; [by eapply sent_refused|done]. }
    intros c1 Hc1. eapply (twp_deliver C app enum all); [apply self_wf|].
    apply (twpd_set_balance C HC bits verify app HA enum HE); [done|done|..].
    3:{ intros Hn. congruence. }
    2:{ intros _ Hn. split.
        - intros E. destruct (string_key_nil _ E) as [?|E']; [done|].
          pose proof (sane_short C bits Hbits S _ _ _ HS Ho) as Hl. clear - E' Hl. lia.
        - apply HQ; [by eapply sent_lost_sender|done]. }
    intros _ Hs2. split; [exact I|].
    intros HS1.
    assert (string_key from <> []) as Hk by (destruct Hs2 as [o2 Ho2]; by destruct (iv_wt S HI _ _ _ Ho2) as (_ & _ & ?)).
    destruct Hto as (Ht1 & Ht2 & Ht3); [exists x, c, c1; auto|].
    destruct (possible_key to Ht1 Ht2) as [Kt _].
    assert (forall k, S !! at_balance k = None <-> put_balance from c1 S !! at_balance k = None) as Hn1.
    { intros k. destruct (decide (string_key from = k)) as [E|E].
      - rewrite E, lookup_insert. rewrite E in Hs2. destruct Hs2 as [? ->]. split; discriminate.
      - rewrite lookup_insert_ne; [done|]. congruence. }
    assert (forall ty k, ty <> ty_balance -> put_balance from c1 S !! (ty, k) = S !! (ty, k)) as Hfr1.
    { intros ty k Hty. apply lookup_insert_ne. congruence. }
    remember (put_balance from c1 S) as S1 eqn:ES1. pose proof HS1 as [HI1 HG1].
    apply (twp_get C HC bits verify app HA); [known|done|..].
    - intros o' Ho'. destruct (wt_balance S1 (iv_wt S1 HI1) _ _ Ho') as (y & d & -> & Ey).
      apply twp_lift; [by apply safe_add_alive|..].
      2:{ intros e He. apply HQ; [|done]. eapply (sent_unreadable bits S from to amt x c c1 S1); eauto. }
      intros d1 Hd1. eapply (twp_deliver C app enum all); [apply self_wf|].
      apply (twpd_set_balance C HC bits verify app HA enum HE); [done|done|..].
      + intros _ Hs3. split; [exact I|].
        intros HS2. apply twp_ret. apply HQ; [|done]. by eapply (sent_old bits S from to amt x c c1 S1); eauto.
      + intros _ Hn. split; [done|]. apply HQ; [|done]. eapply (sent_lost_receiver bits S from to amt x c c1 S1); eauto.
      + intros Hn. congruence.
    - intros Hno. replace (errors_is missing RtNotFound) with true by reflexivity.
      destruct (Ht3 (proj2 (Hn1 to) Hno)) as [Hns Hacc]. apply Hn1 in Hns.
      eapply (twp_deliver C app enum all); [apply self_wf|].
      apply (twpd_set_balance C HC bits verify app HA enum HE); [done|done|..].
      1:{ intros [? ?] _. congruence. }
      1:{ intros [? ?] _. congruence. }
      intros _. split; [done|]. split; [done|]. split; [exact I|]. intros HS2.
      assert (forall ty k, ty <> ty_balance -> put_balance to amt S1 !! (ty, k) = S !! (ty, k)) as Hfr2.
      { intros ty k Hty. rewrite lookup_insert_ne by congruence. auto. }
      remember (put_balance to amt S1) as S2 eqn:ES2. pose proof HS2 as [HI2 HG2].
      assert (ty_account <> ty_balance) as N1 by known.
      assert (ty_binding <> ty_balance) as N2 by known.
      unfold create_account_if_not_exist. apply (twp_get C HC bits verify app HA); [known|done|..].
      + intros o' Ho'. apply twp_ret. apply HQ; [|done]. eapply (sent_new bits S from to amt x c c1 S1 S2); eauto.
      + intros Hna. replace (errors_is missing RtNotFound) with true by reflexivity.
        rewrite (Hfr2 ty_account to N1) in Hna. destruct (Hacc Hna) as [A1 A2].
        eapply (twp_deliver C app enum all); [apply self_wf|].
        apply (twpd_create_account C HC bits verify app HA enum HE all HK Hbits); [done|apply self_wf|nm|..].
        * intros _. exists (fresh_account to). cbn [fresh_account ac_address]. rewrite (Hfr2 ty_account _ N1), (Hfr2 ty_binding _ N2).
          split; [done|]. split; [done|]. split; [done|]. split; [done|]. by split.
        * intros ac S3 [= <-] Hcr _ HS3. apply twp_ret. apply HQ; [|done].
          eapply (sent_created bits S from to amt x c c1 S1 S2 S3); eauto. by rewrite (Hfr2 ty_account to N1).
        * intros HR. exfalso. apply HR. perm.
        * intros _. exists (fresh_account to). done.
  Qed.

  Lemma twpd_send_any f skip us from to amt S Q : sane S -> wf_users us -> named us ->
    (granted (map_stored S) VDeliver (tt_name t_send_coins) us ->
       from <> [] /\ (affords bits S from amt -> receives_any S to)) ->
    (forall r S', sent bits S from to amt r S' ->
       granted (map_stored S) VDeliver (tt_name t_send_coins) us -> sane S' -> Q r S') ->
    (~ granted (map_stored S) VDeliver (tt_name t_send_coins) us -> Q (Fail unauthorized) S) ->
    twpd (Datatypes.S (Datatypes.S (Datatypes.S f))) skip us (MsgSendCoins from to amt) S Q.
  Proof.
    intros HS HU HN H0 H1 H2. pose proof HS as [HI _].
    eapply (twpd_route C HC bits verify app HA enum HE); [by apply inv_no_blank|done|done|reflexivity|..].
    - intros HG. destruct (H0 HG) as [Hf Ht]. cbn [h_self h_run]. apply twp_send_any; [done..|]. intros r S' Hs HS'.
      destruct r; try (by apply H1). cbn [post_of]. apply twph_nil. destruct a. by apply H1.
    - done.
    - intros _. cbn [admission_of]. by apply twph_nil.
  Qed.

  Definition safe_any S m : Prop :=
    match m with
    | MsgSendCoins from to amt => from <> [] /\ (affords bits S from amt -> receives_any S to)
    | _ => safe_msg bits S m
    end.
  Lemma twpd_ordinary_any f us m S Q : sane S -> wf_users us -> named us -> ordinary us ->
    (granted (map_stored S) VDeliver (msg_name m) us -> safe_any S m) ->
    (forall r S', ran bits us m S r S' -> sane S' -> Q r S') ->
    twpd (Datatypes.S (Datatypes.S (Datatypes.S f))) true us m S Q.
  Proof.
    intros HS HU HN HO H0 HQ. pose proof HS as [HI _].
    assert (external m \/ ~ external m) as [Hx|Hx] by (destruct m; cbn; auto).
    - destruct m; try done.
      + apply (twpd_create_account C HC bits verify app HA enum HE all HK Hbits); [done..| | | |done].
        * intros HG. destruct (H0 HG) as (ac & -> & H1 & H2 & H3). exists ac. do 4 (split; [done|]). by split.
        * intros ac S' -> Hc HG HS'. apply HQ; [|done]. by eapply ran_created.
        * intros HG. apply HQ; [|done]. by apply ran_refused.
      + apply twpd_send_any; [done..| | |].
        * intros HG. exact (H0 HG).
        * intros r S' Hs HG HS'. apply HQ; [|done]. by eapply ran_sent.
        * intros HG. apply HQ; [|done]. by apply ran_refused.
    - assert (~ granted (map_stored S) VDeliver (msg_name m) us) as HG.
      { intros HG. apply ordinary_grants in HG as [_ HG]; [|done..]. by apply external_names in HG. }
      apply (twpd_refused C HC bits verify app HA enum HE); [done..|]. apply HQ; [|done]. by apply ran_refused.
  Qed.
End Total.

Section Node.
  Context (C : codec) (bits : N) (verify : bytes -> bytes -> bytes -> bool).
  Context (enum : list (event object msg) -> users -> list user) (fuel : nat) (decode : bytes -> res tx).
  Context (HS : sound C enum decode) (Hbits : (bits <= 313)%N).
  Notation app := (test_app bits verify).
  Notation HA := (test_app_like bits verify).
  Notation gets := (gets C bits verify).
  Notation send := (send C bits verify enum fuel).
  Notation reachable := (reachable C bits verify enum fuel decode).
  Notation shown := (shown C bits verify).
  Notation tracked := (tracked C bits verify).
  Notation settled := (settled C bits verify all).
  Implicit Types (S : amap) (x : node) (t : tx).

  Lemma send_settled_any t m x S : tracked x S -> proper t -> 3 <= fuel ->
    (granted (map_stored S) VDeliver (msg_name m) (tx_users t) -> safe_any bits S m) ->
    settled (send (tx_users t) m x) (ran bits (tx_users t) m S).
  Proof.
    intros HT HP Hf Hs. destruct fuel as [|[|[|f]]]; [lia..|].
    pose proof (twpd_ordinary_any C (so_codec _ _ _ HS) bits verify app HA enum (so_order _ _ _ HS) Hbits f (tx_users t) m S
      (fun r S' => ran bits (tx_users t) m S r S' /\ inv S') (tracked_sane C bits verify _ _ HT) (proper_wf t HP)) as H.
    feed specialize H.
    { intros u Hu. apply (proper_users t _ HP) in Hu. apply elem_of_list_fmap in Hu as (s & -> & Hu').
      by apply (proj1 (Forall_forall _ _) (pr_named t HP)). }
    { by apply proper_ordinary. }
    { done. }
    { intros r S' Hr HS'. split; [done|apply HS']. }
    specialize (H (rt_world x) (tk_shown _ _ _ _ _ HT)).
    unfold ChainSpec.send, at_world, bytes_store, the_app.
    destruct (tracked_flags C bits verify x S HT) as [He Hi]. rewrite He.
    destruct (deliver _ _ _ _ _ _ _ _ _) as [r w]. destruct H as [[Hd Hst]|(Ha & S' & HR & Hr & HI)]; cbn [fst snd] in *.
    - left. split; [by apply dead_gone|by apply stuck_stopped].
    - right. split; [done|]. exists S'. split; [|done]. by apply tracked_shown.
  Qed.

  Lemma fatal_stops_any id x t m : reachable id x -> proper t -> possible_addresses m ->
    fatal_any bits (gets x) (tx_users t) m -> ~ alive (fst (send (tx_users t) m x)).
  Proof.
    intros Hx HP Hs [HG Hm] Ha. apply (reachable_tracked C bits verify enum fuel decode HS) in Hx as [S HT].
    destruct (send (tx_users t) m x) as [r x'] eqn:E. cbn [fst] in Ha.
    destruct (send_tracked C bits verify enum fuel decode HS (tx_users t) m x S r x' HT (proper_wf t HP) (proper_ordinary t HP) E Ha) as (S' & _ & Hr).
    pose proof (tk_shown _ _ _ _ _ HT) as Hsh. apply (granted_shown C bits verify enum decode HS x S _ _ _ Hsh) in HG.
    pose proof (fun ty k H => reads_has C bits verify enum decode HS x S ty k Hsh H) as Hh.
    pose proof (iv_wt _ (tk_inv _ _ _ _ _ HT)) as HW.
    destruct Hr as [Hn|a S1 -> _ [n N1 N2 N3 N4]|from to amt r S1 -> _ Hsent]; [done|..]; cbn [possible_addresses] in Hs.
    - destruct Hm as [Hm|Hm]; [rewrite Hm in N2; by apply N2|].
      rewrite (filed_key _ N2) in N3, N4. destruct Hm as [Hm|Hm].
      + apply (Hh ty_account) in Hm as [o Ho]; [congruence|known].
      + apply (Hh ty_binding) in Hm as [o Ho]; [congruence|known].
    - destruct Hs as [Hf Ht].
      assert (forall k o, S !! at_balance k = Some o -> k <> []) as Hne.
      { intros k o Ho. destruct (HW _ _ _ Ho) as (_ & _ & ?). done. }
      destruct Hm as [->|(Hc & Hsf & Hm)].
      { destruct Hsent; try done; by eapply Hne. }
      apply (covers_shown C bits verify enum decode HS x S from amt Hsh) in Hc as (a0 & c0 & r0 & C1 & C2).
      assert (from <> []) as Hf0 by (by eapply Hne).
      destruct (possible_key from Hf0 Hf) as [Kf Ef].
      apply (Hh ty_balance) in Hsf as [of Hof]; [|known].
      assert (forall c k, put_balance from c S !! at_balance k = None <-> ~ has (gets x) ty_balance k) as Hp.
      { intros c k. rewrite Hh by known. rewrite Ef. destruct (decide (shelf from = k)) as [<-|Hk].
        - rewrite lookup_insert, Hof. split; [done|]. intros H. destruct H. eauto.
        - rewrite lookup_insert_ne by congruence. by rewrite eq_None_not_Some. }
      assert (forall c o, put_balance from c S !! at_balance to = Some o -> ~ (to = [] \/ barred (gets x) to)) as Hto.
      { intros c o Ho [->|[Hb _]].
        - revert Ho. rewrite Ef. rewrite lookup_insert_ne; [exact (fun Ho => Hne [] o Ho eq_refl)|]. intros [= E1]. rewrite <- Ef in E1. done.
        - apply Hp with (c := c) in Hb. congruence. }
      destruct Hsent as [D1 D2|D1 D2 e D3 D4|y c c1 D1 D2 D3|y c c1 S2 z d e D1 D2 D3 D4 -> D5 D6|y c c1 S2 z d d1 D1 D2 D3 D4 -> D5 D6 D7
        |y c c1 S2 z d d1 D1 D2 D3 D4 -> D5 D6 D7 D8|y c c1 S2 S3 D1 D2 D3 D4 -> D5 D6 D7 D8 -> D9|y c c1 S2 S3 S4 D1 D2 D3 D4 -> D5 D6 D7 D8 -> D9 D10].
      + congruence.
      + congruence.
      + rewrite Ef in D3. congruence.
      + by apply (Hto _ _ D5).
      + by apply (Hto _ _ D5).
      + by apply (Hto _ _ D5).
      + destruct Hm as [?|(_ & [Hm|[Hm _]])]; [done|..].
        * rewrite (filed_key _ D7) in D8. by apply Hp in D8.
        * apply Hm. apply Hh; [known|]. destruct D9 as [o Ho].
          rewrite lookup_insert_ne in Ho by tyne. rewrite lookup_insert_ne in Ho by tyne. eauto.
      + destruct Hm as [?|(_ & [Hm|[_ Hm]])]; [done|..].
        * rewrite (filed_key _ D7) in D8. by apply Hp in D8.
        * destruct D10 as [n _ _ N3 N4]. cbn [fresh_account ac_address] in N3, N4. rewrite (filed_key _ D7) in N3, N4.
          rewrite lookup_insert_ne in N3 by tyne. rewrite lookup_insert_ne in N3 by tyne.
          rewrite lookup_insert_ne in N4 by tyne. rewrite lookup_insert_ne in N4 by tyne.
          destruct Hm as [Hm|Hm]; apply Hh in Hm as [o Ho]; [congruence|known|congruence|known].
  Qed.
  Lemma harmless_safe_any x S us m : shown x S -> possible_addresses m -> ~ fatal_any bits (gets x) us m ->
    granted (map_stored S) VDeliver (msg_name m) us -> safe_any bits S m.
  Proof.
    intros Hsh Hs Hn HG. apply (granted_shown C bits verify enum decode HS x S _ _ _ Hsh) in HG.
    pose proof (fun ty k H => reads_has C bits verify enum decode HS x S ty k Hsh H) as Hh.
    assert (forall ty k, ty ∈ all_types -> ~ has (gets x) ty k -> S !! (ty, k) = None) as Hno.
    { intros ty k Ht H. rewrite Hh in H by done. by apply eq_None_not_Some. }
    destruct m as [| | | | | |oa|oa| | | | |from to amt|]; try exact I; cbn [safe_any safe_msg possible_addresses] in *.
    - destruct oa as [a|]; [|destruct Hn; by split]. exists a.
      assert (ac_address a <> []) as Ha by (intros E; apply Hn; split; [done|]; by left).
      destruct (possible_key _ Ha Hs) as [Hk Ek].
      assert (~ shelf_taken (gets x) (ac_address a)) as Hst by (intros H; apply Hn; split; [done|]; by right).
      split; [done|]. split; [done|]. rewrite Ek. split; apply Hno; [known| |known|]; intros H; apply Hst; [by left|by right].
    - destruct Hs as [Hf Ht].
      assert (from <> []) as Hf0 by (intros ->; apply Hn; split; [done|]; by left). split; [done|].
      destruct (possible_key _ Hf0 Hf) as [_ Ef].
      intros (y & c & c1 & A1 & A2 & A3). rewrite Ef in A3. apply (Hh ty_balance) in A3; [|known].
      assert (covers bits (gets x) from amt) as Hc by (apply (covers_shown C bits verify enum decode HS x S from amt Hsh); eauto).
      assert (~ (to = [] \/ barred (gets x) to)) as Hb.
      { intros H. apply Hn. split; [done|]. right. done. }
      assert (to <> []) as Ht0 by (intros E; apply Hb; by left).
      destruct (possible_key _ Ht0 Ht) as [_ Et]. split; [done|]. split; [done|]. rewrite Et. intros B1.
      assert (~ has (gets x) ty_balance to) as B2 by (rewrite Hh by known; rewrite B1; by intros [? ?]).
      split.
      + apply Hno; [known|]. intros H. apply Hb. right. split; [done|]. by left.
      + intros B3. assert (~ has (gets x) ty_account to) as B4 by (rewrite Hh by known; rewrite B3; by intros [? ?]).
        split; apply Hno; [known| |known|]; intros H; apply Hb; right; (split; [done|]); right; (split; [done|]); [by left|by right].
  Qed.
  Lemma halts_exactly id x t m : reachable id x -> proper t -> 3 <= fuel -> possible_addresses m ->
    (fatal_any bits (gets x) (tx_users t) m -> ~ alive (fst (send (tx_users t) m x)))
    /\ (~ fatal_any bits (gets x) (tx_users t) m -> answers (cannot_store C bits verify) (send (tx_users t) m x)).
  Proof.
    intros Hx HP Hf Hs. split; intros Hm; [by eapply fatal_stops_any|].
    eapply answers_mono; [intros o Ho; exact (cannot_store_intro C bits verify o Ho)|].
    apply (reachable_tracked C bits verify enum fuel decode HS) in Hx as [S HT].
    eapply (settled_answers C bits verify all), (send_settled_any t m x S HT HP Hf).
    apply (harmless_safe_any x); [apply HT|done|done].
  Qed.
End Node.

(** For addresses below 128 bytes these are the messages of LiveSpec. *)
Lemma fatal_short bits v us m : short_addresses m -> fatal_any bits v us m <-> fatal bits v us m.
Proof.
  intros Hs. unfold fatal_any, fatal. apply and_iff_compat_l.
  destruct m as [| | | | | |oa|oa| | | | |from to amt|]; try done; cbn [short_addresses] in Hs.
  - destruct oa as [a|]; [|done]. unfold shelf_taken. by rewrite (proj2 (shelf_short (ac_address a)) Hs).
  - destruct Hs as [Hf Ht]. unfold barred, shelf_taken, walled.
    rewrite (proj2 (shelf_short from) Hf), (proj2 (shelf_short to) Ht).
    assert (covers bits v from amt -> has v ty_balance from) as Hc by (intros (a & c & r & H & _); exists (OBalance a c); exact H).
    tauto.
Qed.
