(** Answers of the node: calls, transactions, payments. *)
From Coq Require Import NArith ZArith List Bool String Lia.
From stdpp Require Import base list gmap relations.
From Verif.Model Require Import Bytes KindEncoder Desc Schema Indexes Orm Users Prog Router Runtime
  Services Module Builder Universe Coin CoreModules Rbac Bank Authn Distribution TestApp Abci.
From Verif.Spec Require Import UserSpec StoreSpec RuntimeSpec CoinSpec RbacSpec ChainSpec LiveSpec.
From Verif.Proofs Require Import BytesFacts KindEncoderFacts RegistryFacts OrmFacts UserFacts RuntimeFacts
  BuilderFacts SimFacts AppFacts AppSim RbacFacts MapExec ChainInv ChainWp ChainRun ChainHist ReadOnlyFacts ChainView
  ChainFacts CoinFacts AdmissionFacts SupplyFacts ChainProps ConsentFacts TotalExec TotalRun TotalChain TotalNode.

Local Ltac known := apply (bool_decide_unpack _); vm_compute; exact I.

(** ** Reading *)
Lemma updates_stored S : inv S -> exists l, S !! at_updates = Some (OUpdates l).
Proof.
  intros HI. destruct (single S (OUpdates []) HI) as [o Ho]; [unfold singletons; set_solver|]. cbn [ty_of] in Ho.
  destruct (wt_updates _ (iv_wt _ HI) _ _ Ho) as (_ & l & ->). eauto.
Qed.
Lemma stored_get (C : codec) (HC : codec_ok (app_ops C)) bits verify a (HA : test_like bits verify a) S st ty id o :
  repr (app_ops C) (ap_registry a) S st -> wt S -> S !! (ty, id) = Some o ->
  rt_get (orm_ops (app_ops C) (ap_registry a)) ty id st = Ok o.
Proof.
  intros HR HW Ho. destruct (HW _ _ _ Ho) as (Et & _ & Hid).
  destruct (get_refines (app_ops C) (ap_registry a) S st ty id HC (tl_registry _ _ _ HA) HR) as [E1 E2].
  assert (exists s, rg_schemas (ap_registry a) !! ty = Some s) as [s Hs].
  { rewrite Et. exists (schema_of o). apply (tl_schema _ _ _ HA). }
  unfold rt_get. cbn [so_get orm_ops]. rewrite convert_answer, E1. unfold spec_get in *. rewrite Hs in *. clear Hs HR HA.
  generalize dependent (orm_get (app_ops C) (ap_registry a) ty id st). intros g E1 E2.
  destruct (decide (id = [])) as [Hz|_]; [by destruct (Hid Hz)|]. rewrite Ho in *. cbn [fst snd] in *.
  destruct g; try discriminate. injection E2 as ->. reflexivity.
Qed.

(** ** Payments that are covered succeed *)
Lemma covered_sub (bits : N) c amt e : readable bits c -> readable bits amt ->
  (forall d, worth bits amt d <= worth bits c d)%N -> safe_sub bits c amt <> Fail e.
Proof.
  intros [i Hi] [s Hs] Hw H. pose proof (safe_sub_parsed bits c amt i s Hi Hs) as HP. rewrite H in HP.
  destruct HP as [_ [d Hd]]. rewrite <- (worth_zamount bits c i d Hi), <- (worth_zamount bits amt s d Hs) in Hd.
  specialize (Hw d). lia.
Qed.
Lemma covered_ok (bits : N) (S : amap) from to amt r S' : solvent bits S -> (blen to < 128)%N ->
  is_Some (S !! at_balance from) ->
  (forall x c e, S !! at_balance from = Some (OBalance x c) -> safe_sub bits c amt <> Fail e) ->
  sent bits S from to amt r S' -> r = Ok tt.
Proof.
  intros HV Ht [o Ho] Hc H.
  destruct (sv_each _ _ HV _ _ Ho) as (c0 & -> & Hf & Hr0).
  assert (forall c1, safe_sub bits c0 amt = Ok c1 -> readable bits c1 /\ readable bits amt) as HR.
  { intros c1 H1. destruct (sub_worth _ _ _ _ H1) as (_ & ? & ? & _). done. }
  destruct H as [Hn Hx|x c e Hx Hs|x c c1 Hx Hs Hx'|x c c1 S1 y d e Hx Hs Hx' Hk -> Hy Hd|x c c1 S1 y d d1 Hx Hs Hx' Hk -> Hy Hd Hy'| | |];
    try done; exfalso.
  - congruence.
  - by eapply Hc.
  - rewrite string_key_small in Hx' by done. congruence.
  - rewrite Ho in Hx. injection Hx as <- <-. destruct (HR _ Hs) as [R1 R2].
    eapply add_refused; [| |exact Hd]; [|done]. rewrite string_key_small in Hy by done.
    destruct (decide (from = to)) as [<-|Hne].
    + rewrite lookup_insert in Hy. by injection Hy as _ <-.
    + rewrite lookup_insert_ne in Hy by congruence. destruct (sv_each _ _ HV _ _ Hy) as (? & E & _ & ?). by injection E as _ ->.
  - rewrite (string_key_small to) in Hy' by done. congruence.
Qed.

(** What the messages take from an address. *)
Notation taken bits l k d := (fold_right (fun m acc => match m with
     | MsgSendCoins from _ amt => if decide (from = k) then worth bits amt d else 0 | _ => 0 end + acc) 0 l)%N.
Definition payment (bits : N) (m : msg) : Prop :=
  exists from to amt, m = MsgSendCoins from to amt /\ readable bits amt /\ (blen to < 128)%N.

Lemma change_balance_keeps S S' k : change S S' -> is_Some (S !! at_balance k) -> is_Some (S' !! at_balance k).
Proof.
  intros [a c H|a S1 [n H1 H2 H3 H4]] Hk.
  - apply lookup_insert_is_Some. destruct (decide (at_balance (string_key a) = at_balance k)); auto.
  - rewrite lookup_insert_ne by tyne. rewrite lookup_insert_ne by tyne. by rewrite lookup_insert_ne by tyne.
Qed.
Lemma changes_balance_keep S S' k : rtc change S S' -> is_Some (S !! at_balance k) -> is_Some (S' !! at_balance k).
Proof. induction 1; [done|]. intros. by eapply IHrtc, change_balance_keeps. Qed.

Lemma payments_ok (bits : N) us l S r S' : msgs_ran bits us l S r S' ->
  inv S -> homes S -> solvent bits S -> us <> ∅ -> (forall u, is_Some (us !! u) -> is_Some (S !! at_account u)) ->
  Forall (payment bits) l ->
  (forall from to amt, MsgSendCoins from to amt ∈ l -> is_Some (S !! at_balance from)) ->
  (forall k d, taken bits l k d <= held bits S k d)%N ->
  r = Ok tt.
Proof.
  intros H HI HH HV Hne Hus HF HB HT.
  assert (forall m l' S1 r1 S1', ran bits us m S1 r1 S1' -> inv S1 -> homes S1 -> solvent bits S1 ->
            (forall u, is_Some (us !! u) -> is_Some (S1 !! at_account u)) -> Forall (payment bits) (m :: l') ->
            (forall from to amt, MsgSendCoins from to amt ∈ m :: l' -> is_Some (S1 !! at_balance from)) ->
            (forall k d, taken bits (m :: l') k d <= held bits S1 k d)%N -> r1 = Ok tt) as Hstep.
  { clear - Hne. intros m l S r S' H HI HH HV Hus HF HB HT. apply Forall_cons in HF as [(from & to & amt & -> & Hr & Ht) _].
    destruct H as [Hn|a S1 E|from' to' amt' r S1 E Hg Hs]; [|discriminate E|].
    - exfalso. apply Hn. apply external_grants; [done|done|]. intros u Hu. destruct (Hus u Hu) as [o Ho]. by apply (ho_bound _ HH u o).
    - injection E as <- <- <-. destruct (HB from to amt) as [o Ho]; [left|].
      eapply (covered_ok bits S from to amt); [done|done|eauto| |done]. intros x c e Hx.
      destruct (sv_each _ _ HV _ _ Hx) as (c' & E & _ & Hrc). injection E as -> ->.
      apply covered_sub; [done|done|]. intros d. specialize (HT from d). cbn [fold_right] in HT.
      destruct (decide (from = from)); [|done].
      assert (held bits S from d = worth bits c' d) as E by (unfold at_key; by rewrite bals_lookup, Hx). lia. }
  induction H as [S|m l S S1 r S2 H1 H2 IH|m l S e S1 H1]; [done| |].
  - apply IH.
    + by eapply ran_inv.
    + eapply changes_homes; [by eapply ran_changes|done].
    + apply Forall_cons in HF as [(from & to & amt & -> & Hr & Ht) _]. eapply ran_total; [apply HI|exact HV| |exact H1]. exact Ht.
    + intros u Hu. destruct (Hus u Hu) as [o Ho]. exists o. eapply changes_account_keep; [by eapply ran_changes|done].
    + by apply Forall_cons in HF as [_ HF].
    + intros from to amt Hm. eapply changes_balance_keep; [by eapply ran_changes|]. eapply (HB from to amt). by right.
    + intros k d. specialize (HT k d). cbn [fold_right] in HT. apply Forall_cons in HF as [(from & to & amt & -> & Hr & Ht) _].
      pose proof (ran_held bits us (MsgSendCoins from to amt) S (Ok tt) S1 k d (iv_wt _ HI) HV Ht H1) as Hh. cbn beta iota in Hh. lia.
  - exact (Hstep m l S (Fail e) S1 H1 HI HH HV Hus HF HB HT).
Qed.
Lemma fee_ok (bits : N) verify t S r S' : inv S -> solvent bits S -> admitted bits verify S t ->
  paid bits verify t S r S' -> r = Ok tt.
Proof.
  intros HI HV Ha Hp. destruct (bump_total bits (users_has1 (tx_users t)) S (iv_wt _ HI) HV) as [_ V].
  destruct (ad_fee _ _ _ _ Ha) as (a & c & c1 & Hc & Hs).
  assert (forall k, bump (users_has1 (tx_users t)) S !! at_balance k = S !! at_balance k) as E.
  { intros k. apply bump_other; [known|apply HI]. }
  assert (forall r0, sent bits (bump (users_has1 (tx_users t)) S) (tx_payer t) fee_collector (tx_fee t) r0 S' -> r0 = Ok tt) as H.
  { intros r0. apply covered_ok; [done|reflexivity|rewrite E; eauto|]. intros x c' e. rewrite E, Hc. intros [= <- <-]. congruence. }
  destruct Hp as [|e S2 _ Hp|]; [done| |done]. by apply H in Hp.
Qed.

Section Node.
  Context (C : codec) (bits : N) (verify : bytes -> bytes -> bytes -> bool).
  Context (enum : list (event object msg) -> users -> list user) (fuel : nat) (decode : bytes -> res tx).
  Context (HS : sound C enum decode).
  Context (good : object -> Prop) (HK : keeps C bits good) (Hbits : (bits <= 313)%N).
  Notation app := (test_app bits verify).
  Notation HA := (test_app_like bits verify).
  Notation O := (app_ops C).
  Notation R := (ap_registry app).
  Notation ORM := (orm_ops O R).
  Notation call := (call C bits verify enum fuel decode).
  Notation running := (running C bits verify enum fuel decode).
  Notation gets := (gets C bits verify).
  Notation pay := (pay C bits verify enum fuel).
  Notation send := (send C bits verify enum fuel).
  Notation reachable := (reachable C bits verify enum fuel decode).
  Notation shown := (shown C bits verify).
  Notation tracked := (tracked C bits verify).
  Notation bad := (fun o => storable O (schema_of o) o = false /\ good o).
  Notation settled := (settled C bits verify good).
  Implicit Types (S : amap) (x : node) (t : tx).

  (** ** Blocks *)
  Lemma begin_succeeds id x h rest : reachable id x -> 1 <= fuel ->
    good (OStage StBeginBlock) -> good (OBeginBlock (Some {| bb_height := Some h; bb_rest := rest |})) ->
    good (OCurrentBlock (Z.to_N (h mod 2 ^ 64))) ->
    succeeds bad (call (CallBeginBlock h rest) x).
  Proof.
    intros Hx Hf G1 G2 G3. apply (reachable_tracked C bits verify enum fuel decode HS) in Hx as [S HT].
    destruct (tracked_flags C bits verify x S HT) as [He _]. destruct fuel as [|f]; [lia|].
    unfold ChainSpec.call. cbn [abci_step]. unfold begin_block, rt_deliver, bytes_store, the_app. rewrite He.
    pose proof (twpd_begin C (so_codec _ _ _ HS) bits verify app HA enum (so_order _ _ _ HS) good HK Hbits f S h rest
      (fun r S' => r = Ok tt) (tracked_sane C bits verify x S HT) G1 G2 G3 (fun _ _ => eq_refl) (rt_world x) (tk_shown _ _ _ _ _ HT)) as H.
    destruct (deliver _ _ _ _ _ _ _ _ _) as [r w]. destruct H as [[Hd Hst]|(_ & S' & _ & E)]; cbn [fst snd] in *; try subst r.
    - right. destruct r; try done; cbn [Abci.or_panic fst snd]; (split; [tauto|by apply stuck_stopped]).
    - left. by exists tt.
  Qed.
  Lemma end_succeeds id x h : reachable id x -> 1 <= fuel ->
    good (OStage StEndBlock) -> good (OEndBlock (Some h)) -> succeeds bad (call (CallEndBlock h) x).
  Proof.
    intros Hx Hf G1 G2. apply (reachable_tracked C bits verify enum fuel decode HS) in Hx as [S HT].
    destruct (tracked_flags C bits verify x S HT) as [He _]. destruct fuel as [|f]; [lia|].
    unfold ChainSpec.call. cbn [abci_step]. unfold end_block, rt_deliver, bytes_store, the_app. rewrite He.
    pose proof (twpd_end C (so_codec _ _ _ HS) bits verify app HA enum (so_order _ _ _ HS) good HK Hbits f S h
      (fun r S' => r = Ok tt /\ inv S') (tracked_sane C bits verify x S HT) G1 G2 (fun S' H => conj eq_refl (proj1 H)) (rt_world x) (tk_shown _ _ _ _ _ HT)) as H.
    destruct (deliver _ _ _ _ _ _ _ _ _) as [r w]. destruct H as [[Hd Hst]|(_ & S' & HR & E & HI)]; cbn [fst snd] in *; try subst r.
    - right. destruct r; try done; cbn [Abci.or_panic fst snd]; (split; [cbn; tauto|by apply stuck_stopped]).
    - left. exists tt. cbn [Abci.or_panic set_world rt_world].
      destruct (updates_stored S' HI) as [l Ho]. by rewrite (stored_get C (so_codec _ _ _ HS) bits verify app HA S' (w_store w) _ _ _ HR (iv_wt _ HI) Ho).
  Qed.

  (** ** CheckTx *)
  Lemma run_admission_answers us m S (w : world object msg orm) : sane C S -> repr O R S (w_store w) -> askable m ->
    let y := run_admission_chain O msg_name ORM (env_of app enum true)
               (deliver O msg_name ORM (env_of app enum true) fuel false) us m w in
    alive (fst y) /\ repr O R S (w_store (snd y)).
  Proof.
    intros HSa HR Hm. cbv zeta. unfold run_admission_chain. cbn [en_router env_of].
    destruct (tl_routes _ _ _ HA m) as (_ & -> & _ & _).
    destruct (exec_of bits m); [|split; [exact I|exact HR]].
    pose proof (twph_admission C (so_codec _ _ _ HS) bits verify app HA enum (fun _ => False) fuel bad_request us m S HSa Hm w HR) as H.
    destruct H as [[_ (tr & o & u & _ & _ & [])]|(Ha & S' & HR' & ->)]. split; [exact Ha|exact HR'].
  Qed.
  Lemma check_answers id x raw : reachable id x -> alive (decode raw) ->
    (forall t, decode raw = Ok t -> named_roles t) -> alive (fst (call (CallCheckTx raw) x)).
  Proof.
    intros Hx Hd Hn. apply (reachable_tracked C bits verify enum fuel decode HS) in Hx as [S HT].
    destruct (tracked_flags C bits verify x S HT) as [He _].
    unfold ChainSpec.call. cbn [abci_step]. unfold check_tx, with_tx.
    destruct (decode raw) as [t|e| |] eqn:Ed; [|exact I|destruct Hd|destruct Hd]. specialize (Hn t eq_refl).
    pose proof (so_decoder _ _ _ HS raw t Ed) as HP.
    pose proof (admission_exact C bits verify enum fuel decode HS t x S ltac:(lia) (tk_shown _ _ _ _ _ HT) He HP) as [Hu Had].
    revert Hu Had. unfold ChainSpec.admission, at_world, bytes_store, the_app. cbv zeta. rewrite He.
    destruct (run_tx_admission_chain _ _ _ _ _ _) as [r w1]. cbn [fst snd]. unfold unchanged. cbn [set_world rt_world].
    intros Hu Had. destruct Had as [[-> _]|[[e ->] _]]; cbn [then_do]; [|exact I].
    assert (repr O R S (w_store w1)) as HR by (rewrite Hu; apply HT).
    clear Hu Ed HP. revert w1 HR. unfold named_roles in Hn. induction (tx_msgs t) as [|m l IH]; intros w1 HR; cbn [each_msg]; [exact I|].
    pose proof (run_admission_answers (tx_users t) m S w1 (tracked_sane C bits verify x S HT) HR) as H. cbv zeta in H.
    feed specialize H. { destruct m; try exact I. cbn [askable]. eapply Hn. left. }
    destruct (run_admission_chain _ _ _ _ _ _ _ _) as [r w2]. cbn [fst snd] in H. destruct H as [Ha HR2].
    destruct r as [[]|e| |]; [|exact I|destruct Ha|destruct Ha]. cbn [then_do]. apply IH; [|exact HR2].
    intros i s Hi. apply (Hn i s). right. exact Hi.
  Qed.

  (** ** Messages *)
  Lemma granted_shown x S v r us : shown x S -> granted (gets x) v r us <-> granted (map_stored S) v r us.
  Proof.
    intros Hx. split; apply granted_impl; intros ty k o Ht; unfold map_stored;
      (rewrite (reads_iff C bits verify enum decode HS x S ty k o Hx); [done|destruct Ht as [->| ->]; known]).
  Qed.
  Lemma covers_shown x S from amt : shown x S -> covers bits (gets x) from amt
    <-> exists a c r, S !! at_balance from = Some (OBalance a c) /\ safe_sub bits c amt = Ok r.
  Proof.
    intros Hx. unfold covers. split; intros (a & c & r & H & H'); exists a, c, r; (split; [|done]);
      by apply (reads_iff C bits verify enum decode HS x S ty_balance from _ Hx ltac:(known)).
  Qed.
  Lemma fatal_stops id x t m : reachable id x -> proper t -> short_addresses m ->
    fatal bits (gets x) (tx_users t) m -> ~ alive (fst (send (tx_users t) m x)).
  Proof.
    intros Hx HP Hs [HG Hm] Ha. apply (reachable_tracked C bits verify enum fuel decode HS) in Hx as [S HT].
    destruct (send (tx_users t) m x) as [r x'] eqn:E. cbn [fst] in Ha.
    destruct (send_tracked C bits verify enum fuel decode HS (tx_users t) m x S r x' HT (proper_wf t HP) (proper_ordinary t HP) E Ha) as (S' & _ & Hr).
    pose proof (tk_shown _ _ _ _ _ HT) as Hsh. apply (granted_shown x S _ _ _ Hsh) in HG.
    pose proof (fun ty k H => reads_has C bits verify enum decode HS x S ty k Hsh H) as Hh.
    pose proof (iv_wt _ (tk_inv _ _ _ _ _ HT)) as HW.
    destruct Hr as [Hn|a S1 -> _ [n N1 N2 N3 N4]|from to amt r S1 -> _ Hsent]; [done|..]; cbn [short_addresses] in Hs.
    - rewrite string_key_small in N2, N3, N4 by (unfold blen; lia). destruct Hm as [Hm|[Hm|Hm]]; [done|..].
      + apply (Hh ty_account) in Hm as [o Ho]; [congruence|known].
      + apply (Hh ty_binding) in Hm as [o Ho]; [congruence|known].
    - destruct Hs as [Hf Ht].
      assert (string_key from = from) as Kf by (apply string_key_small; unfold blen; lia).
      assert (string_key to = to) as Kt by (apply string_key_small; unfold blen; lia).
      assert (forall k o, S !! at_balance k = Some o -> k <> []) as Hne.
      { intros k o Ho. destruct (HW _ _ _ Ho) as (_ & _ & ?). done. }
      destruct Hm as [->|[Hc Hm]].
      { destruct Hsent; try done; by eapply Hne. }
      apply (covers_shown x S from amt Hsh) in Hc as (a0 & c0 & r0 & C1 & C2).
      assert (from <> []) as Hf0 by (by eapply Hne).
      assert (forall c, to = [] \/ ~ has (gets x) ty_balance to /\ walled (gets x) to ->
                from <> to /\ put_balance from c S !! at_balance to = None) as Hto.
      { intros c Hto. assert (S !! at_balance to = None) as Hb.
        { destruct (S !! at_balance to) as [o|] eqn:Eo; [|done]. destruct Hto as [->|[Hb _]]; [by apply Hne in Eo|].
          exfalso. apply Hb. apply Hh; [known|]. eauto. }
        assert (from <> to) as Hft by congruence. split; [done|]. rewrite Kf. by rewrite lookup_insert_ne by congruence. }
      destruct Hsent as [D1 D2|D1 D2 e D3 D4|y c c1 D1 D2 D3|y c c1 S2 z d e D1 D2 D3 D4 -> D5 D6|y c c1 S2 z d d1 D1 D2 D3 D4 -> D5 D6 D7
        |y c c1 S2 z d d1 D1 D2 D3 D4 -> D5 D6 D7 D8|y c c1 S2 S3 D1 D2 D3 D4 -> D5 D6 D7 D8 -> D9|y c c1 S2 S3 S4 D1 D2 D3 D4 -> D5 D6 D7 D8 -> D9 D10].
      + congruence.
      + congruence.
      + rewrite Kf in D3. congruence.
      + destruct (Hto c1 Hm) as [_ E1]. congruence.
      + destruct (Hto c1 Hm) as [_ E1]. congruence.
      + destruct (Hto c1 Hm) as [_ E1]. congruence.
      + destruct Hm as [?|[_ [Hm _]]]; [done|]. apply Hm. apply Hh; [known|]. destruct D9 as [o Ho].
        rewrite lookup_insert_ne in Ho by tyne. rewrite lookup_insert_ne in Ho by tyne. eauto.
      + destruct Hm as [?|[_ [_ Hm]]]; [done|]. apply Hh in Hm as [o Ho]; [|known].
        destruct D10 as [n _ _ _ N4]. cbn [fresh_account ac_address] in N4. rewrite Kt in N4.
        rewrite lookup_insert_ne in N4 by tyne. rewrite lookup_insert_ne in N4 by tyne. congruence.
  Qed.
  Lemma harmless_safe x S us m : shown x S -> wt S -> short_addresses m -> ~ fatal bits (gets x) us m ->
    granted (map_stored S) VDeliver (msg_name m) us -> safe_msg bits S m.
  Proof.
    intros Hsh HW Hs Hn HG. apply (granted_shown x S _ _ _ Hsh) in HG.
    pose proof (fun ty k H => reads_has C bits verify enum decode HS x S ty k Hsh H) as Hh.
    destruct m as [| | | | | |oa|oa| | | | |from to amt|]; try exact I; cbn [safe_msg short_addresses] in *.
    - destruct oa as [a|]; [|destruct Hn; by split]. exists a. rewrite string_key_small by (unfold blen; lia).
      split; [done|]. split; [|split].
      + intros E. apply Hn. split; [done|]. by left.
      + destruct (S !! at_account (ac_address a)) as [o|] eqn:E; [|done]. destruct Hn. split; [done|]. right. left.
        apply Hh; [known|]. eauto.
      + destruct (S !! at_binding (ac_address a)) as [o|] eqn:E; [|done]. destruct Hn. split; [done|]. right. right.
        apply Hh; [known|]. eauto.
    - destruct Hs as [Hf Ht]. split; [intros ->; apply Hn; split; [done|]; by left|].
      intros (y & c & c1 & A1 & A2 & _).
      assert (covers bits (gets x) from amt) as Hc by (apply (covers_shown x S from amt Hsh); eauto).
      split; [|split].
      + intros ->. apply Hn. split; [done|]. right. split; [done|]. by left.
      + unfold blen. lia.
      + intros B1 B2. destruct (S !! at_binding to) as [o|] eqn:E; [|done]. destruct Hn. split; [done|]. right. split; [done|].
        right. split; [|split].
        * rewrite Hh by known. rewrite B1. by intros [? ?].
        * rewrite Hh by known. rewrite B2. by intros [? ?].
        * apply Hh; [known|]. eauto.
  Qed.
  Lemma message_answers id x t m : reachable id x -> proper t -> 3 <= fuel -> short_addresses m -> good_msg good m ->
    ~ fatal bits (gets x) (tx_users t) m -> answers bad (send (tx_users t) m x).
  Proof.
    intros Hx HP Hf Hs Hg Hn. apply (reachable_tracked C bits verify enum fuel decode HS) in Hx as [S HT].
    eapply (settled_answers C bits verify good), (send_settled C bits verify enum fuel decode HS good HK Hbits t m x S HT HP Hf Hg).
    apply (harmless_safe x); [apply HT|apply HT|done|done].
  Qed.

  (** ** Transactions *)
  Lemma pay_answers id x t : reachable id x -> proper t -> 3 <= fuel -> good_to good fee_collector (tx_fee t) ->
    answers bad (pay t x).
  Proof.
    intros Hx HP Hf Hg. apply (reachable_homes C bits verify enum fuel decode HS) in Hx as (S & HT & HH).
    eapply (settled_answers C bits verify good), (pay_settled C bits verify enum fuel decode HS good HK Hbits t x S HT HH HP Hf Hg).
  Qed.
  Lemma paid_accounts t S r S' k : wt S -> paid bits verify t S r S' -> is_Some (S' !! at_account k) ->
    is_Some (S !! at_account k) \/ k = fee_collector.
  Proof.
    intros HW H Hk.
    assert (is_Some (bump (users_has1 (tx_users t)) S !! at_account k) -> is_Some (S !! at_account k)) as HB.
    { rewrite bump_lookup. destruct (S !! at_account k); [eauto|by intros []]. }
    destruct H as [|e S2 _ Hs|S2 _ Hs]; [by left|..]; (destruct (sent_accounts _ _ _ _ _ _ _ _ Hs Hk) as [H|H]; [left; auto|by right]).
  Qed.
  Lemma deliver_settled x S t raw : tracked x S -> homes S -> decode raw = Ok t -> 3 <= fuel ->
    good_to good fee_collector (tx_fee t) -> Forall (good_msg good) (tx_msgs t) -> tame_tx (gets x) t ->
    settled (call (CallDeliverTx raw) x) (fun r S' =>
      (exists e, r = Fail e /\ paid bits verify t S r S')
      \/ exists S1, paid bits verify t S (Ok tt) S1 /\ msgs_ran bits (tx_users t) (tx_msgs t) S1 r S').
  Proof.
    intros HT HH Hd Hf Hg Hg2 Ht. pose proof (so_decoder _ _ _ HS raw t Hd) as HP.
    rewrite (deliver_tx_parts C bits verify enum fuel decode raw t x Hd).
    pose proof (pay_settled C bits verify enum fuel decode HS good HK Hbits t x S HT HH HP Hf Hg) as H.
    destruct (pay t x) as [r x1]. destruct H as [[Hdd Hst]|(Ha & S1 & HT1 & Hp)]; cbn [fst snd] in *.
    { left. destruct r; [by destruct Hdd|by destruct Hdd|by split|by split]. }
    destruct r as [[]|e| |]; try done; cbn [then_do].
    2:{ right. split; [done|]. exists S1. split; [done|]. left. eauto. }
    pose proof (iv_wt _ (tk_inv _ _ _ _ _ HT)) as HW.
    pose proof (each_settled C bits verify enum fuel decode HS good HK Hbits t (tx_msgs t) [fee_collector] (gets x) x1 S1 HT1) as H.
    feed specialize H; [by eapply paid_homes|done|done|done| |done|].
    { intros k Hk. destruct (paid_accounts t S (Ok tt) S1 k HW Hp Hk) as [Hk'| ->]; [left|right; left].
      apply (reads_has C bits verify enum decode HS x S); [apply HT|known|done]. }
    destruct H as [H|(Ha2 & S2 & HT2 & Hm)]; [by left|right]. split; [done|]. exists S2. split; [done|]. right. eauto.
  Qed.
  Lemma deliver_answers id x raw : reachable id x -> alive (decode raw) -> 3 <= fuel ->
    (forall t, decode raw = Ok t ->
       good_to good fee_collector (tx_fee t) /\ Forall (good_msg good) (tx_msgs t) /\ tame_tx (gets x) t) ->
    answers bad (call (CallDeliverTx raw) x).
  Proof.
    intros Hx Hd Hf Ht. apply (reachable_homes C bits verify enum fuel decode HS) in Hx as (S & HT & HH).
    destruct (decode raw) as [t|e| |] eqn:Ed; [| |destruct Hd|destruct Hd].
    - destruct (Ht t eq_refl) as (G1 & G2 & G3).
      eapply (settled_answers C bits verify good), (deliver_settled x S t raw HT HH Ed Hf G1 G2 G3).
    - left. unfold ChainSpec.call. cbn [abci_step]. unfold deliver_tx, with_tx. rewrite Ed. exact I.
  Qed.

  (** ** Payments *)
  Lemma fee_succeeds id x t : reachable id x -> orderly bits (gets x) -> proper t -> admissible bits verify (gets x) t -> 3 <= fuel ->
    good_to good fee_collector (tx_fee t) -> succeeds bad (pay t x).
  Proof.
    intros Hx HO HP Had Hf Hg. apply (reachable_homes C bits verify enum fuel decode HS) in Hx as (S & HT & HH).
    apply (admissible_tracked C bits verify enum decode HS x S t (tk_shown _ _ _ _ _ HT) HP) in Had.
    apply (orderly_solvent bits verify _ S (shown_agree C bits verify enum decode HS x S (tk_shown _ _ _ _ _ HT))) in HO.
    pose proof (pay_settled C bits verify enum fuel decode HS good HK Hbits t x S HT HH HP Hf Hg) as [H|(Ha & S1 & HT1 & Hp)]; [by right|left].
    exists tt. eapply fee_ok; [apply HT|done|done|done].
  Qed.
  Lemma payments_succeed id x raw t : reachable id x -> orderly bits (gets x) -> decode raw = Ok t ->
    admissible bits verify (gets x) t -> 3 <= fuel ->
    good_to good fee_collector (tx_fee t) -> Forall (good_msg good) (tx_msgs t) ->
    (forall m, m ∈ tx_msgs t -> exists from to amt, m = MsgSendCoins from to amt
       /\ to <> [] /\ length to < 128 /\ to ∉ modules_of_app /\ readable bits amt /\ has (gets x) ty_balance from) ->
    (forall a d n, balance bits (gets x) a d n -> spent bits t a d <= n)%N ->
    succeeds bad (call (CallDeliverTx raw) x).
  Proof.
    intros Hx HO Hd Had Hf Hg Hg2 Hm Hb. pose proof (so_decoder _ _ _ HS raw t Hd) as HP.
    apply (reachable_homes C bits verify enum fuel decode HS) in Hx as (S & HT & HH).
    pose proof (tk_shown _ _ _ _ _ HT) as Hsh. pose proof (tk_inv _ _ _ _ _ HT) as HI.
    apply (admissible_tracked C bits verify enum decode HS x S t Hsh HP) in Had.
    pose proof (shown_agree C bits verify enum decode HS x S Hsh) as HAg.
    apply (orderly_solvent bits verify _ S HAg) in HO.
    assert (forall k d, spent bits t k d <= held bits S k d)%N as Hheld.
    { intros k d. apply (Hb k d). unfold at_key. rewrite bals_lookup. destruct (S !! at_balance k) as [o|] eqn:E.
      - destruct (sv_each _ _ HO _ _ E) as (c & -> & _ & _). left. exists c. split; [by apply (balance_reads _ S _ _ HAg)|done].
      - right. split; [|done]. intros o Ho. apply (balance_reads _ S _ _ HAg) in Ho. congruence. }
    assert (tame_tx (gets x) t) as Ht.
    { pose proof (iv_wt _ HI) as HW. unfold tame_tx. revert Hm. generalize [fee_collector]. clear - HO HAg HW.
      induction (tx_msgs t) as [|m l IH]; intros used Hm; cbn [tame]; [exact I|].
      destruct (Hm m) as (from & to & amt & -> & H1 & H2 & H3 & H4 & [o Ho]); [left|].
      apply (balance_reads _ S _ _ HAg) in Ho. destruct (sv_each _ _ HO _ _ Ho) as (c & -> & Hl & _).
      split; [split; [unfold blen in Hl; lia|done]|]. split; [|split; [done|split; [done|]]].
      - intros ->. by destruct (HW _ _ _ Ho) as (_ & _ & ?).
      - apply IH. intros m Hi. apply Hm. by right. }
    pose proof (deliver_settled x S t raw HT HH Hd Hf Hg Hg2 Ht) as [H|(Ha & S2 & HT2 & Hr)]; [by right|left]. exists tt.
    destruct Hr as [(e & E & Hp)|(S1 & Hp & Hr)].
    { rewrite E in Hp. by pose proof (fee_ok bits verify t S _ S2 HI HO Had Hp). }
    set (B := bump (users_has1 (tx_users t)) S).
    assert (sent bits B (tx_payer t) fee_collector (tx_fee t) (Ok tt) S1) as Hsent by (by inversion Hp).
    destruct (bump_total bits (users_has1 (tx_users t)) S (iv_wt _ HI) HO) as [_ VB]. fold B in VB.
    pose proof (bump_inv (users_has1 (tx_users t)) S HI) as HIB. fold B in HIB.
    assert (forall k, B !! at_balance k = S !! at_balance k) as EB.
    { intros k. apply bump_other; [known|apply HI]. }
    pose proof (sent_changes _ _ _ _ _ _ _ Hsent) as Hch.
    eapply payments_ok; [exact Hr|by eapply sent_inv|..].
    - eapply paid_homes; [apply HI|done|done].
    - eapply paid_total; [exact HI|exact HO|exact Hp].
    - by apply proper_nonempty.
    - intros u Hu. destruct (ad_accounts _ _ _ _ Had u Hu) as [o Ho].
      assert (is_Some (B !! at_account u)) as [o' Ho'] by (unfold B; rewrite bump_lookup, Ho; destruct o; eauto).
      exists o'. by eapply changes_account_keep.
    - apply Forall_forall. intros m Hi. destruct (Hm m Hi) as (from & to & amt & -> & H1 & H2 & H3 & H4 & _).
      exists from, to, amt. split; [done|]. split; [done|]. unfold blen. lia.
    - intros from to amt Hi. destruct (Hm _ Hi) as (from' & to' & amt' & E & _ & _ & _ & _ & Hh). injection E as <- <- <-.
      eapply changes_balance_keep; [exact Hch|]. rewrite EB.
      refine (proj1 (reads_has C bits verify enum decode HS x S ty_balance from Hsh _) Hh). known.
    - intros k d. specialize (Hheld k d). unfold spent in Hheld.
      pose proof (sent_held bits _ _ _ _ _ _ k d (iv_wt _ HIB) VB collector_short Hsent) as B1.
      assert (held bits B k d = held bits S k d) as E by (unfold at_key; by rewrite !bals_lookup, EB). lia.
  Qed.
End Node.
