(** The node does what the program of MachineSpec does. *)
From Coq Require Import NArith ZArith List Bool String Lia.
From stdpp Require Import base list gmap relations.
From Verif.Model Require Import Bytes KindEncoder Desc Schema Orm Users Errors Prog Router Runtime
  Services Module Builder Universe Coin CoreModules Rbac Bank Authn Distribution TestApp Abci.
From Verif.Spec Require Import UserSpec StoreSpec CoinSpec RbacSpec ChainSpec LiveSpec MachineSpec.
From Verif.Proofs Require Import OrmFacts UserFacts RuntimeFacts CoinFacts SimFacts AppFacts AppSim RbacFacts MapExec
  ChainInv ChainWp ChainRun ChainHist ChainView ChainFacts AdmissionFacts TotalNode SupplyFacts ChainProps ConsentFacts LiveFacts LiveProps LedgerFacts SignChain.

Local Ltac known := apply (bool_decide_unpack _); vm_compute; exact I.

Record kept (bits : N) (S : amap) (b : book) : Prop := {
  kp_height : S !! at_height = Some (OCurrentBlock (bk_height b));
  kp_next : S !! at_number = Some (OAccountNumber (bk_next b));
  kp_account : forall k, S !! at_account k = OAccount <$> bk_account b k;
  kp_purse : forall k, match bk_purse b k with
    | Some p => exists c, S !! at_balance k = Some (OBalance k c) /\ readable bits c /\ forall d, worth bits c d = p d
    | None => S !! at_balance k = None
    end
}.
Lemma kept_agree bits v S b : agree v S -> wt S -> kept bits S b -> shows bits v b.
Proof.
  intros A HW [H1 H2 H3 H4].
  assert (ty_current_block ∈ all_types /\ ty_account_number ∈ all_types /\ ty_account ∈ all_types /\ ty_balance ∈ all_types)
    as (K1 & K2 & K3 & K4) by (repeat split; known).
  split.
  - intros h. rewrite (A _ _ _), H1. split; [intros [_ E]; by injection E|intros ->; done].
  - intros h. rewrite (A _ _ _), H2. split; [intros [_ E]; by injection E|intros ->; done].
  - intros a acc. rewrite (A _ _ _), H3. destruct (bk_account b a) as [acc'|]; cbn; split.
    + intros [_ E]. by injection E as ->.
    + intros E. injection E as ->. done.
    + intros [_ E]. discriminate E.
    + discriminate.
  - intros a. specialize (H4 a). destruct (bk_purse b a) as [p|].
    + destruct H4 as (c & E & H). exists c. split; [by apply A|done].
    + intros o Ho. apply A in Ho as [_ Ho]. congruence.
Qed.

Lemma put_kept bits S b a c p : kept bits S b -> (blen a < 128)%N -> readable bits c -> (forall d, worth bits c d = p d) ->
  kept bits (put_balance a c S) (with_purse a p b).
Proof.
  intros [H1 H2 H3 H4] Ha Hr Hw. rewrite string_key_small by done. split; cbn [with_purse bk_height bk_next bk_account bk_purse].
  - by rewrite lookup_insert_ne by tyne.
  - by rewrite lookup_insert_ne by tyne.
  - intros k. by rewrite lookup_insert_ne by tyne.
  - intros k. unfold at_address. destruct (decide (k = a)) as [->|Hk].
    + exists c. by rewrite lookup_insert.
    + rewrite lookup_insert_ne by congruence. apply H4.
Qed.
Lemma created_kept bits S b acc S' : kept bits S b -> (blen (ac_address acc) < 128)%N -> created S acc S' ->
  bk_account b (ac_address acc) = None /\ kept bits S' (enter (ac_address acc) (ac_pubkey acc) b).
Proof.
  intros [H1 H2 H3 H4] Ha [n G1 G2 G3 G4]. rewrite string_key_small in * by done.
  rewrite H2 in G1. injection G1 as <-. split.
  { rewrite H3 in G3. by destruct (bk_account b (ac_address acc)). }
  split; cbn [enter bk_height bk_next bk_account bk_purse].
  - rewrite !lookup_insert_ne by tyne. done.
  - rewrite lookup_insert_ne by tyne. by rewrite lookup_insert.
  - intros k. rewrite lookup_insert_ne by tyne. rewrite lookup_insert_ne by tyne. unfold at_address.
    destruct (decide (k = ac_address acc)) as [->|Hk]; [by rewrite lookup_insert|]. rewrite lookup_insert_ne by congruence. apply H3.
  - intros k. specialize (H4 k). rewrite !lookup_insert_ne by tyne. exact H4.
Qed.

(** The purse and the coins stored. *)
Lemma covered_iff bits S b a amt : kept bits S b -> covered bits a amt b = true <->
  exists c, S !! at_balance a = Some (OBalance a c) /\ readable bits c /\ readable bits amt
    /\ forall d, (worth bits amt d <= worth bits c d)%N.
Proof.
  intros HK. pose proof (kp_purse _ _ _ HK a) as Hp. unfold covered. destruct (bk_purse b a) as [p|].
  - destruct Hp as (c & Hc & Hr & Hw). destruct (new_balance bits amt) as [l|e| |] eqn:E.
    + rewrite forallb_forall. split.
      * intros H. exists c. split; [done|]. split; [done|]. split; [by exists l|]. intros d. rewrite Hw.
        destruct (in_dec (fun x y => decide (x = y)) d (map fst l)) as [Hd|Hd]; [by apply N.leb_le, H|].
        replace (worth bits amt d) with 0%N; [lia|]. unfold worth. rewrite E. clear -Hd.
        induction l as [|x l IH]; [done|]. cbn [fold_right map] in *. rewrite decide_False by (intros <-; apply Hd; by left).
        apply IH. intros H. apply Hd. by right.
      * intros (c' & E' & _ & _ & H) d _. rewrite Hc in E'. injection E' as <-. apply N.leb_le. by rewrite <- Hw.
    + split; [discriminate|]. intros (_ & _ & _ & [l Hl] & _). rewrite E in Hl. discriminate Hl.
    + split; [discriminate|]. intros (_ & _ & _ & [l Hl] & _). rewrite E in Hl. discriminate Hl.
    + split; [discriminate|]. intros (_ & _ & _ & [l Hl] & _). rewrite E in Hl. discriminate Hl.
  - split; [discriminate|]. intros (c & E & _). congruence.
Qed.

(** One transfer. *)
Lemma sent_kept bits S b from to amt r S' : wt S -> solvent bits S -> (blen to < 128)%N -> kept bits S b ->
  sent bits S from to amt r S' ->
  (r = Ok tt <-> covered bits from amt b = true)
  /\ kept bits S' (if covered bits from amt b then transfer bits from to amt b else b).
Proof.
  intros HW HV Ht HK H.
  destruct (sent_total bits S from to amt r S' HW HV Ht H) as [_ HV'].
  assert (r = Ok tt \/ r <> Ok tt) as [->|Hr] by (destruct r as [[]| | |]; [left; done|right; discriminate..]).
  - assert (exists x c, S !! at_balance from = Some (OBalance x c)) as (x & c & Hx) by (inversion H; subst; eauto).
    destruct (sv_each _ _ HV _ _ Hx) as (c' & E & Hf & Hrc). injection E as -> <-.
    pose proof (sent_moved bits S from to amt S' HW Hf Ht H) as HM.
    assert (covered bits from amt b = true) as Hcov.
    { apply (covered_iff bits S b from amt HK). destruct (mv_sender _ _ _ _ _ _ HM) as (c' & F1 & F2 & F3 & F4 & _). by exists c'. }
    rewrite Hcov. split; [done|].
    pose proof (kp_purse _ _ _ HK from) as Hp. unfold transfer. destruct (bk_purse b from) as [p|] eqn:Ep; [|congruence].
    destruct Hp as (c' & E & _ & Hw). rewrite Hx in E. injection E as <-.
    assert (forall c1, safe_sub bits c amt = Ok c1 ->
              kept bits (put_balance from c1 S) (with_purse from (fun d => p d - worth bits amt d)%N b)) as HK1.
    { intros c1 Hs. destruct (sub_worth bits c amt c1 Hs) as (_ & _ & R & _ & W & _). apply put_kept; [done|done|done|].
      intros d. by rewrite W, Hw. }
    inversion H as [| | | | |x1 c2 c1 S1 y d d1 G1 G2 G3 G4 -> G5 G6 G7 G8|x1 c2 c1 S1 S2 G1 G2 G3 G4 -> G5 G6 G7 G8 -> G9|
      x1 c2 c1 S1 S2 S3 G1 G2 G3 G4 -> G5 G6 G7 G8 -> G9 G10]; subst; rewrite Hx in G1; injection G1 as <- <-;
      specialize (HK1 c1 G2); set (b1 := with_purse from _ b) in *;
      pose proof (kp_purse _ _ _ HK1 to) as Hp1.
    + rewrite G5 in Hp1. destruct (bk_purse b1 to) as [q|]; [|discriminate Hp1].
      destruct Hp1 as (c' & E & Hr' & Hw'). injection E as -> <-.
      destruct (sub_worth bits c amt c1 G2) as (_ & RA & _ & HL & _).
      destruct (add_worth bits d amt d1 RA G6) as (_ & HN & HB).
      assert (exists c', OBalance to d1 = OBalance to c' /\ (blen to < 128)%N /\ readable bits c') as (c' & E & _ & Hrd).
      { eapply (sv_each _ _ HV' to). rewrite (string_key_small to) by done. apply lookup_insert. }
      injection E as <-.
      assert (forall e, worth bits d e + worth bits amt e <= total bits S e)%N as HT.
      { intros e. assert (held bits S from e = worth bits c e) as Kf by (unfold at_key; by rewrite bals_lookup, Hx).
        specialize (HL e). destruct (decide (from = to)) as [<-|Hne].
        - rewrite string_key_small in G5 by done. rewrite lookup_insert in G5. injection G5 as ->.
          destruct (sub_worth bits c amt d G2) as (_ & _ & _ & _ & W & _). rewrite W.
          pose proof (sum_one bits e (bals S) from) as Hs. rewrite Kf in Hs. unfold total. lia.
        - rewrite string_key_small in G5 by done. rewrite lookup_insert_ne in G5 by congruence.
          assert (held bits S to e = worth bits d e) as Kt by (unfold at_key; by rewrite bals_lookup, G5).
          pose proof (sum_two bits e (bals S) from to Hne) as Hs. rewrite Kf, Kt in Hs. unfold total. lia. }
      destruct HB as [_ W].
      { intros e. destruct (sv_total _ _ HV e) as [B1 B2]. specialize (HT e). split; [|lia].
        eapply N.le_lt_trans; [|exact B1]. by apply N.mul_le_mono_r. }
      apply put_kept; [done|done|done|]. intros e. by rewrite W, Hw'.
    + rewrite G6 in Hp1. destruct (bk_purse b1 to) as [q|]; [destruct Hp1 as (? & E & _); discriminate E|].
      destruct (sub_worth bits c amt c1 G2) as (_ & RA & _).
      assert (kept bits (put_balance to amt (put_balance from c1 S)) (with_purse to (worth bits amt) b1)) as HK2
        by (apply put_kept; done).
      cbv zeta. pose proof (kp_account _ _ _ HK2 to) as Ha.
      destruct (bk_account (with_purse to (worth bits amt) b1) to) as [acc|]; [exact HK2|]. rewrite Ha in G9. by destruct G9.
    + rewrite G6 in Hp1. destruct (bk_purse b1 to) as [q|]; [destruct Hp1 as (? & E & _); discriminate E|].
      destruct (sub_worth bits c amt c1 G2) as (_ & RA & _).
      assert (kept bits (put_balance to amt (put_balance from c1 S)) (with_purse to (worth bits amt) b1)) as HK2
        by (apply put_kept; done).
      cbv zeta. destruct (created_kept bits _ _ (fresh_account to) S' HK2 Ht G10) as [E HK3].
      change (ac_address (fresh_account to)) with to in E, HK3. rewrite E. exact HK3.
  - pose proof (sent_fails_same bits S from to amt r S' HV Ht H Hr) as ->.
    destruct (covered bits from amt b) eqn:Hcov; [exfalso|split; [split; [done|discriminate]|done]].
    apply (covered_iff bits S b from amt HK) in Hcov as (c & Hx & Rc & Ra & HL).
    apply Hr. eapply (covered_ok bits S from to amt); [done|done|eauto| |done].
    intros x c' e Hx'. rewrite Hx in Hx'. injection Hx' as <- <-. by apply covered_sub.
Qed.

(** Messages. *)
Definition short_message (m : msg) : Prop :=
  match m with
  | MsgSendCoins _ to _ => (blen to < 128)%N
  | MsgCreateAccount (Some acc) => (blen (ac_address acc) < 128)%N
  | _ => True
  end.
Lemma short_message_to m : short_message m -> to_short m.
Proof. destruct m; done. Qed.
Lemma module_bound S u : inv S -> u ∈ modules_of_app -> is_Some (S !! at_binding u).
Proof.
  intros HI Hu. rewrite modules_of_app_eq in Hu. unfold module_names in Hu. apply elem_of_list_fmap in Hu as ([n r] & -> & Hn).
  destruct (iv_roles _ HI n r Hn) as [E _]. eexists. exact E.
Qed.
Lemma no_address_iff bits S b a : inv S -> homes S -> kept bits S b -> (blen a < 128)%N ->
  no_address a b = true <-> a = [] \/ is_Some (S !! at_account a) \/ is_Some (S !! at_binding a).
Proof.
  intros HI HH HK Ha. unfold no_address. rewrite !orb_true_iff, !bool_decide_eq_true, (kp_account _ _ _ HK). split.
  - intros [[H|H]|H]; [by left|right; right; by apply module_bound|right; left]. destruct (bk_account b a); [eauto|discriminate H].
  - intros [H|[H|[o H]]]; [by auto| |].
    + right. by destruct (bk_account b a); [|destruct H].
    + destruct (ho_housed _ HH _ _ H) as [Hm|Hm]; [left; right; by rewrite modules_of_app_eq|right].
      rewrite (kp_account _ _ _ HK) in Hm. by destruct (bk_account b a); [|destruct Hm].
Qed.
Lemma no_receiver_iff bits S b a : inv S -> homes S -> kept bits S b ->
  no_receiver a b = true <->
    a = [] \/ (S !! at_balance a = None /\ S !! at_account a = None /\ is_Some (S !! at_binding a)).
Proof.
  intros HI HH HK. unfold no_receiver. rewrite orb_true_iff, andb_true_iff, !bool_decide_eq_true.
  pose proof (kp_account _ _ _ HK a) as Ea. pose proof (kp_purse _ _ _ HK a) as Ep. split.
  - intros [H|[Hm H]]; [by left|right]. destruct (bk_purse b a); [discriminate H|]. destruct (bk_account b a); [discriminate H|].
    split; [exact Ep|]. split; [exact Ea|]. by apply module_bound.
  - intros [H|(H1 & H2 & [o H3])]; [by left|right].
    destruct (bk_purse b a); [destruct Ep as (c & E & _); congruence|].
    rewrite Ea in H2. destruct (bk_account b a); [discriminate H2|]. split; [|done].
    destruct (ho_housed _ HH _ _ H3) as [Hm|Hm]; [by rewrite modules_of_app_eq|]. rewrite Ea in Hm. by destruct Hm.
Qed.
Lemma sent_from bits S from to amt r S' : wt S -> sent bits S from to amt r S' -> from <> [].
Proof.
  intros HW H. assert (forall k o, S !! at_balance k = Some o -> k <> []) as Hne.
  { intros k o Ho. destruct (HW _ _ _ Ho) as (_ & _ & ?). done. }
  destruct H; [done|..]; by eapply Hne.
Qed.
Lemma sent_to bits S b from to amt S' : inv S -> homes S -> kept bits S b -> solvent bits S -> (blen to < 128)%N ->
  sent bits S from to amt (Ok tt) S' -> no_receiver to b = false.
Proof.
  intros HI HH HK HV Ht H. apply not_true_iff_false. intros Hn. apply (no_receiver_iff bits S b to HI HH HK) in Hn.
  assert (forall x c, S !! at_balance from = Some (OBalance x c) -> string_key from = from) as HF.
  { intros x c Hx. destruct (sv_each _ _ HV _ _ Hx) as (c' & E & Hf & _). by apply string_key_small. }
  inversion H as [| | | | |x1 c2 c1 S1 y d d1 G1 G2 G3 G4 -> G5 G6 G7 G8|x1 c2 c1 S1 S2 G1 G2 G3 G4 -> G5 G6 G7 G8 -> G9|
      x1 c2 c1 S1 S2 S3 G1 G2 G3 G4 -> G5 G6 G7 G8 -> G9 G10]; subst.
  - rewrite string_key_small in G8 by done. destruct Hn as [Hn|(N1 & _)]; [done|].
    rewrite (HF _ _ G1) in G5. destruct (decide (from = to)) as [<-|Hne]; [congruence|].
    rewrite lookup_insert_ne in G5 by congruence. congruence.
  - destruct Hn as [Hn|(_ & N2 & _)]; [done|]. rewrite !lookup_insert_ne in G9 by tyne. rewrite N2 in G9. by destruct G9.
  - destruct Hn as [Hn|(_ & _ & [o N3])]; [done|]. destruct G10 as [n J1 J2 J3 J4]. cbn [fresh_account ac_address] in J4.
    rewrite (string_key_small to) in J4 by done. rewrite !lookup_insert_ne in J4 by tyne. congruence.
Qed.
Lemma ran_kept bits us m S b r S' : inv S -> homes S -> solvent bits S -> us <> ∅ ->
  (forall u, is_Some (us !! u) -> is_Some (S !! at_account u)) -> short_message m -> kept bits S b ->
  ran bits us m S r S' ->
  exists yes b', do_message bits m b = Some (yes, b') /\ (r = Ok tt <-> yes = true) /\ kept bits S' b'.
Proof.
  intros HI HH HV Hne Hus Hm HK H.
  assert (granted (map_stored S) VDeliver (tt_name t_create_account) us /\ granted (map_stored S) VDeliver (tt_name t_send_coins) us)
    as [Gc Gs].
  { apply external_grants; [done|done|]. intros u Hu. destruct (Hus u Hu) as [o Ho]. by apply (ho_bound _ HH u o). }
  destruct H as [Hn|acc S1 -> _ Hc|from to amt r S1 -> _ Hs].
  - exists false, b. destruct m; try (split; [reflexivity|]; split; [split; discriminate|exact HK]).
    + exfalso. apply Hn, Gc.
    + exfalso. apply Hn, Gs.
  - cbn [do_message short_message] in *. destruct (created_kept bits S b acc S1 HK Hm Hc) as [En HK'].
    assert (no_address (ac_address acc) b = false) as ->.
    { apply not_true_iff_false. intros Hno. apply (no_address_iff bits S b _ HI HH HK Hm) in Hno.
      destruct Hc as [n J1 J2 J3 J4]. rewrite string_key_small in J2, J3, J4 by done.
      destruct Hno as [?|[[o Ho]|[o Ho]]]; congruence. }
    eexists true, _. split; [reflexivity|]. split; [done|exact HK'].
  - cbn [do_message short_message] in *. destruct (sent_kept bits S b from to amt r S1 (iv_wt _ HI) HV Hm HK Hs) as [Hr HK'].
    rewrite bool_decide_eq_false_2 by exact (sent_from bits S from to amt r S1 (iv_wt _ HI) Hs).
    destruct (covered bits from amt b).
    + assert (r = Ok tt) as -> by (by apply Hr). rewrite (sent_to bits S b from to amt S1 HI HH HK HV Hm Hs).
      eexists _, _. split; [reflexivity|]. split; [exact Hr|exact HK'].
    + eexists _, _. split; [reflexivity|]. split; [exact Hr|exact HK'].
Qed.
Lemma msgs_kept bits us l S r S' : inv S -> homes S -> solvent bits S -> us <> ∅ ->
  (forall u, is_Some (us !! u) -> is_Some (S !! at_account u)) -> Forall short_message l ->
  msgs_ran bits us l S r S' -> forall b, kept bits S b ->
  exists yes b', do_messages bits l b = Some (yes, b') /\ (r = Ok tt <-> yes = true) /\ kept bits S' b'.
Proof.
  intros HI HH HV Hne Hus HF H. induction H as [S|m l S S1 r S2 H1 H2 IH|m l S e S1 H1]; intros b HK.
  - exists true, b. done.
  - apply Forall_cons in HF as [Hm HF].
    destruct (ran_kept bits us m S b (Ok tt) S1 HI HH HV Hne Hus Hm HK H1) as (yes & b1 & E & Hy & HK1).
    destruct (ran_total bits us m S (Ok tt) S1 (iv_wt _ HI) HV (short_message_to m Hm) H1) as [_ V1].
    pose proof (ran_changes _ _ _ _ _ _ H1) as Hch.
    cbn [do_messages]. rewrite E. rewrite (proj1 Hy eq_refl).
    apply IH; [by eapply ran_inv|by eapply changes_homes|exact V1| |exact HF|exact HK1].
    intros u Hu. destruct (Hus u Hu) as [o Ho]. exists o. by eapply changes_account_keep.
  - apply Forall_cons in HF as [Hm HF].
    destruct (ran_kept bits us m S b (Fail e) S1 HI HH HV Hne Hus Hm HK H1) as (yes & b1 & E & Hy & HK1).
    cbn [do_messages]. rewrite E. destruct yes; [destruct Hy as [_ Hy]; discriminate (Hy eq_refl)|].
    exists false, b1. done.
Qed.

(** Transactions. *)
Lemma accepted_iff bits verify id S b t : inv S -> founded id S -> solvent bits S -> kept bits S b -> proper t ->
  accepted bits verify id t b = true <-> admitted bits verify S t.
Proof.
  intros HI HF HV HK HP. unfold accepted. rewrite !andb_true_iff, orb_true_iff, forallb_forall, N.eqb_eq, !N.leb_le.
  assert (forall s, has_signed verify id t b s = true <-> signer_ok verify S t id s) as Hsig.
  { intros s. unfold has_signed, signer_ok. rewrite (kp_account _ _ _ HK). destruct (bk_account b (sg_address s)) as [acc|]; cbn.
    - rewrite !andb_true_iff, N.eqb_eq. split.
      + intros [[H1 H2] H3]. exists acc. destruct (ac_pubkey acc); [|discriminate H1]. done.
      + intros (a & E & H1 & H2 & H3). injection E as <-. destruct (ac_pubkey acc); done.
    - split; [discriminate|]. intros (a & E & _). discriminate E. }
  split.
  - intros ((((H1 & H2) & H3) & H4) & H5). apply (covered_iff bits S b _ _ HK) in H5 as (c & Hc & Rc & Ra & HL).
    assert (Forall (signer_ok verify S t id) (tx_signers t)) as HS.
    { apply List.Forall_forall. intros s Hs. by apply Hsig, H1. }
    split.
    + intros u Hu. apply (proper_users t u HP) in Hu. unfold signs in Hu. apply elem_of_list_fmap in Hu as (s & -> & Hs).
      rewrite Forall_forall in HS. destruct (HS s Hs) as (a & Ha & _). eauto.
    + exists (bk_height b). split; [apply HK|exact H2].
    + exists initial_params. split; [exact (iv_params _ HI)|exact H3].
    + exists initial_params. split; [exact (iv_params _ HI)|exact H4].
    + exists id. split; [apply HF|exact HS].
    + destruct (covers_sub bits c (tx_fee t) Rc Ra HL) as [r Hr]. exists (tx_payer t), c, r. done.
  - intros [H1 (n & En & H2) (p & Ep & H3) (p' & Ep' & H4) (ch & Ech & H5) (x & c & r & Hx & Hr)].
    rewrite (iv_params _ HI) in Ep, Ep'. injection Ep as <-. injection Ep' as <-.
    rewrite (kp_height _ _ _ HK) in En. injection En as <-. rewrite (fd_name _ _ HF) in Ech. injection Ech as <-.
    split; [split; [split; [split|]|]|]; [|exact H2|exact H3|exact H4|].
    + intros s Hs. apply Hsig. rewrite List.Forall_forall in H5. by apply H5.
    + apply (covered_iff bits S b _ _ HK). destruct (sv_each _ _ HV _ _ Hx) as (c' & E & _ & Rc). injection E as -> <-.
      destruct (sub_worth bits c (tx_fee t) r Hr) as (R1 & R2 & _ & HL & _). exists c. done.
Qed.
Lemma bump_kept bits S b t : wt S -> proper t -> kept bits S b ->
  kept bits (bump (users_has1 (tx_users t)) S) (use_sequences t b).
Proof.
  intros HW HP [H1 H2 H3 H4]. split; cbn [use_sequences bk_height bk_next bk_account bk_purse].
  - by rewrite bump_other by (done || known).
  - by rewrite bump_other by (done || known).
  - intros k. rewrite bump_lookup, H3.
    assert (users_has1 (tx_users t) k = true <-> signs t k) as Hu.
    { rewrite <- (proper_users t k HP). apply has1_spec. }
    unfold signs in Hu. cbn [snd]. destruct (decide (k ∈ map sg_address (tx_signers t))) as [Hk|Hk].
    + rewrite (proj2 Hu Hk). by destruct (bk_account b k).
    + destruct (users_has1 (tx_users t) k); [destruct Hk; by apply Hu|]. by destruct (bk_account b k).
  - intros k. rewrite bump_other by (done || known). apply H4.
Qed.
Lemma tx_kept bits verify id t S b r S' : inv S -> homes S -> founded id S -> solvent bits S -> proper t ->
  Forall short_message (tx_msgs t) -> kept bits S b -> tx_ran bits verify t S r S' ->
  exists yes b', do_tx bits verify id t b = Some (yes, b') /\ (r = Ok tt <-> yes = true) /\ kept bits S' b'.
Proof.
  intros HI HH HF HV HP Hl HK H. pose proof (accepted_iff bits verify id S b t HI HF HV HK HP) as HA. unfold do_tx.
  destruct (bump_total bits (users_has1 (tx_users t)) S (iv_wt _ HI) HV) as [_ V].
  pose proof (bump_inv (users_has1 (tx_users t)) S HI) as HI'.
  pose proof (bump_kept bits S b t (iv_wt _ HI) HP HK) as HK'.
  destruct H as [e Hn|e S2 Ha H|S2 r S3 Ha H HM].
  - destruct (accepted bits verify id t b); [destruct Hn; by apply HA|].
    exists false, b. split; [reflexivity|]. split; [split; discriminate|exact HK].
  - assert (Fail (bad_request e) = Ok tt :> res unit) as Eq; [|discriminate Eq].
    eapply (fee_ok bits verify t S _ S2 HI HV Ha). by apply paid_no_fee.
  - rewrite (proj2 HA Ha).
    destruct (sent_kept bits _ _ _ _ _ _ _ (iv_wt _ HI') V collector_short HK' H) as [Hr HK2].
    rewrite (proj1 Hr eq_refl) in HK2.
    destruct (sent_total bits _ _ _ _ _ _ (iv_wt _ HI') V collector_short H) as [_ V2].
    pose proof (sent_changes _ _ _ _ _ _ _ H) as Hch.
    eapply (msgs_kept bits (tx_users t) (tx_msgs t) S2 r S3); [by eapply sent_inv| |exact V2| | |exact Hl|exact HM|exact HK2].
    + eapply changes_homes; [exact Hch|]. apply bump_homes; [apply HI|exact HH].
    + pose proof (pr_signed _ HP) as Hs. destruct (tx_signers t) as [|s l] eqn:Es; [done|].
      assert (signs t (sg_address s)) as Hg by (unfold signs; rewrite Es; left).
      apply (proper_users t _ HP) in Hg. intros E. rewrite E in Hg. destruct Hg as [? Hg]. by rewrite lookup_empty in Hg.
    + intros u Hu. destruct (ad_accounts _ _ _ _ Ha u Hu) as [o Ho].
      assert (is_Some (bump (users_has1 (tx_users t)) S !! at_account u)) as [o' Ho'].
      { rewrite bump_lookup, Ho. destruct o; eauto. }
      exists o'. by eapply changes_account_keep.
Qed.

(** Calls and histories. *)
Lemma call_kept bits verify (decode : bytes -> res tx) id S c b r S' : inv S -> homes S -> founded id S -> solvent bits S ->
  (forall raw t, decode raw = Ok t -> proper t) ->
  (forall raw t, c = CallDeliverTx raw -> decode raw = Ok t -> Forall short_message (tx_msgs t)) ->
  kept bits S b -> call_ran bits verify decode S c r S' ->
  exists yes b', do_call bits verify id decode c b = Some (yes, b') /\ as_answered c r yes /\ kept bits S' b'.
Proof.
  intros HI HH HF HV HD HL HK H. destruct H as [h rest|raw r Hr|raw e He|raw t r S' Ht Hr|h|]; cbn [do_call as_answered].
  - eexists true, _. split; [reflexivity|]. split; [done|]. destruct HK as [H1 H2 H3 H4].
    split; cbn [bk_height bk_next bk_account bk_purse].
    + apply lookup_insert.
    + rewrite !lookup_insert_ne by tyne. exact H2.
    + intros k. rewrite !lookup_insert_ne by tyne. apply H3.
    + intros k. specialize (H4 k). rewrite !lookup_insert_ne by tyne. exact H4.
  - eexists _, b. split; [reflexivity|]. split; [|exact HK]. intros E. destruct (Hr E) as (t & Ht & Ha). rewrite Ht.
    apply (accepted_iff bits verify id S b t HI HF HV HK (HD raw t Ht)). exact Ha.
  - rewrite He. exists false, b. split; [reflexivity|]. split; [split; discriminate|exact HK].
  - rewrite Ht. eapply tx_kept; [done..|by eapply HD|by eapply HL|exact HK|exact Hr].
  - exists true, b. split; [reflexivity|]. split; [done|]. destruct HK as [H1 H2 H3 H4]. split.
    + rewrite !lookup_insert_ne by tyne. exact H1.
    + rewrite !lookup_insert_ne by tyne. exact H2.
    + intros k. rewrite !lookup_insert_ne by tyne. apply H3.
    + intros k. specialize (H4 k). rewrite !lookup_insert_ne by tyne. exact H4.
  - exists true, b. done.
Qed.
Lemma history_kept bits verify (decode : bytes -> res tx) id cs S S' : inv S -> homes S -> founded id S -> solvent bits S ->
  (forall raw t, decode raw = Ok t -> proper t) ->
  (forall raw t, CallDeliverTx raw ∈ cs -> decode raw = Ok t -> Forall short_message (tx_msgs t)) ->
  history bits verify decode cs S S' -> forall b, kept bits S b ->
  homes S' /\ founded id S' /\ solvent bits S' /\ exists b', do_calls bits verify id decode cs b = Some b' /\ kept bits S' b'.
Proof.
  intros HI HH HF HV HD HL H. induction H as [S|c cs S r S1 S' Hc _ IH]; intros b HK.
  { split; [exact HH|]. split; [exact HF|]. split; [exact HV|]. by exists b. }
  destruct (call_kept bits verify decode id S c b r S1 HI HH HF HV HD) as (yes & b1 & E & _ & HK1); [|exact HK|exact Hc|].
  { intros raw t -> Ht. eapply HL; [left|exact Ht]. }
  cbn [do_calls]. rewrite E. apply IH; [by eapply call_ran_inv|exact (call_ran_homes _ _ _ _ _ _ _ (iv_wt _ HI) Hc HH)|
    exact (call_ran_founded _ _ _ _ _ _ _ _ (iv_wt _ HI) Hc HF)| | |exact HK1].
  - eapply (call_ran_total bits verify decode S c r S1 HI HV); [|exact Hc]. intros raw t -> Ht.
    eapply Forall_impl; [eapply HL; [left|exact Ht]|]. apply short_message_to.
  - intros raw t Hr. apply HL. by right.
Qed.
Lemma genesis_kept bits id : (93 <= bits)%N -> kept bits (genesis_store id) first_book.
Proof.
  intros Hb. destruct (worth_set bits genesis_coins genesis_amount [] genesis_coin_set (genesis_within bits Hb)) as [HR _].
  split.
  - vm_compute. reflexivity.
  - vm_compute. reflexivity.
  - intros k. cbn [first_book bk_account]. unfold at_address. destruct (decide (k = genesis_address)) as [->|Hk]; [vm_compute; reflexivity|].
    destruct (genesis_store id !! at_account k) as [o|] eqn:E; [|reflexivity]. exfalso. apply Hk.
    pose proof (genesis_numbering id) as HN. assert (k ∈ [genesis_address]) as Hi by (apply (nu_keys _ _ HN); eauto).
    by apply elem_of_list_singleton in Hi.
  - intros k. cbn [first_book bk_purse]. unfold at_address at 1. destruct (decide (k = genesis_address)) as [->|Hk].
    + exists genesis_coins. split; [vm_compute; reflexivity|]. split; [exact HR|]. intros d.
      apply (worth_set bits genesis_coins genesis_amount d genesis_coin_set (genesis_within bits Hb)).
    + destruct (genesis_store id !! at_balance k) as [o|] eqn:E; [|reflexivity]. apply genesis_balances in E as [E _]. done.
Qed.

Section Node.
  Context (C : codec) (bits : N) (verify : bytes -> bytes -> bytes -> bool).
  Context (enum : list (event object msg) -> users -> list user) (fuel : nat) (decode : bytes -> res tx).
  Context (HS : sound C enum decode).
  Notation call := (call C bits verify enum fuel decode).
  Notation gets := (gets C bits verify).
  Notation running := (running C bits verify enum fuel decode).
  Implicit Types (S : amap) (x : node) (t : tx).

  Lemma shorts t : addressed_shortly t -> Forall short_message (tx_msgs t).
  Proof.
    intros [H1 H2]. apply Forall_forall. intros m Hm. destruct m as [| | | | | | | | | | |o| from to amt|]; try exact I; cbn [short_message]; try exact I.
    - match goal with |- match ?o with _ => _ end => destruct o as [acc|]; [|exact I] end. specialize (H2 acc Hm). unfold blen. lia.
    - destruct (H1 from to amt Hm). unfold blen. lia.
  Qed.
  Lemma machine_kept id cs x : (93 <= bits)%N -> running id cs x ->
    (forall raw t, CallDeliverTx raw ∈ cs -> decode raw = Ok t -> addressed_shortly t) ->
    exists S b, tracked C bits verify x S /\ homes S /\ founded id S /\ solvent bits S
      /\ do_calls bits verify id decode cs first_book = Some b /\ kept bits S b.
  Proof.
    intros Hb Hr Hl. destruct (running_tracked C bits verify enum fuel decode HS id cs x Hr) as (S & HT & Hh).
    destruct (genesis_solvent bits id Hb) as [_ V].
    destruct (history_kept bits verify decode id cs (genesis_store id) S (genesis_inv id) (genesis_homes id) (genesis_founded id) V
      (so_decoder _ _ _ HS)) with (b := first_book) as (H1 & H2 & H3 & b & H4 & H5);
      [|exact Hh|by apply genesis_kept|].
    { intros raw t Hi Ht. by eapply shorts, Hl. }
    exists S, b. done.
  Qed.
  Lemma machine_run id cs x : (93 <= bits)%N -> running id cs x ->
    (forall raw t, CallDeliverTx raw ∈ cs -> decode raw = Ok t -> addressed_shortly t) ->
    exists b, do_calls bits verify id decode cs first_book = Some b /\ shows bits (gets x) b.
  Proof.
    intros Hb Hr Hl. destruct (machine_kept id cs x Hb Hr Hl) as (S & b & HT & _ & _ & _ & E & HK).
    exists b. split; [exact E|]. apply (kept_agree bits (gets x) S b); [|apply (tk_inv _ _ _ _ _ HT)|exact HK].
    apply (shown_agree C bits verify enum decode HS), (tk_shown _ _ _ _ _ HT).
  Qed.
  Lemma machine_step id cs x c r x' b : (93 <= bits)%N -> running id cs x ->
    (forall raw t, CallDeliverTx raw ∈ cs ++ [c] -> decode raw = Ok t -> addressed_shortly t) ->
    do_calls bits verify id decode cs first_book = Some b ->
    call c x = (r, x') -> alive r ->
    exists yes b', do_call bits verify id decode c b = Some (yes, b') /\ as_answered c r yes /\ shows bits (gets x') b'.
  Proof.
    intros Hb Hr Hl E Hc Ha. destruct (machine_kept id cs x Hb Hr) as (S & b1 & HT & H1 & H2 & H3 & E1 & HK).
    { intros raw t Hi. apply Hl. apply elem_of_app. by left. }
    rewrite E in E1. injection E1 as <-.
    destruct (call_tracked C bits verify enum fuel decode HS x S c r x' HT Hc Ha) as (S' & HT' & Hcr).
    destruct (call_kept bits verify decode id S c b r S' (tk_inv _ _ _ _ _ HT) H1 H2 H3 (so_decoder _ _ _ HS)) as (yes & b' & E1 & Hy & HK');
      [|exact HK|exact Hcr|].
    { intros raw t -> Ht. eapply shorts, Hl; [|exact Ht]. apply elem_of_app. right. left. }
    exists yes, b'. split; [exact E1|]. split; [exact Hy|].
    apply (kept_agree bits (gets x') S' b'); [|apply (tk_inv _ _ _ _ _ HT')|exact HK'].
    apply (shown_agree C bits verify enum decode HS), (tk_shown _ _ _ _ _ HT').
  Qed.
End Node.
