(** The node stops where the program of MachineSpec has no answer, and answers
    where it has one. *)
From Coq Require Import NArith ZArith List Bool String Lia.
From stdpp Require Import base list gmap relations.
From Verif.Model Require Import Bytes KindEncoder Desc Schema Orm Users Errors Prog Router Runtime
  Services Module Builder Universe Coin CoreModules Rbac Bank Authn Distribution TestApp Abci.
From Verif.Spec Require Import UserSpec StoreSpec CoinSpec RbacSpec ChainSpec LiveSpec MachineSpec.
From Verif.Proofs Require Import OrmFacts UserFacts RuntimeFacts CoinFacts SimFacts AppFacts AppSim RbacFacts MapExec
  ChainInv ChainWp ChainRun ChainHist ChainView ChainFacts AdmissionFacts TotalNode SupplyFacts ChainProps ConsentFacts LiveFacts LiveProps LedgerFacts SignChain MachineFacts.

Local Ltac known := apply (bool_decide_unpack _); vm_compute; exact I.

Section Node.
  Context (C : codec) (bits : N) (verify : bytes -> bytes -> bytes -> bool).
  Context (enum : list (event object msg) -> users -> list user) (fuel : nat) (decode : bytes -> res tx).
  Context (HS : sound C enum decode) (Hbits : (bits <= 313)%N) (Hfuel : 3 <= fuel).
  Notation call := (call C bits verify enum fuel decode).
  Notation gets := (gets C bits verify).
  Notation pay := (pay C bits verify enum fuel).
  Notation send := (send C bits verify enum fuel).
  Notation running := (running C bits verify enum fuel decode).
  Notation reachable := (reachable C bits verify enum fuel decode).
  Notation tracked := (tracked C bits verify).
  Notation stuck := (cannot_store C bits verify).
  Implicit Types (S : amap) (x : node) (t : tx).

  Lemma fatal_iff x S b us m : tracked x S -> homes S -> solvent bits S -> kept bits S b -> us <> ∅ ->
    (forall u, is_Some (us !! u) -> is_Some (S !! at_account u)) -> short_addresses m ->
    fatal bits (gets x) us m <-> do_message bits m b = None.
  Proof.
    intros HT HH HV HK Hne Hus Hm. pose proof (tk_inv _ _ _ _ _ HT) as HI. pose proof (tk_shown _ _ _ _ _ HT) as Hsh.
    assert (granted (map_stored S) VDeliver (tt_name t_create_account) us /\ granted (map_stored S) VDeliver (tt_name t_send_coins) us)
      as [Gc Gs].
    { apply external_grants; [done|done|]. intros u Hu. destruct (Hus u Hu) as [o Ho]. by apply (ho_bound _ HH u o). }
    pose proof (granted_shown C bits verify enum decode HS x S VDeliver (tt_name t_create_account) us Hsh) as G1.
    pose proof (granted_shown C bits verify enum decode HS x S VDeliver (tt_name t_send_coins) us Hsh) as G2.
    pose proof (fun ty k H => reads_has C bits verify enum decode HS x S ty k Hsh H) as Hh.
    assert (ty_account ∈ all_types /\ ty_balance ∈ all_types /\ ty_binding ∈ all_types) as (K1 & K2 & K3) by (repeat split; known).
    unfold fatal. destruct m as [| | | | | | |oa| | | | |from to amt|];
      try (split; [intros [_ []]|discriminate]); cbn [do_message short_addresses] in *.
    - destruct oa as [acc|]; [|split; [done|]; intros _; split; [by apply G1|done]].
      pose proof (no_address_iff bits S b (ac_address acc) HI HH HK ltac:(unfold blen; lia)) as HN.
      destruct (no_address (ac_address acc) b).
      + split; [done|]. intros _. split; [by apply G1|]. rewrite !Hh by done. by apply HN.
      + split; [|discriminate]. intros [_ H]. rewrite !Hh in H by done. apply HN in H. discriminate H.
    - destruct Hm as [Hf Ht].
      assert (covers bits (gets x) from amt <-> covered bits from amt b = true) as Hcov.
      { rewrite (covers_shown C bits verify enum decode HS x S from amt Hsh), (covered_iff bits S b from amt HK). split.
        - intros (a & c & r & Hx & Hr). destruct (sv_each _ _ HV _ _ Hx) as (c' & E & _ & Rc). injection E as -> <-.
          destruct (sub_worth bits c amt r Hr) as (R1 & R2 & _ & HL & _). exists c. done.
        - intros (c & Hx & R1 & R2 & HL). destruct (covers_sub bits c amt R1 R2 HL) as [r Hr]. exists from, c, r. done. }
      pose proof (no_receiver_iff bits S b to HI HH HK) as HN.
      assert ((to = [] \/ ~ has (gets x) ty_balance to /\ walled (gets x) to) <->
              (to = [] \/ S !! at_balance to = None /\ S !! at_account to = None /\ is_Some (S !! at_binding to))) as Hw.
      { unfold walled. rewrite !Hh by done. rewrite !eq_None_not_Some. tauto. }
      destruct (bool_decide_reflect (from = [])) as [->|Hfn].
      { split; [done|]. intros _. split; [by apply G2|]. by left. }
      destruct (covered bits from amt b).
      + destruct (no_receiver to b).
        * split; [done|]. intros _. split; [by apply G2|]. right. split; [by apply Hcov|]. by apply Hw, HN.
        * split; [|discriminate]. intros [_ [H|[_ H]]]; [done|]. apply Hw, HN in H. discriminate H.
      + split; [|discriminate]. intros [_ [H|[H _]]]; [done|]. apply Hcov in H. discriminate H.
  Qed.

  Lemma users_nonempty t : proper t -> tx_users t <> ∅.
  Proof.
    intros HP. pose proof (pr_signed _ HP) as Hsg. destruct (tx_signers t) as [|s l] eqn:El; [done|].
    assert (signs t (sg_address s)) as Hg by (unfold signs; rewrite El; left).
    apply (proper_users t _ HP) in Hg. intros E. rewrite E in Hg. destruct Hg as [? Hg]. by rewrite lookup_empty in Hg.
  Qed.
  Lemma short_short m : short_addresses m -> short_message m.
  Proof. destruct m as [| | | | | | |[]| | | | | |]; try done; cbn [short_addresses short_message]; unfold blen; lia. Qed.
  Lemma gone {A} (r : res A) : ~ alive r -> (forall a, r <> Ok a) /\ (forall e, r <> Fail e).
  Proof. intros H. destruct r; split; intros ? E; injection E || done; intros; destruct H; exact I. Qed.
  Lemma each_stops id t l : proper t -> forall x S b, reachable id x -> tracked x S -> homes S -> solvent bits S -> kept bits S b ->
    (forall u, is_Some (tx_users t !! u) -> is_Some (S !! at_account u)) -> tx_users t <> ∅ -> Forall short_addresses l ->
    match do_messages bits l b with
    | None => ~ alive (fst (each_msg (send (tx_users t)) l x))
    | Some _ => answers stuck (each_msg (send (tx_users t)) l x)
    end.
  Proof.
    intros HP. induction l as [|m l IH]; intros x S b Hx HT HH HV HK Hus Hne HF; cbn [each_msg do_messages].
    { by left. }
    apply Forall_cons in HF as [Hm HF].
    pose proof (fatal_iff x S b (tx_users t) m HT HH HV HK Hne Hus Hm) as HFa.
    destruct (message_any C bits verify enum fuel decode HS Hbits id x t m Hx HP Hfuel Hm) as [M1 M2].
    destruct (do_message bits m b) as [[yes b1]|] eqn:Ed.
    - assert (~ fatal bits (gets x) (tx_users t) m) as Hn by (intros H; apply HFa in H; discriminate H).
      specialize (M2 Hn). clear M1 HFa Hn.
      destruct (send (tx_users t) m x) as [r x1] eqn:Es. destruct M2 as [Ha|[Hd Hst]]; cbn [fst snd] in *.
      + destruct (send_tracked C bits verify enum fuel decode HS (tx_users t) m x S r x1 HT (proper_wf t HP) (proper_ordinary t HP) Es Ha)
          as (S1 & HT1 & Hr).
        destruct (ran_kept bits (tx_users t) m S b r S1 (tk_inv _ _ _ _ _ HT) HH HV Hne Hus (short_short m Hm) HK Hr) as (yes' & b1' & E & Hy & HK1).
        rewrite Ed in E. injection E as <- <-.
        destruct (ran_res _ _ _ _ _ _ Hr) as [->|[e ->]].
        * rewrite (proj1 Hy eq_refl). cbn [then_do].
          pose proof (ran_changes _ _ _ _ _ _ Hr) as Hch.
          apply (IH x1 S1 b1); [|exact HT1|by eapply changes_homes| |exact HK1| |exact Hne|exact HF].
          -- exact (re_sent C bits verify enum fuel decode id x t m (Ok tt) x1 Hx HP Es I).
          -- eapply (ran_total bits (tx_users t) m S (Ok tt) S1); [apply (tk_inv _ _ _ _ _ HT)|exact HV| |exact Hr].
             apply short_message_to, short_short, Hm.
          -- intros u Hu. destruct (Hus u Hu) as [o Ho]. exists o. by eapply changes_account_keep.
        * destruct yes; [destruct Hy as [_ Hy]; discriminate (Hy eq_refl)|]. cbn [then_do]. by left.
      + assert (then_do (r, x1) (each_msg (send (tx_users t)) l) = (r, x1)) as -> by (destruct r; [by destruct Hd|by destruct Hd|done..]).
        destruct yes; [|by right]. destruct (do_messages bits l b1); [by right|done].
    - specialize (M1 (proj2 HFa eq_refl)). destruct (send (tx_users t) m x) as [r x1]. cbn [fst] in M1.
      destruct r; [by destruct M1|by destruct M1|done..].
  Qed.

  Lemma tx_stops id t x S b : proper t -> reachable id x -> tracked x S -> homes S -> founded id S -> solvent bits S -> kept bits S b ->
    Forall short_addresses (tx_msgs t) ->
    match do_tx bits verify id t b with
    | None => ~ alive (fst (then_do (pay t x) (each_msg (send (tx_users t)) (tx_msgs t))))
    | Some _ => answers stuck (then_do (pay t x) (each_msg (send (tx_users t)) (tx_msgs t)))
    end.
  Proof.
    intros HP Hx HT HH HFd HV HK HF. pose proof (tk_inv _ _ _ _ _ HT) as HI.
    pose proof (accepted_iff bits verify id S b t HI HFd HV HK HP) as HA. unfold do_tx.
    pose proof (pay_any C bits verify enum fuel decode HS Hbits id x t Hx HP Hfuel) as Hp.
    destruct (pay t x) as [r x1] eqn:Es. destruct Hp as [Ha|[Hd Hst]]; cbn [fst snd] in *.
    - destruct (pay_tracked C bits verify enum fuel decode HS t x S r x1 HT HP Es Ha) as (S1 & HT1 & Hr).
      destruct (accepted bits verify id t b).
      + pose proof (proj1 HA eq_refl) as Had. pose proof (fee_ok bits verify t S r S1 HI HV Had Hr) as ->. cbn [then_do].
        destruct (paid_total bits verify t S (Ok tt) S1 HI HV Hr) as [_ V1].
        inversion Hr as [|? ? ? Hs|? _ Hs]; subst.
        destruct (bump_total bits (users_has1 (tx_users t)) S (iv_wt _ HI) HV) as [_ V].
        pose proof (bump_inv (users_has1 (tx_users t)) S HI) as HI'.
        pose proof (bump_kept bits S b t (iv_wt _ HI) HP HK) as HK'.
        destruct (sent_kept bits _ _ _ _ _ _ _ (iv_wt _ HI') V collector_short HK' Hs) as [Hc HK2].
        rewrite (proj1 Hc eq_refl) in HK2.
        apply (each_stops id t (tx_msgs t) HP x1 S1); [|exact HT1| |exact V1|exact HK2| | |exact HF].
        * exact (re_paid C bits verify enum fuel decode id x t (Ok tt) x1 Hx HP Es I).
        * exact (paid_homes _ _ _ _ _ _ (iv_wt _ HI) Hr HH).
        * intros u Hu. destruct (ad_accounts _ _ _ _ Had u Hu) as [o Ho].
          assert (is_Some (bump (users_has1 (tx_users t)) S !! at_account u)) as [o' Ho'].
          { rewrite bump_lookup, Ho. destruct o; eauto. }
          exists o'. eapply changes_account_keep; [by eapply sent_changes|exact Ho'].
        * exact (users_nonempty t HP).
      + inversion Hr as [e Hn|? ? Had|? Had]; subst; [cbn [then_do]; by left|apply HA in Had; discriminate Had..].
    - assert (then_do (r, x1) (each_msg (send (tx_users t)) (tx_msgs t)) = (r, x1)) as -> by (destruct r; [by destruct Hd|by destruct Hd|done..]).
      destruct (if accepted bits verify id t b then _ else _); [right; split; [exact Hd|exact Hst]|exact Hd].
  Qed.

  Lemma shortly t : addressed_shortly t -> Forall short_addresses (tx_msgs t).
  Proof.
    intros [H1 H2]. apply Forall_forall. intros m Hm. destruct m as [| | | | | | |[acc|]| | | | |from to amt|]; try exact I.
    - exact (H2 acc Hm).
    - exact (H1 from to amt Hm).
  Qed.
  Lemma machine_stops id cs x raw b : (93 <= bits)%N -> running id cs x ->
    (forall raw' t, CallDeliverTx raw' ∈ cs ++ [CallDeliverTx raw] -> decode raw' = Ok t -> addressed_shortly t) ->
    do_calls bits verify id decode cs first_book = Some b ->
    match do_call bits verify id decode (CallDeliverTx raw) b with
    | None => ~ alive (fst (call (CallDeliverTx raw) x))
    | Some _ => answers stuck (call (CallDeliverTx raw) x)
    end.
  Proof.
    intros Hb Hr Hl E. destruct (machine_kept C bits verify enum fuel decode HS id cs x Hb Hr) as (S & b1 & HT & H1 & H2 & H3 & E1 & HK).
    { intros raw' t Hi. apply Hl. apply elem_of_app. by left. }
    rewrite E in E1. injection E1 as <-. cbn [do_call].
    pose proof (re_running C bits verify enum fuel decode id cs x Hr) as Hx.
    destruct (decode raw) as [t|e| |] eqn:Ed.
    - rewrite (deliver_tx_parts C bits verify enum fuel decode raw t x Ed).
      apply (tx_stops id t x S b (so_decoder _ _ _ HS raw t Ed) Hx HT H1 H2 H3 HK).
      apply shortly. apply (Hl raw t); [|exact Ed]. apply elem_of_app. right. left.
    - left. unfold ChainSpec.call. cbn [abci_step]. unfold deliver_tx, with_tx. rewrite Ed. exact I.
    - unfold ChainSpec.call. cbn [abci_step]. unfold deliver_tx, with_tx. rewrite Ed. intros H. exact H.
    - unfold ChainSpec.call. cbn [abci_step]. unfold deliver_tx, with_tx. rewrite Ed. intros H. exact H.
  Qed.
End Node.
