(** What a call can take from an address. *)
From Coq Require Import NArith ZArith List Bool String Lia.
From stdpp Require Import base list gmap relations.
From Verif.Model Require Import Bytes KindEncoder Desc Schema Orm Users Errors Prog Router Runtime
  Services Module Builder Universe Coin CoreModules Rbac Bank Authn Distribution TestApp Abci.
From Verif.Spec Require Import UserSpec StoreSpec CoinSpec RbacSpec ChainSpec.
From Verif.Proofs Require Import OrmFacts UserFacts RuntimeFacts CoinFacts SimFacts AppFacts AppSim RbacFacts MapExec
  ChainInv ChainWp ChainRun ChainHist ChainView ChainFacts AdmissionFacts SupplyFacts ChainProps.

Notation held bits S k d := (at_key bits d (bals S) k).

Lemma moved_held (bits : N) S S' from to amt k d : solvent bits S -> moved bits S S' from to amt ->
  (held bits S k d <= held bits S' k d + if decide (from = k) then worth bits amt d else 0)%N.
Proof.
  intros [V1 V2] [(c & F1 & F2 & F3 & F4 & c' & F5 & F6) HR HO _].
  assert (forall d, held bits S from d = worth bits c d) as Kf.
  { intros e. unfold at_key. by rewrite bals_lookup, F1. }
  destruct (decide (from = k)) as [<-|Hk].
  - rewrite Kf. assert (held bits S' from d = worth bits c' d) as -> by (unfold at_key; by rewrite bals_lookup, F5).
    destruct (decide (from = to)) as [<-|Hne].
    + destruct (worth_set bits c' (fun d => worth bits c d) d (proj1 F6)) as [_ E]; [intros e; apply worth_bound|]. rewrite E. lia.
    + destruct (worth_set bits c' (fun d => worth bits c d - worth bits amt d)%N d (proj1 F6)) as [_ E].
      { intros e. destruct (worth_bound bits c e). split; nia. }
      rewrite E. specialize (F4 d). lia.
  - destruct (decide (k = to)) as [->|Hk'].
    + destruct (HR Hk) as [(e & R1 & R2 & e' & R3 & R4)|[R1 R2]].
      * assert (forall d, held bits S to d = worth bits e d) as Kt.
        { intros f. unfold at_key. by rewrite bals_lookup, R1. }
        destruct (worth_set bits e' (fun d => worth bits e d + worth bits amt d)%N d (proj1 R4)) as [_ E].
        { intros f. pose proof (sum_two bits f (bals S) from to Hk) as Hs. rewrite Kf, Kt in Hs.
          specialize (F4 f). destruct (V2 f) as [B1 B2]. unfold total in B1, B2.
          split; [|lia]. eapply N.le_lt_trans; [|exact B1]. apply N.mul_le_mono_r. lia. }
        rewrite Kt. unfold at_key. rewrite bals_lookup, R3. cbn [in_balance]. rewrite E. lia.
      * unfold at_key. rewrite !bals_lookup, R1. lia.
    + unfold at_key. rewrite !bals_lookup, (HO k) by congruence. lia.
Qed.
Lemma sent_fails_same (bits : N) S from to amt r S' : solvent bits S -> (blen to < 128)%N ->
  sent bits S from to amt r S' -> r <> Ok tt -> S' = S.
Proof.
  intros HV Ht H Hr.
  assert (forall x c, S !! at_balance from = Some (OBalance x c) -> (blen from < 128)%N /\ readable bits c) as HF.
  { intros x c Hx. destruct (sv_each _ _ HV _ _ Hx) as (c' & E & H1 & H2). injection E as -> ->. done. }
  destruct H as [| | |x c c1 S1 y d e H1 H2 H3 H4 -> H5 H6|x c c1 S1 y d d1 H1 H2 H3 H4 -> H5 H6 H7| | |];
    try reflexivity; try done; destruct (HF _ _ H1) as [Hf Hc]; rewrite string_key_small in * by done.
  - exfalso. destruct (sub_worth bits c amt c1 H2) as (_ & A1 & A2 & _).
    eapply add_refused; [| |exact H6]; [|done].
    destruct (decide (from = to)) as [<-|Hne].
    + rewrite lookup_insert in H5. by injection H5 as _ <-.
    + rewrite lookup_insert_ne in H5 by congruence. destruct (sv_each _ _ HV _ _ H5) as (? & E & _ & ?). by injection E as _ ->.
  - rewrite ?(string_key_small from), ?(string_key_small to) in H7 by done. rewrite ?(string_key_small from) in H5 by done. congruence.
Qed.
Lemma sent_held (bits : N) S from to amt r S' k d : wt S -> solvent bits S -> (blen to < 128)%N ->
  sent bits S from to amt r S' ->
  (held bits S k d <= held bits S' k d + if decide (from = k) then worth bits amt d else 0)%N.
Proof.
  intros HW HV Ht H.
  assert (r = Ok tt \/ r <> Ok tt) as [->|Hr] by (destruct r as [[]| | |]; [left; done|right; discriminate..]).
  - apply (moved_held bits S S' from to amt k d HV).
    assert (forall x c, S !! at_balance from = Some (OBalance x c) -> (blen from < 128)%N) as HF.
    { intros x c Hx. destruct (sv_each _ _ HV _ _ Hx) as (c' & E & H1 & H2). done. }
    assert (blen from < 128)%N as Hf by (inversion H; subst; eapply HF; eassumption).
    apply sent_moved; assumption.
  - rewrite (sent_fails_same bits S from to amt r S' HV Ht H Hr). lia.
Qed.
Lemma ran_held (bits : N) us m S r S' k d : wt S -> solvent bits S -> to_short m -> ran bits us m S r S' ->
  (held bits S k d <= held bits S' k d + match m with
     | MsgSendCoins from _ amt => if decide (from = k) then worth bits amt d else 0 | _ => 0 end)%N.
Proof.
  intros HW HV Hm [H|a S1 -> _ [n H1 H2 H3 H4]|from to amt r1 S1 -> _ Hs].
  - lia.
  - unfold at_key. rewrite !bals_lookup.
    assert (forall k' o T, fst k' <> ty_balance -> (<[k' := o]> T : amap) !! at_balance k = T !! at_balance k) as E.
    { intros k' o T Hn. apply lookup_insert_ne. intros ->. by apply Hn. }
    rewrite !E; [lia|apply (bool_decide_unpack _); vm_compute; exact I..].
  - by eapply sent_held.
Qed.
Lemma msgs_held (bits : N) us l S r S' k d : inv S -> solvent bits S -> Forall to_short l -> msgs_ran bits us l S r S' ->
  (held bits S k d <= held bits S' k d + fold_right (fun m acc => match m with
     | MsgSendCoins from _ amt => if decide (from = k) then worth bits amt d else 0 | _ => 0 end + acc) 0 l)%N.
Proof.
  intros HI HV HF H. induction H as [S|m l S S1 r S2 H1 H2 IH|m l S e S1 H1]; cbn [fold_right].
  - lia.
  - apply Forall_cons in HF as [Hm HF].
    destruct (ran_total bits us m S (Ok tt) S1 (iv_wt _ HI) HV Hm H1) as [_ V1].
    specialize (IH (ran_inv _ _ _ _ _ _ HI H1) V1 HF).
    pose proof (ran_held bits us m S (Ok tt) S1 k d (iv_wt _ HI) HV Hm H1). lia.
  - apply Forall_cons in HF as [Hm HF]. pose proof (ran_held bits us m S (Fail e) S1 k d (iv_wt _ HI) HV Hm H1). lia.
Qed.
Lemma tx_held (bits : N) verify t S r S' k d : inv S -> solvent bits S -> Forall to_short (tx_msgs t) ->
  tx_ran bits verify t S r S' ->
  S' = S \/ admitted bits verify S t /\ (held bits S k d <= held bits S' k d + spent bits t k d)%N.
Proof.
  intros HI HV HF H. destruct (bump_total bits (users_has1 (tx_users t)) S (iv_wt _ HI) HV) as [E V].
  pose proof (bump_inv (users_has1 (tx_users t)) S HI) as HI'.
  assert (held bits (bump (users_has1 (tx_users t)) S) k d = held bits S k d) as EB.
  { unfold at_key. rewrite !bals_lookup, bump_other; [done| |apply HI].
    apply (bool_decide_unpack _); vm_compute; exact I. }
  unfold spent. destruct H as [|e S2 Ha H|S2 r S3 Ha H HM]; [left; done|right; (split; [exact Ha|])..];
    pose proof (sent_held bits _ _ _ _ _ _ k d (iv_wt _ HI') V collector_short H) as B1; rewrite EB in B1.
  - lia.
  - destruct (sent_total bits _ _ _ _ _ _ (iv_wt _ HI') V collector_short H) as [_ V2].
    pose proof (msgs_held bits _ _ _ _ _ k d (sent_inv _ _ _ _ _ _ _ HI' H) V2 HF HM). lia.
Qed.

Section Chain.
  Context (C : codec) (bits : N) (verify : bytes -> bytes -> bytes -> bool).
  Context (enum : list (event object msg) -> users -> list user) (fuel : nat) (decode : bytes -> res tx).
  Context (HS : sound C enum decode).
  Notation call := (call C bits verify enum fuel decode).
  Notation running := (running C bits verify enum fuel decode).
  Notation gets := (gets C bits verify).
  Notation send := (send C bits verify enum fuel).
  Notation message_admission := (message_admission C bits verify enum fuel).
  Notation reachable := (reachable C bits verify enum fuel decode).
  Notation shown := (shown C bits verify).
  Implicit Types (S : amap) (x : node) (t : tx) (m : msg) (us : users) (k a d from to : bytes) (n : N)
    (c : abci_call) (r : res unit) (o : object) (amt : list coin).

  Lemma balance_held x S a d n : shown x S -> solvent bits S -> balance bits (gets x) a d n -> n = held bits S a d.
  Proof.
    intros Hx HV H. pose proof (shown_agree C bits verify enum decode HS x S Hx) as A. unfold at_key. rewrite bals_lookup.
    destruct H as [(c & Hc & ->)|[Hn ->]].
    - apply (balance_reads _ S _ _ A) in Hc. by rewrite Hc.
    - destruct (S !! at_balance a) as [o|] eqn:E; [|done]. exfalso. apply (Hn o). by apply (balance_reads _ S _ _ A).
  Qed.
  Lemma call_takes id cs c x r x' a d n n' : (93 <= bits)%N -> running id cs x -> call c x = (r, x') -> alive r ->
    (forall raw t from to amt, CallDeliverTx raw ∈ cs ++ [c] -> decode raw = Ok t -> MsgSendCoins from to amt ∈ tx_msgs t ->
       length to < 128) ->
    balance bits (gets x) a d n -> balance bits (gets x') a d n' ->
    n' = n \/ exists t, executes bits verify decode (gets x) c t /\ (n <= n' + spent bits t a d)%N.
  Proof.
    intros Hb Hr Hc Ha Hs B B'. destruct (running_tracked C bits verify enum fuel decode HS id cs x Hr) as (S & HT & Hh).
    destruct (call_tracked C bits verify enum fuel decode HS x S c r x' HT Hc Ha) as (S' & HT' & Hcr).
    assert (forall raw t, CallDeliverTx raw ∈ cs ++ [c] -> decode raw = Ok t -> Forall to_short (tx_msgs t)) as Hs'.
    { intros raw t Hi Hd. apply Forall_forall. intros m Hm. destruct m; try exact I. cbn [to_short]. unfold blen.
      specialize (Hs raw t from to amount Hi Hd Hm). lia. }
    destruct (history_total bits verify decode cs _ S (genesis_inv id) (proj2 (genesis_solvent bits id Hb))) as [_ HV].
    { intros raw t Hi. apply Hs'. apply elem_of_app. by left. }
    { exact Hh. }
    pose proof (tk_inv _ _ _ _ _ HT) as HI.
    destruct (call_ran_total bits verify decode S c r S' HI HV) as [_ HV'].
    { intros raw t ->. apply Hs'. apply elem_of_app. right. apply elem_of_list_here. }
    { exact Hcr. }
    rewrite (balance_held x S a d n (tk_shown _ _ _ _ _ HT) HV B), (balance_held x' S' a d n' (tk_shown _ _ _ _ _ HT') HV' B').
    clear B B'. assert ((exists raw, c = CallDeliverTx raw) \/ (forall raw, c <> CallDeliverTx raw)) as [[raw ->]|Hn].
    { destruct c; eauto; right; done. }
    - inversion Hcr as [| |? e He|? t ? ? Ht Htr| |]; subst; [left; done|].
      destruct (tx_held bits verify t S r S' a d HI HV) as [->|[Had Hle]]; [|exact Htr|left; done|].
      { apply (Hs' raw t); [|exact Ht]. apply elem_of_app. right. apply elem_of_list_here. }
      right. exists t. split; [|exact Hle].
      apply (executes_tracked C bits verify enum decode HS x S _ t (tk_shown _ _ _ _ _ HT)). eauto.
    - left. unfold at_key. rewrite !bals_lookup.
      rewrite (call_other bits verify decode S c r S' ty_balance a); [done|exact Hn|exact Hcr|apply not_quiet].
  Qed.

  (** ** Messages that succeed pass admission. *)
  Notation app := (test_app bits verify).
  Notation HA := (test_app_like bits verify).
  Lemma success_admitted id x t m x' : reachable id x -> proper t -> send (tx_users t) m x = (Ok tt, x') ->
    message_admission (tx_users t) m x = (Ok tt, x).
  Proof.
    intros Hx HP H. apply (reachable_tracked C bits verify enum fuel decode HS) in Hx as [S HT].
    destruct (send_tracked C bits verify enum fuel decode HS (tx_users t) _ x S (Ok tt) x' HT (proper_wf t HP) (proper_ordinary t HP) H I)
      as (S' & _ & Hr).
    assert ((exists a : account, m = MsgCreateAccount (Some a) /\ ac_address a <> []) \/ exists from to amt, m = MsgSendCoins from to amt) as Hm.
    { inversion Hr as [|a ? -> _ Hc|from to amt]; subst; [|right; eauto]. left. exists a. split; [reflexivity|].
      destruct Hc as [n _ Hk _ _]. intros E. rewrite E in Hk. apply Hk. reflexivity. }
    clear Hr H HT S S' x'. unfold ChainSpec.message_admission, at_world, bytes_store, the_app. cbv zeta.
    unfold run_admission_chain. cbn [en_router env_of].
    destruct Hm as [(a & -> & Ha)|(from & to & amt & ->)].
    - destruct (tl_routes _ _ _ HA (MsgCreateAccount (Some a))) as (_ & -> & _ & _). cbn [exec_of admission_of run_handlers].
      unfold run_handler. cbn [h_self h_run create_account_admission]. unfold bytes_eqb. rewrite bool_decide_false by exact Ha.
      cbn [exec]. destruct x; reflexivity.
    - destruct (tl_routes _ _ _ HA (MsgSendCoins from to amt)) as (_ & -> & _ & _). cbn [exec_of admission_of run_handlers].
      destruct x; reflexivity.
  Qed.
End Chain.
