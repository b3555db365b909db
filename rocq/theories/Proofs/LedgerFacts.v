(** The ledger: every delivered transaction changes the balances by exactly what
    its fee and its messages say. *)
From Coq Require Import NArith ZArith List Bool String Lia.
From stdpp Require Import base list gmap relations.
From Verif.Model Require Import Bytes KindEncoder Desc Schema Orm Users Errors Prog Router Runtime
  Services Module Builder Universe Coin CoreModules Rbac Bank Authn Distribution TestApp Abci.
From Verif.Spec Require Import UserSpec StoreSpec CoinSpec RbacSpec ChainSpec LedgerSpec.
From Verif.Proofs Require Import OrmFacts UserFacts RuntimeFacts CoinFacts SimFacts AppFacts AppSim RbacFacts MapExec
  ChainInv ChainWp ChainRun ChainHist ChainView ChainFacts AdmissionFacts SupplyFacts ChainProps ConsentFacts LiveFacts.

Lemma moved_exact (bits : N) S S' from to amt k d : solvent bits S -> readable bits amt -> moved bits S S' from to amt ->
  (held bits S k d + (if decide (to = k) then worth bits amt d else 0)
   = held bits S' k d + if decide (from = k) then worth bits amt d else 0)%N.
Proof.
  intros [V1 V2] Hamt [(c & F1 & F2 & F3 & F4 & c' & F5 & F6) HR HO _].
  assert (forall d, held bits S from d = worth bits c d) as Kf.
  { intros e. unfold at_key. by rewrite bals_lookup, F1. }
  destruct (decide (from = k)) as [<-|Hk].
  - rewrite Kf. assert (held bits S' from d = worth bits c' d) as -> by (unfold at_key; by rewrite bals_lookup, F5).
    destruct (decide (from = to)) as [<-|Hne].
    + destruct (worth_set bits c' (fun d => worth bits c d) d (proj1 F6)) as [_ E]; [intros e; apply worth_bound|].
      rewrite E. rewrite decide_True by done. lia.
    + destruct (worth_set bits c' (fun d => worth bits c d - worth bits amt d)%N d (proj1 F6)) as [_ E].
      { intros e. destruct (worth_bound bits c e). split; nia. }
      rewrite E. specialize (F4 d). rewrite decide_False by congruence. lia.
  - destruct (decide (to = k)) as [<-|Hk'].
    + destruct (HR Hk) as [(e & R1 & R2 & e' & R3 & R4)|[R1 R2]].
      * assert (forall d, held bits S to d = worth bits e d) as Kt.
        { intros f. unfold at_key. by rewrite bals_lookup, R1. }
        destruct (worth_set bits e' (fun d => worth bits e d + worth bits amt d)%N d (proj1 R4)) as [_ E].
        { intros f. pose proof (sum_two bits f (bals S) from to Hk) as Hs. rewrite Kf, Kt in Hs.
          specialize (F4 f). destruct (V2 f) as [B1 B2]. unfold total in B1, B2.
          split; [|lia]. eapply N.le_lt_trans; [|exact B1]. apply N.mul_le_mono_r. lia. }
        rewrite Kt. unfold at_key. rewrite bals_lookup, R3. cbn [in_balance]. rewrite E. lia.
      * unfold at_key. rewrite !bals_lookup, R1, R2. cbn [in_balance]. lia.
    + unfold at_key. rewrite !bals_lookup, (HO k) by congruence. lia.
Qed.
Lemma sent_exact (bits : N) S from to amt S' k d : wt S -> solvent bits S -> (blen to < 128)%N ->
  sent bits S from to amt (Ok tt) S' ->
  (held bits S k d + (if decide (to = k) then worth bits amt d else 0)
   = held bits S' k d + if decide (from = k) then worth bits amt d else 0)%N.
Proof.
  intros HW HV Ht H.
  assert (forall x c, S !! at_balance from = Some (OBalance x c) -> (blen from < 128)%N) as HF.
  { intros x c Hx. destruct (sv_each _ _ HV _ _ Hx) as (c' & E & H1 & H2). done. }
  assert (blen from < 128)%N as Hf by (inversion H; subst; eapply HF; eassumption).
  assert (moved bits S S' from to amt) as HM by (apply sent_moved; assumption).
  apply (moved_exact bits S S' from to amt k d HV); [|done].
  destruct (mv_sender _ _ _ _ _ _ HM) as (c & _ & _ & Hr & _). exact Hr.
Qed.
Lemma ran_exact (bits : N) us m S S' k d : wt S -> solvent bits S -> to_short m -> ran bits us m S (Ok tt) S' ->
  (held bits S k d + given_to bits [m] k d = held bits S' k d + taken_from bits [m] k d)%N.
Proof.
  intros HW HV Hm H. remember (Ok tt) as r eqn:Er.
  destruct H as [Hg|a S1 -> _ [n H1 H2 H3 H4]|from to amt r1 S1 -> _ Hs]; [done| |].
  - cbn [given_to taken_from]. unfold at_key. rewrite !bals_lookup.
    assert (forall k' o T, fst k' <> ty_balance -> (<[k' := o]> T : amap) !! at_balance k = T !! at_balance k) as E.
    { intros k' o T Hn. apply lookup_insert_ne. intros ->. by apply Hn. }
    rewrite !E; [done|apply (bool_decide_unpack _); vm_compute; exact I..].
  - subst r1. cbn [given_to taken_from]. rewrite !N.add_0_r. by apply sent_exact.
Qed.
Lemma ran_fails_same (bits : N) us m S r S' : solvent bits S -> to_short m -> ran bits us m S r S' -> r <> Ok tt -> S' = S.
Proof. intros HV Hm [] Hr; [done|done|subst; by eapply sent_fails_same]. Qed.
Lemma given_app bits l l' a d : given_to bits (l ++ l') a d = (given_to bits l a d + given_to bits l' a d)%N.
Proof. induction l as [|m l IH]; [done|]. destruct m; cbn [given_to app]; try exact IH. rewrite IH. lia. Qed.
Lemma taken_app bits l l' a d : taken_from bits (l ++ l') a d = (taken_from bits l a d + taken_from bits l' a d)%N.
Proof. induction l as [|m l IH]; [done|]. destruct m; cbn [taken_from app]; try exact IH. rewrite IH. lia. Qed.

Lemma msgs_exact (bits : N) us l S r S' : inv S -> solvent bits S -> Forall to_short l -> msgs_ran bits us l S r S' ->
  exists l', (r = Ok tt /\ l' = l \/ r <> Ok tt /\ exists m rest, l = l' ++ m :: rest)
    /\ forall k d, (held bits S k d + given_to bits l' k d = held bits S' k d + taken_from bits l' k d)%N.
Proof.
  intros HI HV HF H. induction H as [S|m l S S1 r S2 H1 H2 IH|m l S e S1 H1].
  - exists []. split; [by left|]. done.
  - apply Forall_cons in HF as [Hm HF].
    destruct (ran_total bits us m S (Ok tt) S1 (iv_wt _ HI) HV Hm H1) as [_ V1].
    destruct (IH (ran_inv _ _ _ _ _ _ HI H1) V1 HF) as (l' & Hl & HE). exists (m :: l'). split.
    + destruct Hl as [[-> ->]|[Hr (m' & rest & ->)]]; [by left|right]. split; [done|]. by exists m', rest.
    + intros k d. specialize (HE k d). pose proof (ran_exact bits us m S S1 k d (iv_wt _ HI) HV Hm H1) as E.
      change (m :: l') with ([m] ++ l'). rewrite given_app, taken_app. lia.
  - apply Forall_cons in HF as [Hm HF]. exists []. split; [right; split; [done|]; by exists m, l|].
    intros k d. by rewrite (ran_fails_same bits us m S _ S1 HV Hm H1).
Qed.
Lemma tx_exact (bits : N) verify t S r S' : inv S -> solvent bits S -> Forall to_short (tx_msgs t) ->
  tx_ran bits verify t S r S' ->
  ~ admitted bits verify S t /\ r <> Ok tt /\ S' = S
  \/ admitted bits verify S t /\ exists l, carried_out t r l /\ forall k d,
       (held bits S k d + (if decide (fee_collector = k) then worth bits (tx_fee t) d else 0) + given_to bits l k d
        = held bits S' k d + (if decide (tx_payer t = k) then worth bits (tx_fee t) d else 0) + taken_from bits l k d)%N.
Proof.
  intros HI HV HF H. destruct (bump_total bits (users_has1 (tx_users t)) S (iv_wt _ HI) HV) as [E V].
  pose proof (bump_inv (users_has1 (tx_users t)) S HI) as HI'.
  assert (forall k d, held bits (bump (users_has1 (tx_users t)) S) k d = held bits S k d) as EB.
  { intros k d. unfold at_key. rewrite !bals_lookup, bump_other; [done| |apply HI].
    apply (bool_decide_unpack _); vm_compute; exact I. }
  destruct H as [|e S2 Ha H|S2 r S3 Ha H HM]; [left; done|exfalso|right; split; [exact Ha|]].
  - assert (Fail (bad_request e) = Ok tt :> res unit) as Eq; [|discriminate Eq].
    eapply (fee_ok bits verify t S _ S2 HI HV Ha). by apply paid_no_fee.
  - destruct (sent_total bits _ _ _ _ _ _ (iv_wt _ HI') V collector_short H) as [_ V2].
    destruct (msgs_exact bits _ _ _ _ _ (sent_inv _ _ _ _ _ _ _ HI' H) V2 HF HM) as (l & Hl & HE).
    exists l. split; [exact Hl|]. intros k d. specialize (HE k d).
    pose proof (sent_exact bits _ _ _ _ _ k d (iv_wt _ HI') V collector_short H) as B1. rewrite EB in B1. lia.
Qed.

Section Chain.
  Context (C : codec) (bits : N) (verify : bytes -> bytes -> bytes -> bool).
  Context (enum : list (event object msg) -> users -> list user) (fuel : nat) (decode : bytes -> res tx).
  Context (HS : sound C enum decode).
  Notation call := (call C bits verify enum fuel decode).
  Notation gets := (gets C bits verify).
  Notation reachable := (reachable C bits verify enum fuel decode).
  Implicit Types (S : amap) (x : node) (t : tx).

  Lemma ledger id x raw t r x' : reachable id x -> orderly bits (gets x) -> decode raw = Ok t ->
    (forall from to amt, MsgSendCoins from to amt ∈ tx_msgs t -> length to < 128) ->
    call (CallDeliverTx raw) x = (r, x') -> alive r ->
    orderly bits (gets x') /\
    (~ admissible bits verify (gets x) t /\ r <> Ok tt /\ (forall ty k o, gets x' ty k o <-> gets x ty k o)
     \/ admissible bits verify (gets x) t /\ exists l, carried_out t r l /\ settled_as bits (gets x) (gets x') t l).
  Proof.
    intros Hx HO Hd Hl Hc Ha. apply (reachable_tracked C bits verify enum fuel decode HS) in Hx as [S HT].
    destruct (call_tracked C bits verify enum fuel decode HS x S _ r x' HT Hc Ha) as (S' & HT' & Hcr).
    pose proof (tk_inv _ _ _ _ _ HT) as HI. pose proof (tk_shown _ _ _ _ _ HT) as Hx. pose proof (tk_shown _ _ _ _ _ HT') as Hx'.
    pose proof (shown_agree C bits verify enum decode HS x S Hx) as A.
    pose proof (shown_agree C bits verify enum decode HS x' S' Hx') as A'.
    pose proof (proj1 (orderly_solvent bits verify _ S A) HO) as HV.
    assert (Forall to_short (tx_msgs t)) as HF.
    { apply Forall_forall. intros m Hm. destruct m; try exact I. cbn [to_short]. unfold blen.
      specialize (Hl from to amount Hm). lia. }
    inversion Hcr as [| |? e He|? t' ? ? Ht Htr| |]; subst; [congruence|].
    assert (t' = t) as -> by congruence.
    assert (solvent bits S') as HV'.
    { eapply (tx_ran_total bits verify t S r S'); done. }
    split; [exact (proj2 (orderly_solvent bits verify _ S' A') HV')|].
    assert (admissible bits verify (gets x) t <-> admitted bits verify S t) as HAd.
    { apply (admissible_tracked C bits verify enum decode HS x S t Hx (so_decoder _ _ _ HS _ _ Hd)). }
    destruct (tx_exact bits verify t S r S' HI HV HF Htr) as [(Hn & Hr & ->)|(Had & l & Hl' & HE)]; [left|right].
    - split; [by rewrite HAd|]. split; [done|]. intros ty k o. rewrite (A ty k o), (A' ty k o). done.
    - split; [by apply HAd|]. exists l. split; [done|]. intros a d n n' B B'.
      rewrite (balance_held C bits verify enum decode HS x S a d n Hx HV B), (balance_held C bits verify enum decode HS x' S' a d n' Hx' HV' B').
      apply HE.
  Qed.
End Chain.
