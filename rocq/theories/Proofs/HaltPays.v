(** Transfers between addresses of any length that are bound to succeed. *)
From Coq Require Import NArith ZArith List Bool String Lia.
From stdpp Require Import base list gmap relations.
From Verif.Model Require Import Bytes KindEncoder Desc Schema Indexes Orm Users Prog Router Runtime
  Services Module Builder Universe Coin CoreModules Rbac Bank Authn Distribution TestApp Abci.
From Verif.Spec Require Import UserSpec StoreSpec RuntimeSpec CoinSpec RbacSpec ChainSpec LiveSpec FiledSpec HaltSpec.
From Verif.Proofs Require Import BytesFacts OrmFacts UserFacts CoinFacts AppFacts AppSim RbacFacts MapExec ChainInv ChainWp ChainRun ChainHist
  ChainView ChainFacts SupplyFacts ChainProps TotalRun TotalNode LiveFacts LiveProto FiledFacts HaltFacts.

Local Ltac known := apply (bool_decide_unpack _); vm_compute; exact I.

Section Pays.
  Context (C : codec) (bits : N) (verify : bytes -> bytes -> bytes -> bool).
  Context (enum : list (event object msg) -> users -> list user) (fuel : nat) (decode : bytes -> res tx).
  Context (HS : sound C enum decode) (Hbits : (bits <= 313)%N).
  Notation gets := (gets C bits verify).
  Notation send := (send C bits verify enum fuel).
  Notation reachable := (reachable C bits verify enum fuel decode).
  Implicit Types (S : amap) (x : node) (t : tx).

  Lemma payable_made id x t from to amt : reachable id x -> proper t -> 3 <= fuel -> (blen from < 2 ^ 63)%N -> (blen to < 2 ^ 63)%N ->
    granted (gets x) VDeliver (msg_name (MsgSendCoins from to amt)) (tx_users t) -> payable bits (gets x) from to amt ->
    succeeds (cannot_store C bits verify) (send (tx_users t) (MsgSendCoins from to amt) x).
  Proof.
    intros Hx HP Hf Lf Lt HG (Hc & Hsf & Ht0 & Hr).
    apply (reachable_tracked C bits verify enum fuel decode HS) in Hx as [S HT].
    pose proof (tk_shown _ _ _ _ _ HT) as Hsh. pose proof (iv_wt _ (tk_inv _ _ _ _ _ HT)) as HW.
    pose proof (fun ty k H => reads_has C bits verify enum decode HS x S ty k Hsh H) as Hh.
    pose proof Hc as Hcov. apply (covers_shown C bits verify enum decode HS x S from amt Hsh) in Hc as (a0 & c0 & r0 & C1 & C2).
    assert (from <> []) as Hf0 by (destruct (HW _ _ _ C1) as (_ & _ & H); exact H).
    destruct (possible_key from Hf0 Lf) as [Kf Ef]. destruct (possible_key to Ht0 Lt) as [Kt Et].
    assert (~ fatal_any bits (gets x) (tx_users t) (MsgSendCoins from to amt)) as Hn.
    { intros [_ [E|(_ & _ & [E|[B1 B2]])]]; [exact (Hf0 E)|exact (Ht0 E)|].
      destruct Hr as [[(a & c & Hb & _) _]|(_ & Hb & Hac)]; [apply B1; exists (OBalance a c); exact Hb|].
      destruct B2 as [B2|[B2 B3]]; [exact (Hb B2)|]. destruct Hac as [Hac|Hac]; [exact (B2 Hac)|exact (Hac B3)]. }
    pose proof (send_settled_any C bits verify enum fuel decode HS Hbits t (MsgSendCoins from to amt) x S HT HP Hf
      (harmless_safe_any C bits verify enum decode HS x S (tx_users t) (MsgSendCoins from to amt) Hsh (conj Lf Lt) Hn)) as H.
    apply (granted_shown C bits verify enum decode HS x S _ _ _ Hsh) in HG.
    eapply succeeds_mono; [intros o Ho; exact (cannot_store_intro C bits verify o Ho)|].
    destruct H as [H|(_ & S' & _ & H)]; [right; exact H|left].
    destruct (send (tx_users t) (MsgSendCoins from to amt) x) as [r x']. cbn [fst] in *. clear x'.
    exists tt.
    assert (Hsf' : is_Some (S !! at_balance (string_key from))) by (rewrite Ef; apply (Hh ty_balance); [known|exact Hsf]).
    assert (Hrd : forall w d, put_balance from r0 S !! at_balance to = Some (OBalance w d) ->
              readable bits d /\ is_Some (put_balance from r0 S !! at_balance (string_key to))).
    { intros w d Hd. destruct (sub_worth bits c0 amt r0 C2) as (_ & _ & R3 & _).
      assert (Hsub : forall k, is_Some (S !! at_balance k) -> is_Some (put_balance from r0 S !! at_balance k)).
      { intros k Hk. destruct (decide (string_key from = k)) as [<-|Hk'].
        - rewrite lookup_insert. eauto.
        - rewrite lookup_insert_ne by congruence. exact Hk. }
      destruct Hr as [[(a & c & Hb & Hrc) Hst]|(Hb & _)].
      - split; [|apply Hsub; rewrite Et; apply (Hh ty_balance); [known|exact Hst]].
        destruct (decide (string_key from = to)) as [E|E].
        + rewrite <- E, lookup_insert in Hd. injection Hd as _ <-. exact R3.
        + rewrite lookup_insert_ne in Hd by congruence.
          apply (reads_iff C bits verify enum decode HS x S ty_balance to _ Hsh ltac:(known)) in Hb.
          rewrite Hd in Hb. injection Hb as _ ->. exact Hrc.
      - exfalso. apply Hb. apply (Hh ty_balance); [known|].
        destruct (decide (string_key from = to)) as [E|E]; [rewrite <- E; exact Hsf'|].
        rewrite lookup_insert_ne in Hd by congruence. eauto. }
    destruct (sub_worth bits c0 amt r0 C2) as (_ & R2 & _).
    inversion H as [Hng|a S1 Em _ _|from' to' amt' r' S1 Em _ Hsent]; subst; [exfalso; exact (Hng HG)|discriminate Em|].
    injection Em as <- <- <-.
    destruct Hsent as [D1 D2|D1 D2 e D3|y c c1 D1 D2 D3|y c c1 S2 z d e D1 D2 D3 D4 -> D5 D6|y c c1 S2 z d d1 D1 D2 D3 D4 -> D5 D6 D7| | |];
      try reflexivity; exfalso.
    - congruence.
    - congruence.
    - rewrite D3 in Hsf'. destruct Hsf' as [? ?]. discriminate.
    - rewrite C1 in D1. injection D1 as <- <-. rewrite C2 in D2. injection D2 as <-.
      destruct (Hrd _ _ D5) as [Hd _]. exact (add_refused bits d amt e Hd R2 D6).
    - rewrite C1 in D1. injection D1 as <- <-. rewrite C2 in D2. injection D2 as <-.
      destruct (Hrd _ _ D5) as [_ [? Hd]]. congruence.
  Qed.
End Pays.
