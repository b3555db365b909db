(** When validator updates are accepted. *)
From Coq Require Import NArith ZArith List Bool String Lia.
From stdpp Require Import base list gmap.
From Verif.Model Require Import Bytes KindEncoder Desc Schema Orm Users Prog Router Runtime Services Module Builder
  Universe Coin CoreModules Rbac Bank Authn Distribution TestApp Abci.
From Verif.Spec Require Import UserSpec StoreSpec CoinSpec RbacSpec ChainSpec.
From Verif.Proofs Require Import BytesFacts RegistryFacts OrmFacts UserFacts RuntimeFacts BuilderFacts SimFacts AppFacts
  AppSim RbacFacts MapExec ChainInv ChainWp ChainRun ChainHist ChainView BlockFacts LiveFacts.

Section Node.
  Context (C : codec) (bits : N) (verify : bytes -> bytes -> bytes -> bool).
  Context (enum : list (event object msg) -> users -> list user) (fuel : nat) (decode : bytes -> res tx).
  Context (HS : sound C enum decode).
  Notation app := (test_app bits verify).
  Notation O := (app_ops C).
  Notation R := (ap_registry app).
  Notation gets := (gets C bits verify).
  Notation reachable := (reachable C bits verify enum fuel decode).
  Notation deliver_to us m := (rt_deliver O msg_name (bytes_store C bits verify) (the_app bits verify) enum fuel us m).
  Implicit Types (S : amap) (x : node) (us : users).
  Local Ltac known := apply (bool_decide_unpack _); vm_compute; exact I.
  Notation HA := (test_app_like bits verify).

  Definition may_update S us (l : list validator_update) : Prop :=
    granted (map_stored S) VDeliver (msg_name (MsgSetValidatorUpdates l)) us
    /\ (S !! at_stage = Some (OStage StInitChain) \/ S !! at_stage = Some (OStage StEndBlock)).

  Lemma wpd_updates_iff f us l S : inv S -> wf_users us ->
    wpd C app enum true f false us (MsgSetValidatorUpdates l) S (fun r S' =>
      r = Ok tt /\ may_update S us l /\ S' = <[at_updates := OUpdates l]> S
      \/ (exists e, r = Fail e) /\ ~ may_update S us l /\ S' = S).
  Proof.
    intros HI HU. destruct f as [|f]; [intros w E; left; exact I|].
    pose proof (iv_wt _ HI) as HW.
    eapply (wpd_route C bits verify app HA enum (so_order _ _ _ HS) true); [exact HW|exact HU|reflexivity|..].
    - intros HG. specialize (HG eq_refl). cbn [h_self h_run set_updates].
      apply (wp_get C bits verify app HA); [known|..].
      + intros o _ Ho. destruct o as [|st| | | | | | | | | | | | | |]; try apply wp_panic.
        assert (forall st', st = st' -> st' = StInitChain \/ st' = StEndBlock ->
          wp C app enum true f (users_from_string [abci_user]) (update_ (OUpdates l) (PRet tt)) S (fun r S2 =>
            match r with
            | Ok _ => wph C app enum true f (fun e => e) (post_of (MsgSetValidatorUpdates l)) us (MsgSetValidatorUpdates l) S2
                (fun r S' => r = Ok tt /\ may_update S us l /\ S' = <[at_updates := OUpdates l]> S
                   \/ (exists e, r = Fail e) /\ ~ may_update S us l /\ S' = S)
            | _ => r = Ok tt /\ may_update S us l /\ S2 = <[at_updates := OUpdates l]> S
                   \/ (exists e, r = Fail e) /\ ~ may_update S us l /\ S2 = S
            end)) as Hu.
        { intros st' -> Hst.
          eapply (wp_put C bits verify app HA enum (so_order _ _ _ HS)); [exact HI|vm_compute; reflexivity|exact I|reflexivity| |].
          - apply (single S (OUpdates [])); [exact HI|unfold singletons; set_solver].
          - intros _. apply wp_ret. cbn [post_of]. apply wph_nil. left. split; [reflexivity|]. split; [|reflexivity].
            split; [exact HG|]. destruct Hst as [-> | ->]; auto. }
        destruct st; try (apply Hu with (1 := eq_refl); auto; fail);
          (apply wp_fail; right; split; [eauto|]; split; [|reflexivity]; intros [_ [Hm|Hm]]; rewrite Ho in Hm; discriminate Hm).
      + intros _ Hn. exfalso. destruct (single S (OStage StUnknown) HI) as [o Ho]; [unfold singletons; set_solver|].
        cbn [ty_of] in Ho. rewrite Ho in Hn. discriminate Hn.
    - intros [_ HR]. right. split; [eauto|]. split; [|reflexivity]. intros [Hm _]. exact (HR Hm).
    - intros _. cbn [admission_of]. apply wph_nil. split; [reflexivity|exact I].
  Qed.

  Lemma updates_iff id us l x (r : res unit) (x' : node) : reachable id x -> wf_users us ->
    deliver_to us (MsgSetValidatorUpdates l) x = (r, x') -> alive r ->
    (r = Ok tt <-> granted (gets x) VDeliver (msg_name (MsgSetValidatorUpdates l)) us
       /\ (gets x ty_stage singleton_id (OStage StInitChain) \/ gets x ty_stage singleton_id (OStage StEndBlock))).
  Proof.
    intros Hx HU Hd Ha. apply (reachable_tracked C bits verify enum fuel decode HS) in Hx as [S HT].
    pose proof (tk_shown _ _ _ _ _ HT) as Hs. destruct (tracked_flags _ _ _ x S HT) as [He _].
    assert (may_update S us l <-> granted (gets x) VDeliver (msg_name (MsgSetValidatorUpdates l)) us
       /\ (gets x ty_stage singleton_id (OStage StInitChain) \/ gets x ty_stage singleton_id (OStage StEndBlock))) as Hm.
    { unfold may_update. rewrite (granted_shown C bits verify enum decode HS x S _ _ us Hs).
      rewrite !(reads_iff C bits verify enum decode HS x S _ _ _ Hs) by known. reflexivity. }
    rewrite <- Hm. clear Hm. unfold rt_deliver, bytes_store, the_app in Hd. rewrite He in Hd.
    destruct (deliver O msg_name (orm_ops O R) (env_of app enum true) fuel false us (MsgSetValidatorUpdates l) (rt_world x)) as [r0 w'] eqn:E.
    pose proof (f_equal fst Hd) as Hr. cbn [fst] in Hr. subst r0. clear Hd.
    destruct (deliver_map C bits verify enum fuel decode HS true false us _ (rt_world x) w' S r _ Hs
      (wpd_updates_iff fuel us l S (tk_inv _ _ _ _ _ HT) HU) E Ha) as (S' & _ & [(-> & H1 & _)|([e ->] & H1 & _)]).
    - split; auto.
    - split; [intros H; discriminate H|contradiction].
  Qed.
End Node.
