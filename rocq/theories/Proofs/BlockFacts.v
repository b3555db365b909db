(** Deliveries in any state of the store: validator updates and the end of a
    block. *)
From Coq Require Import NArith ZArith List Bool String Lia.
From stdpp Require Import base list gmap.
From Verif.Model Require Import Bytes KindEncoder Desc Schema Orm Users Prog Router Runtime Services Module Builder
  Universe Coin CoreModules Rbac Bank Authn Distribution TestApp Abci.
From Verif.Spec Require Import UserSpec StoreSpec CoinSpec RbacSpec ChainSpec.
From Verif.Proofs Require Import BytesFacts RegistryFacts OrmFacts UserFacts RuntimeFacts BuilderFacts SimFacts AppFacts
  AppSim RbacFacts MapExec ChainInv ChainWp ChainRun ChainHist ChainView.

Section Node.
  Context (C : codec) (bits : N) (verify : bytes -> bytes -> bytes -> bool).
  Context (enum : list (event object msg) -> users -> list user) (fuel : nat) (decode : bytes -> res tx).
  Context (HS : sound C enum decode).
  Notation app := (test_app bits verify).
  Notation O := (app_ops C).
  Notation R := (ap_registry app).
  Notation MAP := (map_ops O R).
  Notation ORM := (orm_ops O R).
  Notation gets := (gets C bits verify).
  Notation written := (written C bits verify).
  Notation send := (send C bits verify enum fuel).
  Notation shown := (shown C bits verify).
  Implicit Types (S : amap) (x : node) (us : users) (m : msg).

  Notation owpd := (wpd C app enum).

  Lemma deliver_map (b skip : bool) us m (w w' : world object msg orm) S (r : res unit) (Q : res unit -> amap -> Prop) :
    repr O R S (w_store w) -> owpd b fuel skip us m S Q ->
    deliver O msg_name ORM (env_of app enum b) fuel skip us m w = (r, w') -> alive r ->
    exists S', repr O R S' (w_store w') /\ Q r S'.
  Proof.
    intros HR HQ Hd Ha.
    set (w2 := {| w_store := S; w_trace := w_trace w |} : world object msg amap).
    assert (simw (Msg:=msg) (map_rel O (app_registry bits verify)) w w2) as Hw by (split; [exact HR|reflexivity]).
    pose proof (app_deliver_sim C (app_registry bits verify) app enum fuel (so_codec _ _ _ HS) (app_registry_ok bits verify)
      (app_typed C bits verify) (app_router_no_list bits verify enum) b skip us m w w2 Hw) as H.
    specialize (HQ w2 eq_refl). unfold app_registry in H. rewrite Hd in H.
    destruct (deliver _ _ MAP _ _ _ _ _ _) as [r2 w3].
    destruct H as [H|[H Hw']]; cbn [fst snd] in *; [by destruct r|]. subst r2.
    destruct HQ as [HQ|HQ]; [by destruct r|]. exists (w_store w3). split; [exact (proj1 Hw')|exact HQ].
  Qed.

  Local Ltac known := apply (bool_decide_unpack _); vm_compute; exact I.
  Local Ltac differ := apply (bool_decide_unpack _); vm_compute; exact I.
  Notation HA := (test_app_like bits verify).
  Notation deliver_to us m := (rt_deliver O msg_name (bytes_store C bits verify) (the_app bits verify) enum fuel us m).
  Notation ends h := (end_block O (bytes_store C bits verify) (the_app bits verify) enum fuel h).

  (** ** Validator updates *)
  Lemma wpd_updates (b skip : bool) f us l S : wt S -> wf_users us ->
    owpd b f skip us (MsgSetValidatorUpdates l) S (fun r S' =>
      r = Ok tt /\ (S !! at_stage = Some (OStage StInitChain) \/ S !! at_stage = Some (OStage StEndBlock))
        /\ S' = <[at_updates := OUpdates l]> S
      \/ (exists e, r = Fail e) /\ S' = S).
  Proof.
    intros HW HU. destruct f as [|f]; [intros w E; left; exact I|].
    eapply (wpd_route C bits verify app HA enum (so_order _ _ _ HS) b); [exact HW|exact HU|reflexivity|..].
    - intros _. cbn [h_self h_run set_updates].
      apply (wp_get C bits verify app HA); [known|..].
      + intros o _ Ho. destruct o as [|st| | | | | | | | | | | | | |]; try apply wp_panic.
        assert (forall st', st = st' -> st' = StInitChain \/ st' = StEndBlock ->
          wp C app enum b f (users_from_string [abci_user]) (update_ (OUpdates l) (PRet tt)) S (fun r S2 =>
            match r with
            | Ok _ => wph C app enum b f (fun e => e) (post_of (MsgSetValidatorUpdates l)) us (MsgSetValidatorUpdates l) S2
                (fun r S' => r = Ok tt /\ (S !! at_stage = Some (OStage StInitChain) \/ S !! at_stage = Some (OStage StEndBlock))
                    /\ S' = <[at_updates := OUpdates l]> S \/ (exists e, r = Fail e) /\ S' = S)
            | _ => r = Ok tt /\ (S !! at_stage = Some (OStage StInitChain) \/ S !! at_stage = Some (OStage StEndBlock))
                    /\ S2 = <[at_updates := OUpdates l]> S \/ (exists e, r = Fail e) /\ S2 = S
            end)) as Hu.
        { intros st' -> Hst. apply (wp_update_raw C bits verify app HA enum (so_order _ _ _ HS)); [exact HW|apply from_string_wf|..].
          - intros _ _ _. apply wp_ret. cbn [post_of]. apply wph_nil. left. split; [reflexivity|]. split; [|reflexivity].
            destruct Hst as [-> | ->]; auto.
          - intros _ _ _. apply wp_fail. right. split; [eauto|reflexivity].
          - intros _. apply wp_fail. right. split; [eauto|reflexivity]. }
        destruct st; try (apply wp_fail; right; split; [eauto|reflexivity]); apply Hu with (1 := eq_refl); auto.
      + intros _ _. apply wp_fail. right. split; [eauto|reflexivity].
    - intros _. right. split; [eauto|reflexivity].
    - intros _. cbn [admission_of]. apply wph_nil. split; [reflexivity|exact I].
  Qed.

  Lemma deliver_to_map us m x (x' : node) (r : res unit) S (Q : res unit -> amap -> Prop) :
    shown x S -> (forall b, owpd b fuel false us m S Q) -> deliver_to us m x = (r, x') -> alive r ->
    exists S', shown x' S' /\ Q r S'.
  Proof.
    intros Hx HQ Hd Ha. unfold rt_deliver, bytes_store, the_app in Hd.
    destruct (deliver O msg_name ORM (env_of app enum (rt_enabled x)) fuel false us m (rt_world x)) as [r0 w'] eqn:E.
    pose proof (f_equal fst Hd) as Hr. pose proof (f_equal snd Hd) as Hw. cbn [fst snd] in Hr, Hw. subst r0 x'.
    exact (deliver_map (rt_enabled x) false us m (rt_world x) w' S r Q Hx (HQ _) E Ha).
  Qed.

  Lemma updates_exact us l x (r : res unit) (x' : node) : written x -> wf_users us ->
    deliver_to us (MsgSetValidatorUpdates l) x = (r, x') -> alive r ->
    r = Ok tt
      /\ (gets x ty_stage singleton_id (OStage StInitChain) \/ gets x ty_stage singleton_id (OStage StEndBlock))
      /\ gets x' ty_updates singleton_id (OUpdates l)
      /\ (forall ty k o, ~ (ty = ty_updates /\ k = singleton_id) -> gets x' ty k o <-> gets x ty k o)
    \/ (exists e, r = Fail e) /\ forall ty k o, gets x' ty k o <-> gets x ty k o.
  Proof.
    intros Hw HU Hd Ha. destruct (written_shown C bits verify enum decode HS x Hw) as [S Hx].
    pose proof (shown_wt C bits verify x S Hx) as HW.
    destruct (deliver_to_map us _ x x' r S _ Hx (fun b => wpd_updates b false fuel us l S HW HU) Hd Ha) as (S' & Hx' & HQ).
    destruct HQ as [(-> & Hst & ->)|[He ->]].
    - left. split; [reflexivity|]. split; [|split].
      + destruct Hst as [H|H]; [left|right]; apply (reads_iff C bits verify enum decode HS x S _ _ _ Hx); try known; exact H.
      + apply (reads_iff C bits verify enum decode HS x' _ _ _ _ Hx'); [known|]. apply lookup_insert.
      + intros ty k o Hn. apply (gets_iff C bits verify enum decode HS x S x' _ ty ty k k o Hx Hx' eq_refl eq_refl).
        intros _. apply lookup_insert_ne. intros E. apply Hn. pose proof (f_equal fst E). pose proof (f_equal snd E).
        cbn [fst snd] in *. auto.
    - right. split; [exact He|]. intros ty k o.
      apply (gets_iff C bits verify enum decode HS x S x' S ty ty k k o Hx Hx' eq_refl eq_refl). reflexivity.
  Qed.

  (** ** The end of a block *)
  Lemma wpd_end (b skip : bool) f us h S : wt S -> wf_users us ->
    owpd b f skip us (MsgSetEndBlockState h) S (fun r S' =>
      r = Ok tt /\ S' = <[at_end := OEndBlock h]> (<[at_stage := OStage StEndBlock]> S) \/ exists e, r = Fail e).
  Proof.
    intros HW HU. destruct f as [|f]; [intros w E; left; exact I|].
    eapply (wpd_route C bits verify app HA enum (so_order _ _ _ HS) b); [exact HW|exact HU|reflexivity|..].
    - intros _. cbn [h_self h_run set_end_block].
      apply (wp_update_raw C bits verify app HA enum (so_order _ _ _ HS)); [exact HW|apply from_string_wf|..].
      + intros _ Hk _.
        apply (wp_update_raw C bits verify app HA enum (so_order _ _ _ HS)); [|apply from_string_wf|..].
        * by apply wt_insert.
        * intros _ _ _. apply wp_ret. cbn [post_of]. apply wph_nil. left. split; reflexivity.
        * intros _ _ _. apply wp_fail. right. eauto.
        * intros _. apply wp_fail. right. eauto.
      + intros _ _ _. apply wp_fail. right. eauto.
      + intros _. apply wp_fail. right. eauto.
    - intros _. right. eauto.
    - intros _. cbn [admission_of]. apply wph_nil. split; [reflexivity|exact I].
  Qed.

  Lemma ends_exact h x l (x' : node) : written x -> ends h x = (Ok l, x') ->
    gets x ty_updates singleton_id (OUpdates l)
    /\ gets x' ty_stage singleton_id (OStage StEndBlock)
    /\ forall ty k o, ty <> ty_stage -> ty <> ty_end_block -> gets x' ty k o <-> gets x ty k o.
  Proof.
    intros Hw. destruct (written_shown C bits verify enum decode HS x Hw) as [S Hx].
    pose proof (shown_wt C bits verify x S Hx) as HW.
    unfold end_block. destruct (deliver_to abci_users (MsgSetEndBlockState (Some h)) x) as [r x1] eqn:E.
    pose proof (deliver_to_map abci_users _ x x1 r S _ Hx
      (fun b => wpd_end b false fuel abci_users (Some h) S HW (from_string_wf _)) E) as H.
    destruct r as [u|e| |]; cbn [or_panic].
    2-4: clear; intros Hd; pose proof (f_equal fst Hd) as Hf; cbn [fst] in Hf; discriminate Hf.
    destruct (H I) as (S1 & Hx1 & [[_ ->]|[e He]]); [|discriminate He]. clear H.
    assert (ty_updates ∈ all_types) as Hk by known.
    pose proof (orm_get_map C R (tl_registry _ _ _ HA) (tl_schema _ _ _ HA) _ _ ty_updates singleton_id (so_codec _ _ _ HS) Hx1 Hk) as [_ Hg].
    unfold bytes_store, the_app. revert Hg. generalize (rt_get ORM ty_updates singleton_id (w_store (rt_world x1))).
    intros g Hg Hd. assert (g = Ok (OUpdates l) /\ x1 = x') as [-> <-].
    { destruct g as [o|e| |]; try (pose proof (f_equal fst Hd) as Hf; cbn [fst] in Hf; discriminate Hf).
      destruct o; try (pose proof (f_equal fst Hd) as Hf; cbn [fst] in Hf; discriminate Hf).
      pose proof (f_equal fst Hd) as Hf. pose proof (f_equal snd Hd) as Hs. cbn [fst snd] in Hf, Hs.
      split; [congruence|exact Hs]. }
    destruct Hg as [_ Hg]. rewrite !lookup_insert_ne in Hg.
    2:{ intros Ey. pose proof (f_equal fst Ey) as Ef. revert Ef. change (ty_stage <> ty_updates). differ. }
    2:{ intros Ey. pose proof (f_equal fst Ey) as Ef. revert Ef. change (ty_end_block <> ty_updates). differ. }
    split; [|split].
    - apply (reads_iff C bits verify enum decode HS x S _ _ _ Hx Hk). exact Hg.
    - apply (reads_iff C bits verify enum decode HS x1 _ _ _ _ Hx1); [known|].
      rewrite lookup_insert_ne; [apply lookup_insert|].
      intros Ey. pose proof (f_equal fst Ey) as Ef. revert Ef. change (ty_end_block <> ty_stage). differ.
    - intros ty k o H1 H2. apply (gets_iff C bits verify enum decode HS x S x1 _ ty ty k k o Hx Hx1 eq_refl eq_refl).
      intros _. rewrite !lookup_insert_ne; [reflexivity|..]; intros Ey; pose proof (f_equal fst Ey) as Ef; cbn [fst] in Ef; auto.
  Qed.
End Node.
