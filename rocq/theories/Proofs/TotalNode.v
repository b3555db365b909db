(** When the node answers: lifted to nodes. *)
From Coq Require Import NArith ZArith List Bool String Lia.
From stdpp Require Import base list gmap relations.
From Verif.Model Require Import Bytes KindEncoder Desc Schema Indexes Orm Users Prog Router Runtime
  Services Module Builder Universe Coin CoreModules Rbac Bank Authn Distribution TestApp Abci.
From Verif.Spec Require Import UserSpec StoreSpec RuntimeSpec RbacSpec ChainSpec LiveSpec.
From Verif.Proofs Require Import BytesFacts KindEncoderFacts RegistryFacts OrmFacts UserFacts RuntimeFacts
  BuilderFacts SimFacts AppFacts AppSim RbacFacts MapExec ChainInv ChainWp ChainRun ChainHist ReadOnlyFacts ChainView
  ChainFacts CoinFacts AdmissionFacts TotalExec TotalRun TotalChain.

Local Ltac known := apply (bool_decide_unpack _); vm_compute; exact I.

(** ** Accounts and bindings come together *)
Record homes (S : amap) : Prop := {
  ho_housed : housed S;
  ho_bound : forall k o, S !! at_account k = Some o -> exists s, S !! at_binding k = Some (OBinding s external_role_id)
}.
Lemma genesis_homes id : homes (genesis_store id).
Proof.
  assert (forall k o, genesis_store id !! k = Some o ->
            k = (ty_of o, key_of o) /\ o ∈ genesis_objects id) as HG.
  { intros k o H. apply elem_of_list_to_map_2 in H. apply elem_of_list_fmap in H as (o' & E & H).
    injection E as -> ->. done. }
  pose proof (genesis_inv id) as HI. split.
  - intros k o H. destruct (HG _ _ H) as [E Ho].
    assert (Forall (fun o => match o with OBinding _ _ => key_of o ∈ module_names \/ key_of o = genesis_address
                                     | _ => True end) (genesis_objects id)) as HF.
    { unfold genesis_objects. cbn [role_table flat_map List.app].
      repeat (apply Forall_cons; split;
        [first [exact I|left; apply (bool_decide_unpack _); vm_compute; exact I|right; vm_compute; reflexivity]|]).
      by apply Forall_nil. }
    rewrite Forall_forall in HF. specialize (HF _ Ho).
    injection E as E1 ->. apply (ty_of_tag (OBinding [] []) o) in E1. destruct o; try discriminate E1.
    destruct HF as [HF|HF]; [by left|right]. rewrite HF. vm_compute. eauto.
  - intros k o H. pose proof (genesis_numbering id) as HN.
    assert (k ∈ [genesis_address]) as Hk by (apply (nu_keys _ _ HN); eauto).
    apply elem_of_list_singleton in Hk as ->. exists genesis_address. vm_compute. reflexivity.
Qed.
Lemma change_homes S S' : change S S' -> homes S -> homes S'.
Proof.
  intros Hc [H1 H2]. split.
  - intros k o Ho. destruct (S !! at_binding k) as [o1|] eqn:E.
    + destruct (H1 k o1 E) as [?|[a Ha]]; [by left|right]. exists a. by eapply change_account_keeps.
    + destruct Hc as [a c H|a S1 [n N1 N2 N3 N4]].
      * rewrite lookup_insert_ne in Ho by tyne. congruence.
      * right. apply lookup_insert_Some in Ho as [[Ek <-]|[_ Ho]].
        -- injection Ek as <-. rewrite lookup_insert_ne by tyne. rewrite lookup_insert_ne by tyne.
           rewrite lookup_insert. eauto.
        -- rewrite lookup_insert_ne in Ho by tyne. rewrite lookup_insert_ne in Ho by tyne. congruence.
  - intros k o Ho. destruct (S !! at_account k) as [o1|] eqn:E.
    + destruct (H2 k o1 E) as [s Hs]. exists s. by eapply change_binding_keeps.
    + destruct Hc as [a c H|a S1 [n N1 N2 N3 N4]].
      * rewrite lookup_insert_ne in Ho by tyne. congruence.
      * rewrite lookup_insert_ne in Ho by tyne. rewrite lookup_insert_ne in Ho by tyne.
        apply lookup_insert_Some in Ho as [[Ek _]|[_ Ho]]; [|congruence]. injection Ek as <-.
        rewrite lookup_insert. eauto.
Qed.
Lemma changes_homes S S' : rtc change S S' -> homes S -> homes S'.
Proof. induction 1; [done|]. intros. by apply IHrtc, (change_homes x). Qed.
(** Only bindings and accounts matter. *)
Lemma homes_frame S S' : (forall k, S' !! at_binding k = S !! at_binding k) ->
  (forall k, is_Some (S' !! at_account k) <-> is_Some (S !! at_account k)) -> homes S -> homes S'.
Proof.
  intros Eb Ea [H1 H2]. split.
  - intros k o. rewrite Eb, Ea. apply H1.
  - intros k o Ho. rewrite Eb. destruct (proj1 (Ea k)) as [o' Ho']; [eauto|]. by eapply H2.
Qed.
Lemma bump_homes p S : wt S -> homes S -> homes (bump p S).
Proof.
  intros HW. apply homes_frame.
  - intros k. by rewrite bump_other by (done || known).
  - intros k. rewrite bump_lookup. destruct (S !! at_account k) as [[]|]; split; intros []; eauto; discriminate.
Qed.
Lemma tx_ran_homes bits verify t S r S' : wt S -> tx_ran bits verify t S r S' -> homes S -> homes S'.
Proof.
  intros HW H HH. destruct (tx_ran_changes _ _ _ _ _ _ H) as [(_ & -> & _)|[_ Hc]]; [done|].
  eapply changes_homes; [done|]. by apply bump_homes.
Qed.
Lemma paid_homes bits verify t S r S' : wt S -> paid bits verify t S r S' -> homes S -> homes S'.
Proof.
  intros HW [] HH; [done|..]; (eapply changes_homes; [by eapply sent_changes|]; by apply bump_homes).
Qed.
Lemma call_ran_homes bits verify decode S c r S' : wt S -> call_ran bits verify decode S c r S' -> homes S -> homes S'.
Proof.
  intros HW [] HH; try done.
  - revert HH. apply homes_frame; intros; rewrite !lookup_insert_ne by tyne; done.
  - by eapply tx_ran_homes.
  - revert HH. apply homes_frame; intros; rewrite !lookup_insert_ne by tyne; done.
Qed.
Lemma history_homes bits verify decode cs S S' : inv S -> history bits verify decode cs S S' -> homes S -> homes S'.
Proof.
  intros HI H. induction H as [|c cs S r S1 S' Hc _ IH]; [done|]. intros HH. apply IH; [by eapply call_ran_inv|].
  eapply call_ran_homes; [apply HI|done|done].
Qed.

(** Accounts a message may open. *)
Definition opens (m : msg) (k : bytes) : Prop :=
  match m with
  | MsgCreateAccount (Some a) => k = string_key (ac_address a)
  | MsgSendCoins _ to _ => k = string_key to
  | _ => False
  end.
Lemma created_accounts S a S' k : created S a S' -> is_Some (S' !! at_account k) ->
  is_Some (S !! at_account k) \/ k = string_key (ac_address a).
Proof.
  intros [n _ _ _ _]. rewrite lookup_insert_ne by tyne. rewrite lookup_insert_ne by tyne.
  destruct (decide (k = string_key (ac_address a))) as [->|Hk]; [by right|]. rewrite lookup_insert_ne by congruence. by left.
Qed.
Lemma sent_accounts bits S from to amt r S' k : sent bits S from to amt r S' -> is_Some (S' !! at_account k) ->
  is_Some (S !! at_account k) \/ k = string_key to.
Proof.
  intros H. destruct H; subst; try (by left); try (rewrite !lookup_insert_ne by tyne; by left).
  intros Hk. eapply created_accounts in Hk; [|eassumption]. destruct Hk as [Hk|Hk]; [|by right]. left.
  by rewrite !lookup_insert_ne in Hk by tyne.
Qed.
Lemma ran_accounts bits us m S r S' k : ran bits us m S r S' -> is_Some (S' !! at_account k) ->
  is_Some (S !! at_account k) \/ opens m k.
Proof.
  intros [H|a S1 -> H Hc|from to amt r' S1 -> H Hs] Hk; [by left|..].
  - by eapply created_accounts.
  - by eapply sent_accounts.
Qed.

(** ** The node *)
Section Node.
  Context (C : codec) (bits : N) (verify : bytes -> bytes -> bytes -> bool).
  Context (enum : list (event object msg) -> users -> list user) (fuel : nat) (decode : bytes -> res tx).
  Context (HS : sound C enum decode).
  Context (good : object -> Prop) (HK : keeps C bits good) (Hbits : (bits <= 313)%N).
  Notation app := (test_app bits verify).
  Notation HA := (test_app_like bits verify).
  Notation O := (app_ops C).
  Notation R := (ap_registry app).
  Notation ORM := (orm_ops O R).
  Notation call := (call C bits verify enum fuel decode).
  Notation calls := (calls C bits verify enum fuel decode).
  Notation running := (running C bits verify enum fuel decode).
  Notation gets := (gets C bits verify).
  Notation pay := (pay C bits verify enum fuel).
  Notation send := (send C bits verify enum fuel).
  Notation reachable := (reachable C bits verify enum fuel decode).
  Notation shown := (shown C bits verify).
  Notation tracked := (tracked C bits verify).
  Notation sane := (sane C).
  Notation bad := (fun o => storable O (schema_of o) o = false /\ good o).
  Implicit Types (S : amap) (x : node) (t : tx).

  Lemma reachable_homes id x : reachable id x -> exists S, tracked x S /\ homes S.
  Proof.
    induction 1 as [cs x H|x t r x' _ (S & IH & HH) HP Hp Ha|x t m r x' _ (S & IH & HH) HP Hp Ha|x x' _ (S & IH & HH) Hw He Hi Hg].
    - apply (running_tracked C bits verify enum fuel decode HS) in H as (S & HT & Hh). exists S. split; [done|].
      eapply history_homes; [apply genesis_inv|done|apply genesis_homes].
    - destruct (pay_tracked C bits verify enum fuel decode HS t x S r x' IH HP Hp Ha) as (S' & HT & Hr). exists S'. split; [done|].
      eapply paid_homes; [apply (tk_inv _ _ _ _ _ IH)|done|done].
    - destruct (send_tracked C bits verify enum fuel decode HS (tx_users t) m x S r x' IH (proper_wf t HP) (proper_ordinary t HP) Hp Ha) as (S' & HT & Hr).
      exists S'. split; [done|]. eapply changes_homes; [by eapply ran_changes|done].
    - destruct (written_shown C bits verify enum decode HS x' Hw) as [S' Hx]. exists S'.
      assert (forall ty k, ty ∈ all_types -> ty <> ty_balance -> S' !! (ty, k) = S !! (ty, k)) as E.
      { intros ty k Ht Hn. apply option_eq. intros o.
        rewrite <- (reads_iff C bits verify enum decode HS x' S' ty k o Hx Ht),
          <- (reads_iff C bits verify enum decode HS x S ty k o (tk_shown _ _ _ _ _ IH) Ht). by apply Hg. }
      split.
      + apply tracked_shown; [done| |done..].
        apply (inv_balances S); [exact (tk_inv C bits verify x S IH)|by apply (shown_wt C bits verify x')|done].
      + revert HH. apply homes_frame; intros k; rewrite E by known; done.
  Qed.

  Lemma tracked_sane x S : tracked x S -> sane S.
  Proof. intros HT. eapply (repr_sane C bits verify app HA); [apply (tk_shown _ _ _ _ _ HT)|apply HT]. Qed.
  Lemma reads_has x S ty k : shown x S -> ty ∈ all_types -> has (gets x) ty k <-> is_Some (S !! (ty, k)).
  Proof.
    intros Hx Ht. split; intros [o Ho]; exists o; by apply (reads_iff C bits verify enum decode HS x S ty k o Hx Ht).
  Qed.

  (** A node after a step: it has stopped writing, or holds a map again. *)
  Definition settled (y : res unit * node) (Q : res unit -> amap -> Prop) : Prop :=
    (~ alive (fst y) /\ stopped_writing bad (snd y))
    \/ (alive (fst y) /\ exists S, tracked (snd y) S /\ Q (fst y) S).
  Lemma settled_answers y Q : settled y Q -> answers bad y.
  Proof. intros [H|[H _]]; [by right|by left]. Qed.
  Lemma stuck_stopped (w : world object msg orm) x : stuck C good w -> stopped_writing bad (set_world x w).
  Proof. intros (tr & o & us & Ht & Hs & Hg). exists tr, o, us. done. Qed.
  Lemma dead_gone {A} (r : res A) : dead r -> ~ alive r.
  Proof. destruct r; cbn; tauto. Qed.

  Lemma settle x S y : tracked x S -> tout C app good y (fun r S' => inv S') ->
    settled (fst y, set_world x (snd y)) (fun _ _ => True).
  Proof.
    intros HT [[Hd Hs]|(Ha & S' & HR & HI)].
    - left. split; [by apply dead_gone|by apply stuck_stopped].
    - right. split; [done|]. exists S'. split; [|done].
      destruct (tracked_flags C bits verify x S HT) as [He Hi]. by apply tracked_shown.
  Qed.

  Lemma send_settled t m x S : tracked x S -> proper t -> 3 <= fuel -> good_msg good m ->
    (granted (map_stored S) VDeliver (msg_name m) (tx_users t) -> safe_msg bits S m) ->
    settled (send (tx_users t) m x) (ran bits (tx_users t) m S).
  Proof.
    intros HT HP Hf Hg Hs. destruct fuel as [|[|[|f]]]; [lia..|].
    pose proof (twpd_ordinary C (so_codec _ _ _ HS) bits verify app HA enum (so_order _ _ _ HS) good HK Hbits f (tx_users t) m S
      (fun r S' => ran bits (tx_users t) m S r S' /\ inv S') (tracked_sane _ _ HT) (proper_wf t HP)) as H.
    feed specialize H.
    { intros u Hu. apply (proper_users t _ HP) in Hu. apply elem_of_list_fmap in Hu as (s & -> & Hu').
      by apply (proj1 (Forall_forall _ _) (pr_named t HP)). }
    { by apply proper_ordinary. }
    { done. }
    { done. }
    { intros r S' Hr HS'. split; [done|apply HS']. }
    specialize (H (rt_world x) (tk_shown _ _ _ _ _ HT)).
    unfold ChainSpec.send, at_world, bytes_store, the_app.
    destruct (tracked_flags C bits verify x S HT) as [He Hi]. rewrite He.
    destruct (deliver _ _ _ _ _ _ _ _ _) as [r w]. destruct H as [[Hd Hst]|(Ha & S' & HR & Hr & HI)]; cbn [fst snd] in *.
    - left. split; [by apply dead_gone|by apply stuck_stopped].
    - right. split; [done|]. exists S'. split; [|done]. by apply tracked_shown.
  Qed.

  Lemma pay_settled t x S : tracked x S -> homes S -> proper t -> 3 <= fuel -> good_to good fee_collector (tx_fee t) ->
    settled (pay t x) (fun r S' => paid bits verify t S r S').
  Proof.
    intros HT HH HP Hf Hg. destruct (tracked_flags C bits verify x S HT) as [He Hi].
    pose proof (admission_exact C bits verify enum fuel decode HS t x S ltac:(lia) (tk_shown _ _ _ _ _ HT) He HP) as [Hu Had].
    rewrite (admissible_tracked C bits verify enum decode HS x S t (tk_shown _ _ _ _ _ HT) HP) in Had.
    revert Hu Had. unfold ChainSpec.admission, ChainSpec.pay, at_world, bytes_store, the_app. cbv zeta. rewrite He.
    destruct fuel as [|[|[|f]]]; [lia..|].
    destruct (run_tx_admission_chain _ _ _ _ _ _) as [r w1]. cbn [fst snd]. unfold unchanged. cbn [set_world rt_world].
    intros Hu Had.
    assert (repr O R S (w_store w1)) as HR by (rewrite Hu; apply HT).
    destruct Had as [[-> Had]|[[e ->] Had]]; cbn [then_do].
    - unfold run_tx_post_auth_chain. cbn [en_router env_of].
      destruct (app_tx_handlers bits verify app HA) as [_ ->].
      pose proof (twpt_post C (so_codec _ _ _ HS) bits verify app HA enum (so_order _ _ _ HS) good HK Hbits f t S
        (fun r S' => inv S' /\ exists r0, sent bits (bump (users_has1 (tx_users t)) S) (tx_payer t) fee_collector (tx_fee t) r0 S'
                    /\ r = match r0 with Fail e => Fail (bad_request e) | _ => r0 end)
        (tracked_sane _ _ HT) (ho_housed _ HH) HP Had Hg) as H.
      feed specialize H. { intros r S' Hr HS'. split; [apply HS'|]. eauto. }
      specialize (H w1 HR).
      destruct (run_tx_handlers _ _ _ _ _ _ _) as [r w]. destruct H as [[Hd Hst]|(Ha & S' & HR' & HI & r0 & Hr & E)]; cbn [fst snd] in *.
      + left. split; [by apply dead_gone|by apply stuck_stopped].
      + right. split; [done|]. exists S'. split; [by apply tracked_shown|]. subst r.
        destruct (sent_res _ _ _ _ _ _ _ Hr) as [->|[e ->]]; by econstructor.
    - right. split; [done|]. exists S. split; [by apply tracked_shown; [|apply HT|..]|]. cbn [fst]. by constructor.
  Qed.

  (** Messages one after the other. *)
  Lemma each_settled t l : forall used v x S, tracked x S -> homes S -> proper t -> 3 <= fuel -> Forall (good_msg good) l ->
    (forall k, is_Some (S !! at_account k) -> has v ty_account k \/ k ∈ used) ->
    tame v used l -> settled (each_msg (send (tx_users t)) l x) (fun r S' => msgs_ran bits (tx_users t) l S r S').
  Proof.
    induction l as [|m l IH]; intros used v x S HT HH HP Hf Hg Hv Hl; cbn [each_msg].
    { right. split; [done|]. exists S. split; [done|]. constructor. }
    apply Forall_cons in Hg as [Hg1 Hg2]. destruct Hl as [Hl1 Hl2].
    assert (safe_msg bits S m) as Hs.
    { destruct m as [| | | | | |oa|oa| | | | |from to amt|]; try exact I; cbn [safe_msg short_addresses] in *.
      - destruct oa as [a|]; [|done]. exists a. destruct Hl2 as (N1 & N2 & N3 & N4 & _).
        rewrite string_key_small by (unfold blen; lia).
        assert (S !! at_account (ac_address a) = None) as Hn.
        { destruct (S !! at_account (ac_address a)) as [o|] eqn:E; [|done].
          destruct (Hv (ac_address a)) as [[o' H]|H]; [eauto|by apply N4 in H|done]. }
        split; [done|]. split; [done|]. split; [done|].
        destruct (S !! at_binding (ac_address a)) as [o|] eqn:E; [|done].
        destruct (ho_housed _ HH _ _ E) as [H|[o' H]]; [by rewrite <- modules_of_app_eq in H|congruence].
      - destruct Hl1 as [L1 L2], Hl2 as (N1 & N2 & N3 & _). split; [done|]. intros _.
        apply housed_receives; [apply HH|done|unfold blen; lia|by rewrite <- modules_of_app_eq]. }
    pose proof (send_settled t m x S HT HP Hf Hg1 (fun _ => Hs)) as H.
    destruct (send (tx_users t) m x) as [r x1]. destruct H as [[Hd Hst]|(Ha & S1 & HT1 & Hr)]; cbn [fst snd] in *.
    { left. destruct r; [by destruct Hd|by destruct Hd|by split|by split]. }
    destruct (ran_res _ _ _ _ _ _ Hr) as [->|[e ->]]; cbn [then_do].
    2:{ right. split; [done|]. exists S1. split; [done|]. by constructor. }
    assert (homes S1) as HH1 by (eapply changes_homes; [by eapply ran_changes|done]).
    assert (exists used', tame v used' l /\ forall k, is_Some (S1 !! at_account k) -> has v ty_account k \/ k ∈ used') as (used' & Ht' & Hv').
    { assert (forall k, is_Some (S1 !! at_account k) -> has v ty_account k \/ k ∈ used \/ opens m k) as Hk.
      { intros k Hk. destruct (ran_accounts _ _ _ _ _ _ k Hr Hk) as [H|H]; [|by auto]. destruct (Hv k H); auto. }
      destruct m as [| | | | | |oa|oa| | | | |from to amt|]; cbn [opens short_addresses] in *;
        try (exists used; split; [exact Hl2|]; intros k Hk'; destruct (Hk k Hk') as [?|[?|?]]; auto; done).
      - destruct oa as [a|]; [|done]. destruct Hl2 as (_ & _ & _ & _ & Hl2). exists (ac_address a :: used). split; [done|].
        intros k Hk'. destruct (Hk k Hk') as [?|[?|E]]; [by left|right; by right|right]. rewrite string_key_small in E by (unfold blen; lia).
        subst k. left.
      - destruct Hl2 as (_ & _ & _ & Hl2). exists (to :: used). split; [done|].
        intros k Hk'. destruct (Hk k Hk') as [?|[?|E]]; [by left|right; by right|right].
        rewrite string_key_small in E by (unfold blen; lia). subst k. left. }
    pose proof (IH used' v x1 S1 HT1 HH1 HP Hf Hg2 Hv' Ht') as H.
    destruct H as [H|(Ha2 & S2 & HT2 & Hm)]; [by left|right]. split; [done|]. exists S2. split; [done|].
    by eapply msgs_next.
  Qed.
End Node.
