(** Consequences for accounts, roles, heights: what histories change. *)
From Coq Require Import NArith ZArith List Bool String Lia.
From stdpp Require Import base list gmap relations.
From Verif.Model Require Import Bytes KindEncoder Desc Schema Indexes Orm Users Prog Router Runtime
  Services Module Builder Universe Coin CoreModules Rbac Bank Authn Distribution TestApp Abci.
From Verif.Spec Require Import UserSpec StoreSpec RuntimeSpec RbacSpec ChainSpec.
From Verif.Proofs Require Import BytesFacts KindEncoderFacts RegistryFacts OrmFacts UserFacts RuntimeFacts
  BuilderFacts SimFacts AppFacts AppSim RbacFacts MapExec ChainInv ChainWp ChainRun ChainHist ReadOnlyFacts ChainView.

Implicit Types (S : amap) (k ty : bytes) (o : object) (t : tx) (us : users).

(** ** The elementary changes *)
Inductive change S : amap -> Prop :=
| change_balance a c : string_key a <> [] -> change S (put_balance a c S)
| change_account a S' : created S a S' -> change S S'.

Lemma sent_changes bits S from to amt r S' : sent bits S from to amt r S' -> rtc change S S'.
Proof.
  intros []; subst; try done.
  - apply rtc_once. by constructor.
  - apply rtc_once. by constructor.
  - eapply (rtc_l _ _ (put_balance from c1 S)); [|apply rtc_once]; by constructor.
  - eapply (rtc_l _ _ (put_balance from c1 S)); [|apply rtc_once]; by constructor.
  - eapply (rtc_l _ _ (put_balance from c1 S)); [by constructor|].
    eapply (rtc_l _ _ (put_balance to amt (put_balance from c1 S))); [by constructor|].
    apply rtc_once. eapply change_account; eassumption.
Qed.
Lemma ran_changes bits us m S r S' : ran bits us m S r S' -> rtc change S S'.
Proof. intros []; [done| |by eapply sent_changes]. apply rtc_once. eapply change_account; eassumption. Qed.
Lemma msgs_ran_changes bits us l S r S' : msgs_ran bits us l S r S' -> rtc change S S'.
Proof.
  induction 1; [done| |by eapply ran_changes]. etrans; [by eapply ran_changes|done].
Qed.
Lemma tx_ran_changes bits verify t S r S' : tx_ran bits verify t S r S' ->
  ~ admitted bits verify S t /\ S' = S /\ (exists e, r = Fail e)
  \/ admitted bits verify S t /\ rtc change (bump (users_has1 (tx_users t)) S) S'.
Proof.
  intros [e H|e S2 H Hs|S2 r' S3 H Hs Hm].
  - left. eauto.
  - right. split; [done|]. by eapply sent_changes.
  - right. split; [done|]. etrans; [by eapply sent_changes|by eapply msgs_ran_changes].
Qed.

(** ** What stays *)
Definition touched : list bytes := [ty_balance; ty_account; ty_account_number; ty_binding].
Lemma change_frame S S' ty k : ty ∉ touched -> change S S' -> S' !! (ty, k) = S !! (ty, k).
Proof.
  unfold touched. intros Ht [a c H|a S1 [n H1 H2 H3 H4]].
  - apply lookup_insert_ne. intros E. apply (f_equal fst) in E. cbn [fst] in E. set_solver.
  - rewrite !lookup_insert_ne; [done|..]; intros E; apply (f_equal fst) in E; cbn [fst] in E; set_solver.
Qed.
Lemma changes_frame S S' ty k : ty ∉ touched -> rtc change S S' -> S' !! (ty, k) = S !! (ty, k).
Proof. intros Ht H. induction H as [|S S1 S' H1 _ IH]; [done|]. by rewrite IH, (change_frame S S1). Qed.

Lemma change_account_keeps S S' k o : change S S' -> S !! at_account k = Some o -> S' !! at_account k = Some o.
Proof.
  intros [a c H|a S1 [n H1 H2 H3 H4]] Hk.
  - rewrite lookup_insert_ne; [done|tyne].
  - rewrite lookup_insert_ne; [|tyne]. rewrite lookup_insert_ne; [|tyne].
    rewrite lookup_insert_ne; [done|]. intros E. apply (f_equal snd) in E. cbn [snd] in E. congruence.
Qed.
Lemma changes_account_keep S S' k o : rtc change S S' -> S !! at_account k = Some o -> S' !! at_account k = Some o.
Proof. intros H. induction H as [|S S1 S' H1 _ IH]; [done|]. intros Ho. by eapply IH, change_account_keeps. Qed.

Lemma change_binding_keeps S S' k o : change S S' -> S !! at_binding k = Some o -> S' !! at_binding k = Some o.
Proof.
  intros [a c H|a S1 [n H1 H2 H3 H4]] Hk.
  - rewrite lookup_insert_ne; [done|tyne].
  - rewrite lookup_insert_ne; [|intros E; apply (f_equal snd) in E; cbn [snd] in E; congruence].
    rewrite lookup_insert_ne; [|tyne]. rewrite lookup_insert_ne; [done|tyne].
Qed.
Lemma changes_binding_keep S S' k o : rtc change S S' -> S !! at_binding k = Some o -> S' !! at_binding k = Some o.
Proof. intros H. induction H as [|S S1 S' H1 _ IH]; [done|]. intros Ho. by eapply IH, change_binding_keeps. Qed.
Lemma change_binding_new S S' k o : change S S' -> S !! at_binding k = None -> S' !! at_binding k = Some o ->
  exists s, o = OBinding s external_role_id.
Proof.
  intros [a c H|a S1 [n H1 H2 H3 H4]] Hk.
  - rewrite lookup_insert_ne; [congruence|tyne].
  - rewrite lookup_insert_Some. intros [[_ <-]|[_ H]]; [eauto|]. revert H.
    rewrite lookup_insert_ne; [|tyne]. rewrite lookup_insert_ne; [congruence|tyne].
Qed.
Lemma changes_binding_new S S' k o : rtc change S S' -> S !! at_binding k = None -> S' !! at_binding k = Some o ->
  exists s, o = OBinding s external_role_id.
Proof.
  intros H. induction H as [|S S1 S' H1 Hr IH]; [congruence|]. intros Hn Ho.
  destruct (S1 !! at_binding k) as [o1|] eqn:E1.
  - assert (o1 = o) as -> by (apply (changes_binding_keep _ _ _ _ Hr) in E1; congruence).
    by eapply change_binding_new.
  - by apply IH.
Qed.

(** ** Numbers of accounts *)
(** [ks] are the keys of the accounts in the order of their creation. *)
Record numbering S (ks : list bytes) : Prop := {
  nu_nodup : NoDup ks;
  nu_keys : forall k, k ∈ ks <-> is_Some (S !! at_account k);
  nu_each : forall i k a, ks !! i = Some k -> S !! at_account k = Some (OAccount a) ->
    ac_number a = (N.of_nat i mod 2 ^ 64)%N;
  nu_next : S !! at_number = Some (OAccountNumber (N.of_nat (length ks) mod 2 ^ 64))
}.
Lemma change_numbering S S' ks : change S S' -> numbering S ks ->
  exists new, numbering S' (ks ++ new)
    /\ forall k a, k ∈ new -> S' !! at_account k = Some (OAccount a) -> ac_sequence a = 0%N.
Proof.
  intros [a c H|a S1 [n H1 H2 H3 H4]] [N1 N2 N3 N4].
  - exists []. rewrite app_nil_r. split; [|intros k a' Hk; inversion Hk].
    assert (forall x, put_balance a c S !! at_account x = S !! at_account x) as E.
    { intros x. apply lookup_insert_ne. tyne. }
    split.
    + done.
    + intros x. by rewrite E.
    + intros i x a'. rewrite E. apply N3.
    + rewrite lookup_insert_ne; [done|tyne].
  - set (kk := string_key (ac_address a)) in *.
    assert (forall x, <[at_binding kk := OBinding (ac_address a) external_role_id]>
                      (<[at_number := OAccountNumber ((n + 1) mod 2 ^ 64)]>
                       (<[at_account kk := OAccount (numbered a n)]> S)) !! at_account x
                      = if decide (x = kk) then Some (OAccount (numbered a n)) else S !! at_account x) as E.
    { intros x. rewrite lookup_insert_ne; [|tyne]. rewrite lookup_insert_ne; [|tyne].
      destruct (decide (x = kk)) as [->|Hn]; [by rewrite lookup_insert|].
      rewrite lookup_insert_ne; [done|]. intros E. apply (f_equal snd) in E. cbn [snd] in E. congruence. }
    assert (kk ∉ ks) as Hn. { rewrite N2, H3. by intros [? ?]. }
    assert (n = N.of_nat (length ks) mod 2 ^ 64)%N as -> by congruence.
    exists [kk]. split.
    + split.
      * apply NoDup_app. split; [done|]. split; [|apply NoDup_singleton].
        intros x Hx Hx'. apply elem_of_list_singleton in Hx' as ->. done.
      * intros x. rewrite E, elem_of_app, elem_of_list_singleton. destruct (decide (x = kk)) as [->|Hx].
        -- split; [eauto|by right].
        -- rewrite <- N2. tauto.
      * intros i x a' Hi. rewrite E. apply lookup_app_Some in Hi as [Hi|[Hi Hi']].
        -- destruct (decide (x = kk)) as [->|_]; [|by apply N3].
           destruct Hn. by eapply elem_of_list_lookup_2.
        -- apply list_lookup_singleton_Some in Hi' as [Hi' <-].
           destruct (decide (kk = kk)); [|done]. intros [= <-]. cbn [ac_number numbered].
           replace i with (length ks) by lia. done.
      * rewrite lookup_insert_ne; [|tyne]. rewrite lookup_insert. f_equal. f_equal.
        rewrite app_length. cbn [length]. rewrite N.add_mod_idemp_l by done. f_equal. lia.
    + intros x a' Hx. apply elem_of_list_singleton in Hx as ->. rewrite E.
      destruct (decide (kk = kk)); [|done]. by intros [= <-].
Qed.
Lemma changes_numbering S S' : rtc change S S' -> forall ks, numbering S ks ->
  exists new, numbering S' (ks ++ new)
    /\ forall k a, k ∈ new -> S' !! at_account k = Some (OAccount a) -> ac_sequence a = 0%N.
Proof.
  intros H. induction H as [|S S1 S' H1 Hr IH]; intros ks HN.
  - exists []. rewrite app_nil_r. split; [done|]. intros k a Hk; inversion Hk.
  - destruct (change_numbering S S1 ks H1 HN) as (new1 & HN1 & Hs1).
    destruct (IH _ HN1) as (new2 & HN2 & Hs2). exists (new1 ++ new2).
    rewrite (assoc_L _) in *. split; [done|]. intros k a Hk Ha.
    apply elem_of_app in Hk as [Hk|Hk]; [|by eapply Hs2].
    assert (is_Some (S1 !! at_account k)) as [o Ho].
    { apply (nu_keys _ _ HN1). apply elem_of_app. by right. }
    pose proof (changes_account_keep _ _ _ _ Hr Ho) as Ho'. rewrite Ha in Ho'. injection Ho' as <-.
    by eapply Hs1.
Qed.
Lemma bump_numbering p S ks : wt S -> numbering S ks -> numbering (bump p S) ks.
Proof.
  intros HW [N1 N2 N3 N4]. split.
  - done.
  - intros k. rewrite N2, bump_lookup. destruct (S !! at_account k) as [[]|]; split; intros [? ?]; eauto; done.
  - intros i k a Hi. rewrite bump_lookup. destruct (S !! at_account k) as [[]|] eqn:E; try discriminate.
    cbn [snd]. destruct (p k); intros [= <-]; by apply (N3 _ _ _ Hi) in E.
  - rewrite bump_other; [done| |done]. apply (bool_decide_unpack _); vm_compute; exact I.
Qed.

(** ** Calls *)
Definition outcome_account bits verify decode S c k (a : account) : account -> Prop := fun a' =>
  (exists raw t, c = CallDeliverTx raw /\ decode raw = Ok t /\ admitted bits verify S t
     /\ is_Some (tx_users t !! k) /\ a' = next_sequence a)
  \/ ~ (exists raw t, c = CallDeliverTx raw /\ decode raw = Ok t /\ admitted bits verify S t
         /\ is_Some (tx_users t !! k)) /\ a' = a.

Definition quiet : list bytes := [ty_stage; ty_begin_block; ty_current_block; ty_end_block].
Local Ltac tykey := let E := fresh in intros E; apply (f_equal fst) in E; cbn [fst] in E; subst; set_solver.

(** Calls other than DeliverTx. *)
Lemma call_other bits verify decode S c r S' ty k : (forall raw, c <> CallDeliverTx raw) ->
  call_ran bits verify decode S c r S' -> ty ∉ quiet -> S' !! (ty, k) = S !! (ty, k).
Proof.
  unfold quiet. intros Hc H Ht. destruct H; try done; try (destruct (Hc _ eq_refl)).
  - rewrite !lookup_insert_ne; [done|tykey..].
  - rewrite !lookup_insert_ne; [done|tykey..].
Qed.

Lemma call_deliver bits verify decode S raw r S' : call_ran bits verify decode S (CallDeliverTx raw) r S' ->
  S' = S /\ (forall t, decode raw = Ok t -> ~ admitted bits verify S t) /\ (exists e, r = Fail e)
  \/ exists t, decode raw = Ok t /\ admitted bits verify S t /\ rtc change (bump (users_has1 (tx_users t)) S) S'.
Proof.
  intros H. inversion H as [| |? e He|? t ? ? Ht Hr| |]; subst.
  - left. split; [done|]. split; [congruence|eauto].
  - apply tx_ran_changes in Hr as [(Hn & -> & He)|[Ha Hr]]; [left|right; eauto].
    split; [done|]. split; [congruence|done].
Qed.

Lemma not_quiet : ty_account ∉ quiet /\ ty_account_number ∉ quiet /\ ty_binding ∉ quiet /\ ty_role ∉ quiet
  /\ ty_balance ∉ quiet.
Proof. repeat split; apply (bool_decide_unpack _); vm_compute; exact I. Qed.

Lemma call_account bits verify decode S c r S' k a : call_ran bits verify decode S c r S' ->
  S !! at_account k = Some (OAccount a) ->
  exists a', S' !! at_account k = Some (OAccount a') /\ outcome_account bits verify decode S c k a a'.
Proof.
  intros H Hk. assert ((exists raw, c = CallDeliverTx raw) \/ (forall raw, c <> CallDeliverTx raw)) as [[raw ->]|Hc].
  { destruct c; eauto; right; done. }
  - apply call_deliver in H as [(-> & Hn & _)|(t & Ht & Ha & Hr)].
    + exists a. split; [done|]. right. split; [|done]. intros (raw' & t & [= <-] & Ht & Ha & _). by eapply Hn.
    + assert (bump (users_has1 (tx_users t)) S !! at_account k
              = Some (OAccount (if users_has1 (tx_users t) k then next_sequence a else a))) as Hb.
      { by rewrite bump_lookup, Hk. }
      apply (changes_account_keep _ _ _ _ Hr) in Hb. eexists. split; [exact Hb|].
      pose proof (has1_spec (tx_users t) k) as Hu. destruct (users_has1 (tx_users t) k).
      * left. exists raw, t. split; [done|]. split; [done|]. split; [done|]. split; [by apply Hu|done].
      * right. split; [|done]. intros (raw' & t' & [= <-] & Ht' & _ & Hs).
        assert (t' = t) as -> by congruence. apply Hu in Hs. done.
  - rewrite (call_other _ _ _ _ _ _ _ _ _ Hc H) by apply not_quiet. exists a. split; [done|]. right.
    split; [|done]. intros (raw & t & -> & _). by eapply Hc.
Qed.

Lemma call_numbering bits verify decode S c r S' ks : wt S -> call_ran bits verify decode S c r S' ->
  numbering S ks -> exists new, numbering S' (ks ++ new)
    /\ forall k a, k ∈ new -> S' !! at_account k = Some (OAccount a) -> ac_sequence a = 0%N.
Proof.
  intros HW H HN. assert ((exists raw, c = CallDeliverTx raw) \/ (forall raw, c <> CallDeliverTx raw)) as [[raw ->]|Hc].
  { destruct c; eauto; right; done. }
  - apply call_deliver in H as [(-> & Hn & _)|(t & Ht & Ha & Hr)].
    + exists []. rewrite app_nil_r. split; [done|]. intros k a Hk; inversion Hk.
    + eapply changes_numbering; [done|]. by apply bump_numbering.
  - exists []. rewrite app_nil_r. split; [|intros k a Hk; inversion Hk].
    pose proof (fun ty k => call_other bits verify decode S c r S' ty k Hc H) as HF.
    destruct not_quiet as (Q1 & Q2 & _). destruct HN as [N1 N2 N3 N4]. split.
    + done.
    + intros k. by rewrite HF.
    + intros i k a. rewrite HF by done. apply N3.
    + by rewrite HF.
Qed.
Lemma genesis_numbering id : numbering (genesis_store id) [genesis_address].
Proof.
  split.
  - apply NoDup_singleton.
  - intros k. split.
    + intros Hk. apply elem_of_list_singleton in Hk as ->. vm_compute. eauto.
    + intros [o Ho]. apply elem_of_list_to_map_2 in Ho. apply elem_of_list_fmap in Ho as (o' & E & Ho).
      apply elem_of_list_singleton. injection E as E1 E2 ->.
      assert (Forall (fun o => match o with OAccount _ => key_of o = genesis_address | _ => True end) (genesis_objects id)) as HF.
      { unfold genesis_objects. cbn [role_table flat_map List.app].
        repeat (apply Forall_cons; split; [first [exact I|vm_compute; reflexivity]|]). by apply Forall_nil. }
      rewrite Forall_forall in HF. specialize (HF _ Ho).
      apply (ty_of_tag (OAccount genesis_account) o') in E1. destruct o'; try discriminate E1. congruence.
  - intros i k a Hi Ha. apply list_lookup_singleton_Some in Hi as [-> <-].
    assert (genesis_store id !! at_account genesis_address = Some (OAccount genesis_account)) as E by (vm_compute; reflexivity).
    rewrite E in Ha. injection Ha as <-. reflexivity.
  - vm_compute. reflexivity.
Qed.

(** ** Histories *)
Lemma history_app bits verify decode cs cs' S S' S'' :
  history bits verify decode cs S S' -> history bits verify decode cs' S' S'' ->
  history bits verify decode (cs ++ cs') S S''.
Proof. induction 1; [done|]. intros. econstructor; eauto. Qed.

Lemma history_numbering bits verify decode cs S S' ks : inv S -> history bits verify decode cs S S' ->
  numbering S ks -> exists new, numbering S' (ks ++ new).
Proof.
  intros HI H. revert ks HI. induction H as [|c cs S r S1 S' Hc _ IH]; intros ks HI HN.
  - exists []. by rewrite app_nil_r.
  - destruct (call_numbering _ _ _ _ _ _ _ _ (iv_wt _ HI) Hc HN) as (new & HN1 & _).
    destruct (IH (ks ++ new)) as [new2 H2]; [by eapply call_ran_inv|done|].
    exists (new ++ new2). by rewrite (assoc_L _).
Qed.

(** Roles and bindings. *)
Lemma call_roles bits verify decode S c r S' k : wt S -> call_ran bits verify decode S c r S' ->
  S' !! (ty_role, k) = S !! (ty_role, k).
Proof.
  intros HW H. assert ((exists raw, c = CallDeliverTx raw) \/ (forall raw, c <> CallDeliverTx raw)) as [[raw ->]|Hc].
  { destruct c; eauto; right; done. }
  - apply call_deliver in H as [(-> & Hn & _)|(t & Ht & Ha & Hr)]; [done|].
    assert (ty_role ∉ touched) as Q by (apply (bool_decide_unpack _); vm_compute; exact I).
    rewrite (changes_frame _ _ _ _ Q Hr).
    apply bump_other; [|done]. apply (bool_decide_unpack _); vm_compute; exact I.
  - apply (call_other _ _ _ _ _ _ _ _ _ Hc H). apply not_quiet.
Qed.
Lemma call_bindings bits verify decode S c r S' k : wt S -> call_ran bits verify decode S c r S' ->
  match S !! at_binding k with
  | Some o => S' !! at_binding k = Some o
  | None => forall o, S' !! at_binding k = Some o -> exists s, o = OBinding s external_role_id
  end.
Proof.
  intros HW H. assert ((exists raw, c = CallDeliverTx raw) \/ (forall raw, c <> CallDeliverTx raw)) as [[raw ->]|Hc].
  { destruct c; eauto; right; done. }
  - apply call_deliver in H as [(-> & Hn & _)|(t & Ht & Ha & Hr)].
    { destruct (S !! at_binding k); congruence. }
    assert (bump (users_has1 (tx_users t)) S !! at_binding k = S !! at_binding k) as E.
    { apply bump_other; [|done]. apply (bool_decide_unpack _); vm_compute; exact I. }
    destruct (S !! at_binding k) as [o|].
    + by apply (changes_binding_keep _ _ _ _ Hr).
    + intros o Ho. exact (changes_binding_new _ _ k o Hr E Ho).
  - rewrite (call_other _ _ _ _ _ _ _ _ _ Hc H) by apply not_quiet.
    destruct (S !! at_binding k); congruence.
Qed.

(** Height and stage. *)
Lemma call_height bits verify decode S c r S' : wt S -> call_ran bits verify decode S c r S' ->
  S' !! at_height = match c with
                    | CallBeginBlock h _ => Some (OCurrentBlock (Z.to_N (h mod 2 ^ 64)))
                    | _ => S !! at_height
                    end
  /\ S' !! at_stage = match c with
                      | CallBeginBlock _ _ => Some (OStage StBeginBlock)
                      | CallEndBlock _ => Some (OStage StEndBlock)
                      | _ => S !! at_stage
                      end.
Proof.
  intros HW H. assert ((exists raw, c = CallDeliverTx raw) \/ (forall raw, c <> CallDeliverTx raw)) as [[raw ->]|Hc].
  { destruct c; eauto; right; done. }
  - apply call_deliver in H as [(-> & Hn & _)|(t & Ht & Ha & Hr)]; [done|].
    assert (ty_current_block ∉ touched /\ ty_stage ∉ touched) as [Q1 Q2].
    { split; apply (bool_decide_unpack _); vm_compute; exact I. }
    rewrite (changes_frame _ _ _ _ Q1 Hr), (changes_frame _ _ _ _ Q2 Hr).
    split; apply bump_other; try done; apply (bool_decide_unpack _); vm_compute; exact I.
  - destruct H; try done; try (destruct (Hc _ eq_refl)).
    + rewrite lookup_insert. split; [done|]. rewrite lookup_insert_ne; [|tyne]. rewrite lookup_insert_ne; [|tyne].
      by rewrite lookup_insert.
    + split.
      * rewrite lookup_insert_ne; [|tyne]. rewrite lookup_insert_ne; [done|tyne].
      * rewrite lookup_insert_ne; [|tyne]. by rewrite lookup_insert.
Qed.
