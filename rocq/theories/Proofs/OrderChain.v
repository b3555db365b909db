(** Transactions under two orders of listing users. *)
From Coq Require Import NArith ZArith List Bool String Lia.
From stdpp Require Import base list gmap.
From Verif.Model Require Import Bytes KindEncoder Desc Schema Indexes Orm Users Prog Router Runtime
  Services Module Builder Universe Coin CoreModules Rbac Bank Authn Distribution TestApp Abci.
From Verif.Spec Require Import UserSpec StoreSpec RuntimeSpec RbacSpec.
From Verif.Proofs Require Import BytesFacts KindEncoderFacts RegistryFacts OrmFacts UserFacts RuntimeFacts
  BuilderFacts SimFacts AppFacts AppSim RbacFacts MapExec ChainInv ChainWp ChainRun OrderFacts.

(** ** One order *)
Section One.
  Context (C : codec) (bits : N) (verify : bytes -> bytes -> bytes -> bool).
  Context (app : application object msg tx) (HA : test_like bits verify app).
  Context (HC : codec_ok (app_ops C)).
  Context (HT : forall o, typed_in (app_ops C) (ap_registry app) o).
  Context (enum : list (event object msg) -> users -> list user) (HE : forall tr, fair_order (enum tr)).
  Notation O := (app_ops C).
  Notation R := (ap_registry app).
  Notation ORM := (orm_ops O R).
  Notation world := (world object msg orm).
  Notation en := (env_of app enum true).
  Context (dlv : users -> msg -> world -> res unit * world).
  Implicit Types (S : amap) (st : orm) (w v : world) (us self : users) (m : msg) (t : tx) (n ty id : bytes)
    (o : object) (b : bool).
  Local Ltac known := apply (bool_decide_unpack _); vm_compute; exact I.

  Lemma get_stored S st ty id : repr O R S st -> ty ∈ all_types ->
    rt_get ORM ty id st = if decide (id = []) then Panic
      else match S !! (ty, id) with Some o => Ok o | None => Fail (EWrap (ESent RtNotFound)) end.
  Proof.
    intros HP Ht. pose proof (tl_registry _ _ _ HA) as HR. pose proof (tl_schema _ _ _ HA) as HS.
    destruct (orm_get_map C R HR HS S st ty id HC HP Ht) as [_ H].
    destruct (map_get_sim O R HC HR ty id st S HP) as [D|E].
    - destruct (rt_get ORM ty id st); try done. subst id. by rewrite decide_True.
    - rewrite E, (map_rt_get C R HS S ty id Ht). done.
  Qed.

  Lemma exist_out self l : forall S w, repr O R S (w_store w) -> Forall (fun u => u_name u <> []) l ->
    exec O ORM en dlv self (accounts_exist l) w
    = (if decide (Forall (fun u => is_Some (S !! at_account (u_name u))) l) then Ok tt
       else Fail (EWrap (ESent RtNotFound)), w).
  Proof.
    induction l as [|u l IH]; intros S w HP HN; cbn [accounts_exist].
    - by rewrite decide_True by constructor.
    - inversion HN as [|? ? Hu HN' E]; subst. unfold get_. cbn [exec get_height fold_left N.eqb negb].
      rewrite (get_stored S _ _ _ HP) by known. rewrite decide_False by exact Hu.
      destruct (S !! at_account (u_name u)) as [o|] eqn:Eo.
      + rewrite (IH S w HP HN'). destruct (decide (Forall _ l)) as [F|F].
        * rewrite decide_True; [done|]. constructor; [by rewrite Eo|done].
        * rewrite decide_False; [done|]. intros F'. by inversion F'.
      + cbn [exec]. rewrite decide_False; [done|]. intros F. inversion F as [|? ? F1]; subst.
        rewrite Eo in F1. by destruct F1.
  Qed.

  Lemma stored_iff S st ty id o : repr O R S st -> ty ∈ all_types -> orm_stored C R st ty id o <-> S !! (ty, id) = Some o.
  Proof.
    intros HP Ht. pose proof (tl_registry _ _ _ HA) as HR. pose proof (tl_schema _ _ _ HA) as HS. unfold orm_stored.
    destruct (orm_get_map C R HR HS S st ty id HC HP Ht) as [H _].
    generalize dependent (orm_get O R ty id st). intros g H.
    pose proof (repr_wt C R HS S _ HP) as HW. split.
    - intros ->. by destruct H.
    - intros Ho. destruct g as [o'|e| |]; [destruct H; congruence|..];
        destruct H as [->|H]; try congruence; by destruct (HW _ _ _ Ho) as (_ & _ & ?).
  Qed.
  Lemma module_allowed S n vb ty w : repr O R S (w_store w) -> inv S -> can n vb ty = true ->
    authorized ORM en vb ty (users_from_string [n]) w = (Ok tt, log (EvCheck vb ty (users_from_string [n]) true) w).
  Proof.
    intros HP HI Hc. unfold authorized. cbn [en_enabled env_of en_enum en_authorizer negb].
    rewrite (tl_authorizer _ _ _ HA).
    pose proof (orm_decides C R (tl_registry _ _ _ HA) (tl_schema _ _ _ HA) S (w_store w) (enum (w_trace w)) vb ty
      (users_from_string [n]) HC HP (HE _) (from_string_wf _)) as D.
    assert (granted (orm_stored C R (w_store w)) vb ty (users_from_string [n])) as HG.
    { destruct (module_can S n vb ty HI Hc) as [G1 (u & r & G2 & G3 & G4)].
      assert (forall u r, has_role (map_stored S) u r -> has_role (orm_stored C R (w_store w)) u r) as Hr.
      { intros u' r' (s & ref & A1 & A2). exists s, ref.
        split; apply (stored_iff S _ _ _ _ HP); try done; apply rbac_types; auto. }
      split; [|eauto 6]. intros u' Hu'. destruct (G1 u' Hu') as [r' Hr']. eauto. }
    destruct (run_read _ _ _ _) as [d|e| |]; [|done|by destruct D|done].
    destruct D as [[_ ->]|[D _]]; done.
  Qed.

  (** The account cannot be stored with its next sequence number. *)
  Definition stuck S n : Prop :=
    exists a, S !! at_account n = Some (OAccount a)
      /\ storable O (schema_of (OAccount a)) (OAccount (next_sequence a)) = false.
  Lemma increase_out l : forall S w, repr O R S (w_store w) -> inv S -> NoDup (map u_name l) ->
    Forall (fun u => is_Some (S !! at_account (u_name u))) l ->
    let x := exec O ORM en dlv (users_from_string [str "authn"]) (increase_sequences l) w in
    (exists u, u ∈ l /\ stuck S (u_name u)) /\ dead (fst x)
    \/ (forall u, u ∈ l -> ~ stuck S (u_name u)) /\ fst x = Ok tt
       /\ repr O R (bump (fun n => bool_decide (n ∈ map u_name l)) S) (w_store (snd x)).
  Proof.
    induction l as [|u l IH]; intros S w HP HI HN HF; cbn [increase_sequences].
    - right. split; [intros u Hu; inversion Hu|]. split; [done|]. cbn [exec snd].
      replace (bump _ S) with S; [done|].
      apply map_eq. intros k. rewrite bump_lookup. cbn. by destruct (S !! k) as [[]|].
    - cbn [map] in HN. apply NoDup_cons in HN as [Hu HN]. inversion HF as [|? ? [o Ho] HF' E]; subst.
      destruct (wt_account S (iv_wt S HI) _ _ Ho) as (a & -> & Ek).
      assert (u_name u <> []) as Hne by (by destruct (iv_wt S HI _ _ _ Ho) as (_ & _ & ?)).
      unfold get_. cbn [exec get_height fold_left N.eqb negb].
      rewrite (get_stored S _ _ _ HP) by known. rewrite decide_False by exact Hne. rewrite Ho.
      unfold update_. cbn [exec]. unfold rt_update.
      change (obj_name O (OAccount (next_sequence a))) with ty_account.
      rewrite (module_allowed S (str "authn") VUpdate ty_account w HP HI) by (vm_compute; reflexivity).
      unfold store_write. cbn [log w_store apply_write so_update orm_ops w_trace].
      destruct (update_refines O R S (w_store w) (OAccount (next_sequence a)) (tl_registry _ _ _ HA) HP (HT _)) as [A B].
      unfold spec_update in A, B. rewrite obj_name_ty, (tl_schema _ _ _ HA) in A, B.
      rewrite (app_pk C) in A, B. cbn [key_of next_sequence ac_address ty_of] in A, B. rewrite <- Ek in A, B.
      rewrite (decide_False (P := u_name u = [])) in A by exact Hne.
      rewrite (decide_False (P := u_name u = [])) in B by exact Hne. rewrite Ho in A, B.
      destruct (orm_update O R (OAccount (next_sequence a)) (w_store w)) as [r st']. cbn [fst snd] in A, B.
      destruct (storable O (schema_of (OAccount (next_sequence a))) (OAccount (next_sequence a))) eqn:Es; cbn [fst snd] in A, B.
      + apply success_ok in A as [[] ->]. specialize (B eq_refl). cbn [convert_store_error pcall].
        pose proof (inv_insert S (OAccount (next_sequence a)) HI) as HI1.
        cbn [key_of ty_of next_sequence ac_address] in HI1. rewrite <- Ek in HI1. specialize (HI1 Hne I).
        assert (forall u', u' ∈ l -> <[at_account (u_name u):=OAccount (next_sequence a)]> S !! at_account (u_name u')
                 = S !! at_account (u_name u')) as Hother.
        { intros u' Hu'. apply lookup_insert_ne. intros E. injection E as E. apply Hu. rewrite E.
          apply elem_of_list_fmap. eauto. }
        match goal with |- context [exec _ _ _ _ _ (increase_sequences l) ?w'] => specialize (IH (<[at_account (u_name u):=OAccount (next_sequence a)]> S) w') end.
        cbv zeta in IH. cbn [w_store] in IH. specialize (IH B HI1 HN).
        feed specialize IH.
        { apply Forall_forall. intros u' Hu'. rewrite Hother by done. by apply (proj1 (Forall_forall _ _) HF'). }
        match type of IH with context [exec ?a ?b ?c ?d ?e ?f ?g] => destruct (exec a b c d e f g) as [r w'] eqn:Ex end.
        cbv zeta. cbn [fst snd] in *.
        destruct IH as [[(u' & Hu' & a' & A1 & A2) D]|(Hn & -> & Hr)].
        * left. split; [|done]. exists u'. split; [by right|]. exists a'. split; [|done]. by rewrite <- Hother.
        * right. split; [|split; [done|]].
          { intros u' Hu'. apply elem_of_cons in Hu' as [->|Hu'].
            - intros (a' & A1 & A2). rewrite Ho in A1. injection A1 as <-.
              change (schema_of (OAccount a)) with (schema_of (OAccount (next_sequence a))) in A2. congruence.
            - intros (a' & A1 & A2). apply (Hn u' Hu'). exists a'. split; [by rewrite Hother|done]. }
          replace (bump (fun n => bool_decide (n ∈ map u_name (u :: l))) S) with
            (bump (fun n => bool_decide (n ∈ map u_name l)) (<[at_account (u_name u):=OAccount (next_sequence a)]> S)); [done|].
          apply map_eq. intros k. rewrite !bump_lookup. cbn [map].
          destruct (decide (k = at_account (u_name u))) as [->|Hne'].
          -- rewrite lookup_insert, Ho. cbn [snd]. rewrite (bool_decide_eq_true_2 (u_name u ∈ u_name u :: _)) by left.
             by rewrite bool_decide_eq_false_2.
          -- rewrite lookup_insert_ne by done. destruct (S !! k) as [[]|] eqn:E; try done.
             destruct k as [ty k]. destruct (iv_wt S HI _ _ _ E) as (-> & E2 & _). cbn [snd].
             rewrite (bool_decide_ext (k ∈ u_name u :: map u_name l) (k ∈ map u_name l)); [done|].
             rewrite elem_of_cons. split; [|auto]. intros [->|?]; done.
      + left. split.
        * exists u. split; [left|]. exists a. split; [done|].
          change (schema_of (OAccount a)) with (schema_of (OAccount (next_sequence a))). exact Es.
        * rewrite convert_answer, A. by destruct r.
  Qed.

  (** Accounts that have a public key are left as they are. *)
  Lemma keys_out self l : forall S w, repr O R S (w_store w) -> Forall (fun s => sg_address s <> []) l ->
    Forall (fun s => exists a, S !! at_account (sg_address s) = Some (OAccount a) /\ ac_pubkey a <> None) l ->
    exec O ORM en dlv self (set_keys l) w = (Ok tt, w).
  Proof.
    induction l as [|s l IH]; intros S w HP HN HF; cbn [set_keys]; [done|].
    inversion HN as [|? ? Hs HN']; subst. inversion HF as [|? ? (a & Ha & Hk) HF']; subst.
    unfold get_. cbn [exec get_height fold_left N.eqb negb].
    rewrite (get_stored S _ _ _ HP) by known. rewrite decide_False by exact Hs. rewrite Ha.
    destruct (ac_pubkey a); [|done]. by apply (IH S).
  Qed.
End One.

(** ** Two orders *)
Section Two.
  Context (C : codec) (bits : N) (verify : bytes -> bytes -> bytes -> bool).
  Context (app : application object msg tx) (HA : test_like bits verify app).
  Context (HC : codec_ok (app_ops C)).
  Context (HT : forall o, typed_in (app_ops C) (ap_registry app) o).
  Context (enum1 : list (event object msg) -> users -> list user) (HE1 : forall tr, fair_order (enum1 tr)).
  Context (enum2 : list (event object msg) -> users -> list user) (HE2 : forall tr, fair_order (enum2 tr)).
  Notation O := (app_ops C).
  Notation R := (ap_registry app).
  Notation ORM := (orm_ops O R).
  Notation world := (world object msg orm).
  Notation en1 := (env_of app enum1 true).
  Notation en2 := (env_of app enum2 true).
  Context (fuel : nat).
  Notation dlv1 := (deliver O msg_name ORM en1 fuel false).
  Notation dlv2 := (deliver O msg_name ORM en2 fuel false).
  Notation alike := (alike C app).
  Notation same := (same C app).
  Implicit Types (S : amap) (st : orm) (w v : world) (us self : users) (m : msg) (t : tx) (n ty id : bytes)
    (o : object) (b : bool).
  Local Lemma hdlv n m w1 w2 : alike (w_store w1) (w_store w2) ->
    same (dlv1 (users_from_string [n]) m w1) (dlv2 (users_from_string [n]) m w2).
  Proof. by apply (deliver_same C bits verify app HA HC HT enum1 HE1 enum2 HE2). Qed.
  Notation run1 := (exec O ORM en1 dlv1).
  Notation run2 := (exec O ORM en2 dlv2).

  (** Handlers over transactions, one by one. *)
  Definition steady t (h : tx_handler object msg tx) : Prop := forall w1 w2, alike (w_store w1) (w_store w2) ->
    same (run1 (th_self h) (th_run h t) w1) (run2 (th_self h) (th_run h t) w2).
  Lemma unordered_steady t h n : th_self h = users_from_string [n] -> unordered (th_run h t) -> steady t h.
  Proof.
    intros Hn Hu w1 w2 H. rewrite Hn.
    exact (exec_same C bits verify app HA HC HT enum1 HE1 enum2 HE2 true _ _ hdlv n _ Hu w1 w2 H).
  Qed.
  Lemma tx_handlers_same hs t : Forall (steady t) hs -> forall w1 w2, alike (w_store w1) (w_store w2) ->
    same (run_tx_handlers O ORM en1 dlv1 hs t w1) (run_tx_handlers O ORM en2 dlv2 hs t w2).
  Proof.
    induction 1 as [|h hs Hh _ IH]; intros w1 w2 H; cbn [run_tx_handlers]; [right; cbn; auto|].
    pose proof (Hh w1 w2 H) as Hc.
    destruct (exec _ _ en1 _ _ _ _) as [r1 v1], (exec _ _ en2 _ _ _ _) as [r2 v2].
    destruct Hc as [[D1 D2]|(E & D & Hv)]; cbn [fst snd] in *; [left; split; [by destruct r1|by destruct r2]|].
    subst r2. destruct r1; [by apply IH|right; cbn; auto|by destruct D..].
  Qed.

  (** The users of the transaction have names. *)
  Definition named us : Prop := wf_users us /\ us !! [] = None.
  Lemma named_list us l : named us -> enumerates us l -> Forall (fun u => u_name u <> []) l.
  Proof.
    intros [HW Hn] Hl. apply Forall_forall. intros u Hu E.
    apply (enumerates_in us l HW Hl) in Hu. rewrite E in Hu. congruence.
  Qed.
  Lemma same_members us l1 l2 u : wf_users us -> enumerates us l1 -> enumerates us l2 -> u ∈ l1 <-> u ∈ l2.
  Proof. intros HW H1 H2. by rewrite (enumerates_in us l1 HW H1), (enumerates_in us l2 HW H2). Qed.

  Lemma exists_steady t n : named (tx_users t) -> steady t {| th_self := users_from_string [n]; th_run := account_exists |}.
  Proof.
    intros HN w1 w2 (S & H1 & H2). cbn [th_self th_run]. unfold account_exists. cbn [exec en_enum env_of].
    pose proof (HE1 (w_trace w1) (tx_users t)) as L1. pose proof (HE2 (w_trace w2) (tx_users t)) as L2.
    rewrite (exist_out C bits verify app HA HC enum1 dlv1 _ _ S) by (done || by apply (named_list (tx_users t))).
    rewrite (exist_out C bits verify app HA HC enum2 dlv2 _ _ S) by (done || by apply (named_list (tx_users t))).
    assert (Forall (fun u => is_Some (S !! at_account (u_name u))) (enum1 (w_trace w1) (tx_users t))
      <-> Forall (fun u => is_Some (S !! at_account (u_name u))) (enum2 (w_trace w2) (tx_users t))) as E.
    { rewrite !Forall_forall. split; intros H u Hu; apply H; by apply (same_members (tx_users t) _ _ u (proj1 HN) L1 L2). }
    right. cbn [fst snd log w_store]. split; [|split; [|by exists S]].
    - destruct (decide _), (decide _); try done; tauto.
    - destruct (decide _); cbn; auto.
  Qed.
  Lemma admission_steady t : named (tx_users t) -> Forall (steady t) (admission_handlers bits verify).
  Proof.
    intros HN. unfold admission_handlers.
    repeat (apply List.Forall_cons || apply List.Forall_nil);
      try (by apply exists_steady); (eapply unordered_steady; [reflexivity|]); cbn [th_run].
    - constructor.
    - unfold timeout_block. un.
    - unfold validate_memo, with_params. un.
    - unfold sig_count, with_params. un. apply count_sigs_unordered.
    - unfold sig_verifier. un. apply verify_signers_unordered.
    - unfold fee_checker. un.
  Qed.

  Lemma increase_same t S w1 w2 : repr O R S (w_store w1) -> repr O R S (w_store w2) -> inv S ->
    wf_users (tx_users t) -> (forall u, is_Some (tx_users t !! u) -> is_Some (S !! at_account u)) ->
    same (run1 (users_from_string [str "authn"]) (increase_sequence t) w1)
         (run2 (users_from_string [str "authn"]) (increase_sequence t) w2).
  Proof.
    intros H1 H2 HI HW HX. unfold increase_sequence. cbn [exec en_enum env_of].
    pose proof (HE1 (w_trace w1) (tx_users t)) as L1. pose proof (HE2 (w_trace w2) (tx_users t)) as L2.
    assert (forall l, enumerates (tx_users t) l -> Forall (fun u => is_Some (S !! at_account (u_name u))) l) as HF.
    { intros l Hl. apply Forall_forall. intros u Hu. apply HX. apply has1_spec.
      apply (list_members _ l _ HW Hl). apply elem_of_list_fmap. eauto. }
    pose proof (increase_out C bits verify app HA HC HT enum1 HE1 dlv1 (enum1 (w_trace w1) (tx_users t)) S
      (log (EvEnum (tx_users t)) w1) H1 HI (list_names_nodup _ _ HW L1) (HF _ L1)) as A. cbv zeta in A.
    pose proof (increase_out C bits verify app HA HC HT enum2 HE2 dlv2 (enum2 (w_trace w2) (tx_users t)) S
      (log (EvEnum (tx_users t)) w2) H2 HI (list_names_nodup _ _ HW L2) (HF _ L2)) as B. cbv zeta in B.
    pose proof (fun u => same_members (tx_users t) _ _ u HW L1 L2) as HM.
    match type of A with context [exec ?a ?b ?c ?d ?e ?f ?g] => destruct (exec a b c d e f g) as [r1 v1] end.
    match type of B with context [exec ?a ?b ?c ?d ?e ?f ?g] => destruct (exec a b c d e f g) as [r2 v2] end.
    cbn [fst snd] in *.
    destruct A as [[(u & Hu & Hs) D1]|(N1 & -> & R1)], B as [[(u' & Hu' & Hs') D2]|(N2 & -> & R2)].
    - left. done.
    - exfalso. apply (N2 u); [by apply HM|done].
    - exfalso. apply (N1 u'); [by apply HM|done].
    - right. split; [done|]. split; [auto|]. cbn [snd].
      eexists. split; [exact R1|]. erewrite bump_ext; [exact R2|].
      intros n. apply bool_decide_ext. rewrite !elem_of_list_fmap.
      split; intros (u & -> & Hu); exists u; (split; [done|]); by apply HM.
  Qed.

  Lemma post_same t S w1 w2 : repr O R S (w_store w1) -> repr O R S (w_store w2) -> inv S ->
    named (tx_users t) -> Forall (fun s => sg_address s <> []) (tx_signers t) -> admitted bits verify S t ->
    same (run_tx_handlers O ORM en1 dlv1 post_handlers t w1) (run_tx_handlers O ORM en2 dlv2 post_handlers t w2).
  Proof.
    intros H1 H2 HI HN HS HAd. unfold post_handlers.
    assert (Forall (fun s => exists a, S !! at_account (sg_address s) = Some (OAccount a) /\ ac_pubkey a <> None) (tx_signers t)) as HK.
    { destruct (ad_signatures _ _ _ _ HAd) as (chain & _ & HF). eapply Forall_impl; [exact HF|].
      intros s (a & Ha & Hk & _). eauto. }
    cbn [run_tx_handlers th_self th_run]. unfold consume_gas at 1 2, set_pub_keys. cbn [exec].
    rewrite (keys_out C bits verify app HA HC enum1 dlv1 _ _ S w1 H1 HS HK).
    rewrite (keys_out C bits verify app HA HC enum2 dlv2 _ _ S w2 H2 HS HK).
    pose proof (increase_same t S w1 w2 H1 H2 HI (proj1 HN) (ad_accounts _ _ _ _ HAd)) as Hi.
    destruct (exec _ _ en1 _ _ (increase_sequence t) _) as [r1 v1], (exec _ _ en2 _ _ (increase_sequence t) _) as [r2 v2].
    destruct Hi as [[D1 D2]|(E & D & Hv)]; cbn [fst snd] in *; [left; split; [by destruct r1|by destruct r2]|].
    subst r2. destruct r1; [|right; cbn; auto|by destruct D..].
    pose proof (tx_handlers_same [{| th_self := users_from_string [str "distribution"]; th_run := fee_deduction |}] t) as Hl.
    apply Hl; [|done]. apply List.Forall_cons; [|apply List.Forall_nil].
    eapply unordered_steady; [reflexivity|]. cbn [th_run]. unfold fee_deduction. un.
  Qed.
End Two.
