(** Runs of the application under two orders of listing users. *)
From Coq Require Import NArith ZArith List Bool String Lia.
From stdpp Require Import base list gmap.
From Verif.Model Require Import Bytes KindEncoder Desc Schema Indexes Orm Users Prog Router Runtime
  Services Module Builder Universe Coin CoreModules Rbac Bank Authn Distribution TestApp Abci.
From Verif.Spec Require Import UserSpec StoreSpec RuntimeSpec RbacSpec.
From Verif.Proofs Require Import BytesFacts KindEncoderFacts RegistryFacts OrmFacts UserFacts RuntimeFacts
  BuilderFacts SimFacts AppFacts AppSim RbacFacts MapExec ChainInv ChainWp ChainRun.

(** Programs that list neither users nor objects and impersonate nobody. *)
Inductive unordered {A} : prog object msg A -> Prop :=
| un_ret a : unordered (PRet a)
| un_fail e : unordered (PFail e)
| un_panic : unordered PPanic
| un_get ty id o k : (forall x, unordered (k x)) -> unordered (PGet ty id o k)
| un_create o k : (forall x, unordered (k x)) -> unordered (PCreate o k)
| un_update o k : (forall x, unordered (k x)) -> unordered (PUpdate o k)
| un_delete o k : (forall x, unordered (k x)) -> unordered (PDelete o k)
| un_deliver m k : (forall x, unordered (k x)) -> unordered (PDeliver m [] k).

Ltac un :=
  repeat match goal with
  | |- unordered (match ?x with _ => _ end) => destruct x
  | |- unordered (PRet _) => constructor
  | |- unordered (PFail _) => constructor
  | |- unordered PPanic => constructor
  | |- unordered (get_ _ _ _ _) => constructor; intros [?|?]
  | |- unordered (create_ _ _) => constructor; intros [?|]; cbn [pcall]
  | |- unordered (update_ _ _) => constructor; intros [?|]; cbn [pcall]
  | |- unordered (deliver_ _ _) => constructor; intros [?|]; cbn [pcall]
  | |- unordered (lift ?r _) => destruct r; cbn [lift]
  | |- unordered (PDeliver _ _ _) => constructor; intros ?
  | |- unordered _ => assumption
  end.

Lemma apply_modules_unordered l : forall u k, (forall r, unordered (k r)) -> unordered (apply_modules l u k).
Proof.
  induction l as [|d l IH]; intros u k Hk; cbn [apply_modules]; [auto|].
  un. apply IH, Hk.
Qed.
Lemma count_sigs_unordered a b l : unordered (count_sigs a b l).
Proof. revert b. induction l; intros b; cbn [count_sigs]; un; auto. Qed.
Lemma verify_signers_unordered v t c l : unordered (verify_signers v t c l).
Proof. induction l; cbn [verify_signers]; un. Qed.
Lemma accounts_exist_unordered l : unordered (accounts_exist l).
Proof. induction l; cbn [accounts_exist]; un. Qed.
Lemma set_keys_unordered l : unordered (set_keys l).
Proof. induction l; cbn [set_keys]; unfold update_public_key; un. Qed.

(** A handler of a module, running such a program. *)
Definition plain (h : handler object msg) : Prop :=
  (exists n, h_self h = users_from_string [n]) /\ forall us m, unordered (h_run h us m).
Lemma exec_plain bits m h : exec_of bits m = Some h -> plain h.
Proof.
  destruct m; cbn [exec_of]; intros [= <-]; (split; [by eexists|intros us m; cbn [h_run]]);
    unfold create_descriptors_exec, set_init_chain, set_check_tx, set_begin_block, set_deliver_tx,
    set_end_block, set_updates, create_account_exec, create_role_exec, bind_exec, send_coins_exec, set_balance_exec,
    create_account_if_not_exist; un.
Qed.
Lemma admission_plain m : Forall plain (admission_of m).
Proof.
  destruct m; cbn [admission_of]; repeat (apply List.Forall_cons || apply List.Forall_nil);
    (split; [by eexists|intros us m; cbn [h_run]]);
    unfold create_account_admission, create_role_admission, bind_admission; un.
Qed.
Lemma post_plain m : Forall plain (post_of m).
Proof.
  destruct m; cbn [post_of]; repeat (apply List.Forall_cons || apply List.Forall_nil);
    (split; [by eexists|intros us m; cbn [h_run]]).
  unfold role_creator. un. apply apply_modules_unordered. intros. un.
Qed.
Lemma genesis_unordered bits verify :
  Forall (fun m => match mo_genesis m with
                   | None => True
                   | Some g => unordered (gn_default g) /\ forall x, unordered (gn_import g x)
                   end) (app_modules bits verify).
Proof.
  repeat (apply Forall_cons; split; [|]); try (apply Forall_nil; exact I); cbn [mo_genesis]; try exact I;
    (split; [|intros x]); cbn [gn_default gn_import abci_genesis authn_genesis testing_genesis]; un.
Qed.

Lemma from_string_single n l : enumerates (users_from_string [n]) l -> l = [default_user n].
Proof.
  intros H. pose proof (from_string_wf [n]) as HW.
  pose proof (list_names_nodup _ l HW H) as HN.
  assert (forall u, u ∈ l <-> u = default_user n) as Hu.
  { intros u. rewrite (enumerates_in _ l HW H). rewrite from_string_lookup.
    destruct (decide (u_name u ∈ [n])) as [E|E].
    - apply elem_of_list_singleton in E. rewrite E. split; [by intros [= <-]|by intros ->].
    - split; [done|]. intros ->. destruct E. by left. }
  destruct l as [|u [|v l]].
  - exfalso. assert (default_user n ∈ []) as F by (by apply Hu). inversion F.
  - by rewrite (proj1 (Hu u)) by left.
  - exfalso. assert (u = default_user n) as -> by (apply Hu; left).
    assert (v = default_user n) as -> by (apply Hu; right; left).
    cbn [map] in HN. apply NoDup_cons in HN as [HN _]. apply HN. left.
Qed.

Lemma success_ok {A : Type} (r : res A) : answer_of r = ASuccess -> exists a, r = Ok a.
Proof.
  destruct r as [a|e| |]; cbn; [by eexists| |discriminate..].
  destruct (errors_is e OrmAlreadyExists), (errors_is e OrmNotFound), (errors_is e SchemaNotFound); discriminate.
Qed.

Section Order.
  Context (C : codec) (bits : N) (verify : bytes -> bytes -> bytes -> bool).
  Context (app : application object msg tx) (HA : test_like bits verify app).
  Context (HC : codec_ok (app_ops C)).
  Context (HT : forall o, typed_in (app_ops C) (ap_registry app) o).
  Context (enum1 : list (event object msg) -> users -> list user) (HE1 : forall tr, fair_order (enum1 tr)).
  Context (enum2 : list (event object msg) -> users -> list user) (HE2 : forall tr, fair_order (enum2 tr)).
  Notation O := (app_ops C).
  Notation R := (ap_registry app).
  Notation ORM := (orm_ops O R).
  Notation world := (world object msg orm).
  Notation en1 b := (env_of app enum1 b).
  Notation en2 b := (env_of app enum2 b).
  Implicit Types (S : amap) (st : orm) (w v : world) (us self : users) (m : msg) (t : tx) (n ty id : bytes)
    (o : object) (b : bool).

  (** Two stores with the same contents. *)
  Definition alike st1 st2 : Prop := exists S, repr O R S st1 /\ repr O R S st2.
  Definition same {A : Type} (p q : res A * world) : Prop :=
    dead (fst p) /\ dead (fst q) \/ fst p = fst q /\ ~ dead (fst p) /\ alike (w_store (snd p)) (w_store (snd q)).

  Lemma get_same ty id st1 st2 : alike st1 st2 ->
    dead (rt_get ORM ty id st1) /\ dead (rt_get ORM ty id st2)
    \/ rt_get ORM ty id st1 = rt_get ORM ty id st2 /\ ~ dead (rt_get ORM ty id st1).
  Proof.
    intros (S & H1 & H2).
    destruct (get_refines O R S st1 ty id HC (tl_registry _ _ _ HA) H1) as [A1 B1].
    destruct (get_refines O R S st2 ty id HC (tl_registry _ _ _ HA) H2) as [A2 B2].
    unfold rt_get. cbn [so_get orm_ops]. rewrite !convert_answer, A1, A2.
    generalize dependent (orm_get O R ty id st1). intros g1 A1 B1.
    generalize dependent (orm_get O R ty id st2). intros g2 A2 B2.
    destruct (spec_get R ty id S) as [a x]. cbn [fst snd] in *.
    destruct a; try (left; split; [by destruct g1|by destruct g2]).
    - right. apply success_ok in A1 as [o1 ->], A2 as [o2 ->]. cbn in *. split; [congruence|auto].
    - right. split; [done|auto].
  Qed.

  Lemma write_answer (r1 r2 : res unit) (st1 st2 : orm) (a : answer) (S' : amap) :
    answer_of r1 = a -> answer_of r2 = a ->
    (is_crash a = false -> repr O R S' st1) -> (is_crash a = false -> repr O R S' st2) ->
    dead (convert_store_error r1) /\ dead (convert_store_error r2)
    \/ convert_store_error r1 = convert_store_error r2 /\ ~ dead (convert_store_error r1) /\ alike st1 st2.
  Proof.
    intros H1 H2 R1 R2. rewrite !convert_answer, H1, H2.
    destruct a; try (left; split; [by destruct r1|by destruct r2]).
    - right. specialize (R1 eq_refl). specialize (R2 eq_refl).
      apply success_ok in H1 as [[] ->], H2 as [[] ->]. split; [done|]. split; [auto|by exists S'].
    - right. split; [done|]. split; [auto|]. exists S'. split; auto.
  Qed.
  Lemma store_write_same (x : write object) us1 us2 w1 w2 : alike (w_store w1) (w_store w2) ->
    same (store_write ORM x us1 w1) (store_write ORM x us2 w2).
  Proof.
    intros (S & H1 & H2). pose proof (tl_registry _ _ _ HA) as HR. unfold store_write, same.
    destruct x as [o|o|o]; cbn [apply_write so_create so_update so_delete orm_ops].
    - destruct (create_refines O R S _ o HR H1 (HT o)) as [A1 B1].
      destruct (create_refines O R S _ o HR H2 (HT o)) as [A2 B2].
      destruct (orm_create O R o (w_store w1)), (orm_create O R o (w_store w2)). cbn [fst snd w_store] in *.
      by eapply write_answer.
    - destruct (update_refines O R S _ o HR H1 (HT o)) as [A1 B1].
      destruct (update_refines O R S _ o HR H2 (HT o)) as [A2 B2].
      destruct (orm_update O R o (w_store w1)), (orm_update O R o (w_store w2)). cbn [fst snd w_store] in *.
      by eapply write_answer.
    - destruct (delete_refines O R S _ o HR H1 (HT o)) as [A1 B1].
      destruct (delete_refines O R S _ o HR H2 (HT o)) as [A2 B2].
      destruct (orm_delete O R o (w_store w1)), (orm_delete O R o (w_store w2)). cbn [fst snd w_store] in *.
      by eapply write_answer.
  Qed.

  (** ** Authorization *)
  (** The answers of the authorizer, for these users. *)
  Definition judged us st1 st2 : Prop := forall tr1 tr2 (vb : verb) n,
    dead (run_read ORM (enum1 tr1) (rbac_authorize vb n us) st1) /\ dead (run_read ORM (enum2 tr2) (rbac_authorize vb n us) st2)
    \/ exists d1 d2, run_read ORM (enum1 tr1) (rbac_authorize vb n us) st1 = Ok d1
         /\ run_read ORM (enum2 tr2) (rbac_authorize vb n us) st2 = Ok d2
         /\ (d1 = (true, None) <-> d2 = (true, None)).
  Lemma authorized_same us vb n b w1 w2 : judged us (w_store w1) (w_store w2) -> alike (w_store w1) (w_store w2) ->
    same (authorized ORM (en1 b) vb n us w1) (authorized ORM (en2 b) vb n us w2).
  Proof.
    intros HJ H. unfold authorized. cbn [en_enabled env_of en_enum en_authorizer]. rewrite (tl_authorizer _ _ _ HA).
    destruct (negb b); [right; auto|].
    destruct (HJ (w_trace w1) (w_trace w2) vb n) as [[D1 D2]|(d1 & d2 & -> & -> & HD)].
    - left. split; [by destruct (run_read _ (enum1 _) _ _)|by destruct (run_read _ (enum2 _) _ _)].
    - destruct (decide (d1 = (true, None))) as [->|N1].
      + rewrite (proj1 HD eq_refl). right. auto.
      + assert (d2 <> (true, None)) as N2 by (intros E; by apply N1, HD).
        right. destruct d1 as [[] [e1|]], d2 as [[] [e2|]]; try congruence; cbn; auto.
  Qed.

  Lemma fetch_same {A : Type} (e1 e2 : users -> list user) st1 st2 subjects : alike st1 st2 ->
    forall (k : list role + goerr -> rprog object A),
    (forall x, run_read ORM e1 (k x) st1 = run_read ORM e2 (k x) st2 /\ ~ dead (run_read ORM e1 (k x) st1)) ->
    dead (run_read ORM e1 (fetch_roles subjects k) st1) /\ dead (run_read ORM e2 (fetch_roles subjects k) st2)
    \/ run_read ORM e1 (fetch_roles subjects k) st1 = run_read ORM e2 (fetch_roles subjects k) st2
       /\ ~ dead (run_read ORM e1 (fetch_roles subjects k) st1).
  Proof.
    intros H. induction subjects as [|s l IH]; intros k Hk; cbn [fetch_roles]; [right; apply Hk|].
    cbn [run_read]. destruct (get_same ty_binding s st1 st2 H) as [[D1 D2]|[-> D]].
    { left. split; [by destruct (rt_get _ _ _ st1)|by destruct (rt_get _ _ _ st2)]. }
    destruct (rt_get ORM ty_binding s st2) as [o|e| |]; [|right; apply Hk|left; done|left; done].
    destruct o; try (left; done). cbn [run_read].
    destruct (get_same ty_role role_ref st1 st2 H) as [[D1 D2]|[-> D']].
    { left. split; [by destruct (rt_get _ _ _ st1)|by destruct (rt_get _ _ _ st2)]. }
    destruct (rt_get ORM ty_role role_ref st2) as [o|e| |]; [|right; apply Hk|left; done|left; done].
    destruct o; try (left; done). apply IH. intros [rs|e]; apply Hk.
  Qed.
  Lemma single_judged n st1 st2 : alike st1 st2 -> judged (users_from_string [n]) st1 st2.
  Proof.
    intros H tr1 tr2 vb x. unfold rbac_authorize. cbn [run_read].
    rewrite (from_string_single n _ (HE1 tr1 (users_from_string [n]))).
    rewrite (from_string_single n _ (HE2 tr2 (users_from_string [n]))).
    rewrite Nat.ltb_irrefl, Nat.sub_diag. cbn [repeat].
    match goal with |- context [fetch_roles ?l ?k] =>
      destruct (fetch_same (enum1 tr1) (enum2 tr2) st1 st2 l H k) as [Hd|[-> Hd]] end.
    - intros [rs|e]; [destruct (set_has _ _)|]; cbn [run_read]; auto.
    - left. exact Hd.
    - match goal with |- context [run_read ?a ?b ?c ?d] => destruct (run_read a b c d) as [d1|e| |] eqn:E end.
      + right. exists d1, d1. auto.
      + exfalso. revert E. generalize (map u_name [default_user n] ++ []).
        intros l. clear -HA. intros E.
        cut (forall (l : list bytes) (k : list role + goerr -> rprog object (bool * option goerr)),
          (forall x e, run_read ORM (enum2 tr2) (k x) st2 <> Fail e) ->
          forall e, run_read ORM (enum2 tr2) (fetch_roles l k) st2 <> Fail e).
        { intros Hc. refine (Hc _ _ _ _ E). intros [rs|e'] e0; [destruct (set_has _ _)|]; discriminate. }
        clear. intros l. induction l as [|s l IH]; intros k Hk e; cbn [fetch_roles]; [apply Hk|]. cbn [run_read].
        destruct (rt_get ORM ty_binding s st2) as [o|e'| |]; [|apply Hk|discriminate..].
        destruct o; try discriminate. cbn [run_read].
        destruct (rt_get ORM ty_role role_ref st2) as [o|e'| |]; [|apply Hk|discriminate..].
        destruct o; try discriminate. apply IH. intros [rs|e'] e0; apply Hk.
      + left. done.
      + left. done.
  Qed.
  (** Users that are no modules and have names, after genesis. *)
  Lemma ordinary_judged S us st1 st2 : repr O R S st1 -> repr O R S st2 -> inv S -> wf_users us -> ordinary us ->
    us !! [] = None -> judged us st1 st2.
  Proof.
    intros H1 H2 HI HU HO Hn tr1 tr2 vb x.
    pose proof (tl_registry _ _ _ HA) as HR. pose proof (tl_schema _ _ _ HA) as HSch.
    assert (forall st, repr O R S st -> forall ty id o, ty ∈ all_types -> orm_stored C R st ty id o <-> S !! (ty, id) = Some o) as HV.
    { intros st Hst ty id o Ht. unfold orm_stored.
      destruct (orm_get_map C R HR HSch S st ty id HC Hst Ht) as [H _].
      generalize dependent (orm_get O R ty id st). intros g H.
      pose proof (repr_wt C R HSch S _ Hst) as HW. split.
      - intros ->. by destruct H.
      - intros Ho. destruct g as [o'|e| |]; [destruct H; congruence|..];
          destruct H as [->|H]; try congruence; by destruct (HW _ _ _ Ho) as (_ & _ & ?). }
    assert (forall st, repr O R S st -> ~ unnamed (orm_stored C R st) us) as HN.
    { intros st Hst [Hu|(u & s & Hu & Hb)]; [rewrite Hn in Hu; by destruct Hu|].
      apply (HV st Hst) in Hb; [|apply rbac_types; auto].
      destruct (iv_bindings S HI _ _ _ Hb) as [Hm|E]; [by apply (HO u Hu)|]. vm_compute in E. discriminate E. }
    assert (granted (orm_stored C R st1) vb x us <-> granted (orm_stored C R st2) vb x us) as HG.
    { assert (forall st st', repr O R S st -> repr O R S st' -> granted (orm_stored C R st) vb x us -> granted (orm_stored C R st') vb x us) as Hm.
      { intros st st' Hst Hst' [G1 (u & r & G2 & G3 & G4)].
        assert (forall u r, has_role (orm_stored C R st) u r -> has_role (orm_stored C R st') u r) as Hr.
        { intros u' r' (s & ref & A1 & A2). exists s, ref.
          apply (HV st Hst) in A1, A2; try (apply rbac_types; auto).
          split; apply (HV st' Hst'); try done; apply rbac_types; auto. }
        split; [|eauto 6]. intros u' Hu'. destruct (G1 u' Hu') as [r' Hr']. eauto. }
      split; by apply Hm. }
    pose proof (orm_decides C R HR HSch S st1 (enum1 tr1) vb x us HC H1 (HE1 tr1) HU) as D1.
    pose proof (orm_decides C R HR HSch S st2 (enum2 tr2) vb x us HC H2 (HE2 tr2) HU) as D2.
    destruct (run_read ORM (enum1 tr1) _ st1) as [d1|e| |]; [|done|destruct D1 as [D1 _]; by apply HN in D1|done].
    destruct (run_read ORM (enum2 tr2) _ st2) as [d2|e| |]; [|done|destruct D2 as [D2 _]; by apply HN in D2|done].
    right. exists d1, d2. split; [done|]. split; [done|].
    destruct D1 as [[G1 ->]|[G1 [e1 ->]]], D2 as [[G2 ->]|[G2 [e2 ->]]]; try done; exfalso; tauto.
  Qed.

  (** ** Programs *)
  Ltac both H := destruct H as [[? ?]|(? & ? & ?)].
  Lemma write_call_same n vb (x : write object) o b w1 w2 : alike (w_store w1) (w_store w2) ->
    same (match authorized ORM (en1 b) vb (obj_name O o) (users_from_string [n]) w1 with
          | (Ok _, w') => store_write ORM x (users_from_string [n]) w' | r => r end)
         (match authorized ORM (en2 b) vb (obj_name O o) (users_from_string [n]) w2 with
          | (Ok _, w') => store_write ORM x (users_from_string [n]) w' | r => r end).
  Proof.
    intros H. pose proof (authorized_same (users_from_string [n]) vb (obj_name O o) b w1 w2 (single_judged n _ _ H) H) as Ha.
    destruct (authorized ORM (en1 b) _ _ _ _) as [r1 v1], (authorized ORM (en2 b) _ _ _ _) as [r2 v2].
    destruct Ha as [[D1 D2]|(E & D & Hv)]; cbn [fst snd] in *.
    - left. split; [by destruct r1|by destruct r2].
    - subst r2. destruct r1; [by apply store_write_same|right; auto..].
  Qed.

  Section Exec.
    Context (b : bool).
    Context (dlv1 dlv2 : users -> msg -> world -> res unit * world).
    Context (Hdlv : forall n m w1 w2, alike (w_store w1) (w_store w2) ->
      same (dlv1 (users_from_string [n]) m w1) (dlv2 (users_from_string [n]) m w2)).
    Notation run1 := (exec O ORM (en1 b) dlv1).
    Notation run2 := (exec O ORM (en2 b) dlv2).

    Lemma exec_same {A : Type} n (p : prog object msg A) : unordered p -> forall w1 w2, alike (w_store w1) (w_store w2) ->
      same (run1 (users_from_string [n]) p w1) (run2 (users_from_string [n]) p w2).
    Proof.
      induction 1 as [a|e| |ty id o k _ IH|o k _ IH|o k _ IH|o k _ IH|m k _ IH]; intros w1 w2 H; cbn [exec].
      1-2: right; cbn; auto.
      1: left; done.
      - destruct (negb _); [by apply IH|].
        destruct (get_same ty id _ _ H) as [[D1 D2]|[-> D]].
        { left. split; [by destruct (rt_get _ _ _ (w_store w1))|by destruct (rt_get _ _ _ (w_store w2))]. }
        destruct (rt_get ORM ty id (w_store w2)); try (by apply IH); left; done.
      - pose proof (write_call_same n VCreate (WCreate o) o b w1 w2 H) as Hc. unfold rt_create.
        match type of Hc with same ?p ?q => destruct p as [r1 v1], q as [r2 v2] end.
        destruct Hc as [[D1 D2]|(E & D & Hv)]; cbn [fst snd] in *; [left; split; [by destruct r1|by destruct r2]|].
        subst r2. destruct r1; try (by apply IH); by destruct D.
      - pose proof (write_call_same n VUpdate (WUpdate o) o b w1 w2 H) as Hc. unfold rt_update.
        match type of Hc with same ?p ?q => destruct p as [r1 v1], q as [r2 v2] end.
        destruct Hc as [[D1 D2]|(E & D & Hv)]; cbn [fst snd] in *; [left; split; [by destruct r1|by destruct r2]|].
        subst r2. destruct r1; try (by apply IH); by destruct D.
      - pose proof (write_call_same n VDelete (WDelete o) o b w1 w2 H) as Hc. unfold rt_delete.
        match type of Hc with same ?p ?q => destruct p as [r1 v1], q as [r2 v2] end.
        destruct Hc as [[D1 D2]|(E & D & Hv)]; cbn [fst snd] in *; [left; split; [by destruct r1|by destruct r2]|].
        subst r2. destruct r1; try (by apply IH); by destruct D.
      - rewrite (client_self (users_from_string [n])) by apply from_string_wf.
        pose proof (Hdlv n m w1 w2 H) as Hc.
        destruct (dlv1 _ _ _) as [r1 v1], (dlv2 _ _ _) as [r2 v2].
        destruct Hc as [[D1 D2]|(E & D & Hv)]; cbn [fst snd] in *; [left; split; [by destruct r1|by destruct r2]|].
        subst r2. destruct r1; try (by apply IH); by destruct D.
    Qed.

    Lemma run_handlers_same conv hs us m : Forall plain hs -> forall w1 w2, alike (w_store w1) (w_store w2) ->
      same (run_handlers O ORM (en1 b) dlv1 conv hs us m w1) (run_handlers O ORM (en2 b) dlv2 conv hs us m w2).
    Proof.
      induction 1 as [|h hs [[n Hn] Hh] _ IH]; intros w1 w2 H; cbn [run_handlers]; [right; cbn; auto|].
      unfold run_handler. rewrite Hn. pose proof (exec_same n _ (Hh us m) w1 w2 H) as Hc.
      destruct (exec _ _ (en1 b) _ _ _ _) as [r1 v1], (exec _ _ (en2 b) _ _ _ _) as [r2 v2].
      destruct Hc as [[D1 D2]|(E & D & Hv)]; cbn [fst snd] in *; [left; split; [by destruct r1|by destruct r2]|].
      subst r2. destruct r1; [by apply IH|right; cbn; auto|by destruct D..].
    Qed.
    Lemma admission_same us m w1 w2 : alike (w_store w1) (w_store w2) ->
      same (run_admission_chain O msg_name ORM (en1 b) dlv1 us m w1)
           (run_admission_chain O msg_name ORM (en2 b) dlv2 us m w2).
    Proof.
      intros H. unfold run_admission_chain. cbn [en_router env_of].
      destruct (tl_routes _ _ _ HA m) as (_ & -> & _). destruct (exec_of bits m); [|right; cbn; auto].
      apply run_handlers_same; [apply admission_plain|done].
    Qed.
    Lemma deliver_body_same skip us m w1 w2 : alike (w_store w1) (w_store w2) ->
      (forall v1 v2, alike (w_store v1) (w_store v2) ->
         (skip = true -> w_store v1 = w_store w1 /\ w_store v2 = w_store w2) -> judged us (w_store v1) (w_store v2)) ->
      same (deliver_body O msg_name ORM (en1 b) dlv1 skip us m w1) (deliver_body O msg_name ORM (en2 b) dlv2 skip us m w2).
    Proof.
      intros H HJ. unfold deliver_body.
      assert (exists p q, (if skip then (Ok tt, w1) else run_admission_chain O msg_name ORM (en1 b) dlv1 us m w1) = p
        /\ (if skip then (Ok tt, w2) else run_admission_chain O msg_name ORM (en2 b) dlv2 us m w2) = q
        /\ same p q /\ (skip = true -> snd p = w1 /\ snd q = w2)) as ([r1 v1] & [r2 v2] & -> & -> & Ha & Hsk).
      { destruct skip; (eexists _, _; split; [reflexivity|]; split; [reflexivity|]).
        - split; [right; cbn; auto|]. done.
        - split; [by apply admission_same|done]. }
      destruct Ha as [[D1 D2]|(E & D & Hv)]; cbn [fst snd] in *; [left; split; [by destruct r1|by destruct r2]|].
      subst r2. destruct r1; [|right; auto..].
      assert (judged us (w_store v1) (w_store v2)) as Hj.
      { apply HJ; [done|]. intros Hs. destruct (Hsk Hs) as [-> ->]. done. }
      pose proof (authorized_same us VDeliver (msg_name m) b v1 v2 Hj Hv) as Hb. clear Hj HJ.
      destruct (authorized ORM (en1 b) _ _ _ _) as [r1 u1], (authorized ORM (en2 b) _ _ _ _) as [r2 u2].
      destruct Hb as [[D1 D2]|(E & D' & Hu)]; cbn [fst snd] in *; [left; split; [by destruct r1|by destruct r2]|].
      subst r2. destruct r1; [|right; auto..]. unfold deliver_authorized. cbn [en_router env_of].
      destruct (tl_routes _ _ _ HA m) as (-> & _ & -> & ->).
      destruct (exec_of bits m) as [h|] eqn:Eh; cbn [run_handlers no_route]; [|right; cbn; auto].
      destruct (exec_plain bits m h Eh) as [[n Hn] Hh]. unfold run_handler. rewrite Hn.
      pose proof (exec_same n _ (Hh us m) (log (EvDeliver m us) u1) (log (EvDeliver m us) u2) Hu) as Hc.
      destruct (exec _ _ (en1 b) _ _ _ _) as [r1 x1], (exec _ _ (en2 b) _ _ _ _) as [r2 x2].
      destruct Hc as [[D1 D2]|(E & D1 & Hx)]; cbn [fst snd] in *; [left; split; [by destruct r1|by destruct r2]|].
      subst r2. destruct r1; [|right; auto..].
      apply run_handlers_same; [apply post_plain|done].
    Qed.
  End Exec.

  Lemma deliver_same b fuel : forall skip n m w1 w2, alike (w_store w1) (w_store w2) ->
    same (deliver O msg_name ORM (en1 b) fuel skip (users_from_string [n]) m w1)
         (deliver O msg_name ORM (en2 b) fuel skip (users_from_string [n]) m w2).
  Proof.
    induction fuel as [|f IH]; intros skip n m w1 w2 H; cbn [deliver]; [left; done|].
    apply deliver_body_same; [intros; by apply IH|done|]. intros. by apply single_judged.
  Qed.
  (** A message of a transaction. *)
  Lemma deliver_tx_same b fuel us m S w1 w2 : repr O R S (w_store w1) -> repr O R S (w_store w2) -> inv S ->
    wf_users us -> ordinary us -> us !! [] = None ->
    same (deliver O msg_name ORM (en1 b) fuel true us m w1) (deliver O msg_name ORM (en2 b) fuel true us m w2).
  Proof.
    intros H1 H2 HI HU HO Hn. destruct fuel as [|f]; cbn [deliver]; [left; done|].
    assert (alike (w_store w1) (w_store w2)) as H by (by exists S).
    apply deliver_body_same; [intros; by apply deliver_same|done|].
    intros v1 v2 Hv Hs. destruct (Hs eq_refl) as [-> ->]. by apply (ordinary_judged S).
  Qed.
End Order.
