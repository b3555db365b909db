(** The role-based authorizer decides as specified. *)
From Coq Require Import NArith ZArith List Bool String Lia.
From stdpp Require Import base list gmap.
From Verif.Model Require Import Bytes KindEncoder Desc Schema Indexes Orm Users Prog Router Runtime
  Services Module Builder Universe CoreModules Rbac Bank Authn Distribution TestApp Abci.
From Verif.Spec Require Import UserSpec StoreSpec RuntimeSpec RbacSpec.
From Verif.Proofs Require Import BytesFacts KindEncoderFacts RegistryFacts OrmFacts UserFacts RuntimeFacts
  BuilderFacts SimFacts AppFacts.

Lemma set_has_spec l x : set_has l x = true <-> x ∈ l.
Proof.
  unfold set_has. rewrite existsb_exists. setoid_rewrite elem_of_list_In. split.
  - intros (y & Hy & E). apply bool_decide_eq_true in E. congruence.
  - intros H. exists x. split; [done|]. by apply bool_decide_eq_true.
Qed.
Lemma lists_spec r x v : lists r x v <-> x ∈ resources_for_verb v r.
Proof. split; [by destruct 1|]. destruct v; cbn; intros H; try (by constructor). inversion H. Qed.
Lemma resources_set_spec v roles x : x ∈ resources_set v roles <-> exists r, r ∈ roles /\ lists r x v.
Proof.
  unfold resources_set. rewrite elem_of_list_In, in_flat_map. split; intros (r & H1 & H2); exists r;
    rewrite lists_spec, !elem_of_list_In in *; done.
Qed.

Section Authorize.
  Context {St : Type} (SO : storeops object St) (s : St) (stored : bytes -> bytes -> object -> Prop).
  (** What is read of bindings and roles. *)
  Definition reads : Prop := forall ty id, ty = ty_binding \/ ty = ty_role ->
    match rt_get SO ty id s with
    | Ok o => stored ty id o /\ ty_of o = ty
    | Fail e => forall o, ~ stored ty id o
    | Panic => id = [] /\ forall o, ~ stored ty id o
    | OutOfFuel => False
    end.
  Context (HG : reads) (HF : forall ty id o o', stored ty id o -> stored ty id o' -> o = o').

  Lemma has_role_fun u r r' : has_role stored u r -> has_role stored u r' -> r = r'.
  Proof.
    intros (s1 & ref1 & H1 & H2) (s2 & ref2 & H3 & H4).
    pose proof (HF _ _ _ _ H1 H3) as E. injection E as -> ->.
    pose proof (HF _ _ _ _ H2 H4) as E. by injection E.
  Qed.

  Lemma fetch_roles_run {A : Type} enum subjects : forall (k : list role + goerr -> rprog object A),
    (exists roles, Forall2 (has_role stored) subjects roles
       /\ run_read SO enum (fetch_roles subjects k) s = run_read SO enum (k (inl roles)) s)
    \/ (exists u e, u ∈ subjects /\ (forall r, ~ has_role stored u r)
       /\ run_read SO enum (fetch_roles subjects k) s = run_read SO enum (k (inr e)) s)
    \/ (exists u, u ∈ subjects /\ (forall r, ~ has_role stored u r)
       /\ (u = [] \/ exists x, stored ty_binding u (OBinding x []))
       /\ run_read SO enum (fetch_roles subjects k) s = Panic).
  Proof.
    induction subjects as [|u subjects IH]; intros k; cbn [fetch_roles].
    { left. exists []. auto. }
    cbn [run_read]. pose proof (HG ty_binding u (or_introl eq_refl)) as HB.
    destruct (rt_get SO ty_binding u s) as [o|e| |] eqn:E1; [| | |done].
    - destruct HB as [HB Ht]. destruct o; try discriminate Ht.
      cbn [run_read]. pose proof (HG ty_role role_ref (or_intror eq_refl)) as HR.
      destruct (rt_get SO ty_role role_ref s) as [o|e| |] eqn:E2; [| | |done].
      + destruct HR as [HR Ht2]. destruct o; try discriminate Ht2.
        assert (has_role stored u r) as Hr by (exists subject, role_ref; done).
        destruct (IH (fun z => match z with inl rs => k (inl (r :: rs)) | inr e => k (inr e) end))
          as [(roles & H1 & H2)|[(u' & e & H1 & H2 & H3)|(u' & H1 & H2 & H3 & H4)]].
        * left. exists (r :: roles). split; [by constructor|exact H2].
        * right; left. exists u', e. split; [by right|]. auto.
        * right; right. exists u'. split; [by right|]. auto.
      + right; left. exists u, e. split; [left|]. split; [|done].
        intros r (s1 & ref & H1 & H2). pose proof (HF _ _ _ _ HB H1) as E. injection E as <- <-. by apply HR in H2.
      + destruct HR as [-> HR]. right; right. exists u. split; [left|]. split; [|split; [|done]].
        * intros r (s1 & ref & H1 & H2). pose proof (HF _ _ _ _ HB H1) as E. injection E as <- <-. by apply HR in H2.
        * right. eauto.
    - right; left. exists u, e. split; [left|]. split; [|done]. intros r (s1 & ref & H1 & H2). by apply HB in H1.
    - destruct HB as [-> HB]. right; right. exists []. split; [left|]. split; [|auto].
      intros r (s1 & ref & H1 & H2). by apply HB in H1.
  Qed.

  Lemma rbac_decides enum v name us : fair_order enum -> wf_users us ->
    match run_read SO enum (rbac_authorize v name us) s with
    | Ok d => granted stored v name us /\ d = (true, None)
              \/ ~ granted stored v name us /\ exists e, d = (false, Some e)
    | Panic => unnamed stored us /\ ~ granted stored v name us
    | _ => False
    end.
  Proof.
    intros HE HW. unfold rbac_authorize. cbn [run_read].
    rewrite Nat.ltb_irrefl, Nat.sub_diag. cbn [repeat]. rewrite app_nil_r.
    pose proof (list_members us (enum us)) as HM.
    assert (forall u, u ∈ map u_name (enum us) <-> is_Some (us !! u)) as Hu.
    { intros u. rewrite HM by (done || apply HE). apply has1_spec. }
    destruct (fetch_roles_run enum (map u_name (enum us)) (fun x =>
        match x with
        | inr e => RRet (false, Some e)
        | inl roles =>
            if set_has (resources_set v roles) name then RRet (true, None)
            else RRet (false, Some EAnon)
        end)) as [(roles & H1 & ->)|[(u & e & H1 & H2 & ->)|(u & H1 & H2 & H3 & ->)]].
    - assert (forall r, r ∈ roles <-> exists u, is_Some (us !! u) /\ has_role stored u r) as Hr.
      { intros r. split.
        - intros Hr. apply elem_of_list_lookup in Hr as [i Hi].
          destruct (Forall2_lookup_r _ _ _ _ _ H1 Hi) as (u & Hi' & Hh). exists u. split; [|done].
          apply Hu. by eapply elem_of_list_lookup_2.
        - intros (u & Hs & Hh). apply Hu in Hs. apply elem_of_list_lookup in Hs as [i Hi].
          destruct (Forall2_lookup_l _ _ _ _ _ H1 Hi) as (r' & Hi' & Hh').
          rewrite (has_role_fun _ _ _ Hh Hh'). by eapply elem_of_list_lookup_2. }
      assert (set_has (resources_set v roles) name = true <-> granted stored v name us) as HS.
      { rewrite set_has_spec, resources_set_spec. split.
        - intros (r & Hi & Hl). apply Hr in Hi as (u & Hs & Hh). split; [|eauto].
          intros u' Hs'. apply Hu in Hs'. apply elem_of_list_lookup in Hs' as [i Hi'].
          destruct (Forall2_lookup_l _ _ _ _ _ H1 Hi') as (r' & _ & Hh'). eauto.
        - intros [_ (u & r & Hs & Hh & Hl)]. exists r. split; [|done]. apply Hr. eauto. }
      destruct (set_has _ _); cbn [run_read].
      + left. split; [by apply HS|done].
      + right. split; [intros H; by apply HS in H|eauto].
    - cbn [run_read]. right. split; [|eauto]. intros [H _].
      destruct (H u) as [r Hr]; [by apply Hu|]. by apply H2 in Hr.
    - split.
      + apply Hu in H1. destruct H3 as [->|[x Hx]]; [by left|right; eauto].
      + intros [H _]. destruct (H u) as [r Hr]; [by apply Hu|]. by apply H2 in Hr.
  Qed.
End Authorize.

(** ** On the stores of the application *)
Section App.
  Context (C : codec) (R : registry).
  Notation O := (app_ops C).
  Context (HRok : registry_ok R) (Hsch : forall o, rg_schemas R !! ty_of o = Some (schema_of o)).

  (** Every entry is filed under its type and key. *)
  Definition wt (S : gmap (bytes * bytes) object) : Prop :=
    forall ty id o, S !! (ty, id) = Some o -> ty = ty_of o /\ id = key_of o /\ id <> [].

  Lemma known_schema_in ty : ty ∈ all_types -> exists s, rg_schemas R !! ty = Some s.
  Proof.
    intros H. assert (exists o, ty_of o = ty) as [o <-]; [|eauto].
    unfold all_types in H. repeat (apply elem_of_cons in H as [->|H]).
    - by exists (OModules []).
    - by exists (OStage StUnknown).
    - by exists (OBeginBlock None).
    - by exists (OCheckTx None).
    - by exists (ODeliverTx None).
    - by exists (OInitChainInfo []).
    - by exists (OEndBlock None).
    - by exists (OCurrentBlock 0).
    - by exists (OUpdates []).
    - by exists (OAccount {| ac_address := []; ac_pubkey := None; ac_number := 0; ac_sequence := 0 |}).
    - by exists (OAuthParams {| pr_max_memo := 0; pr_sig_limit := 0; pr_size_cost := 0;
                                pr_ed25519_cost := 0; pr_secp256k1_cost := 0 |}).
    - by exists (OAccountNumber 0).
    - by exists (ORole (empty_role [])).
    - by exists (OBinding [] []).
    - by exists ORbacParams.
    - by exists (OBalance [] []).
    - inversion H.
  Qed.

  Lemma repr_wt S st : repr O R S st -> wt S.
  Proof.
    intros HP ty id o H. destruct (re_wf _ _ _ _ HP ty id o H) as [s [H1 H2 H3 H4 H5 H6]].
    rewrite <- H2, obj_name_ty in *. rewrite Hsch in H1. injection H1 as <-.
    rewrite (app_pk C) in H4. done.
  Qed.

  (** Reading the byte store and reading the map. *)
  Lemma orm_get_map S st ty id : codec_ok O -> repr O R S st -> ty ∈ all_types ->
    match orm_get O R ty id st with
    | Ok o => id <> [] /\ S !! (ty, id) = Some o
    | _ => id = [] \/ S !! (ty, id) = None
    end
    /\ match rt_get (orm_ops O R) ty id st with
       | Ok o => id <> [] /\ S !! (ty, id) = Some o
       | Fail e => id <> [] /\ S !! (ty, id) = None
       | Panic => id = []
       | OutOfFuel => False
       end.
  Proof.
    intros HC HP HK. destruct (get_refines O R S st ty id HC HRok HP) as [H1 H2].
    unfold rt_get. cbn [so_get orm_ops]. rewrite convert_answer, H1.
    destruct (known_schema_in ty HK) as [s Hs]. unfold spec_get in *. rewrite Hs in *. clear Hs.
    generalize dependent (orm_get O R ty id st). intros g H1 H2.
    destruct (decide (id = [])) as [Hid|Hid]; cbn [fst snd] in *.
    - split; [|by destruct g]. destruct g; [discriminate|auto..].
    - destruct (S !! (ty, id)) as [o'|] eqn:E; cbn [fst snd] in *.
      + destruct g as [o| | |]; try discriminate. injection H2 as ->. auto.
      + split; [|done]. destruct g; [discriminate|auto..].
  Qed.

  Lemma map_rt_get S ty id : ty ∈ all_types ->
    rt_get (map_ops O R) ty id S =
      if decide (id = []) then Panic
      else match S !! (ty, id) with Some o => Ok o | None => Fail (EWrap (ESent RtNotFound)) end.
  Proof.
    intros HK. destruct (known_schema_in ty HK) as [s Hs].
    unfold rt_get. cbn [so_get map_ops]. unfold map_get. rewrite Hs. clear Hs.
    destruct (decide (id = [])); [done|]. by destruct (S !! (ty, id)).
  Qed.

  Lemma rbac_types ty : ty = ty_binding \/ ty = ty_role -> ty ∈ all_types.
  Proof. intros [->| ->]; apply (bool_decide_unpack _); vm_compute; exact I. Qed.

  Definition orm_stored (st : orm) (ty id : bytes) (o : object) : Prop := orm_get O R ty id st = Ok o.
  Definition map_stored (S : gmap (bytes * bytes) object) (ty id : bytes) (o : object) : Prop :=
    S !! (ty, id) = Some o.

  Lemma orm_decides S st enum v name us : codec_ok O -> repr O R S st -> fair_order enum -> wf_users us ->
    match run_read (orm_ops O R) enum (rbac_authorize v name us) st with
    | Ok d => granted (orm_stored st) v name us /\ d = (true, None)
              \/ ~ granted (orm_stored st) v name us /\ exists e, d = (false, Some e)
    | Panic => unnamed (orm_stored st) us /\ ~ granted (orm_stored st) v name us
    | _ => False
    end.
  Proof.
    intros HC HP. apply rbac_decides; [|unfold orm_stored; congruence].
    intros ty id Ht. destruct (orm_get_map S st ty id HC HP (rbac_types ty Ht)) as [H1 H2].
    unfold orm_stored. destruct (rt_get (orm_ops O R) ty id st) as [o|e| |].
    - destruct H2 as [Hn HS]. destruct (orm_get O R ty id st); [|destruct H1; congruence..].
      destruct H1 as [_ H1]. split; [congruence|]. by destruct (repr_wt S st HP ty id o HS).
    - destruct H2 as [Hn HS]. intros o E. rewrite E in H1. destruct H1; congruence.
    - split; [done|]. intros o E. rewrite E in H1. by destruct H1.
    - done.
  Qed.

  Lemma map_decides S enum v name us : wt S -> fair_order enum -> wf_users us ->
    match run_read (map_ops O R) enum (rbac_authorize v name us) S with
    | Ok d => granted (map_stored S) v name us /\ d = (true, None)
              \/ ~ granted (map_stored S) v name us /\ exists e, d = (false, Some e)
    | Panic => unnamed (map_stored S) us /\ ~ granted (map_stored S) v name us
    | _ => False
    end.
  Proof.
    intros HW. apply rbac_decides; [|unfold map_stored; congruence].
    intros ty id Ht. rewrite map_rt_get by (by apply rbac_types). unfold map_stored.
    destruct (decide (id = [])) as [->|Hn].
    - split; [done|]. intros o Ho. by destruct (HW _ _ _ Ho) as (_ & _ & ?).
    - destruct (S !! (ty, id)) eqn:E; [|congruence]. split; [done|]. by destruct (HW _ _ _ E).
  Qed.
End App.
