(** Consistency of the registry after any history of registrations. *)
From Coq Require Import NArith List Bool String Lia.
From stdpp Require Import base list gmap.
From Verif.Model Require Import Bytes KindEncoder Desc Schema.
From Verif.Spec Require Import RegistrySpec.
From Verif.Proofs Require Import KVFacts RegistryFacts.

Section S.
  Context (fuel : nat) (D : descs).

  Definition in_group (g : bytes) (s : schema) : bool := bytes_eqb (sch_group s) g.
  Definition kinds_of (g : bytes) (acc : list schema) : list bytes :=
    map sch_kind (List.filter (in_group g) acc).

  Record inv (acc : list schema) (R : registry) : Prop := {
    i_nodup : NoDup (map sch_name acc);
    i_schemas : forall n s, rg_schemas R !! n = Some s <-> s ∈ acc /\ sch_name s = n;
    i_meta : forall g k s, (exists m, rg_by_meta R !! g = Some m /\ m !! k = Some s)
                           <-> s ∈ acc /\ sch_group s = g /\ sch_kind s = k;
    i_groups : forall g, rg_groups R !! g = match kinds_of g acc with [] => None | l => Some l end
  }.

  Lemma inv_new : inv [] new_registry.
  Proof.
    constructor; cbn.
    - constructor.
    - intros n s. rewrite lookup_empty. split; [done|]. intros [H _]; inversion H.
    - intros g k s. split; [|intros [H _]; inversion H].
      intros (m & H & _). rewrite lookup_empty in H. done.
    - intros g. rewrite lookup_empty. done.
  Qed.

  Lemma kinds_of_app g acc s :
    kinds_of g (acc ++ [s]) = kinds_of g acc ++ (if in_group g s then [sch_kind s] else []).
  Proof.
    unfold kinds_of. rewrite List.filter_app, map_app. cbn. destruct (in_group g s); done.
  Qed.

  Lemma registry_add_inv acc R s :
    inv acc R ->
    ((registry_add R s).1 = Ok tt /\ (forall s', s' ∈ acc -> sch_name s' <> sch_name s)
      /\ inv (acc ++ [s]) (registry_add R s).2)
    \/ ((registry_add R s).1 = Fail (EWrap (ESent SchemaAlreadyExists))
      /\ (exists s', s' ∈ acc /\ sch_name s' = sch_name s) /\ (registry_add R s).2 = R).
  Proof.
    intros HI. unfold registry_add. destruct (rg_schemas R !! sch_name s) as [s0|] eqn:E; [right|left].
    - split; [done|]. split; [|done]. apply (i_schemas _ _ HI) in E as [H1 H2]. eauto.
    - assert (forall s', s' ∈ acc -> sch_name s' <> sch_name s) as Hf.
      { intros s' Hs Hn. assert (rg_schemas R !! sch_name s = Some s') by (apply HI; auto). congruence. }
      split; [done|]. split; [done|]. constructor; cbn.
      + rewrite map_app. apply NoDup_app. split; [apply HI|]. split; [|apply NoDup_singleton].
        intros n Hn Hn'. cbn in Hn'. apply elem_of_list_singleton in Hn' as ->.
        apply elem_of_list_fmap in Hn as (s' & H1 & H2). eapply Hf; eauto.
      + intros n s'. rewrite lookup_insert_Some, (i_schemas _ _ HI), elem_of_app, elem_of_list_singleton.
        split.
        * intros [[<- <-]|[H1 [H2 H3]]]; auto.
        * intros [[H1| ->] H2]; [|auto]. right. split; [|done]. intros <-. eapply Hf; eauto.
      + intros g k s'. rewrite elem_of_app, elem_of_list_singleton. split.
        * intros (m & H1 & H2). apply lookup_insert_Some in H1 as [[<- <-]|[Hg H1]].
          -- apply lookup_insert_Some in H2 as [[<- <-]|[Hk H2]]; [auto|].
             destruct (rg_by_meta R !! sch_group s) as [m'|] eqn:Em; cbn in H2.
             ++ assert (s' ∈ acc /\ sch_group s' = sch_group s /\ sch_kind s' = k) as Hx
                  by (apply HI; eauto). tauto.
             ++ rewrite lookup_empty in H2. done.
          -- assert (s' ∈ acc /\ sch_group s' = g /\ sch_kind s' = k) as Hx by (apply HI; eauto). tauto.
        * intros [[H1| ->] [Hg Hk]].
          -- assert (exists m, rg_by_meta R !! g = Some m /\ m !! k = Some s') as (m & Hm1 & Hm2)
               by (apply HI; auto).
             destruct (decide (sch_group s = g)) as [E'|E'].
             ++ subst g. rewrite E', lookup_insert. eexists; split; [done|].
                rewrite Hm1. cbn. rewrite lookup_insert_ne; [done|].
                intros Ek. apply (Hf s' H1). unfold sch_name. congruence.
             ++ exists m. rewrite lookup_insert_ne by done. done.
          -- subst. rewrite lookup_insert. eexists; split; [done|]. apply lookup_insert.
      + intros g. rewrite kinds_of_app. unfold in_group. destruct (decide (sch_group s = g)) as [<-|Hg].
        * rewrite lookup_insert, (i_groups _ _ HI).
          rewrite (proj2 (bytes_eqb_spec _ _) eq_refl).
          destruct (kinds_of (sch_group s) acc); done.
        * rewrite lookup_insert_ne by done. apply bytes_eqb_false in Hg. rewrite Hg, app_nil_r.
          apply HI.
  Qed.

  (** The schemas of the accepted registrations. *)
  Definition schema_for (tx : objtype * definition) (s : schema) : Prop :=
    parse_object_schema fuel D tx.1 tx.2 = Ok s.

  Lemma register_all_inv regs acc R rs R' :
    inv acc R -> register_all fuel D regs R = (rs, R') ->
    exists acc', inv (acc ++ acc') R' /\ Forall2 schema_for (accepted regs rs) acc'
      /\ length rs = length regs.
  Proof.
    revert acc R rs. induction regs as [|[t x] regs IH]; intros acc R rs HI H; cbn in H.
    - inversion H; subst. exists []. rewrite app_nil_r. split; [done|]. split; [constructor|done].
    - destruct (add_object fuel D R t x) as [r R1] eqn:Ea.
      destruct (register_all fuel D regs R1) as [rs1 R2] eqn:Er. inversion H; subst. cbn.
      unfold add_object in Ea. destruct (parse_object_schema fuel D t x) as [s| | |] eqn:Ep.
      + destruct (registry_add_inv acc R s HI) as [(E1 & _ & E2)|(E1 & _ & E2)];
          rewrite Ea in *; cbn in *; subst.
        * destruct (IH _ _ _ E2 Er) as (acc' & H1 & H2 & H3). exists (s :: acc').
          rewrite <- app_assoc in H1. split; [done|]. split; [|congruence]. constructor; done.
        * destruct (IH _ _ _ HI Er) as (acc' & H1 & H2 & H3). exists acc'. auto.
      + inversion Ea; subst. destruct (IH _ _ _ HI Er) as (acc' & H1 & H2 & H3). exists acc'. auto.
      + inversion Ea; subst. destruct (IH _ _ _ HI Er) as (acc' & H1 & H2 & H3). exists acc'. auto.
      + inversion Ea; subst. destruct (IH _ _ _ HI Er) as (acc' & H1 & H2 & H3). exists acc'. auto.
  Qed.

  Lemma schema_for_fields tx s : schema_for tx s ->
    sch_group s = ot_group tx.1 /\ sch_kind s = ot_kind tx.1 /\ sch_name s = ot_name tx.1.
  Proof.
    unfold schema_for. intros H. apply parse_ok in H as (H1 & H2 & _).
    split; [done|]. split; [done|]. unfold sch_name, ot_name. congruence.
  Qed.

  Lemma accepted_in regs rs acc s :
    Forall2 schema_for (accepted regs rs) acc -> s ∈ acc ->
    exists tx, tx ∈ accepted regs rs /\ schema_for tx s.
  Proof.
    intros H Hs. apply elem_of_list_lookup in Hs as [i Hi].
    destruct (Forall2_lookup_r _ _ _ _ _ H Hi) as (tx & H1 & H2).
    exists tx. split; [eapply elem_of_list_lookup_2; eauto|done].
  Qed.

  Lemma in_accepted regs rs acc tx :
    Forall2 schema_for (accepted regs rs) acc -> tx ∈ accepted regs rs ->
    exists s, s ∈ acc /\ schema_for tx s.
  Proof.
    intros H Hs. apply elem_of_list_lookup in Hs as [i Hi].
    destruct (Forall2_lookup_l _ _ _ _ _ H Hi) as (s & H1 & H2).
    exists s. split; [eapply elem_of_list_lookup_2; eauto|done].
  Qed.

  Lemma lookup_consistent regs rs R :
    register_all fuel D regs new_registry = (rs, R) ->
    forall g k s,
      (registry_get_by_api R g k = Ok s <->
       exists tx, tx ∈ accepted regs rs /\ ot_group tx.1 = g /\ ot_kind tx.1 = k /\ schema_for tx s)
      /\ (registry_get R (api_name g k) = Ok s <->
          exists tx, tx ∈ accepted regs rs /\ ot_name tx.1 = api_name g k /\ schema_for tx s).
  Proof.
    intros H g k s. destruct (register_all_inv _ _ _ _ _ inv_new H) as (acc & HI & HF & _).
    cbn [app] in HI. split.
    - unfold registry_get_by_api. split.
      + intros Hg. assert (exists m, rg_by_meta R !! g = Some m /\ m !! k = Some s) as Hm.
        { destruct (rg_by_meta R !! g) as [m|]; [|discriminate].
          destruct (m !! k) as [s'|] eqn:E; [|discriminate]. inversion Hg; subst. eauto. }
        apply HI in Hm as (Hs & E1 & E2). destruct (accepted_in _ _ _ _ HF Hs) as (tx & H1 & H2).
        pose proof (schema_for_fields _ _ H2) as (F1 & F2 & _).
        exists tx. split; [done|]. split; [congruence|]. split; [congruence|done].
      + intros (tx & H1 & E1 & E2 & H2). destruct (in_accepted _ _ _ _ HF H1) as (s' & Hs & H3).
        assert (s' = s) as -> by (unfold schema_for in *; congruence).
        pose proof (schema_for_fields _ _ H2) as (F1 & F2 & _).
        assert (exists m, rg_by_meta R !! g = Some m /\ m !! k = Some s) as (m & -> & ->)
          by (apply HI; split; [done|split; congruence]). done.
    - unfold registry_get. split.
      + intros Hg. destruct (rg_schemas R !! api_name g k) as [s'|] eqn:E; [|discriminate].
        inversion Hg; subst. apply HI in E as [Hs E]. destruct (accepted_in _ _ _ _ HF Hs) as (tx & H1 & H2).
        pose proof (schema_for_fields _ _ H2) as (_ & _ & F3).
        exists tx. split; [done|]. split; [congruence|done].
      + intros (tx & H1 & E1 & H2). destruct (in_accepted _ _ _ _ HF H1) as (s' & Hs & H3).
        assert (s' = s) as -> by (unfold schema_for in *; congruence).
        pose proof (schema_for_fields _ _ H2) as (_ & _ & F3).
        assert (rg_schemas R !! api_name g k = Some s) as -> by (apply HI; split; [done|congruence]).
        done.
  Qed.

  Lemma second_refused regs rs R t x :
    register_all fuel D regs new_registry = (rs, R) ->
    (exists tx, tx ∈ accepted regs rs /\ ot_name tx.1 = ot_name t) ->
    is_ok (add_object fuel D R t x).1 = false /\ (add_object fuel D R t x).2 = R.
  Proof.
    intros H (tx & H1 & E). destruct (register_all_inv _ _ _ _ _ inv_new H) as (acc & HI & HF & _).
    cbn [app] in HI. destruct (in_accepted _ _ _ _ HF H1) as (s' & Hs & H3).
    unfold add_object. destruct (parse_object_schema fuel D t x) as [s| | |] eqn:Ep; try done.
    assert (schema_for (t, x) s) as Hsf by done.
    pose proof (schema_for_fields _ _ Hsf) as (_ & _ & F3).
    pose proof (schema_for_fields _ _ H3) as (_ & _ & F3').
    destruct (registry_add_inv acc R s HI) as [(E1 & E2 & _)|(E1 & _ & E2)].
    - exfalso. eapply E2; eauto. cbn in *. congruence.
    - rewrite E1. done.
  Qed.

  Lemma names_unique regs rs R :
    register_all fuel D regs new_registry = (rs, R) ->
    NoDup (map (fun tx : objtype * definition => ot_name tx.1) (accepted regs rs)).
  Proof.
    intros H. destruct (register_all_inv _ _ _ _ _ inv_new H) as (acc & HI & HF & _). cbn [app] in HI.
    assert (map (fun tx : objtype * definition => ot_name tx.1) (accepted regs rs) = map sch_name acc) as ->;
      [|apply HI].
    clear HI H. induction HF as [|tx s l l' H _ IH]; [done|]. cbn. rewrite IH.
    pose proof (schema_for_fields _ _ H) as (_ & _ & F). congruence.
  Qed.

  Lemma kinds_of_elem g acc k :
    k ∈ kinds_of g acc <-> exists s, s ∈ acc /\ sch_group s = g /\ sch_kind s = k.
  Proof.
    unfold kinds_of. rewrite elem_of_list_fmap. split.
    - intros (s & -> & H). apply elem_of_list_In, filter_In in H as [H1 H2].
      apply bytes_eqb_spec in H2. exists s. split; [apply elem_of_list_In; done|done].
    - intros (s & H1 & H2 & H3). exists s. split; [done|]. apply elem_of_list_In, filter_In.
      split; [apply elem_of_list_In; done|]. apply bytes_eqb_spec. done.
  Qed.

  Lemma kinds_of_nodup g acc : NoDup (map sch_name acc) -> NoDup (kinds_of g acc).
  Proof.
    induction acc as [|s acc IH]; intros H; [constructor|]. cbn in H.
    inversion H as [|? ? Hn Hd]; subst. unfold kinds_of. cbn. fold (kinds_of g acc).
    destruct (in_group g s) eqn:E; [|auto]. cbn. constructor; [|apply IH; done].
    intros Hk. apply kinds_of_elem in Hk as (s' & H1 & H2 & H3). apply Hn.
    apply bytes_eqb_spec in E. apply elem_of_list_fmap. exists s'. split; [|done].
    unfold sch_name. congruence.
  Qed.

  Lemma listings_consistent regs rs R :
    register_all fuel D regs new_registry = (rs, R) ->
    (NoDup (registry_list R) /\ forall n, n ∈ registry_list R <->
        exists tx, tx ∈ accepted regs rs /\ ot_name tx.1 = n)
    /\ (NoDup (registry_groups R) /\ forall g, g ∈ registry_groups R <->
        exists tx, tx ∈ accepted regs rs /\ ot_group tx.1 = g)
    /\ forall g, match registry_kinds R g with
       | Ok ks => NoDup ks /\ ks <> [] /\ forall k, k ∈ ks <->
            exists tx, tx ∈ accepted regs rs /\ ot_group tx.1 = g /\ ot_kind tx.1 = k
       | Fail e => errors_is e SchemaNotFound = true
            /\ forall tx, tx ∈ accepted regs rs -> ot_group tx.1 <> g
       | _ => False
       end.
  Proof.
    intros H. destruct (register_all_inv _ _ _ _ _ inv_new H) as (acc & HI & HF & _). cbn [app] in HI.
    assert (forall s, s ∈ acc -> exists tx, tx ∈ accepted regs rs /\ ot_group tx.1 = sch_group s
              /\ ot_kind tx.1 = sch_kind s /\ ot_name tx.1 = sch_name s) as Hto.
    { intros s Hs. destruct (accepted_in _ _ _ _ HF Hs) as (tx & H1 & H2).
      pose proof (schema_for_fields _ _ H2) as (F1 & F2 & F3). exists tx. auto. }
    assert (forall tx, tx ∈ accepted regs rs -> exists s, s ∈ acc /\ ot_group tx.1 = sch_group s
              /\ ot_kind tx.1 = sch_kind s /\ ot_name tx.1 = sch_name s) as Hfrom.
    { intros tx Ht. destruct (in_accepted _ _ _ _ HF Ht) as (s & H1 & H2).
      pose proof (schema_for_fields _ _ H2) as (F1 & F2 & F3). exists s. auto. }
    split; [|split].
    - split; [apply NoDup_fst_map_to_list|]. intros n. unfold registry_list. rewrite elem_of_list_fmap. split.
      + intros ([n' s] & -> & Hm). apply elem_of_map_to_list, HI in Hm as [Hs E].
        destruct (Hto s Hs) as (tx & H1 & _ & _ & H2). exists tx. cbn. split; [done|congruence].
      + intros (tx & H1 & <-). destruct (Hfrom tx H1) as (s & Hs & _ & _ & E).
        exists (ot_name tx.1, s). split; [done|]. apply elem_of_map_to_list, HI. auto.
    - split; [apply NoDup_fst_map_to_list|]. intros g. unfold registry_groups. rewrite elem_of_list_fmap. split.
      + intros ([g' ks] & -> & Hm). apply elem_of_map_to_list in Hm. rewrite (i_groups _ _ HI) in Hm.
        destruct (kinds_of g' acc) as [|k ks'] eqn:E; [done|].
        assert (k ∈ kinds_of g' acc) as Hk by (rewrite E; left).
        apply kinds_of_elem in Hk as (s & Hs & E1 & E2). destruct (Hto s Hs) as (tx & H1 & H2 & _).
        exists tx. cbn. split; [done|congruence].
      + intros (tx & H1 & <-). destruct (Hfrom tx H1) as (s & Hs & E1 & E2 & _).
        assert (ot_kind tx.1 ∈ kinds_of (ot_group tx.1) acc) as Hk by (apply kinds_of_elem; eauto).
        exists (ot_group tx.1, kinds_of (ot_group tx.1) acc). split; [done|].
        apply elem_of_map_to_list. rewrite (i_groups _ _ HI).
        destruct (kinds_of (ot_group tx.1) acc); [inversion Hk|done].
    - intros g. unfold registry_kinds. rewrite (i_groups _ _ HI).
      destruct (kinds_of g acc) as [|k0 ks] eqn:E.
      + split; [done|]. intros tx Ht Eg. destruct (Hfrom tx Ht) as (s & Hs & E1 & E2 & _).
        assert (sch_kind s ∈ kinds_of g acc) as Hk by (apply kinds_of_elem; exists s; split; [done|split; congruence]).
        rewrite E in Hk. inversion Hk.
      + rewrite <- E. split; [apply kinds_of_nodup, HI|]. split; [rewrite E; done|].
        intros k. rewrite kinds_of_elem. split.
        * intros (s & Hs & E1 & E2). destruct (Hto s Hs) as (tx & H1 & H2 & H3 & _).
          exists tx. split; [done|split; congruence].
        * intros (tx & Ht & E1 & E2). destruct (Hfrom tx Ht) as (s & Hs & F1 & F2 & _).
          exists s. split; [done|split; congruence].
  Qed.
End S.
