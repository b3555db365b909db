(** The byte-level store refines the map of [StoreSpec]. *)
From Coq Require Import NArith List Bool String Lia Sorted.
From Coq Require Import ZifyBool ZifyN ZifyNat.
From stdpp Require Import base list gmap.
From Verif.Model Require Import Bytes Wire KindEncoder Desc Schema KV Objects Indexes Orm.
From Verif.Spec Require Import StoreSpec.
From Verif.Proofs Require Import BytesFacts KindEncoderFacts KVFacts IndexFacts RegistryFacts.

(** ** Keys of different kinds never meet *)
Lemma name_char_slash b : name_char b = true -> b <> Byte.x2f.
Proof. intros H ->. vm_compute in H. discriminate. Qed.

Lemma object_key_inj ty ty' pk pk' :
  proto_name ty -> proto_name ty' ->
  ty ++ str "/" ++ pk = ty' ++ str "/" ++ pk' -> ty = ty' /\ pk = pk'.
Proof.
  change (str "/") with [Byte.x2f]. cbn [app].
  intros H H'. revert ty' H'. induction H as [|c ty Hc H IH]; intros ty' H' E.
  - inversion H' as [|c' ty'' Hc' H'']; subst; cbn in E.
    + inversion E; auto.
    + inversion E; subst. apply name_char_slash in Hc'. done.
  - inversion H' as [|c' ty'' Hc' H'']; subst; cbn in E.
    + inversion E; subst. apply name_char_slash in Hc. done.
    + inversion E; subst. destruct (IH ty'' H'') as [-> ->]; auto.
Qed.

Lemma sch_name_nonempty s : sch_name s <> [].
Proof. unfold sch_name, api_name. change (str ".") with [Byte.x2e]. destruct (sch_group s); discriminate. Qed.

Lemma proto_name_head ty : proto_name ty -> ty <> [] -> exists c r, ty = c :: r /\ name_char c = true.
Proof. intros H Hn. destruct H; [done|]. eauto. Qed.

Lemma object_key_allowed s pk :
  proto_name (sch_name s) ->
  key_allowed (sch_name s ++ str "/" ++ pk) = (blen (sch_name s) + 1 + blen pk <=? 65000)%N.
Proof.
  intros H. destruct (proto_name_head _ H (sch_name_nonempty s)) as (c & r & E & Hc).
  unfold key_allowed. rewrite E. cbn [app].
  assert (bytes_eqb (c :: r ++ str "/" ++ pk) [] = false) as ->.
  { apply bytes_eqb_false. discriminate. }
  assert (has_prefix (str "!badger!") (c :: r ++ str "/" ++ pk) = false) as ->.
  { change (str "!badger!") with (Byte.x21 :: str "badger!").
    cbn [has_prefix]. rewrite decide_False; [done|]. intros <-. vm_compute in Hc. discriminate. }
  cbn [negb andb]. rewrite andb_true_r. unfold max_key_size.
  replace (blen (c :: r ++ str "/" ++ pk)) with (blen (c :: r) + 1 + blen pk)%N; [done|].
  unfold blen. cbn [length]. rewrite !app_length. cbn. lia.
Qed.

Lemma index_key_allowed k :
  key_allowed (ik_marshal k) = (blen (ik_marshal k) <=? 65000)%N.
Proof.
  unfold key_allowed, max_key_size. unfold ik_marshal at 1 3.
  assert (bytes_eqb (indexers_prefix :: length_prefixed (ik_object k) ++
      length_prefixed (ik_index k) ++ length_prefixed (ik_value k) ++ ik_primary k) [] = false) as ->.
  { apply bytes_eqb_false. discriminate. }
  change (str "!badger!") with (Byte.x21 :: str "badger!"). cbn [has_prefix negb andb].
  rewrite decide_False; [|discriminate]. cbn [negb]. rewrite andb_true_r. done.
Qed.

Lemma object_key_not_index ty pk k :
  proto_name ty -> ty <> [] -> ty ++ str "/" ++ pk <> ik_marshal k.
Proof.
  intros H Hn E. destruct (proto_name_head _ H Hn) as (c & r & -> & Hc).
  unfold ik_marshal in E. cbn [app] in E. apply (f_equal (hd Byte.x01)) in E. cbn [hd] in E.
  subst c. vm_compute in Hc. discriminate.
Qed.

Section WithObj.
  Context {Obj : Type} (O : objops Obj).
  Implicit Types (o : Obj) (S : gmap (bytes * bytes) Obj).


  Lemma pk_of_ok s o :
    schema_ok s -> typed O s o -> encode_primary_key O s o = Ok (pk_of O s o).
  Proof.
    intros Hs [Ht _]. unfold pk_of, code, encode_primary_key.
    destruct (sch_singleton s) eqn:E; [done|].
    destruct (so_keyed s Hs E) as (f & k & P & _). rewrite P in *.
    destruct (encode_value_total _ _ Ht) as [b ->]. done.
  Qed.

  Lemma field_code_ok s o ix :
    typed O s o -> ix ∈ sch_indexes s -> ix_encode_object O ix o = Ok (field_code O ix o).
  Proof.
    intros [_ Ht] Hix. rewrite Forall_forall in Ht. apply Ht in Hix.
    unfold field_code, code, ix_encode_object.
    destruct (encode_value_total _ _ Hix) as [b ->]. done.
  Qed.

  Definition okey s o ix : bytes :=
    ik_marshal {| ik_object := sch_name s; ik_index := ix_name ix;
                  ik_value := field_code O ix o; ik_primary := pk_of O s o |}.
  Definition okeys s o : list bytes := map (okey s o) (sch_indexes s).

  Definition ix_small s o ix : bool :=
    (25 + blen (sch_name s) + blen (ix_name ix) + blen (field_code O ix o)
     + blen (pk_of O s o) <=? 65000)%N.

  Lemma okey_len s o ix :
    blen (okey s o ix) = (25 + blen (sch_name s) + blen (ix_name ix) + blen (field_code O ix o)
     + blen (pk_of O s o))%N.
  Proof. unfold okey. rewrite ik_marshal_len. done. Qed.

  Lemma okey_allowed s o ix : key_allowed (okey s o ix) = ix_small s o ix.
  Proof. unfold okey. rewrite index_key_allowed. fold (okey s o ix). rewrite okey_len. done. Qed.

  Lemma kv_get_ne m k : k <> [] -> kv_get m k = Ok (m !! k).
  Proof. intros H. unfold kv_get. apply bytes_eqb_false in H. rewrite H. done. Qed.

  Lemma kv_has_ne m k : k <> [] -> kv_has m k = Ok (bool_decide (is_Some (m !! k))).
  Proof.
    intros H. unfold kv_has. rewrite kv_get_ne by done.
    destruct (m !! k); [rewrite bool_decide_eq_true_2|rewrite bool_decide_eq_false_2]; eauto.
  Qed.

  Lemma okey_nonempty s o ix : okey s o ix <> [].
  Proof. unfold okey, ik_marshal. discriminate. Qed.

  Lemma okey_name_inj s o ix ix' :
    ix_small s o ix = true -> okey s o ix' = okey s o ix -> ix_name ix' = ix_name ix.
  Proof.
    intros H E. pose proof (okey_len s o ix) as L. unfold ix_small in H.
    apply ik_marshal_inj_small in E.
    - inversion E; done.
    - fold (okey s o ix'). rewrite E, L. unfold two64. lia.
    - fold (okey s o ix). rewrite L. unfold two64. lia.
  Qed.

  (** ** The two loops *)
  Definition put_all (ks : list bytes) (m : kv) : kv := fold_left (fun m k => <[k := []]> m) ks m.
  Definition del_all (ks : list bytes) (m : kv) : kv := fold_left (fun m k => delete k m) ks m.

  Lemma put_all_notin ks m k : k ∉ ks -> put_all ks m !! k = m !! k.
  Proof.
    revert m. induction ks as [|x ks IH]; intros m H; [done|].
    change (put_all (x :: ks) m) with (put_all ks (<[x := []]> m)).
    rewrite IH; [|intros Hx; apply H; right; done].
    apply lookup_insert_ne. intros ->. apply H. left.
  Qed.

  Lemma put_all_in ks m k : k ∈ ks -> put_all ks m !! k = Some [].
  Proof.
    revert m. induction ks as [|x ks IH]; intros m H; [inversion H|].
    destruct (decide (k ∈ ks)) as [Hi|Hi].
    - unfold put_all in *. cbn. auto.
    - apply elem_of_cons in H as [->|H]; [|done].
      change (put_all (x :: ks) m) with (put_all ks (<[x := []]> m)).
      rewrite put_all_notin by done. apply lookup_insert.
  Qed.

  Lemma del_all_lookup ks m k : del_all ks m !! k = if decide (k ∈ ks) then None else m !! k.
  Proof.
    revert m. induction ks as [|x ks IH]; intros m.
    - rewrite decide_False; [done|]. apply not_elem_of_nil.
    - change (del_all (x :: ks) m) with (del_all ks (base.delete x m)). rewrite IH. destruct (decide (k ∈ ks)) as [H|H].
      + rewrite decide_True; [done|]. right; done.
      + destruct (decide (k = x)) as [->|Hne].
        * rewrite lookup_delete, decide_True; [done|]. left.
        * rewrite lookup_delete_ne by done. rewrite decide_False; [done|].
          rewrite elem_of_cons. tauto.
  Qed.

  Lemma clear_loop_ok ks m :
    Forall (fun k => key_allowed k = true) ks -> clear_loop ks m = (Ok tt, del_all ks m).
  Proof.
    revert m. induction ks as [|k ks IH]; intros m H; [done|].
    inversion H; subst. cbn. unfold kv_delete. rewrite H2. rewrite IH by done. done.
  Qed.

  Lemma index_loop_spec s o ixs keys m :
    typed O s o -> (forall ix, ix ∈ ixs -> ix ∈ sch_indexes s) ->
    NoDup (map ix_name ixs) ->
    (forall ix, ix ∈ ixs -> m !! okey s o ix = None) ->
    if forallb (ix_small s o) ixs
    then index_loop O s (pk_of O s o) ixs o keys m
         = (Ok (keys ++ map (okey s o) ixs), put_all (map (okey s o) ixs) m)
    else exists m', index_loop O s (pk_of O s o) ixs o keys m = (Panic, m').
  Proof.
    intros Ht. revert keys m. induction ixs as [|ix ixs IH]; intros keys m Hin Hnd Hfresh.
    - cbn. rewrite app_nil_r. done.
    - cbn [forallb map index_loop]. inversion Hnd as [|? ? Hix Hnd']; subst.
      unfold index_key_of. rewrite (field_code_ok s) by (auto; apply Hin; left).
      fold (okey s o ix). rewrite kv_has_ne by apply okey_nonempty.
      rewrite Hfresh by left. rewrite bool_decide_eq_false_2 by (intros [? ?]; done).
      unfold kv_set. rewrite okey_allowed.
      destruct (ix_small s o ix) eqn:Es; cbn [andb].
      + specialize (IH (keys ++ [okey s o ix]) (<[okey s o ix := []]> m)).
        destruct (forallb (ix_small s o) ixs).
        * rewrite IH; auto.
          { rewrite <- app_assoc. done. }
          { intros; apply Hin; right; done. }
          { intros ix' Hix'. rewrite lookup_insert_ne; [apply Hfresh; right; done|].
            intros E. symmetry in E. apply okey_name_inj in E; [|done]. apply Hix.
            rewrite <- E. apply elem_of_list_fmap. eauto. }
        * apply IH; auto.
          { intros; apply Hin; right; done. }
          { intros ix' Hix'. rewrite lookup_insert_ne; [apply Hfresh; right; done|].
            intros E. symmetry in E. apply okey_name_inj in E; [|done]. apply Hix.
            rewrite <- E. apply elem_of_list_fmap. eauto. }
      + eauto.
  Qed.

  (** ** Index store invariant *)
  Record idx_repr (R : registry) (S : gmap (bytes * bytes) Obj) (m : kv) : Prop := {
    ri_small : forall k, is_Some (m !! k) -> (blen k <= 65000)%N;
    ri_idx : forall k, (blen (ik_marshal k) <= 65000)%N ->
      (is_Some (m !! ik_marshal k) <->
       exists o s ix, S !! (ik_object k, ik_primary k) = Some o
         /\ rg_schemas R !! ik_object k = Some s /\ ix ∈ sch_indexes s
         /\ ix_name ix = ik_index k /\ field_code O ix o = ik_value k);
    ri_list : forall ty id o s, S !! (ty, id) = Some o -> rg_schemas R !! ty = Some s ->
      has_indexes s = true -> m !! type_prefixed_key ty id = Some (index_list_marshal (okeys s o))
  }.

  Record wf_entry (R : registry) (ty id : bytes) (o : Obj) (s : schema) : Prop := {
    we_schema : rg_schemas R !! ty = Some s;
    we_name : obj_name O o = ty;
    we_typed : typed O s o;
    we_pk : pk_of O s o = id;
    we_ne : id <> [];
    we_storable : storable O s o = true
  }.

  Definition wf_map (R : registry) (S : gmap (bytes * bytes) Obj) : Prop :=
    forall ty id o, S !! (ty, id) = Some o -> exists s, wf_entry R ty id o s.

  Lemma storable_small s o : storable O s o = true -> forallb (ix_small s o) (sch_indexes s) = true.
  Proof. unfold storable. intros H. apply andb_true_iff in H as [_ H]. exact H. Qed.

  Lemma okeys_allowed s o :
    storable O s o = true -> Forall (fun k => key_allowed k = true) (okeys s o).
  Proof.
    intros H. apply storable_small in H. unfold okeys. apply Forall_forall. intros k Hk.
    apply elem_of_list_fmap in Hk as [ix [-> Hix]]. rewrite okey_allowed.
    rewrite forallb_forall in H. apply H, elem_of_list_In. done.
  Qed.

  Lemma okeys_roundtrip s o :
    schema_ok s -> storable O s o = true -> has_indexes s = true ->
    index_list_unmarshal (index_list_marshal (okeys s o)) = Ok (okeys s o).
  Proof.
    intros Hs H Hi. apply index_list_roundtrip.
    - unfold has_indexes, okeys in *. destruct (sch_indexes s); done.
    - eapply Forall_impl; [apply okeys_allowed; done|]. intros k Hk. cbn in Hk.
      unfold key_allowed, max_key_size in Hk. unfold two64. lia.
    - unfold okeys. rewrite map_length. pose proof (so_count s Hs). 
      change (2 ^ 40)%N with 1099511627776%N in *. lia.
  Qed.

  Lemma okeys_elem s o k :
    storable O s o = true -> 
    ik_marshal k ∈ okeys s o <->
    (ik_object k = sch_name s /\ ik_primary k = pk_of O s o
     /\ exists ix, ix ∈ sch_indexes s /\ ix_name ix = ik_index k /\ field_code O ix o = ik_value k).
  Proof.
    intros H. unfold okeys. rewrite elem_of_list_fmap. split.
    - intros [ix [E Hix]]. apply storable_small in H. rewrite forallb_forall in H.
      specialize (H ix (proj1 (elem_of_list_In _ _) Hix)).
      pose proof (okey_len s o ix) as L. unfold ix_small in H.
      apply ik_marshal_inj_small in E.
      + subst k. cbn. split; [done|]. split; [done|]. exists ix. done.
      + rewrite E. fold (okey s o ix). rewrite L. unfold two64. lia.
      + fold (okey s o ix). rewrite L. unfold two64. lia.
    - intros (E1 & E2 & ix & Hix & E3 & E4). exists ix. split; [|done].
      unfold okey. destruct k; cbn in *. subst. done.
  Qed.

  Lemma type_prefixed_not_okey s o ty id :
    proto_name ty -> ty <> [] -> type_prefixed_key ty id ∉ okeys s o.
  Proof.
    intros H Hn Hin. unfold okeys in Hin. apply elem_of_list_fmap in Hin as [ix [E _]].
    unfold type_prefixed_key in E. unfold okey in E. eapply object_key_not_index; eauto.
  Qed.

  Lemma clear_repr R S m s o o' :
    registry_ok R -> wf_map R S -> idx_repr R S m ->
    rg_schemas R !! obj_name O o' = Some s -> typed O s o' ->
    S !! (obj_name O o', pk_of O s o') = Some o ->
    exists m', indexes_clear O s o' m = (Ok tt, m')
      /\ idx_repr R (base.delete (obj_name O o', pk_of O s o') S) m'.
  Proof.
    intros HR HW HI Hsch Ht HS.
    destruct (HR _ _ Hsch) as [En Hs]. set (ty := obj_name O o') in *. set (id := pk_of O s o') in *.
    destruct (HW _ _ _ HS) as [s' We]. assert (s' = s) as ->.
    { pose proof (we_schema _ _ _ _ _ We). congruence. }
    assert (proto_name ty) as Hp by (rewrite <- En; apply so_name; done).
    assert (ty <> []) as Hty by (rewrite <- En; apply sch_name_nonempty).
    unfold indexes_clear. destruct (has_indexes s) eqn:Hi; cbn [negb].
    - rewrite pk_of_ok by done. fold id. rewrite En.
      rewrite kv_get_ne.
      2:{ unfold type_prefixed_key. destruct ty; [done|]. discriminate. }
      rewrite (ri_list _ _ _ HI _ _ _ _ HS Hsch Hi).
      rewrite okeys_roundtrip by (auto; apply We).
      rewrite clear_loop_ok by (apply okeys_allowed, We).
      eexists; split; [done|]. constructor.
      + intros k. rewrite del_all_lookup. destruct (decide _); [intros [? ?]; done|].
        apply (ri_small _ _ _ HI).
      + intros k Hk. rewrite del_all_lookup.
        destruct (decide (ik_marshal k ∈ okeys s o)) as [Hin|Hin].
        * split; [intros [? ?]; done|]. intros (o1 & s1 & ix & HS1 & _).
          apply okeys_elem in Hin as (E1 & E2 & _); [|apply We].
          rewrite E1, E2, En in HS1. rewrite (we_pk _ _ _ _ _ We) in HS1.
          fold id in HS1. rewrite lookup_delete in HS1. done.
        * rewrite (ri_idx _ _ _ HI k Hk). split.
          -- intros (o1 & s1 & ix & HS1 & HR1 & Hix & E1 & E2).
             exists o1, s1, ix. split; [|done]. rewrite lookup_delete_ne; [done|].
             intros E. inversion E as [[Ea Eb]]. apply Hin. apply okeys_elem; [apply We|].
             rewrite <- Ea in HS1, HR1. rewrite <- Eb in HS1. assert (o1 = o) as -> by congruence.
             assert (s1 = s) as -> by congruence.
             split; [congruence|]. split; [rewrite (we_pk _ _ _ _ _ We); done|]. eauto.
          -- intros (o1 & s1 & ix & HS1 & H'). apply lookup_delete_Some in HS1 as [_ HS1]. eauto 10.
      + intros ty1 id1 o1 s1 H1 H2 H3. apply lookup_delete_Some in H1 as [_ H1].
        rewrite del_all_lookup, decide_False; [eapply ri_list; eauto|].
        destruct (HR _ _ H2) as [En1 Hs1].
        apply type_prefixed_not_okey; rewrite <- En1; [apply so_name; done|apply sch_name_nonempty].
    - eexists; split; [done|]. constructor.
      + apply HI.
      + intros k Hk. rewrite (ri_idx _ _ _ HI k Hk). split.
        * intros (o1 & s1 & ix & HS1 & HR1 & Hix & E1 & E2).
          exists o1, s1, ix. split; [|done]. rewrite lookup_delete_ne; [done|].
          intros E. inversion E as [[Ea Eb]]. rewrite <- Ea in HR1. assert (s1 = s) as -> by congruence.
          unfold has_indexes in Hi. destruct (sch_indexes s); [|done]. inversion Hix.
        * intros (o1 & s1 & ix & HS1 & H'). apply lookup_delete_Some in HS1 as [_ HS1]. eauto 10.
      + intros ty1 id1 o1 s1 H1 H2 H3. apply lookup_delete_Some in H1 as [_ H1].
        eapply ri_list; eauto.
  Qed.

  Lemma index_repr R S m s o :
    registry_ok R -> idx_repr R S m ->
    rg_schemas R !! obj_name O o = Some s -> typed O s o ->
    S !! (obj_name O o, pk_of O s o) = None ->
    (blen (sch_name s) + 1 + blen (pk_of O s o) <=? 65000)%N = true ->
    is_Some (oo_marshal O o) ->
    if storable O s o
    then exists m', indexes_index O s o m = (Ok tt, m')
           /\ idx_repr R (<[(obj_name O o, pk_of O s o) := o]> S) m'
    else exists m', indexes_index O s o m = (Panic, m').
  Proof.
    intros HR HI Hsch Ht HS Hlen Hmar.
    destruct (HR _ _ Hsch) as [En Hs]. set (ty := obj_name O o) in *. set (id := pk_of O s o) in *.
    assert (proto_name ty) as Hp by (rewrite <- En; apply so_name; done).
    assert (ty <> []) as Hty by (rewrite <- En; apply sch_name_nonempty).
    assert (storable O s o = forallb (ix_small s o) (sch_indexes s)) as Est.
    { unfold storable. destruct Hmar as [b ->]. fold id. rewrite Hlen. done. }
    assert (forall ix, ix ∈ sch_indexes s -> m !! okey s o ix = None) as Hfresh.
    { intros ix Hix. destruct (m !! okey s o ix) eqn:E; [|done].
      assert (blen (okey s o ix) <= 65000)%N as Hk by (apply (ri_small _ _ _ HI); eauto).
      assert (is_Some (m !! okey s o ix)) as Hk' by eauto.
      unfold okey in Hk, Hk'. apply (ri_idx _ _ _ HI _ Hk) in Hk' as (o1 & s1 & ix1 & H1 & _).
      cbn in H1. rewrite En in H1. fold id in H1. congruence. }
    unfold indexes_index. destruct (has_indexes s) eqn:Hi; cbn [negb].
    - rewrite pk_of_ok by done.
      pose proof (index_loop_spec s o (sch_indexes s) [] m Ht ltac:(auto) (so_nodup s Hs) Hfresh) as HL.
      rewrite <- Est in HL. destruct (storable O s o) eqn:Hst.
      + rewrite HL. cbn [app]. fold (okeys s o).
        unfold kv_set, type_prefixed_key. rewrite object_key_allowed by (apply so_name; done).
        fold id. rewrite Hlen. eexists; split; [done|]. rewrite En. fold id. constructor.
        * intros k. destruct (decide (k = ty ++ str "/" ++ id)) as [->|Hk].
          { intros _. rewrite <- En. unfold id in *. unfold blen in *. rewrite !app_length. cbn. lia. }
          rewrite lookup_insert_ne by done.
          destruct (decide (k ∈ okeys s o)) as [Hin|Hin].
          { intros _. pose proof (okeys_allowed s o Hst) as HF. rewrite Forall_forall in HF.
            apply HF in Hin. unfold key_allowed, max_key_size in Hin. lia. }
          rewrite put_all_notin by done. apply (ri_small _ _ _ HI).
        * intros k Hk. rewrite lookup_insert_ne by (apply object_key_not_index; done).
          destruct (decide (ik_marshal k ∈ okeys s o)) as [Hin|Hin].
          { rewrite put_all_in by done. split; [intros _|eauto].
            apply okeys_elem in Hin as (E1 & E2 & ix & Hix & E3 & E4); [|done].
            rewrite E1, E2, En. fold id. rewrite lookup_insert. eauto 10. }
          rewrite put_all_notin by done. rewrite (ri_idx _ _ _ HI k Hk). split.
          { intros (o1 & s1 & ix & H1 & H2). exists o1, s1, ix. split; [|done].
            rewrite lookup_insert_ne; [done|]. intros E. rewrite <- E in H1. congruence. }
          { intros (o1 & s1 & ix & H1 & H2 & H3 & H4 & H5). exists o1, s1, ix. split; [|done].
            apply lookup_insert_Some in H1 as [[E <-]|[_ H1]]; [|done].
            inversion E as [[Ea Eb]]. exfalso. apply Hin. apply okeys_elem; [done|].
            rewrite <- Ea in H2. assert (s1 = s) as -> by congruence.
            split; [congruence|]. split; [done|]. eauto. }
        * intros ty1 id1 o1 s1 H1 H2 H3. apply lookup_insert_Some in H1 as [[E <-]|[Hne H1]].
          { inversion E; subst. assert (s1 = s) as -> by congruence.
            unfold type_prefixed_key. rewrite lookup_insert. done. }
          destruct (HR _ _ H2) as [En1 Hs1].
          rewrite lookup_insert_ne.
          { rewrite put_all_notin; [eapply ri_list; eauto|].
            apply type_prefixed_not_okey; rewrite <- En1; [apply so_name; done|apply sch_name_nonempty]. }
          intros E. unfold type_prefixed_key in E.
          apply object_key_inj in E as [-> ->]; [done|done|]. rewrite <- En1. apply so_name; done.
      + destruct HL as [m' ->]. eauto.
    - assert (sch_indexes s = []) as E0.
      { unfold has_indexes in Hi. destruct (sch_indexes s); done. }
      rewrite Est, E0. cbn. eexists; split; [done|]. constructor.
      + apply HI.
      + intros k Hk. rewrite (ri_idx _ _ _ HI k Hk). split.
        * intros (o1 & s1 & ix & H1 & H2). exists o1, s1, ix. split; [|done].
          rewrite lookup_insert_ne; [done|]. intros E. rewrite <- E in H1. congruence.
        * intros (o1 & s1 & ix & H1 & H2 & H3 & H4 & H5). exists o1, s1, ix. split; [|done].
          apply lookup_insert_Some in H1 as [[E <-]|[_ H1]]; [|done].
          inversion E as [[Ea Eb]]. rewrite <- Ea in H2. assert (s1 = s) as -> by congruence.
          rewrite E0 in H3. inversion H3.
      + intros ty1 id1 o1 s1 H1 H2 H3. apply lookup_insert_Some in H1 as [[E <-]|[Hne H1]].
        { inversion E; subst. assert (s1 = s) as -> by congruence. congruence. }
        eapply ri_list; eauto.
  Qed.

  (** ** The whole store *)
  Record repr (R : registry) (S : gmap (bytes * bytes) Obj) (st : orm) : Prop := {
    re_wf : wf_map R S;
    re_obj : forall ty s id, rg_schemas R !! ty = Some s -> id <> [] ->
      st_objects st !! (ty ++ str "/" ++ id) = (S !! (ty, id) ≫= oo_marshal O);
    re_idx : idx_repr R S (st_indexes st)
  }.

  Lemma repr_empty R : repr R ∅ orm_empty.
  Proof.
    constructor; cbn.
    - intros ty id o H. rewrite lookup_empty in H. discriminate.
    - intros. rewrite !lookup_empty. done.
    - constructor.
      + intros k [v H]. rewrite lookup_empty in H. done.
      + intros k _. rewrite lookup_empty. split; [intros [? ?]; done|].
        intros (o & s & ix & H & _). rewrite lookup_empty in H. done.
      + intros ty id o s H. rewrite lookup_empty in H. done.
  Qed.

  Lemma obj_key_ne ty s id R : registry_ok R -> rg_schemas R !! ty = Some s -> ty ++ str "/" ++ id <> [].
  Proof.
    intros HR H. destruct (HR _ _ H) as [<- _]. pose proof (sch_name_nonempty s).
    destruct (sch_name s); [done|discriminate].
  Qed.

  Lemma repr_objects_insert R S st ob ix s o :
    registry_ok R -> repr R S st -> rg_schemas R !! obj_name O o = Some s -> typed O s o ->
    pk_of O s o <> [] -> storable O s o = true ->
    ob = <[obj_name O o ++ str "/" ++ pk_of O s o := default [] (oo_marshal O o)]> (st_objects st) ->
    idx_repr R (<[(obj_name O o, pk_of O s o) := o]> S) ix ->
    repr R (<[(obj_name O o, pk_of O s o) := o]> S) {| st_objects := ob; st_indexes := ix |}.
  Proof.
    intros HR HP Hsch Ht Hne Hst -> HI. constructor; cbn; [| |done].
    - intros ty id o1 H. apply lookup_insert_Some in H as [[E <-]|[_ H]].
      + inversion E; subst. exists s. constructor; auto.
      + apply (re_wf _ _ _ HP) in H. done.
    - intros ty s1 id H1 H2.
      destruct (decide ((obj_name O o, pk_of O s o) = (ty, id))) as [E|E].
      + inversion E; subst. rewrite !lookup_insert. cbn.
        unfold storable in Hst. destruct (oo_marshal O o); done.
      + rewrite (lookup_insert_ne S) by done. rewrite lookup_insert_ne.
        * eapply re_obj; eauto.
        * intros E'. destruct (HR _ _ H1) as [<- Hs1]. destruct (HR _ _ Hsch) as [En Hs].
          rewrite <- En in *. apply object_key_inj in E' as [E1 E2]; try (apply so_name; done).
          congruence.
  Qed.

  Lemma create_refines R S st o :
    registry_ok R -> repr R S st -> typed_in O R o ->
    answer_of (orm_create O R o st).1 = (spec_create O R o S).1
    /\ (is_crash (spec_create O R o S).1 = false ->
        repr R (spec_create O R o S).2 (orm_create O R o st).2).
  Proof.
    intros HR HP HT. unfold orm_create, spec_create, registry_get.
    destruct (rg_schemas R !! obj_name O o) as [s|] eqn:Hsch; [|done].
    specialize (HT s Hsch). destruct (HR _ _ Hsch) as [En Hs].
    unfold objects_create, save_key, save_key_raw. rewrite pk_of_ok by done.
    destruct (decide (pk_of O s o = [])) as [E0|E0].
    { rewrite E0. cbn. destruct st; split; [done|]. intros _. done. }
    apply bytes_eqb_false in E0 as E0'. rewrite E0', En.
    rewrite kv_has_ne by (eapply obj_key_ne; eauto).
    rewrite (re_obj _ _ _ HP _ s) by done.
    destruct (S !! (obj_name O o, pk_of O s o)) as [o1|] eqn:HS; cbn [mbind option_bind].
    - destruct (re_wf _ _ _ HP _ _ _ HS) as [s1 We].
      pose proof (we_storable _ _ _ _ _ We) as Hst. unfold storable in Hst.
      destruct (oo_marshal O o1) eqn:Em; [|done].
      rewrite bool_decide_eq_true_2 by eauto. cbn. destruct st; split; [done|]. intros _; done.
    - rewrite bool_decide_eq_false_2 by (intros [? ?]; done).
      destruct (oo_marshal O o) as [b|] eqn:Em.
      2:{ unfold storable. rewrite Em. cbn. done. }
      unfold kv_set. pose proof (object_key_allowed s (pk_of O s o) (so_name s Hs)) as Hka.
      rewrite En in Hka at 1. rewrite Hka. clear Hka.
      destruct (blen (sch_name s) + 1 + blen (pk_of O s o) <=? 65000)%N eqn:Hlen.
      2:{ unfold storable. rewrite Em, Hlen. cbn. done. }
      pose proof (index_repr R S (st_indexes st) s o HR (re_idx _ _ _ HP) Hsch HT HS Hlen ltac:(eauto)) as HX.
      destruct (storable O s o) eqn:Hst; destruct HX as [m' HX].
      + destruct HX as [-> HX]. cbn. split; [done|]. intros _.
        eapply repr_objects_insert; eauto. rewrite Em. done.
      + rewrite HX. cbn. split; done.
  Qed.

  Lemma update_refines R S st o :
    registry_ok R -> repr R S st -> typed_in O R o ->
    answer_of (orm_update O R o st).1 = (spec_update O R o S).1
    /\ (is_crash (spec_update O R o S).1 = false ->
        repr R (spec_update O R o S).2 (orm_update O R o st).2).
  Proof.
    intros HR HP HT. unfold orm_update, spec_update, registry_get.
    destruct (rg_schemas R !! obj_name O o) as [s|] eqn:Hsch; [|done].
    specialize (HT s Hsch). destruct (HR _ _ Hsch) as [En Hs].
    unfold objects_update, save_key, save_key_raw. rewrite pk_of_ok by done.
    destruct (decide (pk_of O s o = [])) as [E0|E0].
    { rewrite E0. cbn. destruct st; split; [done|]. intros _. done. }
    apply bytes_eqb_false in E0 as E0'. rewrite E0', En.
    rewrite kv_has_ne by (eapply obj_key_ne; eauto).
    rewrite (re_obj _ _ _ HP _ s) by done.
    destruct (S !! (obj_name O o, pk_of O s o)) as [o1|] eqn:HS; cbn [mbind option_bind].
    - destruct (re_wf _ _ _ HP _ _ _ HS) as [s1 We].
      pose proof (we_storable _ _ _ _ _ We) as Hst1. 
      assert (exists b1, oo_marshal O o1 = Some b1) as [b1 Em1].
      { unfold storable in Hst1. destruct (oo_marshal O o1); [eauto|done]. }
      rewrite Em1. rewrite bool_decide_eq_true_2 by eauto.
      destruct (oo_marshal O o) as [b|] eqn:Em.
      2:{ unfold storable. rewrite Em. cbn. done. }
      unfold kv_set. pose proof (object_key_allowed s (pk_of O s o) (so_name s Hs)) as Hka.
      rewrite En in Hka at 1. rewrite Hka. clear Hka.
      destruct (blen (sch_name s) + 1 + blen (pk_of O s o) <=? 65000)%N eqn:Hlen.
      2:{ unfold storable. rewrite Em, Hlen. cbn. done. }
      destruct (clear_repr R S (st_indexes st) s o1 o HR (re_wf _ _ _ HP) (re_idx _ _ _ HP) Hsch HT HS)
        as (m1 & -> & HI1).
      pose proof (index_repr R _ m1 s o HR HI1 Hsch HT (lookup_delete _ _) Hlen ltac:(eauto)) as HX.
      rewrite insert_delete_insert in HX.
      destruct (storable O s o) eqn:Hst; destruct HX as [m' HX].
      + destruct HX as [-> HX]. cbn. split; [done|]. intros _.
        eapply repr_objects_insert; eauto. rewrite Em. done.
      + rewrite HX. cbn. split; done.
    - rewrite bool_decide_eq_false_2 by (intros [? ?]; done).
      cbn. destruct st; split; [done|]. intros _; done.
  Qed.

  Lemma delete_refines R S st o :
    registry_ok R -> repr R S st -> typed_in O R o ->
    answer_of (orm_delete O R o st).1 = (spec_delete O R o S).1
    /\ (is_crash (spec_delete O R o S).1 = false ->
        repr R (spec_delete O R o S).2 (orm_delete O R o st).2).
  Proof.
    intros HR HP HT. unfold orm_delete, spec_delete, registry_get.
    destruct (rg_schemas R !! obj_name O o) as [s|] eqn:Hsch; [|done].
    specialize (HT s Hsch). destruct (HR _ _ Hsch) as [En Hs].
    unfold objects_delete, save_key, save_key_raw. rewrite pk_of_ok by done.
    destruct (decide (pk_of O s o = [])) as [E0|E0].
    { rewrite E0. cbn. destruct st; split; [done|]. intros _. done. }
    apply bytes_eqb_false in E0 as E0'. rewrite E0', En.
    rewrite kv_has_ne by (eapply obj_key_ne; eauto).
    rewrite (re_obj _ _ _ HP _ s) by done.
    destruct (S !! (obj_name O o, pk_of O s o)) as [o1|] eqn:HS; cbn [mbind option_bind].
    - destruct (re_wf _ _ _ HP _ _ _ HS) as [s1 We]. assert (s1 = s) as ->.
      { pose proof (we_schema _ _ _ _ _ We). congruence. }
      pose proof (we_storable _ _ _ _ _ We) as Hst1. 
      assert (exists b1, oo_marshal O o1 = Some b1) as [b1 Em1].
      { unfold storable in Hst1. destruct (oo_marshal O o1); [eauto|done]. }
      rewrite Em1. rewrite bool_decide_eq_true_2 by eauto.
      unfold kv_delete. pose proof (object_key_allowed s (pk_of O s o) (so_name s Hs)) as Hka.
      rewrite En in Hka at 1. rewrite Hka. clear Hka.
      assert ((blen (sch_name s) + 1 + blen (pk_of O s o) <=? 65000)%N = true) as ->.
      { unfold storable in Hst1. rewrite Em1 in Hst1. rewrite (we_pk _ _ _ _ _ We) in Hst1. lia. }
      destruct (clear_repr R S (st_indexes st) s o1 o HR (re_wf _ _ _ HP) (re_idx _ _ _ HP) Hsch HT HS)
        as (m1 & -> & HI1).
      cbn. split; [done|]. intros _. constructor; cbn; [| |done].
      + intros ty id o2 H. apply lookup_delete_Some in H as [_ H]. eapply re_wf; eauto.
      + intros ty s2 id H1 H2.
        destruct (decide ((obj_name O o, pk_of O s o) = (ty, id))) as [E|E].
        * inversion E; subst. rewrite !lookup_delete. done.
        * rewrite (lookup_delete_ne S) by done. rewrite lookup_delete_ne.
          { eapply re_obj; eauto. }
          intros E'. destruct (HR _ _ H1) as [<- Hs1].
          rewrite <- En in *. apply object_key_inj in E' as [E1 E2]; try (apply so_name; done).
          congruence.
    - rewrite bool_decide_eq_false_2 by (intros [? ?]; done).
      cbn. destruct st; split; [done|]. intros _; done.
  Qed.

  Lemma get_refines R S st ty id :
    codec_ok O -> registry_ok R -> repr R S st ->
    answer_of (orm_get O R ty id st) = (spec_get R ty id S).1
    /\ (match orm_get O R ty id st with Ok o => Some o | _ => None end) = (spec_get R ty id S).2.
  Proof.
    intros HC HR HP. unfold orm_get, spec_get, registry_get.
    destruct (rg_schemas R !! ty) as [s|] eqn:Hsch; [|done].
    destruct (HR _ _ Hsch) as [En Hs].
    unfold objects_get, save_key_raw.
    destruct (decide (id = [])) as [->|E0]; [done|].
    apply bytes_eqb_false in E0 as E0'. rewrite E0', En.
    rewrite kv_get_ne by (eapply obj_key_ne; eauto).
    rewrite (re_obj _ _ _ HP _ s) by done.
    destruct (S !! (ty, id)) as [o1|] eqn:HS; cbn [mbind option_bind]; [|done].
    destruct (re_wf _ _ _ HP _ _ _ HS) as [s1 We].
    pose proof (we_storable _ _ _ _ _ We) as Hst1. unfold storable in Hst1.
    destruct (oo_marshal O o1) as [b1|] eqn:Em1; [|done].
    apply HC in Em1. rewrite (we_name _ _ _ _ _ We) in Em1. rewrite Em1. done.
  Qed.

  Lemma call_refines R S st c :
    codec_ok O -> registry_ok R -> repr R S st -> call_typed O R c ->
    (model_call O R c st).1 = (spec_call O R c S).1
    /\ (is_crash (spec_call O R c S).1.1 = false ->
        repr R (spec_call O R c S).2 (model_call O R c st).2).
  Proof.
    intros HC HR HP HT. destruct c as [o|o|o|ty id]; cbn in *.
    - pose proof (create_refines R S st o HR HP HT) as [H1 H2].
      destruct (orm_create O R o st), (spec_create O R o S); cbn in *. subst; auto.
    - pose proof (update_refines R S st o HR HP HT) as [H1 H2].
      destruct (orm_update O R o st), (spec_update O R o S); cbn in *. subst; auto.
    - pose proof (delete_refines R S st o HR HP HT) as [H1 H2].
      destruct (orm_delete O R o st), (spec_delete O R o S); cbn in *. subst; auto.
    - pose proof (get_refines R S st ty id HC HR HP) as [H1 H2].
      rewrite H1, H2. destruct (spec_get R ty id S); auto.
  Qed.

  Lemma run_refines R cs S st :
    codec_ok O -> registry_ok R -> repr R S st -> Forall (call_typed O R) cs ->
    (run (model_call O R) cs st).1 = (run (spec_call O R) cs S).1
    /\ match (run (model_call O R) cs st).2, (run (spec_call O R) cs S).2 with
       | Some st', Some S' => repr R S' st'
       | None, None => True
       | _, _ => False
       end.
  Proof.
    intros HC HR. revert S st. induction cs as [|c cs IH]; intros S st HP HT; [done|].
    inversion HT; subst. cbn [run].
    destruct (call_refines R S st c HC HR HP H1) as [E1 E2].
    destruct (model_call O R c st) as [a st'], (spec_call O R c S) as [a' S']. cbn in *. subst a'.
    destruct (is_crash a.1); [done|].
    destruct (IH S' st' (E2 eq_refl) H2) as [E3 E4].
    destruct (run (model_call O R) cs st'), (run (spec_call O R) cs S'). cbn in *. subst. done.
  Qed.
End WithObj.
