(** Listing by index, refused calls and lookups by text. *)
From Coq Require Import NArith List Bool String Lia Sorted.
From Coq Require Import ZifyBool ZifyN ZifyNat.
From stdpp Require Import base list gmap.
From Verif.Model Require Import Bytes Wire KindEncoder Desc Schema KV Objects Indexes Orm.
From Verif.Spec Require Import StoreSpec TextSpec.
From Verif.Proofs Require Import BytesFacts KindEncoderFacts KVFacts IndexFacts RegistryFacts
  OrmFacts TextFacts.

Section WithObj.
  Context {Obj : Type} (O : objops Obj).
  Implicit Types (o : Obj) (S : gmap (bytes * bytes) Obj).

  Lemma indexer_of_in s f ix : indexer_of s f = Ok ix -> ix ∈ sch_indexes s /\ ix_name ix = f.
  Proof.
    unfold indexer_of. destruct (find _ _) as [ix'|] eqn:E; [|discriminate].
    intros H; inversion H; subst. apply find_some in E as [H1 H2].
    apply bytes_eqb_spec in H2. split; [|done].
    apply elem_of_list_In. apply in_rev. done.
  Qed.

  Lemma indexer_of_complete s ix :
    NoDup (map ix_name (sch_indexes s)) -> ix ∈ sch_indexes s ->
    indexer_of s (ix_name ix) = Ok ix.
  Proof.
    intros Hnd Hin. destruct (indexer_of s (ix_name ix)) as [ix'| | |] eqn:E.
    - apply indexer_of_in in E as [H1 H2]. f_equal.
      apply elem_of_list_lookup in Hin as [i Hi]. apply elem_of_list_lookup in H1 as [j Hj].
      assert (i = j) as ->; [|congruence].
      eapply (NoDup_lookup _ _ _ (ix_name ix) Hnd); rewrite list_lookup_fmap.
      + rewrite Hi. done.
      + rewrite Hj. cbn. congruence.
    - unfold indexer_of in E. destruct (find _ _) eqn:E'; [discriminate|].
      exfalso. eapply find_none in E'; [|apply in_rev; rewrite rev_involutive; apply elem_of_list_In; exact Hin].
      apply bytes_eqb_false in E'. done.
    - unfold indexer_of in E. destruct (find _ _); discriminate.
    - unfold indexer_of in E. destruct (find _ _); discriminate.
  Qed.

  (** What a scan of one prefix yields. *)
  Lemma scan_spec R S st ty s ix v b l :
    registry_ok R -> repr O R S st -> rg_schemas R !! ty = Some s -> ix ∈ sch_indexes s ->
    value_ok (ix_kind ix) v = true -> encode_value (ix_kind ix) v = Ok b ->
    let p := ik_marshal {| ik_object := sch_name s; ik_index := ix_name ix;
                           ik_value := b; ik_primary := [] |} in
    l = piter_collect p (iterate_prefix (st_indexes st) p) ->
    listing O S ty (ix_name ix) v l.
  Proof.
    intros HR HP Hsch Hix Hv Hb p ->. destruct (HR _ _ Hsch) as [En Hs]. split.
    - apply prefix_collect_sorted.
    - intros id. rewrite prefix_collect_elem. subst p. rewrite ik_marshal_prefix_of by done. cbn.
      set (k := {| ik_object := sch_name s; ik_index := ix_name ix; ik_value := b; ik_primary := id |}).
      assert (forall o, S !! (ty, id) = Some o -> oo_get O o (ix_name ix) = v <-> field_code O ix o = b) as Hcode.
      { intros o Ho. destruct (re_wf _ _ _ _ HP _ _ _ Ho) as [s' We].
        assert (s' = s) as -> by (pose proof (we_schema _ _ _ _ _ _ We); congruence).
        pose proof (field_code_ok O s o ix (we_typed _ _ _ _ _ _ We) Hix) as Hc.
        destruct (we_typed _ _ _ _ _ _ We) as [_ HT]. rewrite Forall_forall in HT.
        specialize (HT _ Hix). unfold ix_encode_object in Hc. split.
        - intros E. rewrite E in Hc. congruence.
        - intros E. rewrite E in Hc. eapply encode_value_inj_ok; eauto. }
      split.
      + intros Hk. assert (blen (ik_marshal k) <= 65000)%N as Hlen by (eapply ri_small; [apply HP|done]).
        apply (ri_idx _ _ _ _ (re_idx _ _ _ _ HP) k Hlen) in Hk
          as (o & s' & ix' & H1 & H2 & H3 & H4 & H5). cbn in H1, H2, H4, H5.
        rewrite En in H1, H2. assert (s' = s) as -> by congruence.
        assert (ix' = ix) as ->.
        { pose proof (indexer_of_complete s ix (so_nodup s Hs) Hix) as E1.
          pose proof (indexer_of_complete s ix' (so_nodup s Hs) H3) as E2. congruence. }
        exists o. split; [done|]. apply Hcode; done.
      + intros (o & Ho & Hg). apply Hcode in Hg as Hc; [|done].
        destruct (re_wf _ _ _ _ HP _ _ _ Ho) as [s' We].
        assert (s' = s) as -> by (pose proof (we_schema _ _ _ _ _ _ We); congruence).
        assert (ik_marshal k = okey O s o ix) as Ek.
        { unfold okey, k. rewrite Hc, (we_pk _ _ _ _ _ _ We). done. }
        assert (blen (ik_marshal k) <= 65000)%N as Hlen.
        { rewrite Ek, okey_len. pose proof (storable_small O s o (we_storable _ _ _ _ _ _ We)) as Hf.
          rewrite forallb_forall in Hf. specialize (Hf ix (proj1 (elem_of_list_In _ _) Hix)).
          unfold ix_small in Hf. lia. }
        apply (ri_idx _ _ _ _ (re_idx _ _ _ _ HP) k Hlen). cbn. rewrite En.
        exists o, s, ix. done.
  Qed.

  Lemma list_scan R S st ty s ix v b opt ps :
    registry_ok R -> repr O R S st -> rg_schemas R !! ty = Some s -> ix ∈ sch_indexes s ->
    value_ok (ix_kind ix) v = true -> encode_value (ix_kind ix) v = Ok b ->
    prefixes_to_scan s opt = Ok ({| ik_object := sch_name s; ik_index := ix_name ix;
                                    ik_value := b; ik_primary := [] |} :: ps) ->
    list_answers O S ty (ix_name ix) v (orm_list R ty opt st).
  Proof.
    intros HR HP Hsch Hix Hv Hb Hps. unfold orm_list, registry_get. rewrite Hsch.
    unfold indexes_list. rewrite Hps.
    set (p := ik_marshal _). pose proof (scan_spec R S st ty s ix v b _ HR HP Hsch Hix Hv Hb eq_refl) as HL.
    cbn zeta in HL. fold p in HL. destruct (piter_valid p _) eqn:E.
    - cbn. split; [apply piter_valid_collect; done|done].
    - cbn. split; [done|]. destruct (piter_collect p (iterate_prefix (st_indexes st) p)) eqn:E'; [done|].
      exfalso. assert (piter_valid p (iterate_prefix (st_indexes st) p) = true); [|congruence].
      apply piter_valid_collect. rewrite E'. done.
  Qed.

  Lemma encode_interface_go k v : value_ok k v = true -> encode_interface k (go_of v) = Ok v.
  Proof. destruct k, v; cbn; done. Qed.

  Lemma list_interface R S st ty s ix v a b :
    registry_ok R -> repr O R S st -> rg_schemas R !! ty = Some s -> ix ∈ sch_indexes s ->
    value_ok (ix_kind ix) v = true ->
    list_answers O S ty (ix_name ix) v
      (orm_list R ty {| lo_interface := [(ix_name ix, go_of v)]; lo_string := [];
                        lo_start := a; lo_end := b |} st).
  Proof.
    intros HR HP Hsch Hix Hv. destruct (HR _ _ Hsch) as [En Hs].
    destruct (encode_value_total _ _ Hv) as [c Hc].
    eapply list_scan; eauto. unfold prefixes_to_scan. cbn.
    rewrite (indexer_of_complete s ix (so_nodup s Hs) Hix). unfold ix_encode_interface.
    rewrite encode_interface_go by done. rewrite Hc. cbn. done.
  Qed.

  Lemma denotes_value_ok k t v : (blen t < 2 ^ 63)%N -> denotes k t v -> value_ok k v = true.
  Proof.
    intros Ht. destruct k, v; cbn; try done; try lia.
    - intros ->. lia.
    - intros (vs & H1 & H2).
      assert (length vs <= length t)%nat as Hl.
      { apply Forall2_length in H1. rewrite <- H1. clear.
        induction t as [|c t IH]; cbn; [lia|]. destruct (negb (line_break c)); cbn; lia. }
      assert (length b <= length vs)%nat as Hb by (clear -H2; induction H2; cbn; lia).
      unfold blen in *. lia.
  Qed.

  Lemma list_string R S st ty s ix t v a b :
    registry_ok R -> repr O R S st -> rg_schemas R !! ty = Some s -> ix ∈ sch_indexes s ->
    ix_kind ix <> Sint64Kind -> (blen t < 2 ^ 63)%N -> denotes (ix_kind ix) t v ->
    list_answers O S ty (ix_name ix) v
      (orm_list R ty {| lo_interface := []; lo_string := [(ix_name ix, t)];
                        lo_start := a; lo_end := b |} st).
  Proof.
    intros HR HP Hsch Hix Hk Hlen Hd. destruct (HR _ _ Hsch) as [En Hs].
    assert (value_ok (ix_kind ix) v = true) as Hv by (eapply denotes_value_ok; eauto).
    destruct (encode_value_total _ _ Hv) as [c Hc].
    eapply list_scan; eauto. unfold prefixes_to_scan. cbn.
    rewrite (indexer_of_complete s ix (so_nodup s Hs) Hix). unfold ix_encode_string.
    pose proof (so_indexes s Hs) as HF. rewrite Forall_forall in HF. specialize (HF _ Hix).
    apply encode_string_denotes in Hd; [|done..]. rewrite Hd, Hc. cbn. done.
  Qed.

  (** Texts that denote no value are refused. *)
  Lemma list_string_refused R ty s ix t st a b :
    registry_ok R -> rg_schemas R !! ty = Some s -> ix ∈ sch_indexes s ->
    ix_kind ix <> Sint64Kind -> (forall v, ~ denotes (ix_kind ix) t v) ->
    answer_of (orm_list R ty {| lo_interface := []; lo_string := [(ix_name ix, t)];
                                lo_start := a; lo_end := b |} st) = AOtherError.
  Proof.
    intros HR Hsch Hix Hk Hd. destruct (HR _ _ Hsch) as [En Hs].
    unfold orm_list, registry_get. rewrite Hsch. unfold indexes_list, prefixes_to_scan. cbn.
    rewrite (indexer_of_complete s ix (so_nodup s Hs) Hix). unfold ix_encode_string.
    pose proof (so_indexes s Hs) as HF. rewrite Forall_forall in HF. specialize (HF _ Hix).
    destruct (encode_string (ix_kind ix) t) as [v| | |] eqn:E; cbn; try done.
    - apply encode_string_denotes in E; [|done..]. exfalso. eapply Hd; eauto.
    - destruct (ix_kind ix); cbn in E; unfold opt_res in E; try discriminate; try done;
        match type of E with context [match ?x with _ => _ end] => destruct x end; discriminate.
    - destruct (ix_kind ix); cbn in E; unfold opt_res in E; try discriminate;
        match type of E with context [match ?x with _ => _ end] => destruct x end; discriminate.
  Qed.

  (** ** Refused calls leave both key-value stores as they are *)
  Lemma objects_create_fail s o m e m' : objects_create O s o m = (Fail e, m') -> m' = m.
  Proof.
    unfold objects_create. destruct (save_key O s o) as [k| | |]; cbn; try (intros H; inversion H; done).
    unfold kv_has, kv_get, kv_set.
    destruct (bytes_eqb k []); [intros H; inversion H|]. destruct (m !! k); [intros H; inversion H; done|].
    destruct (oo_marshal O o); [|intros H; inversion H; done].
    destruct (key_allowed k); intros H; inversion H.
  Qed.

  Lemma objects_update_fail s o m e m' : objects_update O s o m = (Fail e, m') -> m' = m.
  Proof.
    unfold objects_update. destruct (save_key O s o) as [k| | |]; cbn; try (intros H; inversion H; done).
    unfold kv_has, kv_get, kv_set.
    destruct (bytes_eqb k []); [intros H; inversion H|]. destruct (m !! k); [|intros H; inversion H; done].
    destruct (oo_marshal O o); [|intros H; inversion H; done].
    destruct (key_allowed k); intros H; inversion H.
  Qed.

  Lemma objects_delete_fail s o m e m' : objects_delete O s o m = (Fail e, m') -> m' = m.
  Proof.
    unfold objects_delete. destruct (save_key O s o) as [k| | |]; cbn; try (intros H; inversion H; done).
    unfold kv_has, kv_get, kv_delete.
    destruct (bytes_eqb k []); [intros H; inversion H|]. destruct (m !! k); [|intros H; inversion H; done].
    destruct (key_allowed k); intros H; inversion H.
  Qed.

  Lemma create_fail_same R S st o e :
    registry_ok R -> repr O R S st -> typed_in O R o ->
    (orm_create O R o st).1 = Fail e -> (orm_create O R o st).2 = st.
  Proof.
    intros HR HP HT.
    pose proof (create_refines O R S st o HR HP HT) as [Ha _]. revert Ha.
    unfold orm_create, registry_get. destruct (rg_schemas R !! obj_name O o) as [s|] eqn:Hsch; [|done].
    destruct (objects_create O s o (st_objects st)) as [r ob] eqn:Eo.
    destruct r as [[]|e'| |]; cbn; try done.
    - intros Ha Hf. exfalso.
      (* the object was new and written; then indexing cannot fail *)
      revert Ha. unfold spec_create. rewrite Hsch.
      destruct (indexes_index O s o (st_indexes st)) as [r m'] eqn:Ei. cbn in *. subst r.
      cbn. unfold objects_create, save_key, save_key_raw in Eo.
      destruct (HR _ _ Hsch) as [En Hs]. specialize (HT s Hsch).
      rewrite pk_of_ok in Eo by done.
      destruct (decide (pk_of O s o = [])) as [E0|E0].
      { rewrite E0 in Eo. cbn in Eo. discriminate. }
      apply bytes_eqb_false in E0 as E0'. rewrite E0', En in Eo.
      rewrite kv_has_ne in Eo by (eapply obj_key_ne; eauto).
      rewrite (re_obj _ _ _ _ HP _ s) in Eo by done.
      destruct (S !! (obj_name O o, pk_of O s o)) as [o1|] eqn:HS; cbn [mbind option_bind] in Eo.
      + destruct (re_wf _ _ _ _ HP _ _ _ HS) as [s1 We].
        pose proof (we_storable _ _ _ _ _ _ We) as Hst. unfold storable in Hst.
        destruct (oo_marshal O o1) eqn:Em; [|done].
        rewrite bool_decide_eq_true_2 in Eo by eauto. discriminate.
      + rewrite bool_decide_eq_false_2 in Eo by (intros [? ?]; done).
        destruct (oo_marshal O o) as [b|] eqn:Em; [|discriminate].
        unfold kv_set in Eo. pose proof (object_key_allowed s (pk_of O s o) (so_name s Hs)) as Hka.
        rewrite En in Hka at 1. rewrite Hka in Eo.
        destruct (blen (sch_name s) + 1 + blen (pk_of O s o) <=? 65000)%N eqn:Hlen; [|discriminate].
        pose proof (index_repr O R S (st_indexes st) s o HR (re_idx _ _ _ _ HP) Hsch HT HS Hlen ltac:(eauto)) as HX.
        destruct (storable O s o); destruct HX as [m1 HX]; [destruct HX as [HX _]|];
          rewrite Ei in HX; discriminate.
    - intros _ _. apply objects_create_fail in Eo as ->. destruct st; done.
  Qed.

  Lemma update_fail_same R S st o e :
    registry_ok R -> repr O R S st -> typed_in O R o ->
    (orm_update O R o st).1 = Fail e -> (orm_update O R o st).2 = st.
  Proof.
    intros HR HP HT.
    unfold orm_update, registry_get. destruct (rg_schemas R !! obj_name O o) as [s|] eqn:Hsch; [|done].
    destruct (objects_update O s o (st_objects st)) as [r ob] eqn:Eo.
    destruct r as [[]|e'| |]; cbn; try done.
    - destruct (HR _ _ Hsch) as [En Hs]. specialize (HT s Hsch).
      unfold objects_update, save_key, save_key_raw in Eo.
      rewrite pk_of_ok in Eo by done.
      destruct (decide (pk_of O s o = [])) as [E0|E0].
      { rewrite E0 in Eo. cbn in Eo. discriminate. }
      apply bytes_eqb_false in E0 as E0'. rewrite E0', En in Eo.
      rewrite kv_has_ne in Eo by (eapply obj_key_ne; eauto).
      rewrite (re_obj _ _ _ _ HP _ s) in Eo by done.
      destruct (S !! (obj_name O o, pk_of O s o)) as [o1|] eqn:HS; cbn [mbind option_bind] in Eo.
      2:{ rewrite bool_decide_eq_false_2 in Eo by (intros [? ?]; done). discriminate. }
      destruct (bool_decide _); [|discriminate].
      destruct (oo_marshal O o) as [b|] eqn:Em; [|discriminate].
      unfold kv_set in Eo. pose proof (object_key_allowed s (pk_of O s o) (so_name s Hs)) as Hka.
      rewrite En in Hka at 1. rewrite Hka in Eo.
      destruct (blen (sch_name s) + 1 + blen (pk_of O s o) <=? 65000)%N eqn:Hlen; [|discriminate].
      destruct (clear_repr O R S (st_indexes st) s o1 o HR (re_wf _ _ _ _ HP) (re_idx _ _ _ _ HP) Hsch HT HS)
        as (m1 & -> & HI1).
      pose proof (index_repr O R _ m1 s o HR HI1 Hsch HT (lookup_delete _ _) Hlen ltac:(eauto)) as HX.
      destruct (storable O s o); destruct HX as [m2 HX]; [destruct HX as [HX _]|]; rewrite HX; done.
    - intros _. apply objects_update_fail in Eo as ->. destruct st; done.
  Qed.

  Lemma delete_fail_same R S st o e :
    registry_ok R -> repr O R S st -> typed_in O R o ->
    (orm_delete O R o st).1 = Fail e -> (orm_delete O R o st).2 = st.
  Proof.
    intros HR HP HT.
    unfold orm_delete, registry_get. destruct (rg_schemas R !! obj_name O o) as [s|] eqn:Hsch; [|done].
    destruct (objects_delete O s o (st_objects st)) as [r ob] eqn:Eo.
    destruct r as [[]|e'| |]; cbn; try done.
    - destruct (HR _ _ Hsch) as [En Hs]. specialize (HT s Hsch).
      unfold objects_delete, save_key, save_key_raw in Eo.
      rewrite pk_of_ok in Eo by done.
      destruct (decide (pk_of O s o = [])) as [E0|E0].
      { rewrite E0 in Eo. cbn in Eo. discriminate. }
      apply bytes_eqb_false in E0 as E0'. rewrite E0', En in Eo.
      rewrite kv_has_ne in Eo by (eapply obj_key_ne; eauto).
      rewrite (re_obj _ _ _ _ HP _ s) in Eo by done.
      destruct (S !! (obj_name O o, pk_of O s o)) as [o1|] eqn:HS; cbn [mbind option_bind] in Eo.
      2:{ rewrite bool_decide_eq_false_2 in Eo by (intros [? ?]; done). discriminate. }
      destruct (clear_repr O R S (st_indexes st) s o1 o HR (re_wf _ _ _ _ HP) (re_idx _ _ _ _ HP) Hsch HT HS)
        as (m1 & -> & HI1). done.
    - intros _. apply objects_delete_fail in Eo as ->. destruct st; done.
  Qed.
End WithObj.
