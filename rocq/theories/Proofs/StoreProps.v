(** The store properties in the form in which they are stated in Props/. *)
From Coq Require Import NArith List Bool String Lia Sorted Wellfounded Relations.
From Coq Require Import ZifyBool ZifyN ZifyNat.
From stdpp Require Import base list gmap.
From Verif.Model Require Import Bytes Wire KindEncoder Desc Schema KV Objects Indexes Orm.
From Verif.Spec Require Import StoreSpec TextSpec DescSpec IterSpec.
From Verif.Proofs Require Import BytesFacts KindEncoderFacts KVFacts IndexFacts RegistryFacts
  OrmFacts TextFacts OrmListFacts DescFacts.

Section WithObj.
  Context {Obj : Type} (O : objops Obj).
  Implicit Types (o : Obj) (S : gmap (bytes * bytes) Obj).

  Lemma run_map fuel D R cs :
    codec_ok O -> built fuel D R -> Forall (call_typed O R) cs ->
    (run_model O R cs).1 = (run_spec O R cs).1.
  Proof.
    intros HC HB HT. eapply run_refines; eauto using repr_empty, built_ok.
  Qed.

  Lemma run_reach fuel D R cs l st :
    codec_ok O -> built fuel D R -> Forall (call_typed O R) cs ->
    run_model O R cs = (l, Some st) ->
    exists S, run_spec O R cs = (l, Some S) /\ repr O R S st.
  Proof.
    intros HC HB HT E.
    destruct (run_refines O R cs ∅ orm_empty HC (built_ok _ _ _ HB) (repr_empty O R) HT) as [H1 H2].
    unfold run_model in E. rewrite E in H1, H2. cbn in *.
    unfold run_spec. destruct (run (spec_call O R) cs ∅) as [l' [S|]]; cbn in *; [|done].
    exists S. subst. done.
  Qed.

  (** The field value that is the primary key; [None] for singletons. *)
  Lemma keys_distinct fuel D R o o' s s' k :
    built fuel D R ->
    rg_schemas R !! obj_name O o = Some s -> rg_schemas R !! obj_name O o' = Some s' ->
    typed O s o -> typed O s' o' ->
    save_key O s o = Ok k -> save_key O s' o' = Ok k ->
    obj_name O o = obj_name O o'
    /\ match sch_pk s with Some (f, _) => oo_get O o f = oo_get O o' f | None => True end.
  Proof.
    intros HB Hs Hs' Ht Ht' Hk Hk'. pose proof (built_ok _ _ _ HB) as HR.
    destruct (HR _ _ Hs) as [En Hok]. destruct (HR _ _ Hs') as [En' Hok'].
    unfold save_key in Hk, Hk'.
    destruct (encode_primary_key O s o) as [pk| | |] eqn:E; try discriminate.
    destruct (encode_primary_key O s' o') as [pk'| | |] eqn:E'; try discriminate.
    unfold save_key_raw in Hk, Hk'.
    destruct (bytes_eqb pk []); [discriminate|]. destruct (bytes_eqb pk' []); [discriminate|].
    inversion Hk; inversion Hk'; subst k.
    assert (sch_name s = sch_name s' /\ pk = pk') as [F1 F2].
    { apply object_key_inj; [apply Hok|apply Hok'|congruence]. }
    subst pk'. assert (obj_name O o = obj_name O o') as Eo by congruence. split; [done|].
    rewrite Eo, Hs' in Hs. inversion Hs; subst s'.
    destruct (sch_pk s) as [[f k]|] eqn:Ep; [|done].
    destruct (sch_singleton s) eqn:Es.
    { destruct (so_singleton s Hok Es) as [F _]. congruence. }
    unfold encode_primary_key in E, E'. rewrite Es, Ep in E, E'.
    destruct Ht as [Ht _]. destruct Ht' as [Ht' _]. rewrite Ep in Ht, Ht'.
    eapply encode_value_inj_ok; eauto.
  Qed.

  Lemma refused_same fuel D R cs l st o e :
    codec_ok O -> built fuel D R -> Forall (call_typed O R) cs ->
    run_model O R cs = (l, Some st) -> typed_in O R o ->
    ((orm_create O R o st).1 = Fail e -> (orm_create O R o st).2 = st)
    /\ ((orm_update O R o st).1 = Fail e -> (orm_update O R o st).2 = st)
    /\ ((orm_delete O R o st).1 = Fail e -> (orm_delete O R o st).2 = st).
  Proof.
    intros HC HB HT E Ho. destruct (run_reach _ _ _ _ _ _ HC HB HT E) as (S & _ & HP).
    pose proof (built_ok _ _ _ HB) as HR.
    split; [|split]; intros H; [eapply create_fail_same|eapply update_fail_same|eapply delete_fail_same]; eauto.
  Qed.

  Lemma same_eta (st : orm) : {| st_objects := st_objects st; st_indexes := st_indexes st |} = st.
  Proof. destruct st; done. Qed.

  Lemma index_loop_anon s pk ixs o keys m e m' :
    index_loop O s pk ixs o keys m = (Fail e, m') -> e = EAnon.
  Proof.
    revert keys m. induction ixs as [|ix ixs IH]; cbn; intros keys m H; [done|].
    destruct (index_key_of O s pk ix o) as [kb| | |] eqn:E; cbn in H; try (inversion H; fail).
    - unfold kv_has, kv_get, kv_set in H. destruct (bytes_eqb kb []); [inversion H|].
      destruct (m !! kb); [inversion H; done|]. destruct (key_allowed kb); [eauto|inversion H].
    - inversion H; subst. unfold index_key_of, ix_encode_object in E.
      destruct (encode_value (ix_kind ix) (oo_get O o (ix_name ix))) eqn:E2; cbn in E; inversion E; subst.
      destruct (ix_kind ix), (oo_get O o (ix_name ix)); discriminate.
  Qed.

  Lemma indexes_index_anon s o m e m' : indexes_index O s o m = (Fail e, m') -> e = EAnon.
  Proof.
    unfold indexes_index. destruct (negb (has_indexes s)); [intros H; inversion H|].
    destruct (encode_primary_key O s o) as [pk| | |] eqn:E; cbn; try (intros H; inversion H; fail).
    - destruct (index_loop O s pk (sch_indexes s) o [] m) as [[keys| | |] m1] eqn:El; cbn;
        try (intros H; inversion H; fail).
      + unfold kv_set. destruct (key_allowed _); intros H; inversion H.
      + intros H; inversion H; subst. eapply index_loop_anon; eauto.
    - unfold encode_primary_key in E. destruct (sch_singleton s); [discriminate|].
      destruct (sch_pk s) as [[f k]|]; [|discriminate]. destruct k, (oo_get O o f); discriminate.
  Qed.

  Lemma clear_loop_nofail keys m e m' : clear_loop keys m = (Fail e, m') -> False.
  Proof.
    revert m. induction keys as [|k keys IH]; cbn; intros m H; [inversion H|].
    unfold kv_delete in H. destruct (key_allowed k); [eauto|inversion H].
  Qed.

  Lemma list_loop_anon f n b acc e : index_list_loop f n b acc = Fail e -> e = EAnon.
  Proof.
    revert n b acc. induction f as [|f IH]; intros n b acc; cbn; destruct (n =? 0)%N; try discriminate;
      destruct b; try discriminate.
    destruct (consume_bytes _) as [[x r]|]; [eauto|]. intros H; inversion H; done.
  Qed.

  Lemma list_unmarshal_anon b e : index_list_unmarshal b = Fail e -> e = EAnon.
  Proof.
    unfold index_list_unmarshal. destruct b as [|x b]; [discriminate|].
    destruct (consume_varint b) as [[n r]|]; [|intros H; inversion H; done].
    destruct (_ <? _)%N; [discriminate|].
    destruct (index_list_loop (length r) n r []) as [[?|[? rest]]| | |] eqn:E; cbn; try discriminate.
    - destruct rest; [discriminate|]. intros H; inversion H; done.
    - intros H; inversion H; subst. eapply list_loop_anon; eauto.
  Qed.

  Lemma indexes_clear_anon s o m e m' : indexes_clear O s o m = (Fail e, m') -> e = EAnon.
  Proof.
    unfold indexes_clear. destruct (negb (has_indexes s)); [intros H; inversion H|].
    destruct (encode_primary_key O s o) as [pk| | |] eqn:E; cbn; try (intros H; inversion H; fail).
    - unfold kv_get. destruct (bytes_eqb _ []); [intros H; inversion H|].
      destruct (m !! type_prefixed_key (sch_name s) pk) as [b|]; [|intros H; inversion H; done].
      destruct (index_list_unmarshal b) as [keys| | |] eqn:Eu; cbn; try (intros H; inversion H; fail).
      + intros H. exfalso. eapply clear_loop_nofail; eauto.
      + intros H; inversion H; subst. eapply list_unmarshal_anon; eauto.
    - unfold encode_primary_key in E. destruct (sch_singleton s); [discriminate|].
      destruct (sch_pk s) as [[f k]|]; [|discriminate]. destruct k, (oo_get O o f); discriminate.
  Qed.

  (** In every state, reachable or not. *)
  Lemma refused_same_any R st o e :
    answer_of (Fail e : res unit) <> AOtherError ->
    ((orm_create O R o st).1 = Fail e -> (orm_create O R o st).2 = st)
    /\ ((orm_update O R o st).1 = Fail e -> (orm_update O R o st).2 = st)
    /\ ((orm_delete O R o st).1 = Fail e -> (orm_delete O R o st).2 = st).
  Proof.
    intros Ha. assert (e <> EAnon) as He by (intros ->; done).
    unfold orm_create, orm_update, orm_delete, registry_get.
    destruct (rg_schemas R !! obj_name O o) as [s|]; [|done]. split; [|split].
    - destruct (objects_create O s o (st_objects st)) as [[]  ob] eqn:E; cbn; try done.
      + destruct (indexes_index O s o (st_indexes st)) as [r ix] eqn:Ei. cbn. intros ->.
        apply indexes_index_anon in Ei. done.
      + intros H. apply objects_create_fail in E. subst. apply same_eta.
    - destruct (objects_update O s o (st_objects st)) as [[]  ob] eqn:E; cbn; try done.
      + destruct (indexes_clear O s o (st_indexes st)) as [[] ix] eqn:Ec; cbn; try done.
        * destruct (indexes_index O s o ix) as [r ix'] eqn:Ei. cbn. intros ->.
          apply indexes_index_anon in Ei. done.
        * intros H; inversion H; subst. apply indexes_clear_anon in Ec. done.
      + intros H. apply objects_update_fail in E. subst. apply same_eta.
    - destruct (objects_delete O s o (st_objects st)) as [[]  ob] eqn:E; cbn; try done.
      + destruct (indexes_clear O s o (st_indexes st)) as [r ix] eqn:Ec; cbn. intros ->.
        apply indexes_clear_anon in Ec. done.
      + intros H. apply objects_delete_fail in E. subst. apply same_eta.
  Qed.

  Lemma string_pk_found fuel D R cs l st o s f t :
    codec_ok O -> built fuel D R -> Forall (call_typed O R) cs ->
    run_model O R cs = (l, Some st) ->
    typed_in O R o -> rg_schemas R !! obj_name O o = Some s ->
    sch_pk s = Some (f, StringKind) -> oo_get O o f = VString t -> (blen t < 128)%N ->
    (orm_create O R o st).1 = Ok tt ->
    orm_get O R (obj_name O o) t (orm_create O R o st).2 = Ok o.
  Proof.
    intros HC HB HT E Ho Hs Hpk Hget Hlen Hcr.
    destruct (run_reach _ _ _ _ _ _ HC HB HT E) as (S & _ & HP).
    pose proof (built_ok _ _ _ HB) as HR.
    destruct (create_refines O R S st o HR HP Ho) as [H1 H2].
    rewrite Hcr in H1. cbn in H1.
    assert (sch_singleton s = false) as Hsg.
    { destruct (sch_singleton s) eqn:Es; [|done]. destruct (HR _ _ Hs) as [_ Hok].
      destruct (so_singleton s Hok Es). congruence. }
    assert (pk_of O s o = t) as Hp.
    { unfold pk_of, code. rewrite Hsg, Hpk, Hget. cbn. apply drop1_append_bytes_small. done. }
    unfold spec_create in H1, H2. rewrite Hs, Hp in H1, H2.
    destruct (decide (t = [])) as [|Hne]; [discriminate|].
    destruct (S !! (obj_name O o, t)); [discriminate|].
    destruct (storable O s o); [|discriminate]. cbn in H2. specialize (H2 eq_refl).
    destruct (get_refines O R _ _ (obj_name O o) t HC HR H2) as [_ Hg].
    unfold spec_get in Hg. rewrite Hs in Hg. rewrite decide_False in Hg by done.
    rewrite lookup_insert in Hg. cbn in Hg.
    destruct (orm_get O R (obj_name O o) t (orm_create O R o st).2) as [o'|e| |]; congruence.
  Qed.

  Lemma list_exact fuel D R cs l st S ty s f k v a b :
    codec_ok O -> built fuel D R -> Forall (call_typed O R) cs ->
    run_model O R cs = (l, Some st) -> run_spec O R cs = (l, Some S) ->
    rg_schemas R !! ty = Some s -> {| ix_name := f; ix_kind := k |} ∈ sch_indexes s ->
    value_ok k v = true ->
    list_answers O S ty f v
      (orm_list R ty {| lo_interface := [(f, go_of v)]; lo_string := []; lo_start := a; lo_end := b |} st).
  Proof.
    intros HC HB HT E Es Hs Hix Hv. destruct (run_reach _ _ _ _ _ _ HC HB HT E) as (S' & Es' & HP).
    rewrite Es in Es'. inversion Es'; subst S'. pose proof (built_ok _ _ _ HB) as HR.
    apply (list_interface O R S st ty s {| ix_name := f; ix_kind := k |}); auto.
  Qed.

  (** What the code does with several criteria. *)
  Lemma list_first_only fuel D R cs l st S ty s f k v more texts a b :
    codec_ok O -> built fuel D R -> Forall (call_typed O R) cs ->
    run_model O R cs = (l, Some st) -> run_spec O R cs = (l, Some S) ->
    rg_schemas R !! ty = Some s -> {| ix_name := f; ix_kind := k |} ∈ sch_indexes s ->
    value_ok k v = true ->
    let r := orm_list R ty {| lo_interface := (f, go_of v) :: more; lo_string := texts;
                              lo_start := a; lo_end := b |} st in
    list_answers O S ty f v r \/ answer_of r = AOtherError \/ answer_of r = ACrash.
  Proof.
    intros HC HB HT E Es Hs Hix Hv r. destruct (run_reach _ _ _ _ _ _ HC HB HT E) as (S' & Es' & HP).
    rewrite Es in Es'. inversion Es'; subst S'. pose proof (built_ok _ _ _ HB) as HR.
    destruct (HR _ _ Hs) as [En Hok].
    destruct (encode_value_total _ _ Hv) as [c Hc].
    destruct (prefixes_to_scan s {| lo_interface := (f, go_of v) :: more; lo_string := texts;
                              lo_start := a; lo_end := b |}) as [ps|e| |] eqn:Ep.
    - left. pose proof Ep as Ep0. unfold prefixes_to_scan in Ep. cbn in Ep.
      pose proof (indexer_of_complete s {| ix_name := f; ix_kind := k |} (so_nodup s Hok) Hix) as Hio0; cbn [ix_name] in Hio0; rewrite Hio0 in Ep.
      unfold ix_encode_interface in Ep. cbn [ix_kind] in Ep.
      rewrite encode_interface_go, Hc in Ep by done.
      destruct (prefixes_interface s more) as [qs| | |]; cbn in Ep; try discriminate.
      destruct (prefixes_string s texts) as [qs'| | |]; cbn in Ep; try discriminate.
      inversion Ep; subst ps.
      eapply (list_scan O R S st ty s {| ix_name := f; ix_kind := k |} v c _ (qs ++ qs')); eauto.
    - right; left. subst r. unfold orm_list, registry_get. rewrite Hs. unfold indexes_list. rewrite Ep. cbn.
      assert (e = EAnon) as ->; [|done].
      assert (forall m e, prefixes_interface s m = Fail e -> e = EAnon) as Hi.
      { induction m as [|[f' v'] m IH]; cbn; [discriminate|]. intros e'.
        destruct (indexer_of s f') as [ix| | |]; try (intros H; inversion H; done).
        destruct (ix_encode_interface ix v') eqn:E2; try (intros H; inversion H; done).
        destruct (prefixes_interface s m) eqn:E3; try (intros H; inversion H; subst; auto; done). }
      assert (forall m e, prefixes_string s m = Fail e -> e = EAnon) as Hi'.
      { induction m as [|[f' v'] m IH]; cbn; [discriminate|]. intros e'.
        destruct (indexer_of s f') as [ix| | |]; try (intros H; inversion H; done).
        destruct (ix_encode_string ix v') eqn:E2; try (intros H; inversion H; done).
        destruct (prefixes_string s m) eqn:E3; try (intros H; inversion H; subst; auto; done). }
      unfold prefixes_to_scan in Ep. cbn [lo_interface lo_string] in Ep.
      destruct (prefixes_interface s ((f, go_of v) :: more)) eqn:E1; try discriminate.
      + destruct (prefixes_string s texts) eqn:E2; try discriminate. inversion Ep; subst. eauto.
      + inversion Ep; subst. eauto.
    - right; right. subst r. unfold orm_list, registry_get. rewrite Hs. unfold indexes_list. rewrite Ep. done.
    - right; right. subst r. unfold orm_list, registry_get. rewrite Hs. unfold indexes_list. rewrite Ep. done.
  Qed.

  (** Kinds of indexes never are among the refused ones. *)
  Lemma parse_kinds fuel D t x s :
    parse_object_schema fuel D t x = Ok s ->
    Forall (fun ix => ix_kind ix ∈ key_kinds) (sch_indexes s)
    /\ match sch_pk s with Some (_, k) => k ∈ key_kinds | None => True end.
  Proof.
    destruct fuel as [|fuel].
    { unfold parse_object_schema. destruct (negb (validate x)); [discriminate|]. cbn. discriminate. }
    unfold parse_object_schema. destruct (validate x); cbn [negb]; [|discriminate].
    rewrite has_map_direct. destruct (existsb map_field (md_fields (ot_desc t))) eqn:Em; [discriminate|].
    destruct (has_kinds_direct fuel D (ot_desc t) unsupported_kinds Em) as (b & -> & Hb).
    destruct b; [discriminate|].
    assert (forall name fd k, by_json_name (ot_desc t) name = Some fd -> new_kind_encoder (fd_kind fd) = Ok k ->
              k ∈ key_kinds) as Hkk.
    { intros name fd k H1 H2. apply new_kind_encoder_ok in H2 as [-> H2]. apply key_kinds_iff.
      split; [done|]. intros Hin. unfold by_json_name in H1. apply find_some in H1 as [H1 _].
      destruct Hb as [_ Hb]. discriminate Hb. exists (fd_kind fd). split; [exact Hin|].
      exists fd. split; [apply elem_of_list_In; done|]. split; [|done].
      destruct (fd_map fd) eqn:Ef; [|done]. exfalso.
      assert (existsb map_field (md_fields (ot_desc t)) = true); [|congruence].
      apply existsb_exists. exists fd. split; [done|]. unfold map_field. rewrite Ef. done. }
    assert (forall ns ixs, new_indexers t ns = Ok ixs -> Forall (fun ix => ix_kind ix ∈ key_kinds) ixs) as Hix.
    { intros ns ixs H. apply new_indexers_ok in H as (_ & H1 & H2).
      apply Forall_forall. intros ix Hi. rewrite Forall_forall in H1, H2.
      destruct (H2 ix Hi) as (fd & F1 & F2). eapply Hkk; eauto. rewrite F2. auto. }
    destruct (def_singleton x).
    - destruct (bytes_eqb (def_primary_key x) []); cbn [negb]; [|discriminate].
      destruct (Nat.eqb (length (def_secondary_keys x)) 0); [|discriminate].
      intros H; inversion H; subst; cbn. split; [constructor|done].
    - destruct (by_json_name (ot_desc t) (def_primary_key x)) as [fd|] eqn:Ef; [|discriminate].
      destruct (new_kind_encoder (fd_kind fd)) as [k| | |] eqn:Ek; try discriminate.
      destruct (Nat.eqb (length (def_secondary_keys x)) 0).
      + intros H; inversion H; subst; cbn. split; [constructor|eauto].
      + destruct (new_indexers t (def_secondary_keys x)) eqn:Ei; try discriminate.
        intros H; inversion H; subst; cbn. eauto.
  Qed.

  Lemma built_kinds fuel D R ty s ix :
    built fuel D R -> rg_schemas R !! ty = Some s -> ix ∈ sch_indexes s -> ix_kind ix ∈ key_kinds.
  Proof.
    intros HB. revert ty s ix. induction HB as [|R t x HR IH Hn Hd Hc]; intros ty s ix.
    - cbn. rewrite lookup_empty. discriminate.
    - unfold add_object. destruct (parse_object_schema fuel D t x) as [s0| | |] eqn:P; eauto.
      unfold registry_add. destruct (rg_schemas R !! sch_name s0) eqn:L; eauto.
      cbn. intros H Hix. apply lookup_insert_Some in H as [[_ <-]|[_ H]]; [|eauto].
      apply parse_kinds in P as [P _]. rewrite Forall_forall in P. eauto.
  Qed.

  Lemma not_sint64 k : k ∈ key_kinds -> k <> Sint64Kind.
  Proof. intros H ->. apply key_kinds_iff in H as [_ H]. apply H. unfold refused_kinds. right. left. Qed.

  Lemma text_query fuel D R cs l st S ty s f k t v a b :
    codec_ok O -> built fuel D R -> Forall (call_typed O R) cs ->
    run_model O R cs = (l, Some st) -> run_spec O R cs = (l, Some S) ->
    rg_schemas R !! ty = Some s -> {| ix_name := f; ix_kind := k |} ∈ sch_indexes s ->
    (blen t < 2 ^ 63)%N -> denotes k t v ->
    list_answers O S ty f v
      (orm_list R ty {| lo_interface := []; lo_string := [(f, t)]; lo_start := a; lo_end := b |} st).
  Proof.
    intros HC HB HT E Es Hs Hix Hl Hd. destruct (run_reach _ _ _ _ _ _ HC HB HT E) as (S' & Es' & HP).
    rewrite Es in Es'. inversion Es'; subst S'. pose proof (built_ok _ _ _ HB) as HR.
    apply (list_string O R S st ty s {| ix_name := f; ix_kind := k |}); auto.
    eapply not_sint64, (built_kinds _ _ _ _ _ {| ix_name := f; ix_kind := k |}); eauto.
  Qed.

  Lemma text_refused fuel D R ty s f k t a b st :
    built fuel D R -> rg_schemas R !! ty = Some s -> {| ix_name := f; ix_kind := k |} ∈ sch_indexes s ->
    (forall v, ~ denotes k t v) ->
    answer_of (orm_list R ty {| lo_interface := []; lo_string := [(f, t)]; lo_start := a; lo_end := b |} st)
    = AOtherError.
  Proof.
    intros HB Hs Hix Hd. pose proof (built_ok _ _ _ HB) as HR.
    eapply (list_string_refused R ty s {| ix_name := f; ix_kind := k |}); eauto.
    eapply not_sint64, (built_kinds _ _ _ _ _ {| ix_name := f; ix_kind := k |}); eauto.
  Qed.

  (** The usual text of a value selects what the value selects. *)
  Lemma text_as_typed fuel D R ty s f k v a b st :
    built fuel D R -> rg_schemas R !! ty = Some s -> {| ix_name := f; ix_kind := k |} ∈ sch_indexes s ->
    value_ok k v = true ->
    orm_list R ty {| lo_interface := []; lo_string := [(f, text_of v)]; lo_start := a; lo_end := b |} st
    = orm_list R ty {| lo_interface := [(f, go_of v)]; lo_string := []; lo_start := a; lo_end := b |} st.
  Proof.
    intros HB Hs Hix Hv. pose proof (built_ok _ _ _ HB) as HR. destruct (HR _ _ Hs) as [En Hok].
    unfold orm_list, registry_get. rewrite Hs. unfold indexes_list, prefixes_to_scan. cbn.
    pose proof (indexer_of_complete s {| ix_name := f; ix_kind := k |} (so_nodup s Hok) Hix) as Hio2; cbn [ix_name] in Hio2; rewrite Hio2.
    unfold ix_encode_string, ix_encode_interface. cbn [ix_kind].
    rewrite encode_string_text, encode_interface_go by done. destruct (encode_value_total _ _ Hv) as [c ->].
    done.
  Qed.
End WithObj.

(** ** Iteration *)
Lemma visits_collect p it l : visits p it l <-> piter_collect p it = l.
Proof.
  split.
  - induction 1 as [it H|it k it' l H1 H2 H3 H4 IH].
    + destruct it as [|k it]; [done|]. cbn in *. rewrite H. done.
    + destruct it as [|k0 it]; [discriminate|]. unfold piter_next in H3. rewrite H1 in H3.
      cbn in *. rewrite H1. inversion H2; inversion H3; subst. done.
  - intros <-. induction it as [|k it IH]; [apply visits_end; done|]. cbn.
    destruct (has_prefix p k) eqn:E; [|apply visits_end; done].
    eapply visits_step; [done|done| |exact IH]. unfold piter_next. cbn. rewrite E. done.
Qed.

Lemma prefix_iteration (m : kv) p :
  exists l, (forall l', visits p (iterate_prefix m p) l' <-> l' = l)
    /\ StronglySorted strictly_below l
    /\ forall s, s ∈ l <-> is_Some (m !! (p ++ s)).
Proof.
  exists (piter_collect p (iterate_prefix m p)). split; [|split].
  - intros l'. rewrite visits_collect. split; congruence.
  - eapply StronglySorted_ind with (P := fun l => StronglySorted strictly_below l);
      [constructor| |apply prefix_collect_sorted].
    intros a l _ H HF. constructor; [done|]. eapply List.Forall_impl; [|exact HF].
    intros b Hb. exact Hb.
  - intros s. apply prefix_collect_elem.
Qed.

(** ** Index entries *)
Lemma scan_prefix_exact a o i v :
  (blen (ik_marshal a) < 2 ^ 63)%N ->
  (blen (ik_marshal {| ik_object := o; ik_index := i; ik_value := v; ik_primary := [] |}) < 2 ^ 63)%N ->
  has_prefix (ik_marshal {| ik_object := o; ik_index := i; ik_value := v; ik_primary := [] |})
             (ik_marshal a) = true
  <-> ik_object a = o /\ ik_index a = i /\ ik_value a = v.
Proof.
  intros Ha Hb. rewrite has_prefix_spec. split.
  - intros [r E]. rewrite (ik_marshal_prefix_of {| ik_object := o; ik_index := i; ik_value := v; ik_primary := [] |} r eq_refl) in E. cbn [ik_object ik_index ik_value] in E.
    apply ik_marshal_inj_small in E; [subst a; done|unfold two64; lia|].
    rewrite <- E. unfold two64; lia.
  - intros (<- & <- & <-). exists (ik_primary a). apply ik_marshal_split.
Qed.

Lemma le64_of_decode b0 b1 b2 b3 b4 b5 b6 b7 :
  le64 (le64_decode b0 b1 b2 b3 b4 b5 b6 b7) = [b0; b1; b2; b3; b4; b5; b6; b7].
Proof.
  rewrite le64_decode_sum. unfold le64.
  pose proof (b2N_bound b0). pose proof (b2N_bound b1). pose proof (b2N_bound b2). pose proof (b2N_bound b3).
  pose proof (b2N_bound b4). pose proof (b2N_bound b5). pose proof (b2N_bound b6). pose proof (b2N_bound b7).
  repeat (f_equal; [apply b2N_inj; rewrite ?shiftr8_byte, ?b2N_N2b;
    zify; Z.to_euclidean_division_equations; lia|]).
  apply f_equal2; [apply b2N_inj; rewrite ?shiftr8_byte, ?b2N_N2b;
    zify; Z.to_euclidean_division_equations; lia|done].
Qed.

Lemma consume_length_prefixed_inv buf x r :
  consume_length_prefixed buf = Ok (x, r) -> buf = length_prefixed x ++ r.
Proof.
  unfold consume_length_prefixed, length_prefixed.
  destruct buf as [|b0 [|b1 [|b2 [|b3 [|b4 [|b5 [|b6 [|b7 rest]]]]]]]]; try discriminate.
  destruct (9223372036854775800 <=? le64_decode b0 b1 b2 b3 b4 b5 b6 b7)%N; [discriminate|].
  destruct (blen _ <? _)%N eqn:E; [discriminate|]. intros H; inversion H; subst x r. clear H.
  set (len := le64_decode b0 b1 b2 b3 b4 b5 b6 b7) in *.
  assert (blen (take (N.to_nat len) rest) = len) as ->.
  { unfold blen in *. cbn [length] in E. rewrite take_length. lia. }
  subst len. rewrite le64_of_decode. cbn. rewrite take_drop. done.
Qed.

(** A successful decoding of an index key accounts for every byte after the first. *)
Lemma ik_unmarshal_inv buf k : ik_unmarshal buf = Ok k -> tail buf = tail (ik_marshal k) /\ buf <> [].
Proof.
  unfold ik_unmarshal. destruct buf as [|x buf]; [discriminate|].
  destruct (consume_length_prefixed buf) as [[a r1]| | |] eqn:E1; try discriminate.
  destruct (consume_length_prefixed r1) as [[b r2]| | |] eqn:E2; try discriminate.
  destruct (consume_length_prefixed r2) as [[c r3]| | |] eqn:E3; try discriminate.
  intros H; inversion H; subst k. split; [|done].
  apply consume_length_prefixed_inv in E1, E2, E3. subst buf r1 r2. unfold ik_marshal.
  cbn [tail ik_object ik_index ik_value ik_primary]. done.
Qed.

Lemma consume_varint_at_inv i acc b n r :
  consume_varint_at i acc b = inl (n, r) ->
  exists p, b = p ++ r /\ consume_varint_at i acc p = inl (n, []).
Proof.
  revert i acc. induction b as [|x b IH]; intros i acc; cbn [consume_varint_at]; [discriminate|].
  destruct (9 <=? i)%nat eqn:E1.
  - destruct (b2N x <? 2)%N eqn:E2; [|discriminate]. intros H; inversion H; subst.
    exists [x]. cbn [consume_varint_at app]. rewrite E1, E2. done.
  - destruct (b2N x <? 128)%N eqn:E2.
    + intros H; inversion H; subst. exists [x]. cbn [consume_varint_at app]. rewrite E1, E2. done.
    + intros H. destruct (IH _ _ H) as (p & -> & Hp). exists (x :: p). cbn [consume_varint_at app]. rewrite E1, E2. done.
Qed.

Lemma consume_bytes_inv b x r :
  consume_bytes b = inl (x, r) -> exists w, b = w ++ r /\ length_delimited w x.
Proof.
  unfold consume_bytes. destruct (consume_varint b) as [[m r0]|] eqn:E; [|discriminate].
  destruct (blen r0 <? m)%N eqn:El; [discriminate|]. intros H; inversion H; subst x r.
  apply consume_varint_at_inv in E as (p & -> & Hp).
  exists (p ++ take (N.to_nat m) r0). split; [rewrite <- app_assoc, take_drop; done|].
  exists p. split; [|done]. unfold consume_varint. rewrite Hp. f_equal. f_equal.
  unfold blen in *. rewrite take_length. lia.
Qed.

Lemma index_list_loop_inv f n b acc l rest :
  index_list_loop f n b acc = Ok (inr (l, rest)) ->
  exists ws xs, l = rev acc ++ xs /\ b = concat ws ++ rest
    /\ Forall2 length_delimited ws xs /\ N.of_nat (length xs) = n.
Proof.
  revert n b acc. induction f as [|f IH]; intros n b acc; cbn.
  - destruct (n =? 0)%N eqn:E.
    + intros H; inversion H; subst. exists [], []. cbn. rewrite app_nil_r. repeat split; auto. lia.
    + destruct b; discriminate.
  - destruct (n =? 0)%N eqn:E.
    + intros H; inversion H; subst. exists [], []. cbn. rewrite app_nil_r. repeat split; auto. lia.
    + destruct b as [|x b]; [discriminate|].
      destruct (consume_bytes (x :: b)) as [[y r]|] eqn:Ec; [|discriminate].
      intros H. apply IH in H as (ws & xs & -> & -> & HF & Hn).
      apply consume_bytes_inv in Ec as (w & Ew & Hw). rewrite Ew.
      exists (w :: ws), (y :: xs). cbn [rev concat length]. rewrite <- !app_assoc. cbn.
      repeat split; auto. lia.
Qed.

Lemma index_list_unmarshal_inv b l :
  index_list_unmarshal b = Ok l -> l <> [] ->
  exists x p ws, b = x :: p ++ concat ws
    /\ consume_varint p = inl (N.of_nat (length l), []) /\ Forall2 length_delimited ws l.
Proof.
  unfold index_list_unmarshal. destruct b as [|x b]; [discriminate|].
  destruct (consume_varint b) as [[n r]|] eqn:E; [|discriminate].
  destruct (_ <? _)%N; [discriminate|].
  destruct (index_list_loop (length r) n r []) as [[[]|[l' rest]]| | |] eqn:El; cbn; try discriminate.
  - intros H Hl. inversion H; subst. done.
  - destruct rest; [|discriminate]. intros H Hl. inversion H; subst.
    apply index_list_loop_inv in El as (ws & xs & El & Eb & HF & Hn). cbn in El. subst l.
    rewrite app_nil_r in Eb. subst r.
    apply consume_varint_at_inv in E as (p & -> & Hp).
    exists x, p, ws. split; [done|]. split; [|done]. unfold consume_varint. rewrite Hp, Hn. done.
Qed.

(** ** Dependencies of acyclic import graphs *)
Section Acyclic.
  Context (F : files).
  Hypothesis WF : well_founded (fun a b => imports F b a).

  Definition rank_step (a : bytes) (rec : forall b, imports F a b -> nat) : nat :=
    S (list_max (map (fun b => match decide (b ∈ F a) with left H => rec b H | right _ => 0%nat end) (F a))).
  Definition rank_of : bytes -> nat := Fix WF (fun _ => nat) rank_step.

  Lemma rank_of_eq a :
    rank_of a = S (list_max (map (fun b => match decide (b ∈ F a) with left _ => rank_of b | right _ => 0%nat end) (F a))).
  Proof.
    unfold rank_of. rewrite Fix_eq; [done|]. intros x f g Hfg. unfold rank_step.
    f_equal. f_equal. apply map_ext. intros b. destruct (decide (b ∈ F x)); [apply Hfg|done].
  Qed.

  Lemma rank_of_lt a b : imports F a b -> (rank_of b < rank_of a)%nat.
  Proof.
    intros H. rewrite (rank_of_eq a).
    assert (rank_of b <= list_max (map (fun b => match decide (b ∈ F a) with left _ => rank_of b | right _ => 0%nat end) (F a)))%nat; [|lia].
    assert (forall l x, In x l -> (x <= list_max l)%nat) as Hm.
    { intros l x Hx. pose proof (list_max_le l (list_max l)) as [Hle _].
      specialize (Hle (le_n _)). rewrite List.Forall_forall in Hle. auto. }
    apply Hm. apply in_map_iff. exists b. split; [|apply elem_of_list_In; done].
    destruct (decide (b ∈ F a)); done.
  Qed.

  Lemma dependencies_acyclic path :
    exists enough, forall fuel, (enough <= fuel)%nat ->
    exists deps, dependencies fuel F path = Some deps
      /\ NoDup deps /\ (forall x, x ∈ deps <-> needs F path x) /\ import_ordered F deps.
  Proof.
    exists (S (rank_of path)). intros fuel Hf.
    apply (dependencies_good F rank_of rank_of_lt fuel path). lia.
  Qed.
End Acyclic.
