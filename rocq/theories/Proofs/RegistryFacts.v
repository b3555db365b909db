(** Lemmas about schemas and the registry. *)
From Coq Require Import NArith List Bool String Lia.
From Coq Require Import ZifyBool ZifyN.
From stdpp Require Import base list gmap.
From Verif.Model Require Import Bytes Wire KindEncoder Desc Schema KV Objects Indexes Orm.
From Verif.Spec Require Import StoreSpec.
From Verif.Proofs Require Import BytesFacts KindEncoderFacts KVFacts.

Definition encodable (k : kind) : Prop := is_ok (new_kind_encoder k) = true.

(** What registration guarantees about a schema. *)
Record schema_ok (s : schema) : Prop := {
  so_name : proto_name (sch_name s);
  so_singleton : sch_singleton s = true -> sch_pk s = None /\ sch_indexes s = [];
  so_keyed : sch_singleton s = false -> exists f k, sch_pk s = Some (f, k) /\ new_kind_encoder k = Ok k;
  so_indexes : Forall (fun ix => new_kind_encoder (ix_kind ix) = Ok (ix_kind ix)) (sch_indexes s);
  so_nodup : NoDup (map ix_name (sch_indexes s));
  so_count : (N.of_nat (length (sch_indexes s)) < 2 ^ 40)%N
}.

Definition registry_ok (R : registry) : Prop :=
  forall n s, rg_schemas R !! n = Some s -> sch_name s = n /\ schema_ok s.

Lemma new_kind_encoder_ok k k' : new_kind_encoder k = Ok k' -> k' = k /\ new_kind_encoder k = Ok k.
Proof. destruct k; cbn; intros H; inversion H; auto. Qed.

Lemma new_indexers_ok t ns ixs :
  new_indexers t ns = Ok ixs ->
  map ix_name ixs = ns /\ Forall (fun ix => new_kind_encoder (ix_kind ix) = Ok (ix_kind ix)) ixs
  /\ Forall (fun ix => exists fd, by_json_name (ot_desc t) (ix_name ix) = Some fd /\ fd_kind fd = ix_kind ix) ixs.
Proof.
  revert ixs. induction ns as [|n ns IH]; intros ixs; cbn.
  - intros H; inversion H; subst; auto.
  - unfold new_indexer. destruct (by_json_name (ot_desc t) n) as [fd|] eqn:Efd; [|discriminate].
    destruct (new_kind_encoder (fd_kind fd)) as [k| | |] eqn:Ek; try discriminate.
    destruct (new_indexers t ns) as [l| | |] eqn:El; try discriminate.
    intros H; inversion H; subst. destruct (IH l eq_refl) as (H1 & H2 & H3).
    apply new_kind_encoder_ok in Ek as [-> Ek].
    split; [cbn; congruence|]. split; constructor; auto. eexists; split; eauto.
Qed.

Lemma parse_ok fuel D t x s :
  parse_object_schema fuel D t x = Ok s ->
  sch_group s = ot_group t /\ sch_kind s = ot_kind t /\ sch_singleton s = def_singleton x
  /\ map ix_name (sch_indexes s) = def_secondary_keys x
  /\ Forall (fun ix => new_kind_encoder (ix_kind ix) = Ok (ix_kind ix)) (sch_indexes s)
  /\ (def_singleton x = true -> sch_pk s = None /\ sch_indexes s = [])
  /\ (def_singleton x = false -> exists f k, sch_pk s = Some (f, k) /\ new_kind_encoder k = Ok k).
Proof.
  unfold parse_object_schema. destruct (validate x) eqn:V; cbn [negb]; [|discriminate].
  destruct (has_map fuel D (ot_desc t)) as [[]| | |]; try discriminate.
  destruct (has_kinds fuel D (ot_desc t) unsupported_kinds) as [[]| | |]; try discriminate.
  unfold validate in V.
  destruct (def_singleton x) eqn:S; cbn in V.
  - destruct (bytes_eqb (def_primary_key x) []) eqn:P; cbn in *; [|discriminate].
    destruct (def_secondary_keys x) as [|? ?] eqn:E; cbn in *; [|discriminate].
    intros H; inversion H; subst; cbn. repeat split; auto. discriminate.
  - destruct (by_json_name (ot_desc t) (def_primary_key x)) as [fd|] eqn:F; [|discriminate].
    destruct (new_kind_encoder (fd_kind fd)) as [k| | |] eqn:K; try discriminate.
    apply new_kind_encoder_ok in K as [-> K].
    destruct (def_secondary_keys x) as [|k0 ks] eqn:E; cbn [length Nat.eqb].
    + intros H; inversion H; subst; cbn. repeat split; auto; try discriminate. eauto.
    + destruct (new_indexers t (k0 :: ks)) as [ixs| | |] eqn:I; try discriminate.
      apply new_indexers_ok in I as (I1 & I2 & _).
      intros H; inversion H; subst; cbn. repeat split; auto; try discriminate. eauto.
Qed.

Lemma parse_schema_ok fuel D t x s :
  parse_object_schema fuel D t x = Ok s -> proto_name (ot_name t) ->
  NoDup (def_secondary_keys x) -> (N.of_nat (length (def_secondary_keys x)) < 2 ^ 40)%N ->
  sch_name s = ot_name t /\ schema_ok s.
Proof.
  intros H Hn Hd Hc. apply parse_ok in H as (H1 & H2 & H3 & H4 & H5 & H6 & H7).
  assert (sch_name s = ot_name t) as E by (unfold sch_name, ot_name; congruence).
  split; [done|]. constructor; rewrite ?E, ?H3, ?H4; auto.
  rewrite <- H4, map_length in Hc. done.
Qed.

Lemma built_ok fuel D R : built fuel D R -> registry_ok R.
Proof.
  induction 1 as [|R t x HR IH Hn Hd Hc].
  - intros n s H. cbn in H. rewrite lookup_empty in H. discriminate.
  - unfold add_object. destruct (parse_object_schema fuel D t x) as [s| | |] eqn:P; auto.
    destruct (parse_schema_ok _ _ _ _ _ P Hn Hd Hc) as [E Hs].
    unfold registry_add. destruct (rg_schemas R !! sch_name s) eqn:L; auto.
    intros n s' H. cbn in H. apply lookup_insert_Some in H as [[<- <-]|[_ H]]; auto.
Qed.
