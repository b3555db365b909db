(** Which string keys find their object again. *)
From Coq Require Import NArith List Bool Lia.
From stdpp Require Import base list gmap.
From Verif.Model Require Import Bytes Wire KindEncoder Desc Schema Indexes Orm.
From Verif.Spec Require Import StoreSpec TextSpec.
From Verif.Proofs Require Import BytesFacts WireFacts KindEncoderFacts RegistryFacts OrmFacts StoreProps.

Lemma long_key_differs t : (128 <= blen t)%N -> drop1 (append_bytes t) <> t.
Proof.
  intros H E. pose proof (drop1_length t) as HL. rewrite E in HL.
  assert (2 <= length (append_varint (blen t))); [|lia]. change (append_varint (blen t)) with (varint_bytes (S 8) (blen t)).
  cbn [varint_bytes]. destruct (blen t <? 128)%N eqn:E1; [apply N.ltb_lt in E1; lia|].
  pose proof (varint_bytes_length 8 (blen t / 128)). cbn [length]. cbn [varint_bytes] in *. lia.
Qed.

Section Keys.
  Context {Obj : Type} (O : objops Obj).
  Lemma string_pk_exact fuel D R cs l st o s f t :
    codec_ok O -> built fuel D R -> Forall (call_typed O R) cs ->
    run_model O R cs = (l, Some st) ->
    typed_in O R o -> rg_schemas R !! obj_name O o = Some s ->
    sch_pk s = Some (f, StringKind) -> oo_get O o f = VString t ->
    (orm_create O R o st).1 = Ok tt ->
    orm_get O R (obj_name O o) t (orm_create O R o st).2 = Ok o <-> (blen t < 128)%N.
  Proof.
    intros HC HB HT E Ho Hs Hpk Hget Hcr. split.
    - intros Hg. apply N.nle_gt. intros Hlen.
      destruct (run_reach O fuel D R cs l st HC HB HT E) as (S & _ & HP).
      pose proof (built_ok _ _ _ HB) as HR.
      destruct (create_refines O R S st o HR HP Ho) as [H1 H2]. rewrite Hcr in H1. cbn in H1.
      assert (sch_singleton s = false) as Hsg.
      { destruct (sch_singleton s) eqn:Es; [|done]. destruct (HR _ _ Hs) as [_ Hok].
        destruct (so_singleton s Hok Es). congruence. }
      assert (is_crash (spec_create O R o S).1 = false) as Hn by (by rewrite <- H1).
      specialize (H2 Hn). destruct (get_refines O R _ _ (obj_name O o) t HC HR H2) as [_ Hr].
      rewrite Hg in Hr. unfold spec_get in Hr. rewrite Hs in Hr.
      destruct (decide (t = [])) as [->|Hne]; [cbn in Hlen; lia|].
      destruct ((spec_create O R o S).2 !! (obj_name O o, t)) as [o'|] eqn:El; [|discriminate]. cbn in Hr. injection Hr as <-.
      destruct (re_wf _ _ _ _ H2 _ _ _ El) as (s' & HW). pose proof (we_schema _ _ _ _ _ _ HW) as Es. rewrite Hs in Es. injection Es as <-.
      pose proof (we_pk _ _ _ _ _ _ HW) as Hp. unfold pk_of, code in Hp. rewrite Hsg, Hpk, Hget in Hp. cbn in Hp.
      exact (long_key_differs t Hlen Hp).
    - intros Hlen. exact (string_pk_found O fuel D R cs l st o s f t HC HB HT E Ho Hs Hpk Hget Hlen Hcr).
  Qed.
End Keys.
