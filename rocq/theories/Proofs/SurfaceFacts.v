(** The runtime's answers and the map's. *)
From Coq Require Import NArith List Bool.
From stdpp Require Import base list gmap.
From Verif.Model Require Import Bytes KindEncoder Desc Schema Indexes Orm Users Prog Router Runtime.
From Verif.Spec Require Import StoreSpec TextSpec SurfaceSpec.
From Verif.Proofs Require Import RegistryFacts OrmFacts StoreProps RuntimeFacts.

Lemma one_sentinel e s t : errors_is e s = true -> errors_is e t = true -> s = t.
Proof.
  induction e; cbn; [|done|done]. intros H1 H2. apply bool_decide_eq_true in H1, H2. congruence.
Qed.
(** The runtime's answer by the store's. *)
Lemma converted {A} (r : res A) :
  match answer_of r with
  | ASuccess => exists x, r = Ok x /\ convert_store_error r = Ok x
  | ANotFound => exists e, convert_store_error r = Fail e /\ errors_is e RtNotFound = true
  | ACrash => convert_store_error r = Panic \/ convert_store_error r = OutOfFuel
  | _ => convert_store_error r = Panic
  end.
Proof.
  destruct r as [x|e| |]; cbn; [by exists x| |by left|by right].
  destruct (errors_is e OrmAlreadyExists) eqn:E1.
  - destruct (errors_is e OrmNotFound) eqn:E2; [|done]. pose proof (one_sentinel _ _ _ E1 E2). discriminate.
  - destruct (errors_is e OrmNotFound) eqn:E2; [by eexists|]. by destruct (errors_is e SchemaNotFound).
Qed.

Section Surface.
  Context {Obj Msg Tx : Type} (O : objops Obj) (fuel : nat) (D : descs) (R : registry).
  Notation SO := (orm_ops O R).
  Implicit Types (c : call Obj) (w : world Obj Msg orm) (us : users).

  Lemma write_told a (r : res unit) : answer_of r = a ->
    told a None (match convert_store_error r with Ok _ => Ok (@None Obj) | Fail e => Fail e | Panic => Panic | OutOfFuel => OutOfFuel end).
  Proof.
    intros <-. pose proof (converted r) as H. destruct (answer_of r); cbn.
    - destruct H as (x & _ & ->). done.
    - by rewrite H.
    - destruct H as (e & -> & H). by exists e.
    - by rewrite H.
    - by rewrite H.
    - destruct H as [-> | ->]; auto.
  Qed.
  Lemma surface cs l st S (en : env Obj Msg Tx) us c w : codec_ok O -> built fuel D R -> Forall (call_typed O R) (cs ++ [c]) ->
    run_model O R cs = (l, Some st) -> run_spec O R cs = (l, Some S) -> w_store w = st -> en_enabled en = false ->
    told (spec_call O R c S).1.1 (spec_call O R c S).1.2 (asked O SO en us c w).1
    /\ (is_crash (spec_call O R c S).1.1 = false ->
        run_model O R (cs ++ [c]) = (l ++ [(spec_call O R c S).1], Some (w_store (asked O SO en us c w).2))).
  Proof.
    intros HC HB HT HM HS Hw He. apply Forall_app in HT as [HT1 HT2]. assert (call_typed O R c) as HT3 by (by inversion HT2); clear HT2; rename HT3 into HT2.
    destruct (run_reach O fuel D R cs l st HC HB HT1 HM) as (S' & HS' & HP). rewrite HS in HS'. injection HS' as <-.
    destruct (call_refines O R S st c HC (built_ok _ _ _ HB) HP HT2) as [H1 _].
    assert (told (spec_call O R c S).1.1 (spec_call O R c S).1.2 (asked O SO en us c w).1
      /\ w_store (asked O SO en us c w).2 = (model_call O R c st).2) as [HT HW].
    { rewrite <- H1. clear H1 HT2. subst st.
      destruct c as [o|o|o|ty id]; cbn [asked model_call]; unfold rt_create, rt_update, rt_delete, authorized; rewrite ?He; cbn [negb];
        unfold store_write; cbn [apply_write so_create so_update so_delete so_get orm_ops].
      - destruct (orm_create O R o (w_store w)) as [r st']. cbn. split; [by apply write_told|done].
      - destruct (orm_update O R o (w_store w)) as [r st']. cbn. split; [by apply write_told|done].
      - destruct (orm_delete O R o (w_store w)) as [r st']. cbn. split; [by apply write_told|done].
      - split; [|done]. unfold rt_get. cbn [so_get orm_ops fst snd]. pose proof (converted (orm_get O R ty id (w_store w))) as H.
        destruct (orm_get O R ty id (w_store w)) as [o|e| |]; cbn [answer_of] in *.
        + destruct H as (x & [= <-] & ->). done.
        + destruct (errors_is e OrmAlreadyExists); [by rewrite H|]. destruct (errors_is e OrmNotFound) eqn:E.
          * destruct H as (e' & -> & H). by exists e'.
          * destruct (errors_is e SchemaNotFound); by rewrite H.
        + by left.
        + by right. }
    split; [exact HT|]. intros HN. rewrite HW. unfold run_model in *. clear -HM H1 HN.
    revert HM. generalize orm_empty. revert l. induction cs as [|c0 cs IH]; intros l st0 HM; cbn [app run] in *.
    - injection HM as <- <-. destruct (model_call O R c st0) as [a st']. cbn in *. rewrite H1, HN. done.
    - destruct (model_call O R c0 st0) as [a st']. destruct (is_crash a.1); [discriminate HM|].
      destruct (run (model_call O R) cs st') as [l' r'] eqn:E. injection HM as <- ->. by rewrite (IH l' st' E).
  Qed.
  Lemma surface_list cs l st S ty s f k v a b : codec_ok O -> built fuel D R -> Forall (call_typed O R) cs ->
    run_model O R cs = (l, Some st) -> run_spec O R cs = (l, Some S) ->
    rg_schemas R !! ty = Some s -> {| ix_name := f; ix_kind := k |} ∈ sch_indexes s -> value_ok k v = true ->
    told_keys O S ty f v (rt_list SO ty {| lo_interface := [(f, go_of v)]; lo_string := []; lo_start := a; lo_end := b |} st).
  Proof.
    intros HC HB HT HM HS Hs Hi Hv. pose proof (list_exact O fuel D R cs l st S ty s f k v a b HC HB HT HM HS Hs Hi Hv) as H.
    unfold rt_list. cbn [so_list orm_ops]. destruct (orm_list R ty _ st) as [ks|e| |]; cbn in *; try done.
    destruct H as [H1 H2]. destruct (errors_is e OrmNotFound) eqn:E; [|done]. pose proof (one_sentinel _ _ _ H1 E). discriminate.
  Qed.
End Surface.
