(** The node on bytes and the node on the plain map. *)
From Coq Require Import NArith ZArith List Bool String Lia.
From stdpp Require Import base list option gmap.
From Verif.Model Require Import Bytes KindEncoder Desc Schema Orm Users Errors Prog Router Runtime Services Module Builder
  Universe TestApp Authn Abci.
From Verif.Spec Require Import StoreSpec RuntimeSpec ChainSpec LiveSpec PlainSpec.
From Verif.Proofs Require Import RegistryFacts OrmFacts RbacFacts AppFacts SimFacts AppSim MapExec ChainInv ChainView TotalExec LiveProto
  ExactSim LiveInit.

Section PlainMap.
  Context (C : codec) (bits : N) (verify : bytes -> bytes -> bytes -> bool).
  Context (enum : list (event object msg) -> users -> list user) (fuel : nat) (decode : bytes -> res tx).
  Context (HC : codec_ok (app_ops C)).
  Notation O := (app_ops C).
  Notation R := (app_registry bits verify).
  Notation MAP := (map_ops O R).
  Notation PLAIN := (plain_store C bits verify).

  Lemma plain_is_map : PLAIN = map_only O R (fun _ => true).
  Proof. reflexivity. Qed.

  Lemma gets_map x S ty id o : repr O R S (w_store (rt_world x)) ->
    gets C bits verify x ty id o <-> S !! (ty, id) = Some o.
  Proof.
    intros H. unfold gets, the_app. change (ap_registry (test_app bits verify)) with R.
    destruct (get_refines O R S (w_store (rt_world x)) ty id HC (app_registry_ok bits verify) H) as [H1 H2].
    unfold spec_get in *. pose proof (re_wf _ _ _ _ H ty id) as HW.
    revert H1 H2. generalize (orm_get O R ty id (w_store (rt_world x))). intros g H1 H2.
    destruct (rg_schemas R !! ty) as [s|] eqn:Es; cbn [fst snd] in *.
    - destruct (decide (id = [])) as [->|Hid]; cbn [fst snd] in *.
      + split; [intros ->; discriminate H1|]. intros Ho. destruct (HW o Ho) as [s' [? ? ? ? ? ?]]. congruence.
      + destruct (S !! (ty, id)) as [o'|] eqn:Eo; cbn [fst snd] in *; (split; [intros ->|intros Hx]).
        * congruence.
        * injection Hx as ->. destruct g; congruence.
        * discriminate H1.
        * discriminate Hx.
    - split; [intros ->; discriminate H1|]. intros Ho. destruct (HW o Ho) as [s' [? ? ? ? ? ?]]. congruence.
  Qed.

  Lemma sim_like x y : simrt C R x y -> like_plain C bits verify x y.
  Proof. intros [H1 H2 H3 [H4 H5]]. split; [|done..]. intros ty id o. by apply gets_map. Qed.

  Lemma step_follows c x y : simrt C R x y ->
    follows C bits verify (call C bits verify enum fuel decode c x) (plain_call C bits verify enum fuel decode c y)
    /\ (alive (fst (call C bits verify enum fuel decode c x)) ->
        simrt C R (snd (call C bits verify enum fuel decode c x)) (snd (plain_call C bits verify enum fuel decode c y))).
  Proof.
    intros H. pose proof (test_app_step_sim C bits verify enum fuel decode c x y HC H) as H1.
    pose proof (test_app_step_exact C bits verify enum fuel decode HC (fun _ => true) c x y H) as H2.
    revert H1 H2. unfold call, plain_call, bytes_store, the_app.
    change (ap_registry (test_app bits verify)) with R.
    change (plain_store C bits verify) with (map_only O R (fun _ => true)).
    change (map_ops O R) with (map_only O R (fun _ : object => true)).
    generalize (abci_step O (orm_ops O R) (test_app bits verify) enum fuel decode tx_users tx_msgs c x).
    generalize (abci_step O (map_only O R (fun _ => true)) (test_app bits verify) enum fuel decode tx_users tx_msgs c y).
    clear H. intros [r2 y2] [r1 x2] H1 H2. unfold follows. cbn [fst snd] in *.
    assert (dead r1 -> ~ alive r1) as Hr1 by (clear; destruct r1; cbn; tauto).
    assert (dead r2 -> ~ alive r2) as Hr2 by (clear; destruct r2; cbn; tauto).
    assert (~ alive r1 -> dead r1) as Hr3 by (clear; destruct r1; cbn; tauto).
    assert (alive r1 \/ ~ alive r1) as [Ha|Ha] by (clear; destruct r1; cbn; tauto).
    - destruct H1 as [H1|[H1 Hs]]; [by apply Hr1 in H1|]. cbn [fst snd] in *. split; [|done]. left.
      split; [done|]. split; [done|]. by apply sim_like.
    - split; [|done]. right. destruct H2 as [[H2|[_ H2]]|[H2 _]]; cbn [fst snd] in *.
      + left. auto.
      + right. split; [done|]. destruct H2 as (tr & o & us & Ht & Hs & _). exists tr, o, us. split; [|exact Ht].
        apply cannot_store_intro. split; [exact Hs|exact I].
      + left. subst r2. auto.
  Qed.

  Lemma run_like cs : forall x y x', simrt C R x y -> calls C bits verify enum fuel decode cs x = Some x' ->
    exists y', plain_calls C bits verify enum fuel decode cs y = Some y' /\ simrt C R x' y'.
  Proof.
    intros x y x' H Hc.
    exact (test_app_run_sim C bits verify enum fuel decode cs x y x' HC H Hc).
  Qed.

  Lemma node_follows cs x : calls C bits verify enum fuel decode cs new_node = Some x ->
    exists y, plain_calls C bits verify enum fuel decode cs new_plain = Some y /\ like_plain C bits verify x y
      /\ forall c, follows C bits verify (call C bits verify enum fuel decode c x) (plain_call C bits verify enum fuel decode c y).
  Proof.
    intros Hc. destruct (run_like cs new_node new_plain x (rt_start_sim C R) Hc) as (y & Hy & Hs).
    exists y. split; [exact Hy|]. split; [by apply sim_like|]. intros c. by apply step_follows.
  Qed.

  (** The other way round. *)
  Lemma plain_followed cs : forall x y y', simrt C R x y -> plain_calls C bits verify enum fuel decode cs y = Some y' ->
    (exists x', calls C bits verify enum fuel decode cs x = Some x' /\ like_plain C bits verify x' y')
    \/ (exists before c after x', cs = before ++ c :: after /\ calls C bits verify enum fuel decode before x = Some x'
        /\ ~ alive (fst (call C bits verify enum fuel decode c x'))
        /\ stopped_writing (cannot_store C bits verify) (snd (call C bits verify enum fuel decode c x'))).
  Proof.
    induction cs as [|c cs IH]; intros x y y' H.
    - intros [= <-]. left. exists x. split; [reflexivity|]. by apply sim_like.
    - unfold plain_calls, calls. cbn [abci_run]. fold (plain_call C bits verify enum fuel decode c y).
      fold (call C bits verify enum fuel decode c x).
      pose proof (step_follows c x y H) as Hs.
      destruct (plain_call C bits verify enum fuel decode c y) as [r2 y2] eqn:E2.
      destruct (call C bits verify enum fuel decode c x) as [r1 x2] eqn:E1. cbn [fst snd] in Hs.
      intros Hy. assert (alive r2) as Ha by (by destruct r2).
      destruct Hs as [[(H1 & H2 & _)|[[_ H2]|[H1 H2]]] H3]; cbn [fst snd] in *; [|done|].
      + subst r2. assert (abci_run O (plain_store C bits verify) (the_app bits verify) enum fuel decode tx_users tx_msgs cs y2 = Some y') as Hy'
          by (by destruct r1).
        destruct (IH x2 y2 y' (H3 H1) Hy') as [(x' & Hx & Hl)|(before & c' & after & x' & -> & Hx & Hd & Hw)].
        * left. exists x'. split; [|done]. by destruct r1.
        * right. exists (c :: before), c', after, x'. split; [reflexivity|]. split; [|done].
          unfold calls. cbn [abci_run]. fold (call C bits verify enum fuel decode c x). rewrite E1. by destruct r1.
      + right. exists [], c, cs, x. split; [reflexivity|]. split; [reflexivity|]. by rewrite E1.
  Qed.
End PlainMap.
Lemma start_like C bits verify : simrt C (app_registry bits verify) new_node new_plain.
Proof. exact (rt_start_sim C (app_registry bits verify)). Qed.
