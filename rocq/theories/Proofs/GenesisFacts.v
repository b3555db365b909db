(** Genesis: order and uniqueness. *)
From Coq Require Import NArith List Bool String Lia.
From stdpp Require Import base list gmap.
From Verif.Model Require Import Bytes KindEncoder Desc Schema Indexes Orm Users Prog Router Runtime
  Services Module Builder.
From Verif.Spec Require Import UserSpec RuntimeSpec.
From Verif.Proofs Require Import UserFacts RouterFacts RuntimeFacts BuilderFacts.

Section Genesis.
  Context {Obj Msg Tx St : Type} (O : objops Obj) (mname : Msg -> bytes) (SO : storeops Obj St).
  Context (cd : list raw_descriptor -> Msg).
  Context (a : application Obj Msg Tx) (enum : list (event Obj Msg) -> users -> list user) (fuel : nat).
  Notation rt := (rt Obj Msg St).
  Implicit Types (x : rt).

  Lemma deliver_initialized us m x : rt_initialized (rt_deliver O mname SO a enum fuel us m x).2 = rt_initialized x.
  Proof. unfold rt_deliver. by destruct (deliver _ _ _ _ _ _ _ _ _). Qed.
  Lemma run_module_initialized m p x : rt_initialized (run_module O mname SO a enum fuel m p x).2 = rt_initialized x.
  Proof. unfold run_module. by destruct (exec _ _ _ _ _ _ _). Qed.
  Lemma each_initialized (f : module Obj Msg Tx -> rt -> res unit * rt) wrap ms :
    (forall m x, rt_initialized (f m x).2 = rt_initialized x) ->
    forall x, rt_initialized (each wrap f ms x).2 = rt_initialized x.
  Proof.
    intros Hf. induction ms as [|m ms IH]; intros x; cbn [each]; [done|].
    specialize (Hf m x). destruct (f m x) as [[] x']; cbn in *; try done. by rewrite IH.
  Qed.
  Lemma genesis_modules_initialized ms x :
    rt_initialized (genesis_modules O mname SO a enum fuel ms x).2 = rt_initialized x.
  Proof.
    apply each_initialized. intros m x'. destruct (mo_genesis m); [apply run_module_initialized|done].
  Qed.
  Lemma import_initialized d x : rt_initialized (import O mname SO a enum fuel d x).2 = rt_initialized x.
  Proof.
    unfold import. destruct d as [d|]; [|done]. apply each_initialized.
    intros m x'. destruct (mo_genesis m); [apply run_module_initialized|done].
  Qed.

  (** Once initialized, always initialized; and no further genesis succeeds. *)
  Lemma step_initialized c x :
    rt_initialized x = true ->
    rt_initialized (rt_step O mname SO cd a enum fuel c x).2 = true
    /\ (c = RInit -> rt_step O mname SO cd a enum fuel c x = (Fail EAnon, x)).
  Proof.
    intros Hx. destruct c as [|d|us m|b]; cbn [rt_step].
    - unfold init_genesis. by rewrite Hx.
    - rewrite import_initialized. done.
    - rewrite deliver_initialized. done.
    - done.
  Qed.
  Lemma init_success_initialized x :
    is_ok (init_genesis O mname SO cd a enum fuel x).1 = true ->
    rt_initialized (init_genesis O mname SO cd a enum fuel x).2 = true.
  Proof.
    unfold init_genesis. destruct (rt_initialized x); [done|].
    destruct (rt_deliver _ _ _ _ _ _ _ _ _) as [[[]|e| |] x1]; try done.
    destruct (genesis_modules _ _ _ _ _ _ _ _) as [[[]|e| |] x2]; try done.
    by destruct (services_start _).
  Qed.

  Lemma genesis_once cs : forall x, successful_genesis (rt_answers O mname SO cd a enum fuel cs x)
                               <= if rt_initialized x then 0 else 1.
  Proof.
    induction cs as [|c cs IH]; intros x; cbn [rt_answers]; [cbn; lia|].
    destruct (rt_step O mname SO cd a enum fuel c x) as [r x'] eqn:E.
    unfold successful_genesis. cbn [List.filter].
    change (length (List.filter _ (rt_answers O mname SO cd a enum fuel cs x')))
      with (successful_genesis (rt_answers O mname SO cd a enum fuel cs x')) in *.
    specialize (IH x'). destruct (rt_initialized x) eqn:Ei.
    - destruct (step_initialized c x Ei) as [H1 H2]. rewrite E in *. cbn in H1. rewrite H1 in IH.
      assert ((match c with RInit => match r with Ok _ => true | _ => false end | _ => false end) = false) as Hc.
      { destruct c; try done. specialize (H2 eq_refl). injection H2 as -> _. done. }
      rewrite Hc. unfold successful_genesis in IH. lia.
    - unfold successful_genesis in IH. destruct c as [|d|us m|b].
      + destruct r as [[]|e| |]; cbn [length]; try (destruct (rt_initialized x'); lia).
        cbn in E. pose proof (init_success_initialized x) as Hi. rewrite E in Hi. cbn in Hi.
        rewrite Hi in IH by done. lia.
      + destruct (rt_initialized x'); lia.
      + destruct (rt_initialized x'); lia.
      + destruct (rt_initialized x'); lia.
  Qed.

  Lemma genesis_modules_seq ms x :
    genesis_modules O mname SO a enum fuel ms x =
    seq (flat_map (fun m => match mo_genesis m with
                            | Some g => [genesis_step O mname SO a enum fuel m g]
                            | None => [] end) ms) x.
  Proof.
    unfold genesis_modules. revert x. induction ms as [|m ms IH]; intros x; cbn [each flat_map]; [done|].
    destruct (mo_genesis m) as [g|]; [|apply IH]. cbn [List.app seq]. unfold genesis_step at 1, reporting.
    destruct (run_module _ _ _ _ _ _ _ _ _) as [[[]|e| |] x']; done.
  Qed.

  Lemma genesis_order x r x' :
    rt_initialized x = false ->
    init_genesis O mname SO cd a enum fuel x = (r, x') <->
    in_order ([rt_deliver O mname SO a enum fuel (users_from_string [runtime_user]) (cd (map raw (ap_modules a)))]
              ++ flat_map (fun m => match mo_genesis m with
                                    | Some g => [genesis_step O mname SO a enum fuel m g]
                                    | None => [] end) (ap_modules a)
              ++ [finish_step a]) x r x'.
  Proof.
    intros Hx. rewrite <- seq_in_order. cbn [List.app seq]. unfold init_genesis. rewrite Hx.
    destruct (rt_deliver _ _ _ _ _ _ _ _ _) as [[[]|e| |] x1]; try done.
    rewrite seq_app, genesis_modules_seq. destruct (seq _ x1) as [[[]|e| |] x2]; try done.
    cbn [seq]. unfold finish_step. destruct (services_start _) as [l [[]|e| |]]; done.
  Qed.
End Genesis.
