(** Admission of role bindings. *)
From Coq Require Import NArith ZArith List Bool String Lia.
From stdpp Require Import base list gmap.
From Verif.Model Require Import Bytes KindEncoder Desc Schema Orm Users Errors Prog Router Runtime
  Services Module Builder Universe Coin CoreModules Rbac Bank Authn Distribution TestApp Abci.
From Verif.Spec Require Import UserSpec StoreSpec RbacSpec ChainSpec.
From Verif.Proofs Require Import OrmFacts SimFacts AppFacts AppSim RbacFacts MapExec ChainInv ChainView ChainProps RoleFacts.

Local Ltac known := apply (bool_decide_unpack _); vm_compute; exact I.
Section Bind.
  Context (C : codec) (bits : N) (verify : bytes -> bytes -> bytes -> bool).
  Context (enum : list (event object msg) -> users -> list user) (fuel : nat) (decode : bytes -> res tx).
  Context (HS : sound C enum decode).
  Notation gets := (gets C bits verify).
  Notation written := (written C bits verify).
  Notation message_admission := (message_admission C bits verify enum fuel).
  Notation HA := (test_app_like bits verify).

  Lemma binding_admission us id subject x : written x ->
    unchanged x (snd (message_admission us (MsgBindRole id subject) x))
    /\ (fst (message_admission us (MsgBindRole id subject) x) = Ok tt <-> exists o, gets x ty_role id o)
    /\ (fst (message_admission us (MsgBindRole id subject) x) = Panic <-> id = [])
    /\ (id <> [] -> alive (fst (message_admission us (MsgBindRole id subject) x))).
  Proof.
    intros Hw. destruct (written_shown C bits verify enum decode HS x Hw) as [S Hx].
    assert (ty_role ∈ all_types) as Kr by known.
    assert ((exists o, gets x ty_role id o) <-> id <> [] /\ is_Some (S !! (ty_role, id))) as Hg.
    { split.
      - intros [o Ho]. pose proof (proj1 (reads_iff C bits verify enum decode HS x S _ _ _ Hx Kr) Ho) as E. split; [|by exists o].
        intros ->. pose proof (orm_rt_get C bits verify enum decode HS x S ty_role [] Hx Kr) as G.
        unfold gets in Ho. unfold rt_get in G. revert G. cbn [so_get orm_ops]. unfold the_app in Ho. rewrite Ho. discriminate.
      - intros [_ [o E]]. exists o. by apply (reads_iff C bits verify enum decode HS x S _ _ _ Hx Kr). }
    rewrite Hg. clear Hg.
    unfold ChainSpec.message_admission, at_world, bytes_store, the_app. cbv zeta.
    unfold run_admission_chain. cbn [en_router env_of].
    destruct (tl_routes _ _ _ HA (MsgBindRole id subject)) as (_ & -> & _ & _). cbn [exec_of admission_of run_handlers].
    unfold run_handler. cbn [h_self h_run bind_admission].
    unfold get_. cbn [exec get_height]. rewrite (orm_rt_get C bits verify enum decode HS x S ty_role id Hx Kr).
    change (negb (get_height [] =? 0)%N) with false. cbv iota.
    destruct (decide (id = [])) as [->|Hid].
    { cbn [exec fst snd]. split; [reflexivity|]. split; [split; [discriminate|by intros [? _]]|]. split; [done|done]. }
    destruct (S !! (ty_role, id)) as [o|].
    - cbn [exec fst snd]. split; [reflexivity|]. split; [split; eauto|]. split; [split; [discriminate|done]|done].
    - cbn [exec fst snd]. split; [reflexivity|]. split; [split; [discriminate|intros [_ [? E]]; discriminate E]|].
      split; [split; [discriminate|done]|done].
  Qed.
End Bind.
