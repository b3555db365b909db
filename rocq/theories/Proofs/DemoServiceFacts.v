(** The API server of the concrete node. *)
From Coq Require Import NArith ZArith List Bool String.
From stdpp Require Import base list option gmap.
From Verif.Model Require Import Bytes Schema Orm Users Prog Runtime Builder Module Universe Marshal Authn TestApp Abci ApiServer ApiService.
From Verif.Spec Require Import StoreSpec ChainSpec ApiSpec ServiceSpec DemoChain DemoService DemoRoles.
From Verif.Proofs Require Import ServiceFacts DemoRuns DemoFacts.

Lemma demo_service cs : demo_runs cs = true -> starts protobuf 255 demo_verify app_messages (demo_node cs) = Ok app_served.
Proof.
  intros H. exact (service_starts protobuf 255 demo_verify demo_users 4 demo_decode demo_sound app_messages linked_app demo_chain cs
    (demo_node cs) (demo_node_running cs H)).
Qed.
Lemma demo_serves cs : demo_runs cs = true -> demo_serving app_served.
Proof. intros H. exists cs, (demo_node cs). split; [exact (demo_node_running cs H)|exact (demo_service cs H)]. Qed.
Lemma demo_answered cs rqs l : demo_runs cs = true -> demo_answers (demo_node cs) rqs = l ->
  map (fun rq => demo_http app_served rq (demo_node cs)) rqs = l.
Proof. intros H. unfold demo_answers. rewrite (demo_service cs H). intros E. exact E. Qed.
