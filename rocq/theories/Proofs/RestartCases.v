(** Restarts of the node of the examples. *)
From Coq Require Import NArith ZArith List Bool String.
From stdpp Require Import base list option gmap.
From Verif.Model Require Import Bytes Schema Orm Users Errors Prog Runtime Builder Universe Marshal Authn TxDecoder TestApp Abci Restart.
From Verif.Spec Require Import StoreSpec ChainSpec OrderSpec DemoChain RestartSpec.
From Verif.Proofs Require Import DemoFacts DemoRuns.

Lemma asked_one C bits verify x y ty k o o' : same_contents C bits verify x y ->
  gets C bits verify x ty k o -> gets C bits verify y ty k o' -> o = o'.
Proof.
  intros H. specialize (H [CGet ty k]). cbv zeta in H. revert H. unfold gets. generalize (ap_registry (the_app bits verify)). intros R.
  cbn [run model_call]. intros H E1 E2. rewrite E1, E2 in H. cbn in H. congruence.
Qed.
Lemma demo_got x ty k o : demo_get x ty k = Ok o -> demo_gets x ty k o.
Proof. intros H. exact H. Qed.
Lemma one_hash (x y : node) : commit_hash x = commit_hash y.
Proof. reflexivity. Qed.
Lemma hash_of_states : ~ forall cs1 cs2 x1 x2, demo_running cs1 x1 -> demo_running cs2 x2 ->
  commit_hash x1 = commit_hash x2 -> same_contents protobuf 255 demo_verify x1 x2.
Proof.
  intros H. assert (demo_running [] (demo_node [])) as R1 by demo. assert (demo_running bob_history (demo_node bob_history)) as R2 by demo.
  specialize (H _ _ _ _ R1 R2 (one_hash _ _)). clear R1 R2.
  assert (demo_get (demo_node []) ty_account_number singleton_id = Ok (OAccountNumber 1)) as E1 by fact.
  assert (demo_get (demo_node bob_history) ty_account_number singleton_id = Ok (OAccountNumber 4)) as E2 by fact.
  revert H E1 E2. generalize (demo_node []) (demo_node bob_history). intros x y H E1 E2.
  pose proof (asked_one protobuf 255 demo_verify _ _ _ _ _ _ H (demo_got _ _ _ _ E1) (demo_got _ _ _ _ E2)) as E. discriminate E.
Qed.
Lemma info_zero (x : node) : in_height (info x) <> 2%N.
Proof. discriminate. Qed.
Lemma info_of_heights : ~ forall cs x h, demo_running cs x ->
  demo_gets x ty_current_block singleton_id (OCurrentBlock h) -> in_height (info x) = h.
Proof.
  intros H. assert (demo_get (demo_node bob_history) ty_current_block singleton_id = Ok (OCurrentBlock 2)) as E by fact.
  assert (demo_running bob_history (demo_node bob_history)) as R by demo.
  revert R E. generalize (demo_node bob_history). intros x R E. specialize (H _ _ _ R (demo_got _ _ _ _ E)). clear E R. revert H. apply info_zero.
Qed.
Lemma demo_replayed : replayed demo_history
  = [CallBeginBlock 1%Z (str "hash"); CallDeliverTx tx_open_alice; CallEndBlock 1%Z; CallCommit].
Proof. reflexivity. Qed.
