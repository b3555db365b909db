(** Lemmas about the key-value store and its iteration. *)
From Coq Require Import NArith List Bool String Lia Sorted.
From Coq Require Import ZifyBool ZifyN.
From stdpp Require Import base list gmap sorting.
From Verif.Model Require Import Bytes KV.
From Verif.Proofs Require Import BytesFacts.

Lemma bytes_eqb_spec a b : bytes_eqb a b = true <-> a = b.
Proof. unfold bytes_eqb. rewrite bool_decide_eq_true. done. Qed.
Lemma bytes_eqb_false a b : bytes_eqb a b = false <-> a <> b.
Proof. unfold bytes_eqb. rewrite bool_decide_eq_false. done. Qed.

Lemma prefix_leb p r : bytes_leb p (p ++ r) = true.
Proof. induction p as [|x p IH]; cbn; [done|]. rewrite N.ltb_irrefl. done. Qed.

Lemma between_prefix p k r :
  bytes_leb p k = true -> bytes_leb k (p ++ r) = true -> has_prefix p k = true.
Proof.
  revert k. induction p as [|x p IH]; intros k; cbn; [done|].
  destruct k as [|y k]; cbn; [done|].
  destruct (b2N x <? b2N y)%N eqn:E1; destruct (b2N y <? b2N x)%N eqn:E2;
    intros H1 H2; try lia; try done.
  assert (x = y) as -> by (apply b2N_inj; lia).
  rewrite decide_True by done. apply (IH k); auto.
Qed.

Lemma app_leb_iff p a b : bytes_leb (p ++ a) (p ++ b) = bytes_leb a b.
Proof. induction p as [|x p IH]; cbn; [done|]. rewrite N.ltb_irrefl. done. Qed.

Global Instance bytes_le_total : Total bytes_le.
Proof. intros a b. apply bytes_leb_total. Qed.
Global Instance bytes_le_trans : Transitive bytes_le.
Proof. intros a b c. apply bytes_leb_trans. Qed.

Definition bytes_lt (a b : bytes) : Prop := bytes_leb a b = true /\ a <> b.

Lemma sorted_keys_elem m k : k ∈ sorted_keys m <-> is_Some (m !! k).
Proof.
  unfold sorted_keys. rewrite merge_sort_Permutation. rewrite elem_of_list_fmap. split.
  - intros [[k' v] [-> H]]. apply elem_of_map_to_list in H. eexists; exact H.
  - intros [v H]. exists (k, v). split; [done|]. apply elem_of_map_to_list; done.
Qed.

Lemma sorted_keys_NoDup m : NoDup (sorted_keys m).
Proof. unfold sorted_keys. rewrite merge_sort_Permutation. apply NoDup_fst_map_to_list. Qed.

Lemma strengthen l : StronglySorted bytes_le l -> NoDup l -> StronglySorted bytes_lt l.
Proof.
  induction 1 as [|x l H IH HF]; intros N; constructor.
  - apply IH. inversion N; auto.
  - inversion N as [|? ? Hx Hn]; subst.
    rewrite Forall_forall in HF. apply Forall_forall. intros y Hy. split; [apply HF; done|].
    intros ->. done.
Qed.

Lemma sorted_keys_sorted m : StronglySorted bytes_lt (sorted_keys m).
Proof.
  apply strengthen; [|apply sorted_keys_NoDup].
  unfold sorted_keys. apply StronglySorted_merge_sort; apply _.
Qed.

(** What the iteration loop collects is the filtered list of keys. *)
Lemma collect_filter p l :
  StronglySorted bytes_lt l ->
  piter_collect p (drop_while (fun k => negb (bytes_leb p k)) l)
  = map (drop (length p)) (List.filter (has_prefix p) l).
Proof.
  induction 1 as [|x l H IH HF]; [done|]. cbn.
  destruct (bytes_leb p x) eqn:E; cbn.
  - clear IH. destruct (has_prefix p x) eqn:Ex.
    + cbn. f_equal.
      assert (Forall (fun k => bytes_leb p k = true) l) as HL.
      { rewrite Forall_forall in *. intros k Hk. apply HF in Hk as [Hk _].
        eapply bytes_leb_trans; eauto. }
      clear HF E Ex x. induction H as [|y l H IH HF]; [done|]. cbn.
      inversion HL as [|? ? Hy HL']; subst.
      destruct (has_prefix p y) eqn:Ey; cbn.
      * f_equal. apply IH; auto.
      * symmetry.
        assert (List.filter (has_prefix p) l = []) as ->; [|done].
        assert (forall k, k ∈ l -> has_prefix p k = false) as HN.
        { intros k Hk. destruct (has_prefix p k) eqn:Ek; [|done].
          apply has_prefix_spec in Ek as [r ->].
          rewrite Forall_forall in HF. apply HF in Hk as [Hk _].
          rewrite (between_prefix _ _ _ Hy Hk) in Ey. done. }
        clear -HN. induction l as [|k l IH]; [done|]. cbn.
        rewrite HN by (left; done). apply IH. intros; apply HN; right; done.
    + assert (List.filter (has_prefix p) l = []) as ->; [|done].
      assert (forall k, k ∈ l -> has_prefix p k = false) as HN.
      { intros k Hk. destruct (has_prefix p k) eqn:Ek; [|done].
        apply has_prefix_spec in Ek as [r ->].
        rewrite Forall_forall in HF. apply HF in Hk as [Hk _].
        rewrite (between_prefix _ _ _ E Hk) in Ex. done. }
      clear -HN. induction l as [|k l IH]; [done|]. cbn.
      rewrite HN by (left; done). apply IH. intros; apply HN; right; done.
  - rewrite IH. destruct (has_prefix p x) eqn:Ex; [|done].
    apply has_prefix_spec in Ex as [r ->]. rewrite prefix_leb in E. done.
Qed.

Lemma drop_app_exact {A} (p r : list A) : drop (length p) (p ++ r) = r.
Proof. rewrite drop_app. done. Qed.

Lemma prefix_collect_elem m p s :
  s ∈ piter_collect p (iterate_prefix m p) <-> is_Some (m !! (p ++ s)).
Proof.
  unfold iterate_prefix. rewrite collect_filter by apply sorted_keys_sorted.
  rewrite <- sorted_keys_elem. rewrite elem_of_list_fmap. split.
  - intros [k [-> Hk]]. apply elem_of_list_In, filter_In in Hk as [Hk Hp].
    apply has_prefix_spec in Hp as [r ->]. rewrite drop_app_exact.
    apply elem_of_list_In. done.
  - intros H. exists (p ++ s). rewrite drop_app_exact. split; [done|].
    apply elem_of_list_In, filter_In. split; [apply elem_of_list_In; done|].
    apply has_prefix_spec. eauto.
Qed.

Lemma prefix_collect_sorted m p :
  StronglySorted bytes_lt (piter_collect p (iterate_prefix m p)).
Proof.
  unfold iterate_prefix. rewrite collect_filter by apply sorted_keys_sorted.
  pose proof (sorted_keys_sorted m) as H. revert H. generalize (sorted_keys m).
  induction l as [|x l IH]; intros H; [constructor|]. cbn.
  inversion H as [|? ? Hs HF]; subst.
  destruct (has_prefix p x) eqn:Ex; [|auto]. cbn. constructor; [auto|].
  apply has_prefix_spec in Ex as [r ->]. rewrite drop_app_exact.
  apply Forall_forall. intros y Hy. apply elem_of_list_fmap in Hy as [k [-> Hk]].
  apply elem_of_list_In, filter_In in Hk as [Hk Hp].
  apply has_prefix_spec in Hp as [r' ->]. rewrite drop_app_exact.
  rewrite Forall_forall in HF. apply elem_of_list_In, HF in Hk as [H1 H2].
  rewrite app_leb_iff in H1. split; [done|]. intros ->. done.
Qed.

Lemma piter_valid_collect p it :
  piter_valid p it = true <-> piter_collect p it <> [].
Proof. destruct it as [|k it]; cbn; [done|]. destruct (has_prefix p k); done. Qed.

(** ** Reads after writes *)
Lemma kv_set_ok m k v m' : kv_set m k v = Ok m' -> key_allowed k = true /\ m' = <[k:=v]> m.
Proof. unfold kv_set. destruct (key_allowed k); intros H; inversion H; auto. Qed.
