(** Facts about sets of users. *)
From Coq Require Import List Bool.
From stdpp Require Import base list gmap.
From Verif.Model Require Import Bytes Users.
From Verif.Spec Require Import UserSpec.

Lemma has1_spec d n : users_has1 d n = true <-> is_Some (d !! n).
Proof.
  unfold users_has1. destruct (d !! n); split; intros H; try done; by destruct H.
Qed.

Lemma has_spec d ns : users_has d ns = true <-> Forall (fun n => users_has1 d n = true) ns.
Proof.
  induction ns as [|n ns IH]; cbn [users_has]; [done|].
  rewrite Forall_cons. destruct (users_has1 d n); cbn [negb]; [rewrite IH; intuition|].
  split; [done|intros [? _]; done].
Qed.

Lemma from_string_lookup_acc names : forall (d : users) n,
  (fold_left (fun d n => <[n := default_user n]> d) names d) !! n =
  if decide (n ∈ names) then Some (default_user n) else d !! n.
Proof.
  induction names as [|m names IH]; intros d n; cbn [fold_left].
  - rewrite decide_False by (intros H; inversion H). done.
  - rewrite IH. destruct (decide (n ∈ names)) as [H|H].
    + rewrite decide_True by (right; done). done.
    + destruct (decide (n = m)) as [->|Hne].
      * rewrite decide_True by left. by rewrite lookup_insert.
      * rewrite decide_False by (rewrite elem_of_cons; intuition). by rewrite lookup_insert_ne.
Qed.

Lemma from_string_lookup names n :
  users_from_string names !! n = if decide (n ∈ names) then Some (default_user n) else None.
Proof. unfold users_from_string. rewrite from_string_lookup_acc, lookup_empty. done. Qed.

Lemma from_string_has names n : users_has1 (users_from_string names) n = true <-> n ∈ names.
Proof.
  rewrite has1_spec, from_string_lookup. destruct (decide (n ∈ names)); split; intros H; try done.
  by destruct H.
Qed.

Lemma from_string_wf names : wf_users (users_from_string names).
Proof.
  intros n u. rewrite from_string_lookup. destruct (decide (n ∈ names)); intros H; inversion H. done.
Qed.

Lemma new_users_wf_acc us : forall (d : users), wf_users d ->
  wf_users (fold_left (fun d u => <[u_name u := u]> d) us d).
Proof.
  induction us as [|u us IH]; intros d H; cbn [fold_left]; [done|].
  apply IH. apply map_Forall_insert_2; done.
Qed.
Lemma new_users_wf us : wf_users (new_users us).
Proof. apply new_users_wf_acc. apply map_Forall_empty. Qed.

Lemma new_users_has us n : users_has1 (new_users us) n = true <-> n ∈ map u_name us.
Proof.
  rewrite has1_spec. unfold new_users.
  assert (forall d : users, is_Some (fold_left (fun d u => <[u_name u := u]> d) us d !! n)
                    <-> n ∈ map u_name us \/ is_Some (d !! n)) as H.
  { induction us as [|u us IH]; intros d; cbn [fold_left map].
    - rewrite elem_of_nil. intuition.
    - rewrite IH, elem_of_cons. destruct (decide (n = u_name u)) as [->|Hne].
      + rewrite lookup_insert. split; [|intros; right; by eexists]. intros _. left. by left.
      + rewrite lookup_insert_ne by done. intuition. }
  rewrite H, lookup_empty. split; [intros [|[? ?]]; done|by left].
Qed.

Lemma enumerates_in d l : wf_users d -> enumerates d l ->
  forall u, u ∈ l <-> d !! u_name u = Some u.
Proof.
  intros Hwf Hl u. rewrite Hl, elem_of_list_fmap. split.
  - intros [[n u'] [-> H]]. apply elem_of_map_to_list in H. cbn. rewrite (Hwf _ _ H). done.
  - intros H. exists (u_name u, u). split; [done|]. by apply elem_of_map_to_list.
Qed.

(** Adding the users of a list: entries already there stay. *)
Lemma add_all_lookup l : forall (d : users) n,
  (forall u u', u ∈ l -> u' ∈ l -> u_name u = u_name u' -> u = u') ->
  (forall u, u ∈ l -> u_name u = n ->
     fold_left (fun d u => (users_add d u).2) l d !! n =
     match d !! n with Some x => Some x | None => Some u end)
  /\ ((forall u, u ∈ l -> u_name u <> n) ->
     fold_left (fun d u => (users_add d u).2) l d !! n = d !! n).
Proof.
  induction l as [|v l IH]; intros d n Huniq; cbn [fold_left]; split.
  - intros u H; inversion H.
  - done.
  - intros u Hu Hn.
    destruct (IH (users_add d v).2 n) as [IH1 IH2].
    { intros u1 u2 H1 H2. apply Huniq; by right. }
    destruct (decide (u_name v = n)) as [Hv|Hv].
    + assert (v = u) as -> by (apply Huniq; [left|done|congruence]).
      assert ((users_add d u).2 !! n = match d !! n with Some x => Some x | None => Some u end) as E.
      { unfold users_add. rewrite Hn. destruct (d !! n) eqn:E; cbn; [done|].
        by rewrite lookup_insert. }
      destruct (decide (u ∈ l)) as [Hin|Hin].
      * rewrite (IH1 u Hin Hn), E. by destruct (d !! n).
      * rewrite IH2; [exact E|]. intros u' Hu' Hn'. apply Hin.
        assert (u' = u) as <-; [|done]. apply Huniq; [by right|by left|congruence].
    + apply elem_of_cons in Hu as [->|Hu]; [done|].
      rewrite (IH1 u Hu Hn). unfold users_add.
      destruct (d !! u_name v); cbn; [done|]. by rewrite lookup_insert_ne.
  - intros Hno. destruct (IH (users_add d v).2 n) as [_ IH2].
    { intros u1 u2 H1 H2. apply Huniq; by right. }
    rewrite IH2 by (intros u Hu; apply Hno; by right).
    assert (u_name v <> n) by (apply Hno; left).
    unfold users_add. destruct (d !! u_name v); cbn; [done|]. by rewrite lookup_insert_ne.
Qed.

Lemma add_group_lookup g l d n : wf_users g -> enumerates g l ->
  fold_left (fun d u => (users_add d u).2) l d !! n =
  match d !! n with Some x => Some x | None => g !! n end.
Proof.
  intros Hwf Hl. pose proof (enumerates_in g l Hwf Hl) as Hin.
  destruct (add_all_lookup l d n) as [H1 H2].
  { intros u u' Hu Hu' E. apply Hin in Hu, Hu'. congruence. }
  destruct (g !! n) as [u|] eqn:E.
  - apply (H1 u); [|by apply (Hwf _ _ E)]. apply Hin. by rewrite (Hwf _ _ E).
  - rewrite H2; [by destruct (d !! n)|]. intros u Hu En. apply Hin in Hu. congruence.
Qed.

(** The entry of the first group that has the name. *)
Fixpoint first_with (n : bytes) (groups : list (option users)) : option user :=
  match groups with
  | [] => None
  | Some g :: gs => match g !! n with Some u => Some u | None => first_with n gs end
  | None :: gs => first_with n gs
  end.

Lemma union_lookup enum groups n :
  wf_groups groups -> fair_order enum ->
  users_union enum groups !! n = first_with n groups.
Proof.
  intros Hwf He. unfold users_union.
  assert (forall d : users, fold_left (fun d g => match g with
                      | None => d
                      | Some g => fold_left (fun d u => (users_add d u).2) (enum g) d
                      end) groups d !! n
                    = match d !! n with Some x => Some x | None => first_with n groups end) as H.
  { induction Hwf as [|g groups Hg _ IH]; intros d; cbn [fold_left first_with].
    - by destruct (d !! n).
    - rewrite IH. destruct g as [g|]; [|done].
      rewrite (add_group_lookup g) by done. destruct (d !! n); [done|]. by destruct (g !! n). }
  by rewrite H, lookup_empty.
Qed.

Lemma first_with_some n groups :
  is_Some (first_with n groups) <-> exists g, Some g ∈ groups /\ is_Some (g !! n).
Proof.
  induction groups as [|[g|] gs IH]; cbn [first_with].
  - split; [intros [? ?]; done|]. intros (g & H & _). inversion H.
  - destruct (g !! n) eqn:E.
    + split; [|intros; by eexists]. intros _. exists g. split; [left|by eexists].
    + rewrite IH. split.
      * intros (g' & H & H'). exists g'. split; [by right|done].
      * intros (g' & H & H'). apply elem_of_cons in H as [H|H]; [|by exists g'].
        injection H as ->. rewrite E in H'. by destruct H'.
  - rewrite IH. split; intros (g & H & H'); exists g; (split; [|done]).
    + by right.
    + by apply elem_of_cons in H as [H|H].
Qed.

Lemma union_has enum groups n :
  wf_groups groups -> fair_order enum ->
  users_has1 (users_union enum groups) n = true
  <-> exists g, Some g ∈ groups /\ users_has1 g n = true.
Proof.
  intros Hwf He. rewrite has1_spec, union_lookup, first_with_some by done.
  split; intros (g & H & H'); exists g; (split; [done|]); by apply has1_spec.
Qed.

Lemma union_order enum enum' groups :
  wf_groups groups -> fair_order enum -> fair_order enum' ->
  users_union enum groups = users_union enum' groups.
Proof. intros. apply map_eq. intros n. by rewrite !union_lookup. Qed.

Lemma union_wf enum groups :
  wf_groups groups -> fair_order enum -> wf_users (users_union enum groups).
Proof.
  intros Hwf He n u. rewrite union_lookup by done.
  induction Hwf as [|[g|] groups Hg _ IH]; cbn [first_with]; [done| |done].
  destruct (g !! n) eqn:E; [|done]. intros H. injection H as <-. apply (Hg _ _ E).
Qed.

Lemma users_list_enumerates d : enumerates d (users_list d).
Proof. unfold enumerates, users_list. reflexivity. Qed.

Lemma users_list_fair : fair_order users_list.
Proof. intros d. apply users_list_enumerates. Qed.

Lemma list_members d l n : wf_users d -> enumerates d l ->
  n ∈ map u_name l <-> users_has1 d n = true.
Proof.
  intros Hwf Hl. rewrite has1_spec. rewrite elem_of_list_fmap. split.
  - intros (u & -> & Hu). apply (enumerates_in d l Hwf Hl) in Hu. by eexists.
  - intros [u Hu]. exists u. split; [symmetry; by apply Hwf|].
    apply (enumerates_in d l Hwf Hl). by rewrite (Hwf _ _ Hu).
Qed.

Lemma list_names_nodup d l : wf_users d -> enumerates d l -> NoDup (map u_name l).
Proof.
  intros Hwf Hl. rewrite Hl, <- list_fmap_compose.
  rewrite (list_fmap_ext _ fst (map_to_list d)).
  - apply NoDup_fst_map_to_list.
  - intros i [n u] H. cbn. apply Hwf. apply elem_of_map_to_list. by eapply elem_of_list_lookup_2.
Qed.
