(** The document as a whole. *)
From Coq Require Import NArith List Bool String Sorted Lia.
From stdpp Require Import base list relations sorting.
From Verif.Model Require Import Bytes KindEncoder Desc Schema KV ApiServer OpenApi.
From Verif.Spec Require Import OpenApiSpec.
From Verif.Proofs Require Import BytesFacts KVFacts OpenApiFacts.

(** Sorting by name. *)
Global Instance name_le_total {A} : Total (@name_le A).
Proof. intros a b. apply (total bytes_le). Qed.
Global Instance name_le_trans {A} : Transitive (@name_le A).
Proof. intros a b c. unfold name_le. apply (transitivity (R := bytes_le)). Qed.
Lemma sorted_names {A} (l : list (bytes * A)) : NoDup (map fst l) -> by_name (merge_sort name_le l).
Proof.
  intros HN. split.
  - pose proof (StronglySorted_merge_sort name_le l) as H. revert H. generalize (merge_sort name_le l). clear.
    induction 1 as [|a l Hl IH Ha]; simpl; constructor; [done|].
    apply Forall_map. eapply Forall_impl; [exact Ha|]. intros b Hb. exact Hb.
  - eapply NoDup_Permutation_proper; [|exact HN]. apply fmap_Permutation, merge_sort_Permutation.
Qed.
Lemma names_unique {A} (l l' : list (bytes * A)) : by_name l -> by_name l' -> (forall e, e ∈ l <-> e ∈ l') -> l = l'.
Proof.
  intros [S1 N1] [S2 N2] H.
  assert (NoDup l) as M1 by (apply (NoDup_fmap_1 fst); done).
  assert (NoDup l') as M2 by (apply (NoDup_fmap_1 fst); done).
  assert (Permutation l l') as HP by (apply NoDup_Permutation; done).
  clear H M1 M2. revert l' S2 N2 HP. induction l as [|[a v] l IH]; intros l' S2 N2 HP.
  { symmetry in HP. apply Permutation_nil_r in HP. done. }
  destruct l' as [|[b w] l']; [apply Permutation_nil_r in HP; done|].
  simpl in *. apply StronglySorted_inv in S1 as [S1 A1]. apply StronglySorted_inv in S2 as [S2 A2].
  rewrite Forall_forall in A1, A2.
  assert ((a, v) ∈ (b, w) :: l') as H1 by (rewrite <-HP; left).
  assert ((b, w) ∈ (a, v) :: l) as H2 by (rewrite HP; left).
  assert (a = b) as ->.
  { apply elem_of_cons in H1 as [[= -> _]|H1]; [done|]. apply elem_of_cons in H2 as [[= -> _]|H2]; [done|].
    apply elem_of_list_In, (in_map fst), elem_of_list_In in H1. apply elem_of_list_In, (in_map fst), elem_of_list_In in H2.
    apply bytes_leb_antisym; [apply A1, H2|apply A2, H1]. }
  apply NoDup_cons in N1 as [N1a N1]. apply NoDup_cons in N2 as [N2a N2].
  assert (w = v) as ->.
  { apply elem_of_cons in H1 as [[= ->]|H1]; [done|]. exfalso. apply N2a.
    apply elem_of_list_In, (in_map fst _ (b, v)), elem_of_list_In. done. }
  f_equal. apply IH; auto. apply (Permutation_cons_inv HP).
Qed.

Section Document.
  Context (W : world) (order : nat -> list bytes -> list bytes) (HO : any_order order).
  Implicit Types (l : list described) (d : document).

  Lemma document_parts f l d : spec_document W order f l = Ok d ->
    exists g files, describe_all W order f l new_generator = Ok g /\ plugin_files W f g = Ok files
      /\ do_paths d = merge_sort name_le (all_paths (ge_operations g) files ([], ge_required g)).1
      /\ do_schemas d = merge_sort name_le (sc_list (fold_left (add_schemas W) files
           {| sc_generated := []; sc_required := (all_paths (ge_operations g) files ([], ge_required g)).2; sc_list := [] |})).
  Proof.
    unfold spec_document, build_document. destruct (describe_all _ _ _ _ _) as [g| | |]; try discriminate.
    destruct (plugin_files _ _ _) as [files| | |] eqn:E; try discriminate. intros H. exists g, files.
    split; [done|]. split; [done|]. unfold all_paths. destruct (fold_left _ _ _) as [paths required]. injection H as <-. done.
  Qed.

  Lemma operations_documented x r : r ∈ operations x ->
    documented x (ro_path r) (ro_id r) (ro_params r) (plain_name (ro_response r)).
  Proof using Type.
    clear W order HO. unfold operations. destruct (def_singleton _) eqn:E.
    - intros ->%elem_of_list_singleton. apply documented_singleton. done.
    - intros [->|[->|H]%elem_of_cons]%elem_of_cons; [apply documented_one; done| |set_solver].
      cbn [ro_path ro_id ro_params ro_response]. unfold plain_name. simpl. rewrite <-?app_assoc.
      apply (documented_list x E).
  Qed.
  Lemma documented_operations x p id params name : documented x p id params name ->
    exists r, r ∈ operations x /\ ro_path r = p.
  Proof using Type.
    clear W order HO. intros [E|E|E]; unfold operations; rewrite E;
      [eexists; split; [left|reflexivity]|eexists; split; [left|reflexivity]|eexists; split; [right; left|reflexivity]].
  Qed.
  Lemma content_said m : answer_said (plain_name m) (response_content m []).1.
  Proof using Type.
    clear W order HO. unfold answer_said, response_content. rewrite type_name_plain.
    change (str ".google.protobuf.Empty") with (str "." ++ str "google.protobuf.Empty").
    change (str ".google.api.HttpBody") with (str "." ++ str "google.api.HttpBody").
    rewrite !dot_eqb. destruct (bool_decide _); [done|]. destruct (bool_decide _); done.
  Qed.

  Lemma files_nonempty f g files m : plugin_files W f g = Ok files -> m ∈ ge_objects g -> files <> [].
  Proof using W.
    clear order HO. unfold plugin_files. destruct (add_deps _ _ _ _) as [s|] eqn:E; [|discriminate].
    destruct (forallb _ _); [|discriminate]. intros [= <-] Hm. apply deps_adds in E as (new & G & L).
    apply L, (ad_paths _ _ _ _ _ G) in Hm as [Hm|Hm]; [set_solver|].
    rewrite (ad_files _ _ _ _ _ G). simpl. intros ->. set_solver.
  Qed.

  Lemma paths_exact f l d : spec_document W order f l = Ok d ->
    by_name (do_paths d)
    /\ (forall p, p ∈ map fst (do_paths d) <-> exists x id params name, x ∈ l /\ documented x p id params name)
    /\ (forall p o, (p, o) ∈ do_paths d ->
          exists x name, x ∈ l /\ documented x p (op_id o) (op_params o) name /\ answer_said name (op_content o)).
  Proof.
    intros H. apply document_parts in H as (g & files & Hg & Hf & Hp & _).
    apply (describe_all_settled W order HO l) in Hg as (_ & Eo & Hr & _); [|apply settled_new|done].
    simpl in Eo. rewrite Eo in Hp. clear Eo.
    destruct (all_paths_spec (flat_map operations l) files ([], ge_required g)) as (A & B & C & _); [constructor|].
    simpl in A, B, C. rewrite Hp. clear Hp.
    set (paths := (all_paths _ _ _).1) in *.
    assert (forall e, e ∈ merge_sort name_le paths <-> e ∈ paths) as HM by (intros e; rewrite merge_sort_Permutation; done).
    assert (forall p o, (p, o) ∈ paths ->
      exists x name, x ∈ l /\ documented x p (op_id o) (op_params o) name /\ answer_said name (op_content o)) as H3.
    { intros p o H. apply B in H as [(r & H & -> & ->)|H]; [|set_solver].
      apply elem_of_list_In, in_flat_map in H as (x & Hx & H). apply elem_of_list_In in Hx, H.
      exists x, (plain_name (ro_response r)). split; [done|]. split; [apply operations_documented; done|apply content_said]. }
    split; [apply sorted_names; done|]. split; [|intros p o H; apply H3, HM, H].
    intros p. rewrite elem_of_list_In, in_map_iff. split.
    - intros ([q o] & <- & H). apply elem_of_list_In, HM, H3 in H as (x & name & Hx & H & _). eauto 10.
    - intros (x & id & params & name & Hx & H). apply documented_operations in H as (r & H & <-).
      assert (r ∈ flat_map operations l) as Hr1.
      { apply elem_of_list_In, in_flat_map. exists x. split; apply elem_of_list_In; done. }
      assert (files <> []) as Hne.
      { pose proof (Hr r Hr1) as Hi. apply elem_of_list_In, in_map_iff in Hi as (m & _ & Hi). apply elem_of_list_In in Hi.
        eapply files_nonempty; eauto. }
      apply C, elem_of_list_In, in_map_iff in Hr1 as (e & He & Hi); [|done]. exists e. split; [done|].
      apply elem_of_list_In, HM, elem_of_list_In, Hi.
  Qed.

  (** The schemas of a regular document. *)
  Lemma schemas_regular f l d : regular W l -> spec_document W order f l = Ok d ->
    by_name (do_schemas d)
    /\ forall name p, (name, p) ∈ do_schemas d <-> exists m, concerned W l m /\ me_name m = name /\ p = props W m.
  Proof.
    intros (HR & HT & HP & HN) H. apply document_parts in H as (g & files & Hg & Hf & _ & Hs).
    pose proof (objects_exact W order HO l f g HR Hg) as Hobj.
    pose proof (files_exact W l f g files Hobj HP Hf) as Hfiles.
    apply (describe_all_settled W order HO l) in Hg as ((_ & _ & Ereq & _) & Eo & Hr & _); [|apply settled_new|done].
    simpl in Eo. rewrite Eo in Hs. clear Eo.
    destruct (all_paths_spec (flat_map operations l) files ([], ge_required g)) as (_ & _ & _ & _ & F & G); [constructor|].
    simpl in F, G. revert Hs F G. generalize ((all_paths (flat_map operations l) files ([], ge_required g)).2).
    intros required Hs F G. rewrite add_schemas_fold in Hs.
    set (ns := flat_map fl_messages files) in *.
    assert (forall n, n ∈ ns -> me_name (wo_message W n) = n /\ n = plain_name (wo_message W n)) as Hns.
    { intros n H. apply elem_of_list_In, in_flat_map in H as (a & Ha & H). apply elem_of_list_In in Ha, H.
      apply (HN a); [apply Hfiles; done|done]. }
    assert (forall m, concerned W l m -> plain_name m = me_name m) as Hplain.
    { intros m Hm. destruct (HN (me_file m) (me_name m)) as [_ H]; [exists m; split; [done|apply rtc_refl]|apply HT; done|].
      rewrite (HR m Hm) in H. done. }
    destruct (schemas_spec W ns {| sc_generated := []; sc_required := required; sc_list := [] |}) as (new & D).
    { intros n H. destruct (Hns n H) as [H1 H2]. split; [done|]. rewrite type_name_plain, <-H2. done. }
    set (s := fold_left _ _ _) in *.
    pose proof (dn_list _ _ _ _ _ D) as El. pose proof (dn_generated _ _ _ _ _ D) as Eg. simpl in El, Eg.
    (* the names described are those of the messages concerned *)
    assert (forall n, n ∈ new <-> exists m, concerned W l m /\ me_name m = n) as Hnew.
    { intros n. split.
      - intros H. set (P t := exists m, concerned W l m /\ t = type_name m).
        destruct (dn_only _ _ _ _ _ D P) as [_ HD].
        + intros t Ht. simpl in Ht. apply G in Ht as [Ht|(r & Ht & ->)].
          * rewrite Ereq in Ht. apply elem_of_list_In, in_map_iff in Ht as (m & <- & Hm). exists m. split; [|done].
            apply Hobj, elem_of_list_In, Hm.
          * exists (ro_response r). split; [|done].
            apply elem_of_list_In, in_flat_map in Ht as (x & Hx & Ht). apply elem_of_list_In in Hx, Ht.
            exists (ro_response r). split; [|apply rtc_refl]. exists x. split; [done|].
            unfold operations in Ht. destruct (def_singleton _) eqn:E.
            -- apply elem_of_list_singleton in Ht as ->. auto.
            -- apply elem_of_cons in Ht as [->|Ht]; [auto|]. apply elem_of_list_singleton in Ht as ->.
               right. split; [done|apply list_message_of].
        + intros n' m' Hn' (m & Hm & E) HL.
          exists m'. split; [|done].
          assert (m = wo_message W n') as ->.
          { rewrite type_name_plain in E. apply dot_inj in E. rewrite E, (Hplain m Hm). symmetry. apply HR, Hm. }
          destruct Hm as (r & H1 & H2). exists r. split; [done|]. eapply rtc_r; eauto.
        + destruct (HD n H) as (m & Hm & E). exists m. split; [done|].
          rewrite type_name_plain in E. apply dot_inj in E. rewrite E, Hplain; done.
      - intros (m & Hm & <-).
        assert (str "." ++ me_name m ∈ sc_generated s) as H.
        { apply (dn_complete _ _ _ _ _ D).
          - apply elem_of_list_In, in_flat_map. exists (me_file m).
            split; apply elem_of_list_In; [apply Hfiles; exists m; split; [done|apply rtc_refl]|apply HT, Hm].
          - simpl. apply F. rewrite Ereq, <-(Hplain m Hm). apply elem_of_list_In, in_map_iff. exists m.
            split; [done|]. apply elem_of_list_In, Hobj, Hm. }
        rewrite Eg in H. apply elem_of_list_In, in_map_iff in H as (n & H & Hi). apply dot_inj in H as <-.
        apply elem_of_list_In, Hi. }
    assert (NoDup (map fst (sc_list s))) as Hnd.
    { rewrite El, map_map. simpl. rewrite map_id.
      assert (NoDup (sc_generated s)) as H by (apply (dn_once _ _ _ _ _ D); constructor).
      rewrite Eg in H. apply (NoDup_fmap_1 (fun n => str "." ++ n)) in H. done. }
    rewrite Hs. split; [apply sorted_names; done|].
    intros name p. rewrite merge_sort_Permutation, El, elem_of_list_In, in_map_iff. split.
    - intros (n & [= <- <-] & H). apply elem_of_list_In, Hnew in H as (m & Hm & <-). exists m. split; [done|].
      split; [done|]. rewrite (HR m Hm). done.
    - intros (m & Hm & <- & ->). exists (me_name m). rewrite (HR m Hm). split; [done|]. apply elem_of_list_In, Hnew. eauto.
  Qed.
End Document.

(** ** References *)
Section References.
  Context (W : world) (order : nat -> list bytes -> list bytes) (HO : any_order order).
  Implicit Types (l : list described) (d : document).
  Lemma regular_plain l m : regular W l -> concerned W l m -> plain_name m = me_name m.
  Proof using W.
    clear order HO. intros (HR & HT & HP & HN) Hm.
    destruct (HN (me_file m) (me_name m)) as [_ H]; [exists m; split; [done|apply rtc_refl]|apply HT; done|].
    rewrite (HR m Hm) in H. done.
  Qed.
  Lemma documented_sent l x p id params name : x ∈ l -> documented x p id params name ->
    exists m, sent l m /\ plain_name m = name.
  Proof using Type.
    clear. intros Hx [E|E|E].
    - exists (de_message x). split; [exists x; auto|done].
    - exists (de_message x). split; [exists x; auto|done].
    - exists (list_message (de_message x)). split; [exists x; split; [done|]; right; split; [done|apply list_message_of]|].
      unfold plain_name, list_name. simpl. rewrite <-?app_assoc. done.
  Qed.
  Lemma references_resolve f l d : regular W l -> spec_document W order f l = Ok d ->
    forall r, refers d r -> resolves d r.
  Proof using HO.
    intros HR H. destruct (paths_exact W order HO f l d H) as (_ & _ & Hp).
    destruct (schemas_regular W order HO f l d HR H) as (_ & Hs).
    assert (forall m, concerned W l m -> resolves d (str "#/components/schemas/" ++ plain_name m)) as Hres.
    { intros m Hm. exists (me_name m), (props W m). rewrite (regular_plain l m HR Hm). split; [done|]. apply Hs. eauto. }
    assert (forall m n, concerned W l m -> leads W m n -> concerned W l n) as Hlead.
    { intros m n (r & H1 & H2) HL. exists r. split; [done|]. eapply rtc_r; eauto. }
    assert (forall m json v, concerned W l m -> (json, v) ∈ props W m ->
      exists f, f ∈ md_fields (me_desc m) /\ says W f v) as Hprops.
    { intros m json v Hm Hi. apply elem_of_list_In, in_map_iff in Hi as (f' & [= <- <-] & Hi).
      exists f'. split; [apply elem_of_list_In, Hi|apply says_said]. }
    intros r [p o r' H1 H2|n p json r' H1 H2|n p json ty fo r' H1 H2].
    - apply Hp in H1 as (x & name & Hx & H1 & H3). rewrite H2 in H3. unfold answer_said in H3.
      destruct (bool_decide _); [discriminate H3|]. destruct (bool_decide _); [discriminate H3|].
      injection H3 as ->. apply (documented_sent l) in H1 as (m & Hm & <-); [|done].
      apply Hres. exists m. split; [done|apply rtc_refl].
    - apply Hs in H1 as (m & Hm & _ & ->). apply Hprops in H2 as (f' & Hf & H2); [|done].
      inversion H2; subst. apply Hres, (Hlead m); [done|]. exists f'. auto.
    - apply Hs in H1 as (m & Hm & _ & ->). apply Hprops in H2 as (f' & Hf & H2); [|done].
      inversion H2; subst. apply Hres, (Hlead m); [done|]. exists f'. auto.
  Qed.
  Lemma schemas_say f l d : regular W l -> spec_document W order f l = Ok d ->
    by_name (do_schemas d)
    /\ (forall m, concerned W l m -> exists p, (me_name m, p) ∈ do_schemas d)
    /\ forall name p, (name, p) ∈ do_schemas d -> exists m, concerned W l m /\ me_name m = name /\ schema_says W m p.
  Proof using HO.
    intros HR H. destruct (schemas_regular W order HO f l d HR H) as (A & B). split; [done|]. split.
    - intros m Hm. exists (props W m). apply B. eauto.
    - intros name p Hi. apply B in Hi as (m & Hm & <- & ->). exists m. split; [done|]. split; [done|apply props_say].
  Qed.
End References.

(** ** The same document whatever the order *)
Lemma find_app {A} (f : A -> bool) a b :
  List.find f (a ++ b) = match List.find f a with Some x => Some x | None => List.find f b end.
Proof. induction a as [|x a IH]; [done|]. simpl. destruct (f x); [done|apply IH]. Qed.
Lemma add_paths_last ops p : forall paths required o, NoDup (map fst paths) ->
  (p, o) ∈ (add_paths ops paths required).1 <->
  match List.find (fun r => bytes_eqb (ro_path r) p) (rev ops) with
  | Some r => o = operation_of r
  | None => (p, o) ∈ paths
  end.
Proof.
  induction ops as [|r ops IH]; intros paths required o HN; [done|].
  cbn [add_paths]. destruct (response_content (ro_response r) required) as [c required1] eqn:E.
  pose proof (response_content_fst (ro_response r) required []) as Hc. rewrite E in Hc. cbn [fst] in Hc.
  rewrite IH by (by apply set_path_names). cbn [rev]. rewrite find_app.
  destruct (List.find _ (rev ops)) as [r'|]; [done|]. cbn [List.find].
  rewrite set_path_elem by done. destruct (bytes_eqb (ro_path r) p) eqn:Ep.
  - apply bytes_eqb_spec in Ep as <-. unfold operation_of. rewrite <-Hc. split; [intros [[_ H]|[H _]]; done|auto].
  - apply bytes_eqb_false in Ep. split; [intros [[-> _]|[_ H]]; done|]. auto.
Qed.
Lemma all_paths_last ops files p : forall s o, NoDup (map fst s.1) -> files <> [] ->
  (p, o) ∈ (all_paths ops files s).1 <->
  match List.find (fun r => bytes_eqb (ro_path r) p) (rev ops) with
  | Some r => o = operation_of r
  | None => (p, o) ∈ s.1
  end.
Proof.
  induction files as [|a files IH]; intros s o HN Hne; [done|]. clear Hne.
  unfold all_paths. cbn [fold_left]. change (fold_left _ files ?x) with (all_paths ops files x).
  destruct files as [|b files]; [apply add_paths_last; done|].
  destruct (add_paths ops s.1 s.2) as [paths required] eqn:E. pose proof E as E'.
  apply add_paths_spec in E' as (HN' & _); [|done]. rewrite IH by done. cbn [fst].
  pose proof (fun o => add_paths_last ops p s.1 s.2 o HN) as HA. rewrite E in HA. cbn [fst] in HA.
  specialize (HA o). destruct (List.find _ _); done.
Qed.

Lemma any_order_same W order order' f f' l d d' : any_order order -> any_order order' -> regular W l ->
  spec_document W order f l = Ok d -> spec_document W order' f' l = Ok d' -> d = d'.
Proof.
  intros HO HO' HR H H'.
  destruct (schemas_regular W order HO f l d HR H) as (A & B).
  destruct (schemas_regular W order' HO' f' l d' HR H') as (A' & B').
  assert (do_schemas d = do_schemas d') as ES.
  { apply names_unique; [done|done|]. intros [name p]. rewrite B, B'. done. }
  assert (do_paths d = do_paths d') as EP.
  { apply document_parts in H as (g & files & Hg & Hf & Hp & _). apply document_parts in H' as (g' & files' & Hg' & Hf' & Hp' & _).
    apply (describe_all_settled W order HO l) in Hg as (_ & Eo & Hr & _); [|apply settled_new|done].
    apply (describe_all_settled W order' HO' l) in Hg' as (_ & Eo' & Hr' & _); [|apply settled_new|done].
    simpl in Eo, Eo'. rewrite Eo in Hp. rewrite Eo' in Hp'. clear Eo Eo'. rewrite Hp, Hp'.
    destruct l as [|x l].
    { assert (forall files s, all_paths [] files s = s) as E0.
      { clear. induction files as [|a files IH]; intros s; [done|]. unfold all_paths in *. cbn [fold_left]. rewrite IH. destruct s; done. }
      simpl. rewrite !E0. done. }
    assert (exists r, r ∈ flat_map operations (x :: l)) as (r & Hx).
    { simpl. unfold operations at 1. destruct (def_singleton _); eexists; apply elem_of_app; left; left. }
    assert (files <> []) as Hne.
    { apply Hr, elem_of_list_In, in_map_iff in Hx as (m & _ & Hm). apply elem_of_list_In in Hm. eapply files_nonempty; eauto. }
    assert (files' <> []) as Hne'.
    { apply Hr', elem_of_list_In, in_map_iff in Hx as (m & _ & Hm). apply elem_of_list_In in Hm. eapply files_nonempty; eauto. }
    destruct (all_paths_spec (flat_map operations (x :: l)) files ([], ge_required g)) as (N & _); [constructor|].
    destruct (all_paths_spec (flat_map operations (x :: l)) files' ([], ge_required g')) as (N' & _); [constructor|].
    apply names_unique; [apply sorted_names; done|apply sorted_names; done|].
    intros [p o]. rewrite !merge_sort_Permutation. rewrite !all_paths_last by (try constructor; done). done. }
  destruct d, d'. simpl in *. congruence.
Qed.

(** ** The generator ends *)
Section Ends.
  Context (W : world) (order : nat -> list bytes -> list bytes).

  Lemma add_required_more f f' m g g' : f <= f' -> add_required W order f m g = Some g' -> add_required W order f' m g = Some g'.
  Proof.
    revert f' m g g'. induction f as [|f IH]; intros f' m g g' Hf H; [discriminate H|].
    destruct f' as [|f']; [lia|]. rewrite add_required_step in H. rewrite add_required_step.
    destruct (bool_decide _); [done|]. destruct (visit _ _ _ _ _ _) as [g1|] eqn:E; [|discriminate H].
    assert (forall l g g1, visit W order f m l g = Some g1 -> visit W order f' m l g = Some g1) as Hv.
    { clear - IH Hf. induction l as [|n l IHl]; intros g g1 H; [done|]. simpl in *.
      destruct (add_required _ _ _ _ _) as [g2|] eqn:E; [|discriminate H].
      rewrite (IH f' _ _ g2); [|lia|done]. apply IHl. done. }
    rewrite (Hv _ _ _ E). done.
  Qed.
  Lemma add_or_hang_more f f' m g g' : f <= f' -> add_or_hang W order f m g = Ok g' -> add_or_hang W order f' m g = Ok g'.
  Proof.
    unfold add_or_hang. intros Hf H. destruct (add_required _ _ _ _ _) as [g1|] eqn:E; [|discriminate H].
    rewrite (add_required_more _ _ _ _ _ Hf E). done.
  Qed.
  Lemma describe_more f f' x g g' : f <= f' -> describe W order f x g = Ok g' -> describe W order f' x g = Ok g'.
  Proof.
    intros Hf. unfold describe, add_singleton, add_object. destruct (def_singleton _).
    - apply add_or_hang_more. done.
    - intros H. destruct (add_or_hang _ _ _ _ _) as [g1| | |] eqn:E; try discriminate H.
      rewrite (add_or_hang_more _ _ _ _ _ Hf E). destruct (forge_list _); try discriminate H.
      apply (add_or_hang_more _ _ _ _ _ Hf H).
  Qed.
  Lemma describe_all_more f f' l g g' : f <= f' -> describe_all W order f l g = Ok g' -> describe_all W order f' l g = Ok g'.
  Proof.
    intros Hf. revert g. induction l as [|x l IH]; intros g H; [done|]. simpl in *.
    destruct (describe _ _ _ _ _) as [g1| | |] eqn:E; try discriminate H.
    rewrite (describe_more _ _ _ _ _ Hf E). auto.
  Qed.

  Context (HO : any_order order).
  Section Ranked.
    Context (l0 : list described) (rank : bytes -> nat).
    Context (HR : forall m n, concerned W l0 m -> leads W m n -> rank (me_name n) < rank (me_name m)).
    Lemma required_ends f m g : concerned W l0 m -> rank (me_name m) < f -> is_Some (add_required W order f m g).
    Proof using HR HO.
      revert m g. induction f as [|f IH]; intros m g Hm Hf; [lia|]. rewrite add_required_step.
      destruct (bool_decide _); [eauto|].
      assert (forall l g, (forall n, n ∈ l -> n ∈ nested_messages m) -> is_Some (visit W order f m l g)) as Hv.
      { induction l as [|n l IHl]; intros g0 Hl; [simpl; eauto|]. simpl.
        assert (leads W m (wo_message W n)) as HL by (apply leads_nested; exists n; split; [apply Hl; left|done]).
        destruct (IH (wo_message W n) g0) as (g1 & ->).
        - destruct Hm as (r & H1 & H2). exists r. split; [done|]. eapply rtc_r; eauto.
        - specialize (HR m _ Hm HL). lia.
        - apply IHl. set_solver. }
      destruct (Hv (order (ge_loops g) (nested_messages m)) (tick g)) as (g1 & ->); [intros n; rewrite order_elem; done|]. eauto.
    Qed.
    Lemma describe_all_ends l g : packaged W l0 -> (forall x, x ∈ l -> x ∈ l0) -> exists f g', describe_all W order f l g = Ok g'.
    Proof using HR HO.
      intros [HP1 HP2]. revert g. induction l as [|x l IH]; intros g Hl; [exists 0, g; done|].
      assert (forall m g, sent l0 m -> exists g', add_or_hang W order (S (rank (me_name m))) m g = Ok g') as Hs.
      { intros m g0 Hm. destruct (required_ends (S (rank (me_name m))) m g0) as (g1 & E); [exists m; split; [done|apply rtc_refl]|lia|].
        exists g1. unfold add_or_hang. rewrite E. done. }
      assert (x ∈ l0) as Hx by (apply Hl; left).
      assert (exists f g', describe W order f x g = Ok g') as (f & g1 & E).
      { unfold describe, add_singleton, add_object. destruct (def_singleton _) eqn:ES.
        - edestruct (Hs (de_message x)) as (g1 & E); [exists x; auto|]. eauto.
        - edestruct (Hs (de_message x)) as (g1 & E); [exists x; auto|].
          assert (forge_list (de_message x) = Ok (list_message (de_message x))) as EF.
          { unfold forge_list. rewrite HP1.
            - simpl. destruct (bytes_eqb _ _) eqn:EE; [|done]. apply bytes_eqb_spec in EE. exfalso. apply (HP2 x Hx ES EE).
            - exists (de_message x). split; [exists (de_message x); split; [exists x; auto|apply rtc_refl]|apply rtc_refl]. }
          edestruct (Hs (list_message (de_message x))) as (g2 & E2); [exists x; split; [done|]; right; split; [done|apply list_message_of]|].
          exists (S (rank (me_name (de_message x))) + S (rank (me_name (list_message (de_message x))))), g2.
          erewrite add_or_hang_more; [|..|exact E]; [|lia]. rewrite EF.
          erewrite add_or_hang_more; [reflexivity|..|exact E2]. lia. }
      destruct (IH g1) as (f' & g2 & E2); [set_solver|]. exists (f + f'), g2. simpl.
      erewrite describe_more; [|..|exact E]; [|lia]. erewrite describe_all_more; [reflexivity|..|exact E2]. lia.
    Qed.
  End Ranked.

  Lemma add_dep_more f f' a s s' : f <= f' -> add_dep W f a s = Some s' -> add_dep W f' a s = Some s'.
  Proof.
    revert f' a s s'. induction f as [|f IH]; intros f' a s s' Hf H; [discriminate H|].
    destruct f' as [|f']; [lia|]. rewrite add_dep_step in H. rewrite add_dep_step.
    destruct (bool_decide _); [done|]. destruct (visit_files _ _ _ _) as [s1|] eqn:E; [|discriminate H].
    assert (forall l s s1, visit_files W f l s = Some s1 -> visit_files W f' l s = Some s1) as Hv.
    { clear - IH Hf. induction l as [|n l IHl]; intros s s1 H; [done|]. simpl in *.
      destruct (add_dep _ _ _ _) as [s2|] eqn:E; [|discriminate H].
      rewrite (IH f' _ _ s2); [|lia|done]. apply IHl. done. }
    rewrite (Hv _ _ _ E). done.
  Qed.
  Lemma add_deps_more f f' ms s s' : f <= f' -> add_deps W f ms s = Some s' -> add_deps W f' ms s = Some s'.
  Proof.
    intros Hf. revert s. induction ms as [|m ms IH]; intros s H; [done|]. simpl in *.
    destruct (add_dep _ _ _ _) as [s1|] eqn:E; [|discriminate H]. rewrite (add_dep_more _ _ _ _ _ Hf E). auto.
  Qed.
  Lemma dep_ends l0 (rank : bytes -> nat) f a s :
    (forall a b, involved W l0 a -> imports W a b -> rank (fl_path b) < rank (fl_path a)) ->
    involved W l0 a -> rank (fl_path a) < f -> is_Some (add_dep W f a s).
  Proof.
    intros HR. revert a s. induction f as [|f IH]; intros a s Ha Hf; [lia|]. rewrite add_dep_step.
    destruct (bool_decide _); [eauto|].
    assert (forall l s, (forall p, p ∈ l -> p ∈ fl_imports a) -> is_Some (visit_files W f l s)) as Hv.
    { induction l as [|p l IHl]; intros s0 Hl; [simpl; eauto|]. simpl.
      assert (imports W a (wo_file W p)) as HL by (exists p; split; [apply Hl; left|done]).
      destruct (IH (wo_file W p) s0) as (s1 & ->).
      - destruct Ha as (m & H1 & H2). exists m. split; [done|]. eapply rtc_r; eauto.
      - specialize (HR a _ Ha HL). lia.
      - apply IHl. set_solver. }
    destruct (Hv (fl_imports a) s) as (s1 & ->); [done|]. eauto.
  Qed.
  Lemma deps_end l0 (rank : bytes -> nat) ms s :
    (forall a b, involved W l0 a -> imports W a b -> rank (fl_path b) < rank (fl_path a)) ->
    Forall (concerned W l0) ms -> exists f s', add_deps W f ms s = Some s'.
  Proof.
    intros HR H. revert s. induction H as [|m ms Hm _ IH]; intros s; [exists 0, s; done|].
    destruct (dep_ends l0 rank (S (rank (fl_path (me_file m)))) (me_file m) s HR) as (s1 & E);
      [exists m; split; [done|apply rtc_refl]|lia|].
    destruct (IH s1) as (f & s2 & E2). exists (S (rank (fl_path (me_file m))) + f), s2. cbn [add_deps].
    erewrite add_dep_more; [|..|exact E]; [|lia]. erewrite add_deps_more; [reflexivity|..|exact E2]. lia.
  Qed.

  Lemma document_ends l : acyclic W l -> packaged W l ->
    exists f d, forall f', f <= f' -> spec_document W order f' l = Ok d.
  Proof using HO.
    intros (rank & rank' & HR & HR') HP.
    destruct (describe_all_ends l rank HR l new_generator HP) as (f & g & E); [done|].
    pose proof (describe_all_settled W order HO l f l new_generator g (settled_new W l) (fun _ H => H) E) as ((_ & Hc & _) & _).
    destruct (deps_end l rank' (ge_objects g) ([], []) HR' Hc) as (f1 & s & E1).
    assert (forallb fl_go_package s.2 = true) as Hgo.
    { pose proof E1 as HA. apply deps_adds in HA as (new & G & _). rewrite (ad_files _ _ _ _ _ G). simpl.
      apply forallb_forall. intros a Ha. apply elem_of_list_In in Ha. pose proof (ad_reached _ _ _ _ _ G) as H.
      rewrite Forall_forall in H. apply H in Ha as (m & Hm & Ha). apply (proj1 HP). exists m. split; [|done].
      rewrite Forall_forall in Hc. auto. }
    assert (exists d, forall f', f + f1 <= f' -> spec_document W order f' l = Ok d) as (d & Hd); [|eauto].
    destruct (fold_left (fun s (_ : filedesc) => add_paths (ge_operations g) s.1 s.2) s.2 ([], ge_required g))
      as [paths required] eqn:EP.
    eexists. intros f' Hf. unfold spec_document. erewrite describe_all_more; [|..|exact E]; [|lia].
    unfold build_document, plugin_files. erewrite add_deps_more; [|..|exact E1]; [|lia]. rewrite Hgo, EP. reflexivity.
  Qed.

  (** Nothing but going on for ever keeps it from ending. *)
  Lemma packaged_result f l : packaged W l ->
    spec_document W order f l = OutOfFuel \/ exists d, spec_document W order f l = Ok d.
  Proof using HO.
    intros HP. unfold spec_document.
    assert (forall l1 g, (forall x, x ∈ l1 -> x ∈ l) ->
      describe_all W order f l1 g = OutOfFuel \/ exists g', describe_all W order f l1 g = Ok g') as Hd.
    { induction l1 as [|x l1 IH]; intros g Hl; [right; exists g; done|]. simpl.
      assert (describe W order f x g = OutOfFuel \/ exists g', describe W order f x g = Ok g') as [E|(g' & E)].
      { unfold describe, add_singleton, add_object, add_or_hang. destruct (def_singleton _) eqn:ES.
        - destruct (add_required _ _ _ _ _); eauto.
        - destruct (add_required _ _ _ _ _); [|auto]. unfold forge_list. rewrite (proj1 HP).
          + simpl. destruct (bytes_eqb _ _) eqn:EE.
            * apply bytes_eqb_spec in EE. exfalso. apply (proj2 HP x (Hl x ltac:(left)) ES EE).
            * destruct (add_required _ _ _ _ _); eauto.
          + exists (de_message x). split; [exists (de_message x); split; [exists x; split; [apply Hl; left|auto]|apply rtc_refl]|apply rtc_refl]. }
      - rewrite E. auto.
      - rewrite E. apply IH. set_solver. }
    destruct (Hd l new_generator (fun _ H => H)) as [E|(g & E)]; rewrite E; [auto|].
    pose proof (describe_all_settled W order HO l f l new_generator g (settled_new W l) (fun _ H => H) E) as ((_ & Hc & _) & _).
    unfold build_document, plugin_files. destruct (add_deps _ _ _ _) as [s|] eqn:E1; [|auto].
    replace (forallb fl_go_package s.2) with true.
    - destruct (fold_left _ _ _) as [paths required]. eauto.
    - symmetry. apply deps_adds in E1 as (new & G & _). rewrite (ad_files _ _ _ _ _ G). simpl.
      apply forallb_forall. intros a Ha. apply elem_of_list_In in Ha. pose proof (ad_reached _ _ _ _ _ G) as H.
      rewrite Forall_forall in H. apply H in Ha as (m & Hm & Ha). apply (proj1 HP). exists m. split; [|done].
      rewrite Forall_forall in Hc. auto.
  Qed.

  (** A message that comes first among its own fields is never done with. *)
  Section Selfish.
    Context (name : bytes).
    Context (Hself : me_name (wo_message W name) = name) (Hin : name ∈ nested_messages (wo_message W name)).
    Context (Hfirst : forall i l, name ∈ l -> exists l', order i l = name :: l').
    Lemma selfish f g g' : add_required W order f (wo_message W name) g = Some g' -> name ∈ ge_set g.
    Proof using Hself Hin Hfirst.
      revert g g'. induction f as [|f IH]; intros g g' H; [discriminate H|].
      rewrite add_required_step, Hself in H. destruct (bool_decide _) eqn:E; [by apply bool_decide_eq_true in E|].
      destruct (Hfirst (ge_loops g) _ Hin) as (l' & El). rewrite El in H. simpl in H.
      destruct (add_required _ _ _ _ _) as [g1|] eqn:E1; [|discriminate H]. apply IH in E1. exact E1.
    Qed.
    Lemma selfish_others l0 f m g g' : resolvable W l0 -> concerned W l0 m ->
      add_required W order f m g = Some g' -> name ∈ ge_set g' -> name ∈ ge_set g.
    Proof using Hself Hin Hfirst HO.
      intros HR. revert m g g'. induction f as [|f IH]; intros m g g' Hm H Hn; [discriminate H|].
      destruct (decide (me_name m = name)) as [En|En].
      { assert (m = wo_message W name) as -> by (rewrite <-En; symmetry; apply HR; done).
        apply selfish in H. done. }
      rewrite add_required_step in H. destruct (bool_decide _); [congruence|].
      destruct (visit _ _ _ _ _ _) as [g1|] eqn:EV; [|discriminate H]. injection H as <-.
      simpl in Hn. apply elem_of_cons in Hn as [Hn|Hn]; [congruence|].
      assert (forall l g g1, visit W order f m l g = Some g1 -> (forall n, n ∈ l -> n ∈ nested_messages m) ->
        name ∈ ge_set g1 -> name ∈ ge_set g) as Hv.
      { clear - IH Hm En. induction l as [|n l IHl]; intros g g1 H Hl Hn; [injection H as <-; done|].
        simpl in H. destruct (add_required _ _ _ _ _) as [g2|] eqn:E2; [|discriminate H].
        apply IHl in H; [|set_solver|done]. simpl in H. apply elem_of_cons in H as [H|H]; [congruence|].
        apply IH in E2; [done| |done]. destruct Hm as (r & H1 & H2). exists r. split; [done|].
        eapply rtc_r; [exact H2|]. apply leads_nested. exists n. split; [apply Hl; left|done]. }
      apply (Hv _ (tick g)) in EV; [exact EV|intros n; rewrite order_elem; done|done].
    Qed.
    Lemma selfish_hangs l f : resolvable W l -> packaged W l -> concerned W l (wo_message W name) ->
      spec_document W order f l = OutOfFuel.
    Proof using Hself Hin Hfirst HO.
      intros HR HP Hm. destruct (packaged_result f l HP) as [H|(d & H)]; [done|]. exfalso.
      apply document_parts in H as (g & files & Hg & _). pose proof (objects_exact W order HO l f g HR Hg) as Hobj.
      assert (forall l1 g1 g2, (forall x, x ∈ l1 -> x ∈ l) -> describe_all W order f l1 g1 = Ok g2 ->
        name ∈ ge_set g2 -> name ∈ ge_set g1) as Hd.
      { induction l1 as [|x l1 IH]; intros g1 g2 Hl H Hn; [injection H as <-; done|]. simpl in H.
        destruct (describe _ _ _ _ _) as [g3| | |] eqn:E; try discriminate H.
        apply IH in H; [|set_solver|done]. clear IH Hn.
        assert (x ∈ l) as Hx by (apply Hl; left).
        assert (concerned W l (de_message x)) as Hc by (exists (de_message x); split; [exists x; auto|apply rtc_refl]).
        unfold describe, add_singleton, add_object, add_or_hang in E. destruct (def_singleton _) eqn:ES.
        - destruct (add_required _ _ _ _ _) as [g4|] eqn:E4; [|discriminate E]. injection E as <-.
          apply (selfish_others l) in E4; done.
        - destruct (add_required _ _ _ _ _) as [g4|] eqn:E4; [|discriminate E].
          unfold forge_list in E. destruct (negb _); [discriminate E|]. destruct (bytes_eqb _ _); [discriminate E|].
          destruct (add_required _ _ _ (list_message _) _) as [g5|] eqn:E5; [|discriminate E]. injection E as <-.
          apply (selfish_others l) in E5; [|done| |done].
          + simpl in E5. apply (selfish_others l) in E4; done.
          + exists (list_message (de_message x)). split; [|apply rtc_refl]. exists x. split; [done|]. right.
            split; [done|apply list_message_of]. }
      assert (name ∈ ge_set g) as Hn.
      { clear Hd. revert Hg Hobj. intros Hg Hobj. apply Hobj in Hm.
        assert (forall l1 g1 g2, describe_all W order f l1 g1 = Ok g2 ->
          (forall m, m ∈ ge_objects g1 -> me_name m ∈ ge_set g1) -> forall m, m ∈ ge_objects g2 -> me_name m ∈ ge_set g2) as Ha.
        { clear - HO. assert (forall m g g', add_required W order f m g = Some g' ->
            (forall m, m ∈ ge_objects g -> me_name m ∈ ge_set g) -> forall m, m ∈ ge_objects g' -> me_name m ∈ ge_set g') as Hr.
          { intros m g g' H Hg m' Hm. apply required_grows in H as (new & G & _); [|done].
            rewrite (gr_objects _ _ _ _ _ G) in Hm. apply elem_of_app in Hm as [Hm|Hm];
              [apply (gr_set _ _ _ _ _ G), Hg, Hm|apply (gr_new _ _ _ _ _ G), Hm]. }
          induction l1 as [|x l1 IH]; intros g1 g2 H H1; [injection H as <-; done|]. simpl in H.
          destruct (describe _ _ _ _ _) as [g3| | |] eqn:E; try discriminate H. apply (IH _ _ H). clear IH H.
          unfold describe, add_singleton, add_object, add_or_hang in E. destruct (def_singleton _) eqn:ES.
          - destruct (add_required _ _ _ _ _) as [g4|] eqn:E4; [|discriminate E]. injection E as <-. apply (Hr _ _ _ E4). exact H1.
          - destruct (add_required _ _ _ _ _) as [g4|] eqn:E4; [|discriminate E].
            unfold forge_list in E. destruct (negb _); [discriminate E|]. destruct (bytes_eqb _ _); [discriminate E|].
            destruct (add_required _ _ _ (list_message _) _) as [g5|] eqn:E5; [|discriminate E]. injection E as <-.
            apply (Hr _ _ _ E5). apply (Hr _ _ _ E4). exact H1. }
        apply (Ha l new_generator g Hg) in Hm; [rewrite Hself in Hm; done|]. intros m H. simpl in H. set_solver. }
      apply (Hd l new_generator g (fun _ H => H) Hg) in Hn. simpl in Hn. set_solver.
    Qed.
  End Selfish.
End Ends.
