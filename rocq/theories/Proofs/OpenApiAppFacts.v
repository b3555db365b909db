(** The document of the application's objects. *)
From Coq Require Import NArith List Bool String Lia.
From stdpp Require Import base list relations sorting.
From Verif.Model Require Import Bytes KindEncoder Desc Schema KV ApiServer OpenApi ProtoFiles.
From Verif.Spec Require Import OpenApiSpec ServiceSpec DemoOpenApi.
From Verif.Proofs Require Import BytesFacts KVFacts OpenApiFacts OpenApiDocFacts ServiceFacts.

Global Instance field_eq_dec : EqDecision field. Proof. solve_decision. Defined.
Global Instance msgdesc_eq_dec : EqDecision msgdesc. Proof. solve_decision. Defined.
Global Instance filedesc_eq_dec : EqDecision filedesc. Proof. solve_decision. Defined.
Global Instance message_eq_dec : EqDecision message. Proof. solve_decision. Defined.

(** ** Two lists in one file: the later one has no schema *)
Lemma dep_fresh W f a s s' : add_dep W f a s = Some s' ->
  (forall p, p ∈ s.1 -> p ∈ s'.1) /\ forall b, b ∈ s'.2 -> b ∈ s.2 \/ fl_path b ∉ s.1.
Proof.
  revert a s s'. induction f as [|f IH]; intros a s s' H; [discriminate H|].
  rewrite add_dep_step in H. destruct (bool_decide _) eqn:E; [injection H as <-; auto|]. apply bool_decide_eq_false in E.
  destruct (visit_files _ _ _ _) as [s1|] eqn:EV; [|discriminate H]. injection H as <-.
  assert (forall l s s1, visit_files W f l s = Some s1 ->
    (forall p, p ∈ s.1 -> p ∈ s1.1) /\ forall b, b ∈ s1.2 -> b ∈ s.2 \/ fl_path b ∉ s.1) as Hv.
  { clear - IH. induction l as [|n l IHl]; intros s s1 H; [injection H as <-; auto|]. simpl in H.
    destruct (add_dep _ _ _ _) as [s2|] eqn:E2; [|discriminate H]. apply IH in E2 as [A B]. apply IHl in H as [A2 B2].
    split; [auto|]. intros b Hb. apply B2 in Hb as [Hb|Hb]; [auto|]. right. intros Hp. apply Hb, A, Hp. }
  apply Hv in EV as [A B]. split; simpl; [set_solver|]. intros b [Hb|Hb]%elem_of_app; [auto|].
  apply elem_of_list_singleton in Hb as ->. auto.
Qed.
Lemma deps_fresh W f ms s s' : add_deps W f ms s = Some s' ->
  (forall p, p ∈ s.1 -> p ∈ s'.1) /\ forall b, b ∈ s'.2 -> b ∈ s.2 \/ fl_path b ∉ s.1.
Proof.
  revert s. induction ms as [|m ms IH]; intros s H; [injection H as <-; auto|]. simpl in H.
  destruct (add_dep _ _ _ _) as [s1|] eqn:E; [|discriminate H]. apply dep_fresh in E as [A B]. apply IH in H as [A2 B2].
  split; [auto|]. intros b Hb. apply B2 in Hb as [Hb|Hb]; [auto|]. right. intros Hp. apply Hb, A, Hp.
Qed.
Lemma add_deps_app W f a b s :
  add_deps W f (a ++ b) s = match add_deps W f a s with Some s' => add_deps W f b s' | None => None end.
Proof. revert s. induction a as [|m a IH]; intros s; [done|]. simpl. destruct (add_dep _ _ _ _); [apply IH|done]. Qed.
Lemma describe_all_app W order f a b g :
  describe_all W order f (a ++ b) g = match describe_all W order f a g with Ok g' => describe_all W order f b g' | r => r end.
Proof. revert g. induction a as [|m a IH]; intros g; [done|]. simpl. destruct (describe _ _ _ _ _); [apply IH|done..]. Qed.
Lemma concerned_more W l l' m : (forall x, x ∈ l -> x ∈ l') -> concerned W l m -> concerned W l' m.
Proof. intros H (r & (x & Hx & Hr) & Hm). exists r. split; [exists x; auto|done]. Qed.

Lemma later_list_missing W order f la lb d x name path :
  any_order order -> spec_document W order f (la ++ lb) = Ok d ->
  (forall m, concerned W la m -> wo_message W (me_name m) = m) ->
  (forall a n, involved W (la ++ lb) a -> n ∈ fl_messages a ->
     me_name (wo_message W n) = n /\ n = plain_name (wo_message W n)) ->
  x ∈ la -> def_singleton (de_definition x) = false -> path = str "dynamic/" ++ fl_path (me_file (de_message x)) ->
  (forall a, involved W la a -> name ∉ fl_messages a) ->
  (forall a, involved W (la ++ lb) a -> name ∈ fl_messages a -> fl_path a = path) ->
  forall p, (name, p) ∉ do_schemas d.
Proof.
  intros HO H HR HN Hx Hsi -> H1 H2 p Hi.
  apply document_parts in H as (g & files & Hg & Hf & _ & Hs).
  set (l := la ++ lb) in *.
  pose proof (describe_all_settled W order HO l f l new_generator g (settled_new W l) (fun _ H => H) Hg) as ((_ & Hc & _) & _).
  unfold l in Hg. rewrite describe_all_app in Hg. destruct (describe_all _ _ _ la _) as [g1| | |] eqn:Eg1; try discriminate Hg.
  pose proof (objects_exact W order HO la f g1 HR Eg1) as Hobj.
  assert (settled W l g1) as Hs1.
  { apply (describe_all_settled W order HO l) in Eg1 as (A & _); [done|apply settled_new|].
    intros y Hy. apply elem_of_app. auto. }
  apply (describe_all_settled W order HO l) in Hg as (_ & _ & _ & new & Eg);
    [|done|intros y Hy; apply elem_of_app; auto].
  (* the files *)
  assert (forall a, a ∈ files -> involved W l a /\ name ∉ fl_messages a) as Hfiles.
  { unfold plugin_files in Hf. destruct (add_deps _ _ _ _) as [s|] eqn:E; [|discriminate Hf].
    destruct (forallb _ _); [|discriminate Hf]. injection Hf as <-.
    pose proof E as EA. apply deps_adds in EA as (fs & G & _).
    assert (forall a, a ∈ s.2 -> involved W l a) as Hinv.
    { intros a Ha. rewrite (ad_files _ _ _ _ _ G) in Ha. simpl in Ha. pose proof (ad_reached _ _ _ _ _ G) as HA.
      rewrite Forall_forall in HA. apply HA in Ha as (m & Hm & Ha). exists m. split; [|done]. rewrite Forall_forall in Hc. auto. }
    rewrite Eg, add_deps_app in E. destruct (add_deps _ _ (ge_objects g1) _) as [s1|] eqn:E1; [|discriminate E].
    intros a Ha. split; [auto|]. intros Hn. apply deps_fresh in E as [_ B]. pose proof (B a Ha) as [Hb|Hb].
    - apply deps_adds in E1 as (fs1 & G1 & _). rewrite (ad_files _ _ _ _ _ G1) in Hb. simpl in Hb.
      pose proof (ad_reached _ _ _ _ _ G1) as HA. rewrite Forall_forall in HA. apply HA in Hb as (m & Hm & Hb).
      apply (H1 a); [|done]. exists m. split; [apply Hobj, Hm|done].
    - apply Hb. rewrite (H2 a (Hinv a Ha) Hn). apply deps_adds in E1 as (fs1 & G1 & L1).
      apply (L1 (list_message (de_message x))). apply Hobj. exists (list_message (de_message x)). split; [|apply rtc_refl].
      exists x. split; [done|]. right. split; [done|apply list_message_of]. }
  (* the schemas *)
  rewrite Hs, add_schemas_fold, merge_sort_Permutation in Hi.
  destruct (schemas_spec W (flat_map fl_messages files)
    {| sc_generated := []; sc_required := (all_paths (ge_operations g) files ([], ge_required g)).2; sc_list := [] |}) as (nw & D).
  { intros n Hn. apply elem_of_list_In, in_flat_map in Hn as (a & Ha & Hn). apply elem_of_list_In in Ha, Hn.
    destruct (HN a n) as [A B]; [apply Hfiles, Ha|done|]. split; [done|]. rewrite type_name_plain, <-B. done. }
  rewrite (dn_list _ _ _ _ _ D) in Hi. simpl in Hi. apply elem_of_list_In, in_map_iff in Hi as (n & [= <- _] & Hi).
  apply elem_of_list_In, (dn_within _ _ _ _ _ D), elem_of_list_In, in_flat_map in Hi as (a & Ha & Hn).
  apply elem_of_list_In in Ha, Hn. apply (Hfiles a Ha), Hn.
Qed.

(** ** Checking a world for a list of objects *)
Section Within.
  Context (W : world) (l : list described) (S : list message) (F : list filedesc).
  Definition roots_within : bool :=
    forallb (fun x => bool_decide (de_message x ∈ S)
      && (def_singleton (de_definition x) || bool_decide (list_message (de_message x) ∈ S))) l.
  Definition closed_within : bool :=
    forallb (fun m => forallb (fun n => bool_decide (wo_message W n ∈ S)) (nested_messages m)) S.
  Definition files_within : bool :=
    forallb (fun m => bool_decide (me_file m ∈ F)) S
    && forallb (fun a => forallb (fun p => bool_decide (wo_file W p ∈ F)) (fl_imports a)) F.
  Lemma concerned_within : roots_within = true -> closed_within = true -> forall m, concerned W l m -> m ∈ S.
  Proof.
    intros HR HC m (r & (x & Hx & Hr) & Hm).
    assert (r ∈ S) as Hs.
    { unfold roots_within in HR. rewrite forallb_forall in HR. specialize (HR x (proj1 (elem_of_list_In _ _) Hx)).
      apply andb_true_iff in HR as [A B]. apply bool_decide_eq_true in A. destruct Hr as [->|[Hs Hr]]; [done|].
      rewrite Hs in B. apply list_of_unique in Hr as ->. apply bool_decide_eq_true in B. done. }
    clear Hr Hx. induction Hm as [a|a b c Hab Hbc IH]; [done|]. apply IH.
    apply leads_nested in Hab as (n & Hn & ->). unfold closed_within in HC. rewrite forallb_forall in HC.
    specialize (HC a (proj1 (elem_of_list_In _ _) Hs)). rewrite forallb_forall in HC.
    specialize (HC n (proj1 (elem_of_list_In _ _) Hn)). apply bool_decide_eq_true in HC. done.
  Qed.
  Lemma involved_within : roots_within = true -> closed_within = true -> files_within = true -> forall a, involved W l a -> a ∈ F.
  Proof.
    intros HR HC HF a (m & Hm & Ha). apply (concerned_within HR HC) in Hm. apply andb_true_iff in HF as [A B].
    rewrite forallb_forall in A, B. specialize (A m (proj1 (elem_of_list_In _ _) Hm)). apply bool_decide_eq_true in A.
    revert A. induction Ha as [b|b c e Hbc Hce IH]; [done|]. intros Hb. apply IH. destruct Hbc as (p & Hp & ->).
    specialize (B b (proj1 (elem_of_list_In _ _) Hb)). rewrite forallb_forall in B.
    specialize (B p (proj1 (elem_of_list_In _ _) Hp)). apply bool_decide_eq_true in B. done.
  Qed.
  Definition resolves_within : bool := forallb (fun m => bool_decide (wo_message W (me_name m) = m)) S.
  Definition declared_within : bool := forallb (fun m => bool_decide (me_name m ∈ fl_messages (me_file m))) S.
  Definition named_within : bool :=
    forallb (fun a => forallb (fun n => bytes_eqb (me_name (wo_message W n)) n && bytes_eqb n (plain_name (wo_message W n))) (fl_messages a)) F.
  Lemma resolvable_within : roots_within = true -> closed_within = true -> resolves_within = true -> resolvable W l.
  Proof.
    intros HR HC HS m Hm. apply (concerned_within HR HC) in Hm. unfold resolves_within in HS. rewrite forallb_forall in HS.
    specialize (HS m (proj1 (elem_of_list_In _ _) Hm)). apply bool_decide_eq_true in HS. done.
  Qed.
  Lemma named_files : named_within = true -> forall a n, a ∈ F -> n ∈ fl_messages a ->
    me_name (wo_message W n) = n /\ n = plain_name (wo_message W n).
  Proof.
    intros HN a n Ha Hn. unfold named_within in HN. rewrite forallb_forall in HN.
    specialize (HN a (proj1 (elem_of_list_In _ _) Ha)). rewrite forallb_forall in HN.
    specialize (HN n (proj1 (elem_of_list_In _ _) Hn)). apply andb_true_iff in HN as [A B].
    split; apply bytes_eqb_spec; done.
  Qed.
  Lemma regular_within : roots_within = true -> closed_within = true -> files_within = true ->
    resolves_within = true -> declared_within = true -> named_within = true -> NoDup (map fl_path F) -> regular W l.
  Proof.
    intros HR HC HF HS HD HN HP. split; [apply resolvable_within; done|]. split; [|split].
    - intros m Hm. apply (concerned_within HR HC) in Hm. unfold declared_within in HD. rewrite forallb_forall in HD.
      specialize (HD m (proj1 (elem_of_list_In _ _) Hm)). apply bool_decide_eq_true in HD. done.
    - intros a b Ha Hb E. apply (involved_within HR HC HF) in Ha, Hb. exact (nodup_inj fl_path F a b HP Ha Hb E).
    - intros a n Ha. apply (involved_within HR HC HF) in Ha. exact (named_files HN a n Ha).
  Qed.
  Definition packaged_within : bool :=
    forallb fl_go_package F
    && forallb (fun x => def_singleton (de_definition x) || negb (bytes_eqb (fl_package (me_file (de_message x))) [])) l.
  Lemma packaged_by : roots_within = true -> closed_within = true -> files_within = true -> packaged_within = true -> packaged W l.
  Proof.
    intros HR HC HF HP. apply andb_true_iff in HP as [A B]. rewrite forallb_forall in A, B. split.
    - intros a Ha. apply A, elem_of_list_In. apply (involved_within HR HC HF), Ha.
    - intros x Hx Hs E. specialize (B x (proj1 (elem_of_list_In _ _) Hx)). rewrite Hs, E in B. discriminate B.
  Qed.
  (** Heights, for what has no cycles. *)
  Fixpoint height (f : nat) (m : message) : nat :=
    match f with O => 0 | Datatypes.S f => Datatypes.S (list_max (map (fun n => height f (wo_message W n)) (nested_messages m))) end.
  Fixpoint file_height (f : nat) (a : filedesc) : nat :=
    match f with O => 0 | Datatypes.S f => Datatypes.S (list_max (map (fun p => file_height f (wo_file W p)) (fl_imports a))) end.
  Definition ranked_within (f : nat) : bool :=
    forallb (fun m => forallb (fun n => Nat.ltb (height f (wo_message W n)) (height f m)) (nested_messages m)) S
    && forallb (fun a => forallb (fun p => Nat.ltb (file_height f (wo_file W p)) (file_height f a)) (fl_imports a)) F.
  Lemma acyclic_within f : roots_within = true -> closed_within = true -> files_within = true ->
    resolves_within = true -> NoDup (map fl_path F) -> ranked_within f = true -> acyclic W l.
  Proof.
    intros HR HC HF HS HP H. apply andb_true_iff in H as [A B]. rewrite forallb_forall in A, B.
    set (file_of p := List.find (fun a => bytes_eqb (fl_path a) p) F).
    assert (forall a, a ∈ F -> file_of (fl_path a) = Some a) as HFo.
    { intros a Ha. unfold file_of. destruct (List.find _ F) as [b|] eqn:E.
      - apply find_some in E as [Hb E]. apply bytes_eqb_spec in E. f_equal.
        apply (nodup_inj fl_path F); [done|by apply elem_of_list_In|done|done].
      - pose proof (find_none _ _ E a (proj1 (elem_of_list_In _ _) Ha)) as Hf. simpl in Hf.
        apply bytes_eqb_false in Hf. done. }
    exists (fun n => height f (wo_message W n)), (fun p => match file_of p with Some a => file_height f a | None => 0 end).
    pose proof (resolvable_within HR HC HS) as Hres. split.
    - intros m n Hm HL. rewrite (Hres m Hm).
      assert (concerned W l n) as Hn by (destruct Hm as (r & H1 & H2); exists r; split; [done|]; eapply rtc_r; eauto).
      rewrite (Hres n Hn). apply leads_nested in HL as (name & HL & ->). apply (concerned_within HR HC) in Hm.
      specialize (A m (proj1 (elem_of_list_In _ _) Hm)). rewrite forallb_forall in A.
      specialize (A name (proj1 (elem_of_list_In _ _) HL)). apply Nat.ltb_lt in A. done.
    - intros a b Ha HL.
      assert (involved W l b) as Hb by (destruct Ha as (r & H1 & H2); exists r; split; [done|]; eapply rtc_r; eauto).
      apply (involved_within HR HC HF) in Ha, Hb. rewrite (HFo a Ha), (HFo b Hb). destruct HL as (p & Hp & ->).
      specialize (B a (proj1 (elem_of_list_In _ _) Ha)). rewrite forallb_forall in B.
      specialize (B p (proj1 (elem_of_list_In _ _) Hp)). apply Nat.ltb_lt in B. done.
  Qed.
End Within.

(** ** The application *)
Definition app_described : list described := map (described_of proto_world) app_served.
Definition keyed (l : list described) : list described := List.filter (fun x => negb (def_singleton (de_definition x))) l.
Definition lists (l : list described) : list message := map (fun x => list_message (de_message x)) (keyed l).
(** Without the list of modules, whose messages are declared within messages, and
    the role bindings, which share the file of the roles. *)
Definition plain_described : list described :=
  List.filter (fun x => negb (bytes_eqb (de_kind x) (str "ModuleDescriptors")) && negb (bytes_eqb (de_kind x) (str "RoleBinding"))) app_described.
Definition declared_order (_ : nat) (l : list bytes) : list bytes := l.
Lemma declared_any : any_order declared_order.
Proof. intros i l. done. Qed.

Definition app_names : list bytes :=
  Eval vm_compute in remove_dups (map me_name match describe_all proto_world declared_order 40 app_described new_generator with Ok g => ge_objects g | _ => [] end).
Definition plain_names : list bytes :=
  Eval vm_compute in map me_name match describe_all proto_world declared_order 40 plain_described new_generator with Ok g => ge_objects g | _ => [] end.
Definition app_closure : list message := map (wo_message proto_world) app_names.
Definition plain_closure : list message := map (wo_message proto_world) plain_names.
Definition app_files : list filedesc := proto_files ++ map me_file (lists app_described).
Definition plain_files : list filedesc := proto_files ++ map me_file (lists plain_described).

Lemma app_roots : roots_within app_described app_closure = true. Proof. vm_compute. reflexivity. Qed.
Lemma app_closed : closed_within proto_world app_closure = true. Proof. vm_compute. reflexivity. Qed.
Lemma app_filed : files_within proto_world app_closure app_files = true. Proof. vm_compute. reflexivity. Qed.
Lemma app_resolved : resolves_within proto_world app_closure = true. Proof. vm_compute. reflexivity. Qed.
Lemma app_named : named_within proto_world app_files = true. Proof. vm_compute. reflexivity. Qed.
Lemma app_packaged : packaged_within app_described app_files = true. Proof. vm_compute. reflexivity. Qed.
Lemma plain_roots : roots_within plain_described plain_closure = true. Proof. vm_compute. reflexivity. Qed.
Lemma plain_closed : closed_within proto_world plain_closure = true. Proof. vm_compute. reflexivity. Qed.
Lemma plain_filed : files_within proto_world plain_closure plain_files = true. Proof. vm_compute. reflexivity. Qed.
Lemma plain_resolved : resolves_within proto_world plain_closure = true. Proof. vm_compute. reflexivity. Qed.
Lemma plain_named : named_within proto_world plain_files = true. Proof. vm_compute. reflexivity. Qed.
Lemma plain_declared : declared_within plain_closure = true. Proof. vm_compute. reflexivity. Qed.
Lemma plain_packaged : packaged_within plain_described plain_files = true. Proof. vm_compute. reflexivity. Qed.
Lemma plain_paths : NoDup (map fl_path plain_files). Proof. apply (bool_decide_unpack _). vm_compute. exact I. Qed.
Lemma plain_ranked : ranked_within proto_world plain_closure plain_files 20 = true. Proof. vm_compute. reflexivity. Qed.

Lemma plain_regular : regular proto_world plain_described.
Proof.
  apply (regular_within _ _ plain_closure plain_files);
    [exact plain_roots|exact plain_closed|exact plain_filed|exact plain_resolved|exact plain_declared|exact plain_named|exact plain_paths].
Qed.
Lemma plain_is_packaged : packaged proto_world plain_described.
Proof. apply (packaged_by _ _ plain_closure plain_files); [exact plain_roots|exact plain_closed|exact plain_filed|exact plain_packaged]. Qed.
Lemma plain_acyclic : acyclic proto_world plain_described.
Proof.
  apply (acyclic_within _ _ plain_closure plain_files 20);
    [exact plain_roots|exact plain_closed|exact plain_filed|exact plain_resolved|exact plain_paths|exact plain_ranked].
Qed.

(** Paths *)
Definition app_paths : list bytes :=
  map snd single_paths ++ flat_map (fun e => [e.1.2 ++ str "s"; e.1.2 ++ str "/{" ++ e.2 ++ str "}"]) keyed_paths.
Definition operation_paths : list bytes := map ro_path (flat_map operations app_described).
Lemma paths_agree : forallb (fun p => bool_decide (p ∈ app_paths)) operation_paths && forallb (fun p => bool_decide (p ∈ operation_paths)) app_paths = true.
Proof. vm_compute. reflexivity. Qed.
Lemma app_paths_spec p : p ∈ app_paths <-> (exists ty, (ty, p) ∈ single_paths)
  \/ exists ty path key, (ty, path, key) ∈ keyed_paths /\ (p = path ++ str "s" \/ p = path ++ str "/{" ++ key ++ str "}").
Proof.
  unfold app_paths. generalize single_paths keyed_paths. intros singles keyeds. rewrite elem_of_app. split.
  - intros [H|H].
    + left. apply elem_of_list_In, in_map_iff in H as ([ty q] & <- & H). exists ty. apply elem_of_list_In, H.
    + right. apply elem_of_list_In, in_flat_map in H as ([[ty path] key] & H & Hp). exists ty, path, key.
      split; [apply elem_of_list_In, H|]. simpl in Hp. destruct Hp as [<- |[<- |[]]]; auto.
  - intros [(ty & H)|(ty & path & key & H & Hp)].
    + left. apply elem_of_list_In, in_map_iff. exists (ty, p). split; [done|apply elem_of_list_In, H].
    + right. apply elem_of_list_In, in_flat_map. exists (ty, path, key). split; [apply elem_of_list_In, H|].
      simpl. destruct Hp as [-> | ->]; auto.
Qed.
Lemma app_paths_exact order f d : any_order order -> spec_document proto_world order f app_described = Ok d ->
  forall p, p ∈ map fst (do_paths d) <-> (exists ty, (ty, p) ∈ single_paths)
    \/ exists ty path key, (ty, path, key) ∈ keyed_paths /\ (p = path ++ str "s" \/ p = path ++ str "/{" ++ key ++ str "}").
Proof.
  intros HO H p. rewrite <-app_paths_spec. destruct (paths_exact _ _ HO _ _ _ H) as (_ & A & _). rewrite A. clear A H d.
  pose proof paths_agree as H. apply andb_true_iff in H as [A B]. rewrite forallb_forall in A, B. split.
  - intros (x & id & params & name & Hx & Hd). apply documented_operations in Hd as (r & Hr & <-).
    assert (ro_path r ∈ operation_paths) as Hi.
    { apply elem_of_list_In, in_map_iff. exists r. split; [done|]. apply in_flat_map. exists x.
      split; apply elem_of_list_In; done. }
    apply elem_of_list_In, A, bool_decide_eq_true in Hi. exact Hi.
  - intros Hp. apply elem_of_list_In, B, bool_decide_eq_true in Hp.
    apply elem_of_list_In, in_map_iff in Hp as (r & <- & Hr). apply in_flat_map in Hr as (x & Hx & Hr).
    apply elem_of_list_In in Hx, Hr. exists x. apply operations_documented in Hr. eauto 10.
Qed.

(** The list of role bindings. *)
Definition bindings_path : bytes := str "/tmos.core.rbac.v1alpha1/rolebindings".
Definition bindings_name : bytes := str "dynamic.tmos.core.rbac.v1alpha1.RoleBindingList".
Definition roles_message : message := wo_message proto_world (str "tmos.core.rbac.v1alpha1.Role").
Definition up_to_roles : nat := 13.
Definition first_described : list described := firstn up_to_roles app_described.
Definition first_files : list filedesc := proto_files ++ map me_file (lists first_described).
Definition first_names : list bytes :=
  Eval vm_compute in remove_dups (map me_name match describe_all proto_world declared_order 40 first_described new_generator with Ok g => ge_objects g | _ => [] end).
Definition first_closure : list message := map (wo_message proto_world) first_names.
Lemma first_roots : roots_within first_described first_closure = true. Proof. vm_compute. reflexivity. Qed.
Lemma first_closed : closed_within proto_world first_closure = true. Proof. vm_compute. reflexivity. Qed.
Lemma first_filed : files_within proto_world first_closure first_files = true. Proof. vm_compute. reflexivity. Qed.
Lemma first_resolved : resolves_within proto_world first_closure = true. Proof. vm_compute. reflexivity. Qed.
Lemma first_without : forallb (fun a => negb (bool_decide (bindings_name ∈ fl_messages a))) first_files = true.
Proof. vm_compute. reflexivity. Qed.
Lemma later_there : forallb (fun a => negb (bool_decide (bindings_name ∈ fl_messages a))
  || bytes_eqb (fl_path a) (str "dynamic/" ++ fl_path (me_file roles_message))) app_files = true.
Proof. vm_compute. reflexivity. Qed.
Lemma roles_first : existsb (fun x => bool_decide (de_message x = roles_message) && negb (def_singleton (de_definition x))) first_described = true.
Proof. vm_compute. reflexivity. Qed.
Lemma bindings_operation : forallb (fun r => negb (bytes_eqb (ro_path r) bindings_path)
  || bytes_eqb (plain_name (ro_response r)) bindings_name) (flat_map operations app_described) = true.
Proof. vm_compute. reflexivity. Qed.
Lemma bindings_there : bool_decide (bindings_path ∈ app_paths) = true.
Proof. vm_compute. reflexivity. Qed.
Lemma bindings_plain : answer_said bindings_name = fun c => c = CJson (str "#/components/schemas/" ++ bindings_name).
Proof. reflexivity. Qed.

Lemma bindings_missing order f d : any_order order -> spec_document proto_world order f app_described = Ok d ->
  forall p, (bindings_name, p) ∉ do_schemas d.
Proof.
  intros HO H. pose proof roles_first as HR. apply existsb_exists in HR as (x & Hx & HR).
  apply andb_true_iff in HR as [Hm Hs]. apply bool_decide_eq_true in Hm. apply negb_true_iff in Hs.
  rewrite <-(firstn_skipn up_to_roles app_described) in H. fold first_described in H.
  eapply (later_list_missing proto_world order f first_described _ d x bindings_name _ HO H).
  - apply (resolvable_within _ _ first_closure); [exact first_roots|exact first_closed|exact first_resolved].
  - intros a n Ha. unfold first_described in Ha. rewrite firstn_skipn in Ha.
    apply (involved_within _ _ app_closure app_files app_roots app_closed app_filed) in Ha.
    exact (named_files _ _ app_named a n Ha).
  - apply elem_of_list_In, Hx.
  - exact Hs.
  - reflexivity.
  - intros a Ha. apply (involved_within _ _ first_closure first_files first_roots first_closed first_filed) in Ha.
    pose proof first_without as HW. rewrite forallb_forall in HW. specialize (HW a (proj1 (elem_of_list_In _ _) Ha)).
    apply negb_true_iff, bool_decide_eq_false in HW. exact HW.
  - intros a Ha Hn. unfold first_described in Ha. rewrite firstn_skipn in Ha.
    apply (involved_within _ _ app_closure app_files app_roots app_closed app_filed) in Ha.
    pose proof later_there as HW. rewrite forallb_forall in HW. specialize (HW a (proj1 (elem_of_list_In _ _) Ha)).
    apply orb_true_iff in HW as [HW|HW]; [apply negb_true_iff, bool_decide_eq_false in HW; done|].
    apply bytes_eqb_spec in HW. rewrite HW, Hm. reflexivity.
Qed.
Lemma bindings_dangling order f d : any_order order -> spec_document proto_world order f app_described = Ok d ->
  let r := str "#/components/schemas/" ++ bindings_name in
  refers d r /\ ~ resolves d r.
Proof.
  intros HO H r. split.
  - destruct (paths_exact _ _ HO _ _ _ H) as (_ & _ & C).
    pose proof (app_paths_exact _ _ _ HO H bindings_path) as A. rewrite <-app_paths_spec in A.
    pose proof bindings_there as B. apply bool_decide_eq_true, A in B.
    apply elem_of_list_In, in_map_iff in B as ([q o] & Hq & B). cbn [fst] in Hq. subst q. apply elem_of_list_In in B.
    apply (refers_path d bindings_path o r B).
    apply C in B as (x & name & Hx & Hd & Ha).
    assert (name = bindings_name) as ->.
    { assert (exists r, r ∈ operations x /\ ro_path r = bindings_path /\ plain_name (ro_response r) = name) as (r' & Hr & Hp & <-).
      { clear - Hd. revert Hd. generalize bindings_path, (op_id o), (op_params o). intros p id params [E|E|E]; unfold operations; rewrite E;
          [eexists; split; [left|split; reflexivity]|eexists; split; [left|split; reflexivity]|eexists; split; [right; left|split; [reflexivity|]]].
        unfold plain_name, list_name. simpl. rewrite <-?app_assoc. done. }
      pose proof bindings_operation as HW. rewrite forallb_forall in HW.
      assert (In r' (flat_map operations app_described)) as Hi by (apply in_flat_map; exists x; split; apply elem_of_list_In; done).
      apply HW, orb_true_iff in Hi as [Hi|Hi].
      - apply negb_true_iff, bytes_eqb_false in Hi. done.
      - apply bytes_eqb_spec in Hi. done. }
    rewrite bindings_plain in Ha. exact Ha.
  - intros (name & p & E & Hi). apply app_inv_head in E. subst name. exact (bindings_missing _ _ _ HO H p Hi).
Qed.

(** An order in which the generator never ends. *)
Definition recursive_name : bytes := str "google.protobuf.DescriptorProto".
Definition self_first (_ : nat) (l : list bytes) : list bytes :=
  List.filter (fun n => bytes_eqb n recursive_name) l ++ List.filter (fun n => negb (bytes_eqb n recursive_name)) l.
Lemma self_first_any : any_order self_first.
Proof.
  intros i l. unfold self_first. induction l as [|n l IH]; [done|]. simpl. destruct (bytes_eqb n recursive_name); simpl.
  - rewrite IH. done.
  - rewrite <-Permutation_middle, IH. done.
Qed.
Lemma self_first_first i l : recursive_name ∈ l -> exists l', self_first i l = recursive_name :: l'.
Proof.
  intros H. unfold self_first. assert (recursive_name ∈ List.filter (fun n => bytes_eqb n recursive_name) l) as Hi.
  { apply elem_of_list_In, filter_In. split; [by apply elem_of_list_In|]. by apply bytes_eqb_spec. }
  destruct (List.filter _ l) as [|n l'] eqn:E; [set_solver|]. assert (n ∈ n :: l') as Hn by left. rewrite <-E in Hn.
  apply elem_of_list_In, filter_In in Hn as [_ Hn]. apply bytes_eqb_spec in Hn as ->. simpl. eauto.
Qed.
Lemma recursive_self : bytes_eqb (me_name (wo_message proto_world recursive_name)) recursive_name
  && bool_decide (recursive_name ∈ nested_messages (wo_message proto_world recursive_name)) = true.
Proof. vm_compute. reflexivity. Qed.
Fixpoint stepping (a : bytes) (l : list bytes) : bool :=
  match l with
  | [] => true
  | b :: l' => bool_decide (b ∈ nested_messages (wo_message proto_world a)) && stepping b l'
  end.
Lemma stepping_reaches l : forall a, stepping a l = true ->
  rtc (leads proto_world) (wo_message proto_world a) (wo_message proto_world (List.last l a)).
Proof.
  induction l as [|b l IH]; intros a H; [apply rtc_refl|]. cbn [stepping] in H. apply andb_true_iff in H as [A B].
  apply bool_decide_eq_true in A. apply IH in B. replace (List.last (b :: l) a) with (List.last l b).
  - eapply rtc_l; [|exact B]. apply leads_nested. eauto.
  - clear. revert b. induction l as [|c l IH]; intros b; [done|]. cbn [List.last] in *. destruct l; [done|]. rewrite IH. apply IH.
Qed.
Definition modules_name : bytes := str "tmos.runtime.v1alpha1.ModuleDescriptors".
Definition steps : list bytes :=
  [str "tmos.core.module.v1.Descriptor"; str "tmos.core.module.v1.StateObject"; str "google.protobuf.FileDescriptorProto"; recursive_name].
Lemma steps_step : stepping modules_name steps = true.
Proof. vm_compute. reflexivity. Qed.
Lemma modules_there : existsb (fun x => bool_decide (de_message x = wo_message proto_world modules_name)) app_described = true.
Proof. vm_compute. reflexivity. Qed.
Lemma app_hangs f : spec_document proto_world self_first f app_described = OutOfFuel.
Proof.
  pose proof recursive_self as H. apply andb_true_iff in H as [A B]. apply bytes_eqb_spec in A. apply bool_decide_eq_true in B.
  apply (selfish_hangs proto_world self_first self_first_any recursive_name A B self_first_first).
  - apply (resolvable_within _ _ app_closure); [exact app_roots|exact app_closed|exact app_resolved].
  - apply (packaged_by _ _ app_closure app_files); [exact app_roots|exact app_closed|exact app_filed|exact app_packaged].
  - pose proof modules_there as H. apply existsb_exists in H as (x & Hx & H). apply bool_decide_eq_true in H.
    exists (de_message x). split; [exists x; split; [apply elem_of_list_In, Hx|auto]|]. rewrite H.
    exact (stepping_reaches steps modules_name steps_step).
Qed.

(** A message that contains itself and no other message. *)
Definition loop_file : filedesc := file (str "loop.proto") (str "loop") [] [str "loop.Tree"].
Definition loop_message : message :=
  declared loop_file (str "loop.Tree") (str "Tree") [one (str "id") StringKind; many_of (str "children") (str "loop.Tree")].
Definition loop_world : world := {| wo_message _ := loop_message; wo_file _ := loop_file |}.
Definition loop_described : described :=
  {| de_group := str "loop"; de_kind := str "Tree"; de_message := loop_message;
     de_definition := {| def_singleton := true; def_primary_key := []; def_secondary_keys := [] |} |}.
Lemma loop_hangs order f : any_order order -> spec_document loop_world order f [loop_described] = OutOfFuel.
Proof.
  intros HO.
  assert (forall i l, l = [str "loop.Tree"] -> order i l = [str "loop.Tree"]) as Hone.
  { intros i l ->. apply Permutation_singleton_r. apply HO. }
  assert (nested_messages loop_message = [str "loop.Tree"]) as EN by (vm_compute; reflexivity).
  assert (forall f g, str "loop.Tree" ∉ ge_set g -> add_required loop_world order f loop_message g = None) as Hn.
  { clear f. induction f as [|f IH]; intros g Hg; [done|]. rewrite add_required_step.
    rewrite bool_decide_eq_false_2 by exact Hg. rewrite (Hone _ _ EN). cbn [visit].
    change (wo_message loop_world (str "loop.Tree")) with loop_message. rewrite (IH (tick g)); [done|exact Hg]. }
  unfold spec_document, describe_all, describe, add_singleton, add_or_hang. cbn [loop_described de_definition def_singleton de_message].
  rewrite Hn; [done|]. simpl. set_solver.
Qed.

(** Types *)
Lemma says_fits W f v : text_number (fd_kind f) = false -> says W f v -> fits f v.
Proof.
  intros HT HS t Ht Hm. inversion HS as [[L _] K|[L _] K|ty fo [L _] K|L [vm M]|L M K Sp|fo L M K Sp|L M K|ty fo L M K]; subst v.
  - rewrite K in Ht. discriminate Ht.
  - rewrite K in Ht. discriminate Ht.
  - rewrite L. assert (t = ty) as ->; [|done]. destruct (fd_kind f); try discriminate HT; cbn in K, Ht; congruence.
  - congruence.
  - rewrite K in Ht. discriminate Ht.
  - rewrite K in Ht. discriminate Ht.
  - rewrite K in Ht. discriminate Ht.
  - destruct (fd_repeated f) eqn:E; [exfalso; apply L; split; done|]. exists fo. assert (t = ty) as ->; [|done].
    destruct (fd_kind f); try discriminate HT; cbn in K, Ht; congruence.
Qed.
Definition account_name : bytes := str "tmos.x.authn.v1alpha1.Account".
Lemma account_there : existsb (fun x => bool_decide (de_message x = wo_message proto_world account_name)) plain_described = true.
Proof. vm_compute. reflexivity. Qed.
Definition account_field : field := one (str "accountNumber") Uint64Kind.
Lemma account_has : bool_decide (account_field ∈ md_fields (me_desc (wo_message proto_world account_name)))
  && bytes_eqb (me_name (wo_message proto_world account_name)) account_name = true.
Proof. vm_compute. reflexivity. Qed.
Lemma says_account v : says proto_world account_field v -> ~ fits account_field v.
Proof.
  intros H HF. destruct (HF (str "string") eq_refl eq_refl) as (fo & E). subst v.
  assert (says proto_world account_field (SType (str "integer") (str "uint64") None)) as H'.
  { apply says_scalar; [intros [L _]; discriminate L|intros (vm & L); discriminate L|reflexivity]. }
  pose proof (says_unique _ _ _ _ H H') as E. discriminate E.
Qed.
Lemma account_misfit order f d : any_order order -> spec_document proto_world order f plain_described = Ok d ->
  exists p v, (account_name, p) ∈ do_schemas d /\ (fd_json account_field, v) ∈ p /\ ~ fits account_field v.
Proof.
  intros HO H. destruct (schemas_regular proto_world order HO f _ d plain_regular H) as (_ & A).
  pose proof account_has as HH. apply andb_true_iff in HH as [HH1 HH2]. apply bool_decide_eq_true in HH1. apply bytes_eqb_spec in HH2.
  exists (props proto_world (wo_message proto_world account_name)), (said_of_field proto_world account_field).
  split; [|split].
  - apply A. exists (wo_message proto_world account_name). split; [|done].
    pose proof account_there as HE. apply existsb_exists in HE as (x & Hx & HE). apply bool_decide_eq_true in HE.
    exists (de_message x). split; [exists x; split; [apply elem_of_list_In, Hx|auto]|]. rewrite HE. apply rtc_refl.
  - apply elem_of_list_In, in_map_iff. exists account_field. split; [done|]. apply elem_of_list_In, HH1.
  - apply says_account, says_said.
Qed.
Lemma schemas_fit W order f l d : any_order order -> regular W l -> spec_document W order f l = Ok d ->
  forall name p, (name, p) ∈ do_schemas d -> exists m, concerned W l m /\ me_name m = name
    /\ Forall2 (fun fd e => e.1 = fd_json fd /\ (text_number (fd_kind fd) = false -> fits fd e.2)) (md_fields (me_desc m)) p.
Proof.
  intros HO HR H name p Hi. destruct (schemas_say W order HO f l d HR H) as (_ & _ & C).
  apply C in Hi as (m & Hm & Hn & Hs). exists m. split; [done|]. split; [done|].
  eapply Forall2_impl; [exact Hs|]. intros fd e [A B]. split; [done|]. intros HT. apply (says_fits W); done.
Qed.

Lemma app_document_made : exists d, spec_document proto_world declared_order 40 app_described = Ok d.
Proof.
  destruct (spec_document proto_world declared_order 40 app_described) as [d| | |] eqn:E; [eauto|exfalso; revert E..];
    vm_compute; discriminate.
Qed.

Lemma account_document_made : spec_document proto_world declared_order 4 [account_described] = Ok account_document.
Proof. vm_compute. reflexivity. Qed.
