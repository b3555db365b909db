(** The document of the API server. *)
From Coq Require Import NArith List Bool String Sorted Lia.
From stdpp Require Import base list relations sorting.
From Verif.Model Require Import Bytes KindEncoder Desc Schema KV ApiServer OpenApi.
From Verif.Spec Require Import OpenApiSpec.
From Verif.Proofs Require Import KVFacts.

(** ** Messages required *)
Section Required.
  Context (W : world) (order : nat -> list bytes -> list bytes).
  Implicit Types (m n : message) (g : generator).

  Fixpoint visit (f : nat) (m : message) (l : list bytes) (g : generator) : option generator :=
    match l with
    | [] => Some g
    | n :: l' => match add_required W order f (wo_message W n) g with
                 | Some g' => visit f m l' (mark (me_name m) g')
                 | None => None
                 end
    end.
  Lemma add_required_step f m g :
    add_required W order (S f) m g =
    if bool_decide (me_name m ∈ ge_set g) then Some g
    else match visit f m (order (ge_loops g) (nested_messages m)) (tick g) with
         | Some g' => Some (require m g')
         | None => None
         end.
  Proof.
    simpl. destruct (bool_decide _); [done|]. generalize (order (ge_loops g) (nested_messages m)) (tick g).
    intros l. assert (forall g0,
      (fix visit (l : list bytes) (g : generator) : option generator :=
         match l with
         | [] => Some g
         | n :: l' => match add_required W order f (wo_message W n) g with
                      | Some g' => visit l' (mark (me_name m) g')
                      | None => None
                      end
         end) l g0 = visit f m l g0) as E.
    { induction l as [|n l IH]; intros g0; [done|]. simpl. destruct (add_required _ _ _ _ _); [apply IH|done]. }
    intros g0. rewrite E. done.
  Qed.

  Lemma nested_spec m name : name ∈ nested_messages m <->
    exists fd, fd ∈ md_fields (me_desc m) /\ (fd_kind fd = MessageKind \/ fd_kind fd = GroupKind) /\ fd_message fd = name.
  Proof.
    unfold nested_messages. rewrite elem_of_remove_dups, elem_of_list_In, in_map_iff.
    split; intros (fd & H1 & H2); exists fd.
    - apply filter_In in H2 as [H2 H3]. split; [by apply elem_of_list_In|]. split; [|done].
      destruct (fd_kind fd); try discriminate H3; auto.
    - destruct H2 as [H2 <-]. split; [done|]. apply filter_In. split; [by apply elem_of_list_In|].
      destruct H2 as [-> | ->]; done.
  Qed.
  Lemma leads_nested m n : leads W m n <-> exists name, name ∈ nested_messages m /\ n = wo_message W name.
  Proof.
    split.
    - intros (fd & H1 & H2 & ->). exists (fd_message fd). split; [|done]. apply nested_spec. eauto.
    - intros (name & H & ->). apply nested_spec in H as (fd & H1 & H2 & <-). exists fd. auto.
  Qed.

  (** What is added. *)
  Record grows (P : message -> Prop) g g' (new : list message) : Prop := {
    gr_objects : ge_objects g' = ge_objects g ++ new;
    gr_required : ge_required g' = ge_required g ++ map type_name new;
    gr_operations : ge_operations g' = ge_operations g;
    gr_set : forall name, name ∈ ge_set g -> name ∈ ge_set g';
    gr_new : forall n, n ∈ new -> me_name n ∈ ge_set g';
    gr_reached : Forall P new;
    gr_closed : forall n n', n ∈ new -> leads W n n' -> me_name n' ∈ ge_set g'
  }.
  Lemma grows_refl P g : grows P g g [].
  Proof. split; simpl; rewrite ?app_nil_r; auto; set_solver. Qed.
  Lemma grows_trans P g1 g2 g3 a b : grows P g1 g2 a -> grows P g2 g3 b -> grows P g1 g3 (a ++ b).
  Proof.
    intros A B. split.
    - rewrite (gr_objects _ _ _ _ B), (gr_objects _ _ _ _ A), app_assoc. done.
    - rewrite (gr_required _ _ _ _ B), (gr_required _ _ _ _ A), map_app, app_assoc. done.
    - rewrite (gr_operations _ _ _ _ B). apply (gr_operations _ _ _ _ A).
    - intros x H. apply (gr_set _ _ _ _ B), (gr_set _ _ _ _ A), H.
    - intros x [H|H]%elem_of_app; [apply (gr_set _ _ _ _ B), (gr_new _ _ _ _ A), H|apply (gr_new _ _ _ _ B), H].
    - apply Forall_app. split; [apply (gr_reached _ _ _ _ A)|apply (gr_reached _ _ _ _ B)].
    - intros x y [H|H]%elem_of_app HL; [apply (gr_set _ _ _ _ B), (gr_closed _ _ _ _ A x y H HL)|apply (gr_closed _ _ _ _ B x y H HL)].
  Qed.
  Lemma grows_weaken (P Q : message -> Prop) g g' a : (forall m, P m -> Q m) -> grows P g g' a -> grows Q g g' a.
  Proof. intros H A. destruct A. split; auto. eapply Forall_impl; eauto. Qed.

  Context (HO : any_order order).
  Lemma order_elem i l name : name ∈ order i l <-> name ∈ l.
  Proof. rewrite (HO i l). done. Qed.

  (** The set afterwards holds nothing but what was added. *)
  Lemma required_grows f m g g' : add_required W order f m g = Some g' ->
    exists new, grows (rtc (leads W) m) g g' new /\ me_name m ∈ ge_set g'
      /\ forall name, name ∈ ge_set g' -> name ∈ ge_set g \/ name ∈ map me_name new.
  Proof.
    revert m g g'. induction f as [|f IH]; intros m g g' H; [discriminate H|].
    rewrite add_required_step in H. destruct (bool_decide _) eqn:E.
    { injection H as <-. apply bool_decide_eq_true in E. exists []. split; [apply grows_refl|]. split; [done|]. auto. }
    clear E. destruct (visit _ _ _ _) as [g1|] eqn:EV; [|discriminate H]. injection H as <-.
    assert (forall l g g1, visit f m l g = Some g1 -> (forall name, name ∈ l -> name ∈ nested_messages m) ->
      exists new, grows (rtc (leads W) m) g g1 new
        /\ (forall name, name ∈ l -> me_name (wo_message W name) ∈ ge_set g1)
        /\ forall name, name ∈ ge_set g1 -> name ∈ ge_set g \/ name ∈ map me_name new \/ name = me_name m) as Hv.
    { clear - IH. induction l as [|n l IHl]; intros g g1 H Hl.
      { injection H as <-. exists []. split; [apply grows_refl|]. split; [set_solver|auto]. }
      simpl in H. destruct (add_required _ _ _ _ _) as [g2|] eqn:E2; [|discriminate H].
      apply IH in E2 as (new1 & G1 & M1 & S1).
      apply IHl in H as (new2 & G2 & L2 & S2); [|set_solver].
      assert (leads W m (wo_message W n)) as HL by (apply leads_nested; exists n; split; [apply Hl; left|done]).
      exists (new1 ++ new2). split; [|split].
      - apply (grows_trans _ _ (mark (me_name m) g2)); [|done].
        apply (grows_weaken _ (rtc (leads W) m)) in G1; [|intros x Hx; eapply rtc_l; eauto].
        destruct G1. split; simpl; auto; try (intros; right; eauto).
      - intros name [->|H]%elem_of_cons; [|auto]. apply (gr_set _ _ _ _ G2). right. done.
      - intros name H. apply S2 in H as [H|[H|H]]; [|rewrite map_app; set_solver|auto].
        simpl in H. apply elem_of_cons in H as [->|H]; [auto|]. apply S1 in H as [H|H]; [auto|]. rewrite map_app. set_solver. }
    apply Hv in EV as (new & G & L & S); [|intros name; rewrite order_elem; done]. clear Hv.
    exists (new ++ [m]). split; [|split].
    - split.
      + simpl. rewrite (gr_objects _ _ _ _ G). simpl. rewrite app_assoc. done.
      + simpl. rewrite (gr_required _ _ _ _ G), map_app. simpl. rewrite app_assoc. done.
      + simpl. rewrite (gr_operations _ _ _ _ G). done.
      + intros name H. right. apply (gr_set _ _ _ _ G). done.
      + intros n [H|H]%elem_of_app; [right; apply (gr_new _ _ _ _ G), H|].
        apply elem_of_list_singleton in H as ->. left.
      + apply Forall_app. split; [apply (gr_reached _ _ _ _ G)|]. apply Forall_cons. split; [apply rtc_refl|apply Forall_nil; done].
      + intros n n' [H|H]%elem_of_app HL; [right; apply (gr_closed _ _ _ _ G n n' H HL)|].
        apply elem_of_list_singleton in H as ->. right. apply leads_nested in HL as (name & HL & ->).
        apply L. apply order_elem. done.
    - left.
    - intros name H. simpl in H. rewrite map_app. apply elem_of_cons in H as [->|H]; [set_solver|].
      apply S in H as [H|[H| ->]]; set_solver.
  Qed.

  (** Between calls: all that is marked has been added. *)
  Definition settled (l : list described) g : Prop :=
    (forall name, name ∈ ge_set g -> name ∈ map me_name (ge_objects g))
    /\ Forall (concerned W l) (ge_objects g)
    /\ ge_required g = map type_name (ge_objects g)
    /\ (forall n n', n ∈ ge_objects g -> leads W n n' -> me_name n' ∈ map me_name (ge_objects g)).
  Lemma settled_required l f m g g' : settled l g -> sent l m -> add_required W order f m g = Some g' ->
    settled l g' /\ me_name m ∈ map me_name (ge_objects g') /\ ge_operations g' = ge_operations g
    /\ exists new, ge_objects g' = ge_objects g ++ new.
  Proof.
    intros (A & B & C & D) HS H. apply required_grows in H as (new & G & M & S).
    assert (forall name, name ∈ ge_set g' -> name ∈ map me_name (ge_objects g')) as A'.
    { intros name H. rewrite (gr_objects _ _ _ _ G), map_app. apply S in H as [H|H]; [apply A in H|]; set_solver. }
    split; [split; [|split; [|split]]|split; [|split]].
    - done.
    - rewrite (gr_objects _ _ _ _ G). apply Forall_app. split; [done|].
      eapply Forall_impl; [apply (gr_reached _ _ _ _ G)|]. intros x Hx. exists m. done.
    - rewrite (gr_required _ _ _ _ G), (gr_objects _ _ _ _ G), map_app, C. done.
    - intros n n' H HL. rewrite (gr_objects _ _ _ _ G) in H. apply elem_of_app in H as [H|H].
      + rewrite (gr_objects _ _ _ _ G), map_app. apply elem_of_app. left. eauto.
      + apply A', (gr_closed _ _ _ _ G n n' H HL).
    - apply A', M.
    - apply (gr_operations _ _ _ _ G).
    - exists new. apply (gr_objects _ _ _ _ G).
  Qed.

  Lemma list_message_of m : list_of m (list_message m).
  Proof. repeat split. Qed.
  Lemma list_of_unique m n : list_of m n -> n = list_message m.
  Proof.
    destruct n as [[name fields] short [path package imports messages go]]. unfold list_of, me_name. simpl.
    intros (-> & -> & -> & -> & -> & -> & -> & ->). reflexivity.
  Qed.

  (** The operations of an object. *)
  Definition operations (x : described) : list raw_operation :=
    let name := api_name (de_group x) (de_kind x) in
    if def_singleton (de_definition x)
    then [{| ro_id := str "singleton." ++ name; ro_path := single_path x; ro_params := []; ro_response := de_message x |}]
    else [{| ro_id := str "get." ++ name; ro_path := instance_path x; ro_params := []; ro_response := de_message x |};
          {| ro_id := str "list." ++ name; ro_path := list_path x; ro_params := list_parameters;
             ro_response := list_message (de_message x) |}].
  Lemma settled_operation l o g : settled l g -> settled l (add_operation o g).
  Proof. intros H. exact H. Qed.
  Lemma describe_step l f x g g' : settled l g -> x ∈ l -> describe W order f x g = Ok g' ->
    settled l g' /\ ge_operations g' = ge_operations g ++ operations x
    /\ (forall o, o ∈ operations x -> me_name (ro_response o) ∈ map me_name (ge_objects g'))
    /\ exists new, ge_objects g' = ge_objects g ++ new.
  Proof.
    intros HS Hx H. unfold describe in H. unfold operations. destruct (def_singleton _) eqn:ES.
    - unfold add_singleton, add_or_hang in H. destruct (add_required _ _ _ _ _) as [g1|] eqn:E; [|discriminate H].
      injection H as <-. apply (settled_required l) in E; [|by apply settled_operation|exists x; auto].
      destruct E as (A & B & C & D). split; [done|]. split; [done|]. split; [|done].
      intros o Ho%elem_of_list_singleton. subst o. exact B.
    - unfold add_object, add_or_hang in H. destruct (add_required _ _ _ _ _) as [g1|] eqn:E; [|discriminate H].
      apply (settled_required l) in E; [|by apply settled_operation|exists x; auto].
      destruct E as (A & B & C & n1 & D). unfold forge_list in H.
      destruct (negb _); [discriminate H|]. destruct (bytes_eqb _ _); [discriminate H|].
      destruct (add_required _ _ _ (list_message _) _) as [g2|] eqn:E2; [|discriminate H]. injection H as <-.
      apply (settled_required l) in E2;
        [|by apply settled_operation|exists x; split; [done|]; right; split; [done|apply list_message_of]].
      destruct E2 as (A2 & B2 & C2 & n2 & D2). simpl in D2, D.
      split; [done|]. split; [rewrite C2; simpl; rewrite C; simpl; rewrite <-app_assoc; done|]. split.
      + intros o [->|[->|H]%elem_of_cons]%elem_of_cons; [|exact B2|set_solver].
        simpl. rewrite D2, map_app. apply elem_of_app. left. exact B.
      + exists (n1 ++ n2). rewrite D2, D, app_assoc. done.
  Qed.
  Lemma describe_all_settled l0 f l g g' : settled l0 g -> (forall x, x ∈ l -> x ∈ l0) -> describe_all W order f l g = Ok g' ->
    settled l0 g' /\ ge_operations g' = ge_operations g ++ flat_map operations l
    /\ (forall o, o ∈ flat_map operations l -> me_name (ro_response o) ∈ map me_name (ge_objects g'))
    /\ exists new, ge_objects g' = ge_objects g ++ new.
  Proof.
    revert g. induction l as [|x l IH]; intros g HS Hl H.
    { injection H as <-. simpl. rewrite app_nil_r. split; [done|]. split; [done|]. split; [set_solver|]. exists []. rewrite app_nil_r. done. }
    simpl in H. destruct (describe _ _ _ _ _) as [g1| | |] eqn:E; try discriminate H.
    apply (describe_step l0) in E as (A & B & C & n1 & D); [|done|apply Hl; left].
    apply IH in H as (A2 & B2 & C2 & n2 & D2); [|done|set_solver].
    split; [done|]. split; [rewrite B2, B; simpl; rewrite <-app_assoc; done|]. split.
    - intros o Ho. simpl in Ho. apply elem_of_app in Ho as [Ho|Ho]; [|auto].
      rewrite D2, map_app. apply elem_of_app. left. auto.
    - exists (n1 ++ n2). rewrite D2, D, app_assoc. done.
  Qed.
  Lemma settled_new l : settled l new_generator.
  Proof using W. clear order HO. repeat split; try (intros; simpl in *; set_solver). apply Forall_nil. done. Qed.

  (** All that is concerned is required, and nothing else. *)
  Lemma objects_exact l f g : resolvable W l -> describe_all W order f l new_generator = Ok g ->
    forall m, m ∈ ge_objects g <-> concerned W l m.
  Proof.
    intros HR H. apply (describe_all_settled l) in H as ((A & B & C & D) & E & F & _); [|apply settled_new|done].
    assert (forall m, concerned W l m -> me_name m ∈ map me_name (ge_objects g) -> m ∈ ge_objects g) as Hname.
    { intros m Hm Hn. apply elem_of_list_In, in_map_iff in Hn as (m' & Hn & Hi). apply elem_of_list_In in Hi.
      assert (concerned W l m') as Hm' by (rewrite Forall_forall in B; auto).
      rewrite <-(HR m Hm), <-Hn, (HR m' Hm'). done. }
    intros m. split; [rewrite Forall_forall in B; auto|].
    intros (r & Hr & Hm). assert (r ∈ ge_objects g) as Hroot.
    { apply Hname; [exists r; split; [done|apply rtc_refl]|]. destruct Hr as (x & Hx & Hr).
      assert (exists o, o ∈ operations x /\ ro_response o = r) as (o & Ho & <-).
      { unfold operations. destruct Hr as [->|[Hs Hr]].
        - destruct (def_singleton _); eexists; (split; [left|reflexivity]).
        - rewrite Hs. apply list_of_unique in Hr as ->. eexists. split; [right; left|reflexivity]. }
      apply F. apply elem_of_list_In, in_flat_map. exists x. split; apply elem_of_list_In; done. }
    assert (forall a b, rtc (leads W) a b -> concerned W l a -> a ∈ ge_objects g -> b ∈ ge_objects g) as Hclo.
    { induction 1 as [a|a b c Hab Hbc IH]; [done|]. intros Ha Hg.
      assert (concerned W l b) as Hb by (destruct Ha as (r' & ? & ?); exists r'; split; [done|]; eapply rtc_r; eauto).
      apply IH; [done|]. apply Hname; [done|]. eapply D; eauto. }
    eapply Hclo; [exact Hm| |exact Hroot]. exists r. split; [done|apply rtc_refl].
  Qed.
End Required.

(** ** Files *)
Section Files.
  Context (W : world).
  Implicit Types (s : list bytes * list filedesc).
  Fixpoint visit_files (f : nat) (l : list bytes) s : option (list bytes * list filedesc) :=
    match l with
    | [] => Some s
    | p :: l' => match add_dep W f (wo_file W p) s with
                 | Some s' => visit_files f l' s'
                 | None => None
                 end
    end.
  Lemma add_dep_step f a s :
    add_dep W (S f) a s =
    if bool_decide (fl_path a ∈ s.1) then Some s
    else match visit_files f (fl_imports a) s with
         | Some s' => Some (fl_path a :: s'.1, s'.2 ++ [a])
         | None => None
         end.
  Proof.
    simpl. destruct (bool_decide _); [done|].
    assert (forall l s0,
      (fix visit (l : list bytes) (s : list bytes * list filedesc) : option (list bytes * list filedesc) :=
         match l with
         | [] => Some s
         | p :: l' => match add_dep W f (wo_file W p) s with
                      | Some s' => visit l' s'
                      | None => None
                      end
         end) l s0 = visit_files f l s0) as E.
    { induction l as [|n l IH]; intros s0; [done|]. simpl. destruct (add_dep _ _ _ _); [apply IH|done]. }
    rewrite E. done.
  Qed.

  Record adds (P : filedesc -> Prop) s s' (new : list filedesc) : Prop := {
    ad_files : s'.2 = s.2 ++ new;
    ad_paths : forall p, p ∈ s'.1 <-> p ∈ s.1 \/ p ∈ map fl_path new;
    ad_reached : Forall P new;
    ad_closed : forall a b, a ∈ new -> imports W a b -> fl_path b ∈ s'.1
  }.
  Lemma adds_refl P s : adds P s s [].
  Proof. split; simpl; rewrite ?app_nil_r; auto; set_solver. Qed.
  Lemma adds_trans P s1 s2 s3 a b : adds P s1 s2 a -> adds P s2 s3 b -> adds P s1 s3 (a ++ b).
  Proof.
    intros A B. split.
    - rewrite (ad_files _ _ _ _ B), (ad_files _ _ _ _ A), app_assoc. done.
    - intros p. rewrite (ad_paths _ _ _ _ B), (ad_paths _ _ _ _ A), map_app. set_solver.
    - apply Forall_app. split; [apply (ad_reached _ _ _ _ A)|apply (ad_reached _ _ _ _ B)].
    - intros x y [H|H]%elem_of_app HL; [apply (ad_paths _ _ _ _ B); left; apply (ad_closed _ _ _ _ A x y H HL)|apply (ad_closed _ _ _ _ B x y H HL)].
  Qed.
  Lemma adds_weaken (P Q : filedesc -> Prop) s s' a : (forall m, P m -> Q m) -> adds P s s' a -> adds Q s s' a.
  Proof. intros H A. destruct A. split; auto. eapply Forall_impl; eauto. Qed.

  Lemma dep_adds f a s s' : add_dep W f a s = Some s' ->
    exists new, adds (rtc (imports W) a) s s' new /\ fl_path a ∈ s'.1.
  Proof.
    revert a s s'. induction f as [|f IH]; intros a s s' H; [discriminate H|].
    rewrite add_dep_step in H. destruct (bool_decide _) eqn:E.
    { injection H as <-. apply bool_decide_eq_true in E. exists []. split; [apply adds_refl|done]. }
    clear E. destruct (visit_files _ _ _) as [s1|] eqn:EV; [|discriminate H]. injection H as <-.
    assert (forall l s s1, visit_files f l s = Some s1 -> (forall p, p ∈ l -> p ∈ fl_imports a) ->
      exists new, adds (rtc (imports W) a) s s1 new /\ forall p, p ∈ l -> fl_path (wo_file W p) ∈ s1.1) as Hv.
    { clear - IH. induction l as [|n l IHl]; intros s s1 H Hl.
      { injection H as <-. exists []. split; [apply adds_refl|set_solver]. }
      simpl in H. destruct (add_dep _ _ _ _) as [s2|] eqn:E2; [|discriminate H].
      apply IH in E2 as (new1 & G1 & M1). apply IHl in H as (new2 & G2 & L2); [|set_solver].
      exists (new1 ++ new2). split.
      - apply (adds_trans _ _ s2); [|done]. eapply adds_weaken; [|exact G1].
        intros x Hx. eapply rtc_l; [|exact Hx]. exists n. split; [apply Hl; left|done].
      - intros p [->|H]%elem_of_cons; [|auto]. apply (ad_paths _ _ _ _ G2). left. done. }
    apply Hv in EV as (new & G & L); [|done]. exists (new ++ [a]). split; [split|left].
    - simpl. rewrite (ad_files _ _ _ _ G), app_assoc. done.
    - intros p. simpl. rewrite elem_of_cons, (ad_paths _ _ _ _ G), map_app. set_solver.
    - apply Forall_app. split; [apply (ad_reached _ _ _ _ G)|]. apply Forall_cons. split; [apply rtc_refl|apply Forall_nil; done].
    - intros x y [H|H]%elem_of_app HL; simpl; right; [apply (ad_closed _ _ _ _ G x y H HL)|].
      apply elem_of_list_singleton in H as ->. destruct HL as (p & Hp & ->). auto.
  Qed.
  Lemma deps_adds f l s s' : add_deps W f l s = Some s' ->
    exists new, adds (fun b => exists m, m ∈ l /\ rtc (imports W) (me_file m) b) s s' new
      /\ forall m, m ∈ l -> fl_path (me_file m) ∈ s'.1.
  Proof.
    revert s. induction l as [|m l IH]; intros s H.
    { injection H as <-. exists []. split; [apply adds_refl|set_solver]. }
    simpl in H. destruct (add_dep _ _ _ _) as [s1|] eqn:E; [|discriminate H].
    apply dep_adds in E as (new1 & G1 & M1). apply IH in H as (new2 & G2 & L2).
    exists (new1 ++ new2). split.
    - apply (adds_trans _ _ s1); [eapply adds_weaken; [|exact G1]|eapply adds_weaken; [|exact G2]].
      + intros b Hb. exists m. split; [left|done].
      + intros b (m' & Hm & Hb). exists m'. split; [right; done|done].
    - intros m' [->|H]%elem_of_cons; [|auto]. apply (ad_paths _ _ _ _ G2). left. done.
  Qed.

  (** The files of the document are those involved. *)
  Lemma files_exact l f g files :
    (forall m, m ∈ ge_objects g <-> concerned W l m) ->
    (forall a b, involved W l a -> involved W l b -> fl_path a = fl_path b -> a = b) ->
    plugin_files W f g = Ok files -> forall a, a ∈ files <-> involved W l a.
  Proof.
    intros HO HP H. unfold plugin_files in H. destruct (add_deps _ _ _ _) as [s|] eqn:E; [|discriminate H].
    destruct (forallb _ _); [|discriminate H]. injection H as <-.
    apply deps_adds in E as (new & G & L). rewrite (ad_files _ _ _ _ G). simpl.
    assert (forall a, a ∈ new -> involved W l a) as H1.
    { intros a Ha. pose proof (ad_reached _ _ _ _ G) as H. rewrite Forall_forall in H. apply H in Ha as (m & Hm & Ha).
      exists m. split; [by apply HO|done]. }
    assert (forall p, p ∈ s.1 -> p ∈ map fl_path new) as H2 by (intros p Hp; apply (ad_paths _ _ _ _ G) in Hp as [Hp|Hp]; [set_solver|done]).
    assert (forall a, involved W l a -> fl_path a ∈ s.1 -> a ∈ new) as H3.
    { intros a Ha Hp. apply H2, elem_of_list_In, in_map_iff in Hp as (b & Hb & Hi). apply elem_of_list_In in Hi.
      rewrite (HP a b); auto. }
    intros a. split; [auto|]. intros (m & Hm & Ha).
    assert (me_file m ∈ new) as Hroot.
    { apply H3; [exists m; split; [done|apply rtc_refl]|]. apply L, HO, Hm. }
    assert (forall a b, rtc (imports W) a b -> involved W l a -> a ∈ new -> b ∈ new) as Hclo.
    { induction 1 as [x|x y z Hxy Hyz IH]; [done|]. intros Hx Hn.
      assert (involved W l y) as Hy by (destruct Hx as (m' & ? & ?); exists m'; split; [done|]; eapply rtc_r; eauto).
      apply IH; [done|]. apply H3; [done|]. eapply (ad_closed _ _ _ _ G); eauto. }
    eapply Hclo; [exact Ha| |exact Hroot]. exists m. split; [done|apply rtc_refl].
  Qed.
End Files.

(** ** Paths *)
Lemma set_path_elem path o l p o' : NoDup (map fst l) ->
  (p, o') ∈ set_path path o l <-> p = path /\ o' = o \/ p <> path /\ (p, o') ∈ l.
Proof.
  induction l as [|[q r] l IH]; intros HN; simpl.
  - rewrite elem_of_list_singleton. split; [intros [= -> ->]; auto|]. intros [[-> ->]|[_ H]]; [done|]. set_solver.
  - simpl in HN. apply NoDup_cons in HN as [Hq HN].
    destruct (bytes_eqb q path) eqn:E; [apply bytes_eqb_spec in E as ->|apply bytes_eqb_false in E].
    + rewrite !elem_of_cons. split.
      * intros [[= -> ->]|H]; [auto|]. right. split; [|auto]. intros ->. apply Hq.
        apply elem_of_list_In, in_map_iff. exists (path, o'). split; [done|by apply elem_of_list_In].
      * intros [[-> ->]|[H [[= -> ->]|H1]]]; auto. done.
    + rewrite elem_of_cons, IH by done. rewrite elem_of_cons. split.
      * intros [[= -> ->]|[H|[H1 H2]]]; auto.
      * intros [H|[H [H1|H1]]]; auto.
Qed.
Lemma set_path_names path o l : NoDup (map fst l) -> NoDup (map fst (set_path path o l)).
Proof.
  induction l as [|[q r] l IH]; intros HN; simpl.
  - constructor; [set_solver|constructor].
  - simpl in HN. apply NoDup_cons in HN as [Hq HN]. destruct (bytes_eqb q path) eqn:E; [apply bytes_eqb_spec in E as ->|apply bytes_eqb_false in E]; simpl.
    + apply NoDup_cons. auto.
    + apply NoDup_cons. split; [|auto]. intros H. apply elem_of_list_In, in_map_iff in H as ([p o'] & Hp & H).
      simpl in Hp. subst p. apply elem_of_list_In, set_path_elem in H as [[-> _]|[_ H]]; [done| |done].
      apply Hq, elem_of_list_In, in_map_iff. exists (q, o'). split; [done|by apply elem_of_list_In].
Qed.
Definition operation_of (o : raw_operation) : operation :=
  {| op_id := ro_id o; op_params := ro_params o; op_content := (response_content (ro_response o) []).1 |}.
Lemma response_content_fst m r r' : (response_content m r).1 = (response_content m r').1.
Proof. unfold response_content. destruct (bytes_eqb _ _); [done|]. destruct (bytes_eqb _ _); done. Qed.
Lemma need_elem t required x : x ∈ need t required <-> x ∈ required \/ x = t.
Proof.
  unfold need. destruct (bool_decide _) eqn:E; [apply bool_decide_eq_true in E|]; set_solver.
Qed.
(** The operations of a path, if all that share it are the same, and otherwise one of
    them. *)
Lemma add_paths_spec ops : forall paths required paths' required',
  add_paths ops paths required = (paths', required') -> NoDup (map fst paths) ->
  NoDup (map fst paths')
  /\ (forall p o, (p, o) ∈ paths' -> (exists r, r ∈ ops /\ p = ro_path r /\ o = operation_of r) \/ (p, o) ∈ paths)
  /\ (forall r, r ∈ ops -> ro_path r ∈ map fst paths')
  /\ (forall p, p ∈ map fst paths -> p ∈ map fst paths')
  /\ (forall t, t ∈ required -> t ∈ required')
  /\ (forall t, t ∈ required' -> t ∈ required \/ exists r, r ∈ ops /\ t = type_name (ro_response r)).
Proof.
  induction ops as [|r ops IH]; intros paths required paths' required' H HN.
  { injection H as <- <-. repeat split; auto; set_solver. }
  simpl in H. destruct (response_content (ro_response r) required) as [c required1] eqn:E.
  pose proof (response_content_fst (ro_response r) required []) as Hc. rewrite E in Hc. simpl in Hc.
  assert ((forall t, t ∈ required -> t ∈ required1)
    /\ forall t, t ∈ required1 -> t ∈ required \/ t = type_name (ro_response r)) as [Hr1 Hr2].
  { unfold response_content in E. destruct (bytes_eqb _ _); [injection E as <- <-; auto|].
    destruct (bytes_eqb _ _); injection E as <- <-; [auto|].
    split; intros t; rewrite need_elem; auto. }
  apply IH in H as (A & B & C & D & F & G); [|by apply set_path_names].
  split; [done|]. split; [|split; [|split; [|split]]].
  - intros p o H. apply B in H as [(r' & H1 & H2 & H3)|H]; [left; exists r'; split; [right; done|auto]|].
    apply set_path_elem in H as [[-> ->]|[_ H]]; [|auto|done].
    left. exists r. split; [left|]. split; [done|]. unfold operation_of. rewrite <-Hc. done.
  - intros r' [->|H]%elem_of_cons; [|auto]. apply D. apply elem_of_list_In, in_map_iff.
    eexists (_, _). split; [reflexivity|]. apply elem_of_list_In, set_path_elem; [done|]. left. done.
  - intros p H. apply D. destruct (decide (p = ro_path r)) as [->|Hne].
    + apply elem_of_list_In, in_map_iff. eexists (_, _). split; [reflexivity|].
      apply elem_of_list_In, set_path_elem; [done|]. left. done.
    + apply elem_of_list_In, in_map_iff in H as ([q o] & Hq & H). simpl in Hq. subst q. apply elem_of_list_In in H.
      apply elem_of_list_In, in_map_iff. exists (p, o). split; [done|]. apply elem_of_list_In, set_path_elem; auto.
  - auto.
  - intros t H. apply G in H as [H|(r' & H1 & H2)]; [|right; exists r'; split; [right; done|done]].
    apply Hr2 in H as [H|H]; [auto|]. right. exists r. split; [left|done].
Qed.
Definition all_paths (ops : list raw_operation) (files : list filedesc) (s : list (bytes * operation) * list bytes) :=
  fold_left (fun s (_ : filedesc) => add_paths ops s.1 s.2) files s.
Lemma all_paths_spec ops files : forall s, NoDup (map fst s.1) ->
  let s' := all_paths ops files s in
  NoDup (map fst s'.1)
  /\ (forall p o, (p, o) ∈ s'.1 -> (exists r, r ∈ ops /\ p = ro_path r /\ o = operation_of r) \/ (p, o) ∈ s.1)
  /\ (files <> [] -> forall r, r ∈ ops -> ro_path r ∈ map fst s'.1)
  /\ (forall p, p ∈ map fst s.1 -> p ∈ map fst s'.1)
  /\ (forall t, t ∈ s.2 -> t ∈ s'.2)
  /\ (forall t, t ∈ s'.2 -> t ∈ s.2 \/ exists r, r ∈ ops /\ t = type_name (ro_response r)).
Proof.
  induction files as [|a files IH]; intros s HN; simpl.
  { repeat split; auto. done. }
  destruct (add_paths ops s.1 s.2) as [paths required] eqn:E.
  apply add_paths_spec in E as (A & B & C & D & F & G); [|done].
  destruct (IH (paths, required) A) as (A2 & B2 & C2 & D2 & F2 & G2). simpl in *.
  split; [done|]. split; [|split; [|split; [|split]]].
  - intros p o H. apply B2 in H as [H|H]; [auto|]. apply B in H. done.
  - intros _ r H. apply D2, C, H.
  - auto.
  - auto.
  - intros t H. apply G2 in H as [H|H]; auto.
Qed.

(** ** Schemas *)
Lemma type_name_plain m : type_name m = str "." ++ plain_name m.
Proof. reflexivity. Qed.
Lemma reference_plain m : reference (type_name m) = str "#/components/schemas/" ++ plain_name m.
Proof. reflexivity. Qed.
Lemma dot_inj a b : str "." ++ a = str "." ++ b -> a = b.
Proof. intros H. injection H as H. exact H. Qed.
Lemma dot_eqb a b : bytes_eqb (str "." ++ a) (str "." ++ b) = bool_decide (a = b).
Proof.
  destruct (bytes_eqb _ _) eqn:E; symmetry.
  - apply bytes_eqb_spec, dot_inj in E. apply bool_decide_eq_true. done.
  - apply bytes_eqb_false in E. apply bool_decide_eq_false. intros ->. done.
Qed.
Lemma dot_text a t b : bytes_eqb (str "." ++ a) t = true -> t = str "." ++ b -> a = b.
Proof. intros H ->. apply bytes_eqb_spec, dot_inj in H. done. Qed.

Section Schemas.
  Context (W : world).
  Lemma is_list_spec f : is_list f = true <-> listed f.
  Proof. unfold is_list, listed. rewrite andb_true_iff, negb_true_iff, bool_decide_eq_false. rewrite <-eq_None_not_Some. done. Qed.
  Lemma is_text_map_spec f : is_text_map f = true <-> texts_by_text f.
  Proof.
    unfold is_text_map, texts_by_text. destruct (fd_map f) as [[[kk vk] vm]|].
    - rewrite andb_true_iff, !bool_decide_eq_true. split.
      + intros [-> ->]. eauto.
      + intros (v & [= -> -> _]). done.
    - split; [discriminate|]. intros (v & H). discriminate H.
  Qed.
  Definition said_of_field (f : field) : said := (said_of W f []).1.
  Lemma said_of_spec f required :
    (said_of W f required).1 = said_of_field f
    /\ (forall t, t ∈ required -> t ∈ (said_of W f required).2)
    /\ (forall t, t ∈ (said_of W f required).2 -> t ∈ required \/
          fd_kind f = MessageKind /\ t = type_name (wo_message W (fd_message f))).
  Proof.
    unfold said_of_field, said_of. cbv zeta.
    generalize (is_list f) (is_text_map f). intros [|] b.
    - destruct (fd_kind f); cbn [fst snd]; (split; [done|]); (split; [auto|]); try (rewrite <-?need_elem; auto);
        try (intros t H; apply need_elem; auto); try (intros t H; apply need_elem in H as [H|H]; auto).
    - destruct b; [cbn [fst snd]; auto|].
      destruct (fd_kind f); cbn [fst snd]; try (split; [done|]; split; auto; fail).
      repeat match goal with |- context [if ?c then _ else _] => destruct c; cbn [fst snd]; [split; [done|]; split; auto; fail|] end.
      split; [done|]. split; [intros t H; apply need_elem; auto|]. intros t H; apply need_elem in H as [H|H]; auto.
  Qed.
  Lemma says_said f : says W f (said_of_field f).
  Proof.
    unfold said_of_field, said_of. cbv zeta. destruct (is_list f) eqn:EL.
    - apply is_list_spec in EL. destruct (fd_kind f) eqn:EK; cbn [fst];
        try (eapply says_scalars; [exact EL|rewrite EK; reflexivity]).
      + apply says_messages; done.
      + apply says_groups; done.
    - assert (~ listed f) as HL by (rewrite <-is_list_spec, EL; done). clear EL.
      destruct (is_text_map f) eqn:EM.
      { apply is_text_map_spec in EM. apply says_texts_by_text; done. }
      assert (~ texts_by_text f) as HM by (rewrite <-is_text_map_spec, EM; done). clear EM.
      destruct (fd_kind f) eqn:EK; cbn [fst];
        try (eapply says_scalar; [exact HL|exact HM|rewrite EK; reflexivity]).
      2: { apply says_group; done. }
      rewrite type_name_plain.
      change (str ".google.protobuf.Timestamp") with (str "." ++ str "google.protobuf.Timestamp").
      change (str ".google.type.Date") with (str "." ++ str "google.type.Date").
      change (str ".google.type.DateTime") with (str "." ++ str "google.type.DateTime").
      rewrite !dot_eqb. pose proof (eq_refl (special (plain_name (wo_message W (fd_message f))))) as Hs.
      unfold special at 2 in Hs.
      destruct (bool_decide (_ = str "google.protobuf.Timestamp")); [apply says_special; done|].
      destruct (bool_decide (_ = str "google.type.Date")); [apply says_special; done|].
      destruct (bool_decide (_ = str "google.type.DateTime")); [apply says_special; done|].
      apply says_message; done.
  Qed.
  Lemma says_unique f v w : says W f v -> says W f w -> v = w.
  Proof.
    intros [] []; try contradiction; try congruence;
      match goal with H1 : fd_kind f = _, H2 : scalar_said (fd_kind f) = _ |- _ => rewrite H1 in H2; discriminate H2 end.
  Qed.

  Definition props (m : message) : list (bytes * said) := map (fun f => (fd_json f, said_of_field f)) (md_fields (me_desc m)).
  Lemma props_say m : schema_says W m (props m).
  Proof.
    unfold schema_says, props. induction (md_fields (me_desc m)) as [|f fs IH]; [constructor|].
    constructor; [|done]. split; [done|apply says_said].
  Qed.
  Lemma said_of_fields_spec fs : forall required l required', said_of_fields W fs required = (l, required') ->
    l = map (fun f => (fd_json f, said_of_field f)) fs
    /\ (forall t, t ∈ required -> t ∈ required')
    /\ (forall t, t ∈ required' -> t ∈ required \/
          exists f, f ∈ fs /\ fd_kind f = MessageKind /\ t = type_name (wo_message W (fd_message f))).
  Proof.
    induction fs as [|f fs IH]; intros required l required' H.
    { injection H as <- <-. auto. }
    simpl in H. destruct (said_of W f required) as [v r1] eqn:E1. destruct (said_of_fields W fs r1) as [l2 r2] eqn:E2.
    injection H as <- <-. destruct (said_of_spec f required) as (A & B & C). rewrite E1 in A, B, C. simpl in A, B, C.
    apply IH in E2 as (D & E & F). split; [simpl; rewrite A, D; done|]. split; [auto|].
    intros t H. apply F in H as [H|(f' & H1 & H2)]; [|right; exists f'; split; [right; done|done]].
    apply C in H as [H|H]; [auto|]. right. exists f. split; [left|done].
  Qed.

  (** The names described, one after the other. *)
  Record describes_new (ns : list bytes) (s s' : schemas) (new : list bytes) : Prop := {
    dn_generated : sc_generated s' = sc_generated s ++ map (fun n => str "." ++ n) new;
    dn_list : sc_list s' = sc_list s ++ map (fun n => (n, props (wo_message W n))) new;
    dn_within : forall n, n ∈ new -> n ∈ ns;
    dn_required : forall t, t ∈ sc_required s -> t ∈ sc_required s';
    dn_complete : forall n, n ∈ ns -> str "." ++ n ∈ sc_required s -> str "." ++ n ∈ sc_generated s';
    dn_once : NoDup (sc_generated s) -> NoDup (sc_generated s');
    dn_only : forall P : bytes -> Prop, (forall t, t ∈ sc_required s -> P t) ->
      (forall n m', n ∈ ns -> P (str "." ++ n) -> leads W (wo_message W n) m' -> P (type_name m')) ->
      (forall t, t ∈ sc_required s' -> P t) /\ (forall n, n ∈ new -> P (str "." ++ n))
  }.
  Lemma schemas_spec ns : forall s,
    (forall n, n ∈ ns -> me_name (wo_message W n) = n /\ type_name (wo_message W n) = str "." ++ n) ->
    exists new, describes_new ns s (fold_left (add_schema W) ns s) new.
  Proof.
    induction ns as [|n ns IH]; intros s Hns; simpl.
    { exists []. split; simpl; rewrite ?app_nil_r; auto; try set_solver. }
    destruct (Hns n ltac:(left)) as [Hn1 Hn2].
    set (s1 := add_schema W s n).
    assert (exists new, describes_new [n] s s1 new) as (new1 & D1).
    { unfold s1, add_schema. rewrite Hn2. destruct (negb _ || _) eqn:E.
      - exists []. split; simpl; rewrite ?app_nil_r; auto; try set_solver.
        intros n' ->%elem_of_list_singleton H. apply orb_true_iff in E as [E|E].
        + apply negb_true_iff, bool_decide_eq_false in E. done.
        + apply bool_decide_eq_true in E. done.
      - apply orb_false_iff in E as [E1 E2]. apply negb_false_iff, bool_decide_eq_true in E1. apply bool_decide_eq_false in E2.
        destruct (said_of_fields W _ _) as [l r] eqn:EF. apply said_of_fields_spec in EF as (A & B & C).
        exists [n]. split; simpl.
        + done.
        + rewrite Hn1, A. done.
        + set_solver.
        + done.
        + intros n' ->%elem_of_list_singleton _. set_solver.
        + intros HN. apply NoDup_app. split; [done|]. split; [set_solver|]. constructor; [set_solver|constructor].
        + intros P HP HL. assert (P (str "." ++ n)) as Hn by auto. split; [|set_solver].
          intros t H. apply C in H as [H|(f & H1 & H2 & ->)]; [auto|]. apply (HL n); [left|done|].
          exists f. auto. }
    destruct (IH s1) as (new2 & D2); [set_solver|]. exists (new1 ++ new2). split.
    - rewrite (dn_generated _ _ _ _ D2), (dn_generated _ _ _ _ D1), map_app, app_assoc. done.
    - rewrite (dn_list _ _ _ _ D2), (dn_list _ _ _ _ D1), map_app, app_assoc. done.
    - intros x [H|H]%elem_of_app; [apply (dn_within _ _ _ _ D1) in H|apply (dn_within _ _ _ _ D2) in H]; set_solver.
    - intros t H. apply (dn_required _ _ _ _ D2), (dn_required _ _ _ _ D1), H.
    - intros x [->|H]%elem_of_cons Hr.
      + rewrite (dn_generated _ _ _ _ D2). apply elem_of_app. left. apply (dn_complete _ _ _ _ D1); [left|done].
      + apply (dn_complete _ _ _ _ D2); [done|]. apply (dn_required _ _ _ _ D1). done.
    - intros HN. apply (dn_once _ _ _ _ D2), (dn_once _ _ _ _ D1), HN.
    - intros P HP HL. destruct (dn_only _ _ _ _ D1 P HP) as [A1 B1]; [intros; eapply HL; eauto; set_solver|].
      destruct (dn_only _ _ _ _ D2 P A1) as [A2 B2]; [intros; eapply HL; eauto; set_solver|].
      split; [done|]. intros x [H|H]%elem_of_app; auto.
  Qed.
  Lemma add_schemas_fold files s : fold_left (add_schemas W) files s = fold_left (add_schema W) (flat_map fl_messages files) s.
  Proof.
    revert s. induction files as [|a files IH]; intros s; [done|]. simpl. rewrite fold_left_app. apply IH.
  Qed.
End Schemas.
