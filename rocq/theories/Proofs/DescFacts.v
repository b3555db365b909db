(** Lemmas about descriptor inspection, registrable types and dependencies. *)
From Coq Require Import NArith List Bool String Lia Relations.
From stdpp Require Import base list gmap.
From Verif.Model Require Import Bytes KindEncoder Desc Schema.
From Verif.Spec Require Import DescSpec.
From Verif.Proofs Require Import KVFacts RegistryFacts.

Definition map_field (fd : field) : bool := match fd_map fd with Some _ => true | None => false end.

Lemma existsb_map_iff d : existsb map_field (md_fields d) = true <-> direct_map d.
Proof.
  rewrite existsb_exists. unfold direct_map. split.
  - intros (fd & H1 & H2). exists fd. split; [apply elem_of_list_In; done|].
    unfold map_field in H2. destruct (fd_map fd); done.
  - intros (fd & H1 & H2). exists fd. split; [apply elem_of_list_In; done|].
    unfold map_field. destruct (fd_map fd); done.
Qed.

(** The recursion of hasMap never happens: only the message's own fields count. *)
Lemma has_map_direct fuel D d : has_map (S fuel) D d = Ok (existsb map_field (md_fields d)).
Proof.
  unfold has_map. cbn [has_map_rec]. fold map_field.
  change (fun fd => match fd_map fd with Some _ => true | None => false end) with map_field.
  destruct (existsb map_field (md_fields d)); [done|].
  set (todo := map fd_message _). generalize todo. clear todo. intros todo.
  match goal with |- fst (?g todo ?i) = _ => assert (fst (g todo i) = Ok false) as ->; [|done] end.
  assert (md_name d ∈ [md_name d]) as Hin by left.
  induction todo as [|x todo IH]; [done|]. rewrite bool_decide_eq_true_2 by done. apply IH.
Qed.

Lemma has_kind_direct fuel D d k :
  existsb map_field (md_fields d) = false ->
  exists b, has_kind (S fuel) D d k = Ok b /\ (b = true <-> direct_kind d k).
Proof.
  intros H. cbn [has_kind]. unfold direct_kind.
  induction (md_fields d) as [|fd fs IH].
  - exists false. split; [done|]. split; [done|]. intros (fd & Hf & _). inversion Hf.
  - cbn in H. apply orb_false_iff in H as [Hm H]. unfold map_field in Hm.
    destruct (fd_map fd) eqn:Em; [done|]. destruct (decide (fd_kind fd = k)) as [Ek|Ek].
    + exists true. split; [done|]. split; [|done]. intros _. exists fd. split; [left|done].
    + destruct (IH H) as (b & Hb & Hi). exists b. split; [done|]. rewrite Hi. split.
      * intros (fd' & H1 & H2). exists fd'. split; [right; done|done].
      * intros (fd' & H1 & H2 & H3). apply elem_of_cons in H1 as [->|H1]; [done|]. eauto.
Qed.

Lemma has_kinds_direct fuel D d ks :
  existsb map_field (md_fields d) = false ->
  exists b, has_kinds (S fuel) D d ks = Ok b /\ (b = true <-> exists k, k ∈ ks /\ direct_kind d k).
Proof.
  intros H. induction ks as [|k ks IH].
  - exists false. split; [done|]. split; [done|]. intros (k & Hk & _). inversion Hk.
  - cbn [has_kinds]. destruct (has_kind_direct fuel D d k H) as (b & -> & Hb).
    destruct b.
    + exists true. split; [done|]. split; [|done]. intros _. exists k. split; [left|]. apply Hb; done.
    + destruct IH as (b & -> & Hi). exists b. split; [done|]. rewrite Hi. split.
      * intros (k' & H1 & H2). exists k'. split; [right; done|done].
      * intros (k' & H1 & H2). apply elem_of_cons in H1 as [->|H1]; [|eauto].
        apply Hb in H2. done.
Qed.

Lemma by_json_name_iff d name fd :
  json_unique d -> by_json_name d name = Some fd <-> fd ∈ md_fields d /\ fd_json fd = name.
Proof.
  unfold json_unique, by_json_name. induction (md_fields d) as [|g fs IH]; cbn; intros Hu.
  - split; [done|]. intros [H _]. inversion H.
  - inversion Hu as [|? ? Hn Hu']; subst. destruct (bytes_eqb (fd_json g) name) eqn:E.
    + apply bytes_eqb_spec in E. split.
      * intros H; inversion H; subst. split; [left|done].
      * intros [H1 H2]. apply elem_of_cons in H1 as [->|H1]; [done|]. exfalso. apply Hn.
        rewrite E, <- H2. apply elem_of_list_fmap. eauto.
    + apply bytes_eqb_false in E. rewrite IH by done. split.
      * intros [H1 H2]. split; [right; done|done].
      * intros [H1 H2]. apply elem_of_cons in H1 as [->|H1]; done.
Qed.

Lemma key_kinds_iff k : k ∈ key_kinds <-> new_kind_encoder k = Ok k /\ k ∉ refused_kinds.
Proof.
  unfold key_kinds, refused_kinds. rewrite !elem_of_cons, !elem_of_nil.
  destruct k; cbn; intuition congruence.
Qed.

Lemma key_field_iff d name :
  json_unique d -> ~ direct_map d -> (forall k, k ∈ refused_kinds -> ~ direct_kind d k) ->
  key_field d name <-> exists fd k, by_json_name d name = Some fd /\ new_kind_encoder (fd_kind fd) = Ok k.
Proof.
  intros Hu Hm Hk. unfold key_field. split.
  - intros (fd & H1 & H2 & H3). exists fd, (fd_kind fd). split; [apply by_json_name_iff; done|].
    apply key_kinds_iff in H3. apply H3.
  - intros (fd & k & H1 & H2). apply by_json_name_iff in H1 as [H1 H3]; [|done].
    exists fd. split; [done|]. split; [done|]. apply key_kinds_iff.
    apply new_kind_encoder_ok in H2 as [-> H2]. split; [done|].
    intros Hr. eapply Hk; eauto. exists fd. split; [done|]. split; [|done].
    destruct (fd_map fd) eqn:Em; [|done]. exfalso. apply Hm. exists fd. split; [done|]. congruence.
Qed.

Lemma new_indexers_iff t ns :
  (exists ixs, new_indexers t ns = Ok ixs) <->
  Forall (fun name => exists fd k, by_json_name (ot_desc t) name = Some fd
                                   /\ new_kind_encoder (fd_kind fd) = Ok k) ns.
Proof.
  induction ns as [|n ns IH]; cbn.
  - split; [constructor|eauto].
  - unfold new_indexer. rewrite Forall_cons, <- IH. split.
    + intros [ixs H]. destruct (by_json_name (ot_desc t) n) as [fd|]; [|discriminate].
      destruct (new_kind_encoder (fd_kind fd)) eqn:Ek; try discriminate.
      destruct (new_indexers t ns); try discriminate. split; eauto.
    + intros [(fd & k & H1 & H2) [ixs H3]]. rewrite H1, H2, H3. eauto.
Qed.

Lemma parse_iff fuel D t x :
  json_unique (ot_desc t) ->
  (exists s, parse_object_schema (S fuel) D t x = Ok s) <->
  definition_ok (ot_desc t) x /\ ~ direct_map (ot_desc t)
  /\ (forall k, k ∈ refused_kinds -> ~ direct_kind (ot_desc t) k).
Proof.
  intros Hu. unfold parse_object_schema. rewrite has_map_direct.
  destruct (existsb map_field (md_fields (ot_desc t))) eqn:Em.
  { split.
    - intros [s H]. destruct (validate x); discriminate.
    - intros (_ & H & _). apply existsb_map_iff in Em. done. }
  assert (~ direct_map (ot_desc t)) as Hm by (rewrite <- existsb_map_iff, Em; done).
  destruct (has_kinds_direct fuel D (ot_desc t) unsupported_kinds Em) as (b & -> & Hb).
  destruct b.
  { split.
    - intros [s H]. destruct (validate x); discriminate.
    - intros (_ & _ & H). destruct Hb as [Hb _]. destruct Hb as (k & H1 & H2); [done|].
      exfalso. eapply H; eauto. }
  assert (forall k, k ∈ refused_kinds -> ~ direct_kind (ot_desc t) k) as Hk.
  { intros k H1 H2. destruct Hb as [_ Hb]. discriminate Hb. exists k. done. }
  unfold validate, definition_ok. destruct (def_singleton x); cbn [andb negb].
  - destruct (bytes_eqb (def_primary_key x) []) eqn:E; cbn [negb].
    + apply bytes_eqb_spec in E. destruct (def_secondary_keys x) eqn:E2; cbn.
      * split; [intros _; auto|]. intros _. eauto.
      * split; [intros [s H]; discriminate|]. intros ((_ & H) & _). discriminate.
    + apply bytes_eqb_false in E. split; [intros [s H]; discriminate|]. intros ((H & _) & _). done.
  - destruct (bytes_eqb (def_primary_key x) []) eqn:E; cbn [negb].
    + apply bytes_eqb_spec in E. split; [intros [s H]; discriminate|]. intros ((H & _) & _). done.
    + apply bytes_eqb_false in E. 
      assert (Forall (key_field (ot_desc t)) (def_secondary_keys x) <->
              exists ixs, new_indexers t (def_secondary_keys x) = Ok ixs) as HF.
      { rewrite new_indexers_iff. apply Forall_iff. intros n. apply key_field_iff; done. }
      rewrite HF, (key_field_iff _ _ Hu Hm Hk). split.
      * intros [s H]. split; [|done]. split; [done|].
        destruct (by_json_name (ot_desc t) (def_primary_key x)) as [fd|]; [|discriminate].
        destruct (new_kind_encoder (fd_kind fd)) eqn:Ek; try discriminate.
        split; [eauto|]. destruct (Nat.eqb (length (def_secondary_keys x)) 0) eqn:El.
        { destruct (def_secondary_keys x); [cbn; eauto|discriminate]. }
        destruct (new_indexers t (def_secondary_keys x)); try discriminate. eauto.
      * intros ((_ & (fd & k & H1 & H2) & [ixs H3]) & _). rewrite H1, H2, H3.
        destruct (Nat.eqb (length (def_secondary_keys x)) 0); eauto.
Qed.

(** ** Dependencies *)
Section Deps.
  Context (F : files) (rank : bytes -> nat).
  Hypothesis Hrank : forall a b, imports F a b -> (rank b < rank a)%nat.

  Lemma needs_rank a b : needs F a b -> (rank b < rank a)%nat.
  Proof. induction 1; [apply Hrank; done|lia]. Qed.

  Definition closed (K : list bytes) : Prop := forall x y, x ∈ K -> imports F x y -> y ∈ K.

  (** [deps] is in import order, given that [K] is there already. *)
  Definition ordered_over (K deps : list bytes) : Prop :=
    forall i x y, deps !! i = Some x -> imports F x y ->
      y ∈ K \/ exists j, (j < i)%nat /\ deps !! j = Some y.

  Record good (K : list bytes) (path : bytes) (deps known : list bytes) : Prop := {
    g_known : forall x, x ∈ known <-> x ∈ K \/ x ∈ deps;
    g_nodup : NoDup deps;
    g_fresh : forall x, x ∈ deps -> x ∉ K;
    g_reach : forall x, x ∈ deps -> needs F path x;
    g_order : ordered_over K deps;
    g_closed : closed known
  }.

  Lemma ordered_app K K' a b :
    ordered_over K a -> ordered_over K' b -> (forall x, x ∈ K' -> x ∈ K \/ x ∈ a) ->
    ordered_over K (a ++ b).
  Proof.
    intros Ha Hb HK i x y Hi Hy. apply lookup_app_Some in Hi as [Hi|[Hl Hi]].
    - destruct (Ha _ _ _ Hi Hy) as [H|(j & Hj & H)]; [auto|]. right. exists j. split; [done|].
      apply lookup_app_l_Some. done.
    - destruct (Hb _ _ _ Hi Hy) as [H|(j & Hj & H)].
      + apply HK in H as [H|H]; [auto|]. right. apply elem_of_list_lookup in H as [j Hj].
        exists j. split; [|apply lookup_app_l_Some; done]. apply lookup_lt_Some in Hj. lia.
      + right. exists (length a + j)%nat. split; [lia|].
        rewrite lookup_app_r by lia. replace (length a + j - length a)%nat with j by lia. done.
  Qed.

  Lemma dependencies_rec_good fuel K path :
    (rank path < fuel)%nat -> closed K ->
    exists deps known, dependencies_rec fuel F K path = Some (deps, known)
      /\ good K path deps known /\ (forall y, imports F path y -> y ∈ known).
  Proof.
    revert K path. induction fuel as [|f IH]; intros K path Hr HK; [lia|]. cbn [dependencies_rec].
    set (go := fix go (imports known deps : list bytes) {struct imports} := _).
    assert (forall imps known deps,
      (forall y, y ∈ imps -> imports F path y) -> good K path deps known ->
      exists deps' known', go imps known deps = Some (deps', known')
        /\ good K path deps' known' /\ (forall y, y ∈ imps -> y ∈ known')
        /\ (forall y, y ∈ known -> y ∈ known')) as Hgo.
    { induction imps as [|dep imps IHi]; intros known deps Himp HG.
      - exists deps, known. split; [done|]. split; [done|]. split; [|done]. intros y Hy. inversion Hy.
      - cbn. destruct (bool_decide_reflect (dep ∈ known)) as [Hin|Hin].
        + destruct (IHi known deps) as (d' & k' & H1 & H2 & H3 & H4); [intros; apply Himp; right; done|done|].
          exists d', k'. split; [done|]. split; [done|]. split; [|done].
          intros y Hy. apply elem_of_cons in Hy as [->|Hy]; auto.
        + assert (imports F path dep) as Hpd by (apply Himp; left).
          pose proof (Hrank _ _ Hpd) as Hrd.
          destruct (IH known dep) as (dd & kk & H1 & HG' & H3); [lia|apply HG|].
          rewrite H1.
          assert (dep ∉ dd) as Hnd.
          { intros Hd. apply (g_reach _ _ _ _ HG') in Hd. apply needs_rank in Hd. lia. }
          destruct (IHi (dep :: kk) (deps ++ dd ++ [dep])) as (d' & k' & E1 & E2 & E3 & E4).
          * intros; apply Himp; right; done.
          * constructor.
            -- intros x. rewrite elem_of_cons, (g_known _ _ _ _ HG' x), (g_known _ _ _ _ HG x).
               rewrite !elem_of_app, elem_of_list_singleton. tauto.
            -- apply NoDup_app. split; [apply HG|]. split.
               { intros x Hx Hx'. apply elem_of_app in Hx' as [Hx'|Hx'].
                 - apply (g_fresh _ _ _ _ HG') in Hx'. apply Hx'. apply HG. auto.
                 - apply elem_of_list_singleton in Hx' as ->. apply Hin. apply HG. auto. }
               apply NoDup_app. split; [apply HG'|]. split.
               { intros x Hx Hx'. apply elem_of_list_singleton in Hx' as ->. done. }
               apply NoDup_singleton.
            -- intros x Hx HxK. rewrite !elem_of_app, elem_of_list_singleton in Hx.
               destruct Hx as [Hx|[Hx|Hx]].
               ++ eapply (g_fresh _ _ _ _ HG); [exact Hx|exact HxK].
               ++ eapply (g_fresh _ _ _ _ HG'); [exact Hx|]. apply HG. auto.
               ++ subst x. apply Hin. apply HG. auto.
            -- intros x Hx. rewrite !elem_of_app, elem_of_list_singleton in Hx.
               destruct Hx as [Hx|[Hx|Hx]].
               ++ eapply g_reach; eauto.
               ++ apply (g_reach _ _ _ _ HG') in Hx. eapply t_trans; [apply t_step; exact Hpd|done].
               ++ subst x. apply t_step. done.
            -- eapply ordered_app; [apply HG| |].
               { eapply ordered_app; [apply HG'| |].
                 - intros i x y Hi Hy. apply list_lookup_singleton_Some in Hi as [_ <-].
                   left. apply H3 in Hy. exact Hy.
                 - intros x Hx. apply HG'. done. }
               intros x Hx. apply HG in Hx. done.
            -- intros x y Hx Hy. apply elem_of_cons in Hx as [->|Hx].
               ++ right. auto.
               ++ right. eapply g_closed; eauto.
          * exists d', k'. split; [done|]. split; [done|]. split.
            -- intros y Hy. apply elem_of_cons in Hy as [->|Hy]; [|auto]. apply E4. left.
            -- intros y Hy. apply E4. right. apply HG'. auto. }
    destruct (Hgo (F path) K []) as (d' & k' & E1 & E2 & E3 & E4).
    - auto.
    - constructor; auto.
      + intros x. split; [auto|]. intros [H|H]; [done|inversion H].
      + constructor.
      + intros x H; inversion H.
      + intros x H; inversion H.
      + intros i x y H. rewrite lookup_nil in H. done.
    - exists d', k'. auto.
  Qed.

  Lemma dependencies_good fuel path :
    (rank path < fuel)%nat ->
    exists deps, dependencies fuel F path = Some deps
      /\ NoDup deps /\ (forall x, x ∈ deps <-> needs F path x) /\ import_ordered F deps.
  Proof.
    intros Hf. destruct (dependencies_rec_good fuel [] path Hf) as (deps & known & E & HG & Hi).
    { intros x y H. inversion H. }
    unfold dependencies. rewrite E. exists deps. split; [done|]. split; [apply HG|].
    assert (forall x, x ∈ known <-> x ∈ deps) as Hk.
    { intros x. rewrite (g_known _ _ _ _ HG). split; [|auto]. intros [H|H]; [inversion H|done]. }
    split.
    - intros x. split; [apply HG|]. intros Hx. apply clos_trans_t1n in Hx. apply Hk.
      assert (forall a b, clos_trans_1n _ (imports F) a b -> a ∈ known -> b ∈ known) as Hc.
      { induction 1 as [? ? H|? ? ? H H' IH]; intros Ha.
        - eapply g_closed; eauto.
        - apply IH. eapply g_closed; eauto. }
      inversion Hx as [|y ? Hy Hx']; subst; [apply Hi; done|]. eapply Hc; eauto.
    - intros i x y H1 H2. destruct (g_order _ _ _ _ HG _ _ _ H1 H2) as [H|H]; [inversion H|done].
  Qed.
End Deps.
