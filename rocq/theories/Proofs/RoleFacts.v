(** The roles made from module descriptors. *)
From Coq Require Import NArith ZArith List Bool String Lia.
From stdpp Require Import base list gmap.
From Verif.Model Require Import Bytes KindEncoder Desc Schema Orm Users Prog Router Runtime Services Module Builder
  Universe Coin CoreModules Rbac Bank Authn Distribution TestApp Abci.
From Verif.Spec Require Import UserSpec StoreSpec CoinSpec RbacSpec ChainSpec.
From Verif.Proofs Require Import BytesFacts KindEncoderFacts RegistryFacts OrmFacts UserFacts RuntimeFacts BuilderFacts SimFacts
  AppFacts AppSim RbacFacts MapExec ChainInv ChainWp ChainRun ChainHist ChainView BlockFacts.

(** ** Pure part *)
Lemma single_user (u w : bytes) : is_Some ((users_from_string [u] : users) !! w) <-> w = u.
Proof.
  rewrite from_string_lookup. destruct (decide (w ∈ [u])) as [Hi|Hi]; rewrite elem_of_list_singleton in Hi.
  - split; [intros _; exact Hi|]. intros _. eexists. reflexivity.
  - split; [intros [? HH]; discriminate HH|]. intros E. contradiction (Hi E).
Qed.
Lemma append_lists v x r r' : append_resource v x r = Ok r' ->
  rl_id r' = rl_id r /\ forall w y, lists r' y w <-> lists r y w \/ w = v /\ y = x.
Proof.
  destruct r as [i0 g0 l0 c0 u0 d0 t0]. destruct v; cbn [append_resource]; try discriminate; intros [= <-]; (split; [reflexivity|]);
    intros w y; rewrite !lists_spec; destruct w; cbn [resources_for_verb rl_gets rl_lists rl_creates rl_updates rl_deletes rl_delivers];
    rewrite ?elem_of_app, ?elem_of_list_singleton; intuition (congruence || auto).
Qed.
Lemma extend_lists v a r r' : extend_raw v a r = Ok r' ->
  rl_id r' = rl_id r /\ forall w y, lists r' y w <-> lists r y w \/ w = v /\ y = ad_name a.
Proof. unfold extend_raw. destruct (has_resource v (ad_name a) r); [discriminate|]. apply append_lists. Qed.
Lemma extend_all_lists v l : forall r r', extend_all v l r = Ok r' ->
  rl_id r' = rl_id r /\ forall w y, lists r' y w <-> lists r y w \/ w = v /\ y ∈ map ad_name l.
Proof.
  induction l as [|a l IH]; intros r r'; cbn [extend_all map].
  - intros [= <-]. split; [reflexivity|]. intros w y. rewrite elem_of_nil. tauto.
  - destruct (extend_raw v a r) as [r1| | |] eqn:E; try discriminate. cbn [res_bind]. intros H.
    apply extend_lists in E as [E1 E2]. apply IH in H as [H1 H2]. split; [congruence|].
    intros w y. rewrite H2, E2, elem_of_cons. tauto.
Qed.

Lemma find_named {A} (name : bytes) (f : list (bytes * A)) :
  match List.find (fun x => bytes_eqb (fst x) name) f with
  | Some (n, o) => n = name /\ exists a b, f = a ++ (name, o) :: b /\ forall mark, (name, mark) ∉ a
  | None => forall mark, (name, mark) ∉ f
  end.
Proof.
  induction f as [|[n o] f IH]; cbn [List.find fst]; [intros mark; apply not_elem_of_nil|].
  unfold bytes_eqb. case_bool_decide as E.
  - subst n. split; [reflexivity|]. exists [], f. split; [reflexivity|]. intros mark. apply not_elem_of_nil.
  - fold (@bytes_eqb). destruct (List.find _ f) as [[n' o']|].
    + destruct IH as (-> & a & b & -> & Ha). split; [reflexivity|]. exists ((n, o) :: a), b. split; [reflexivity|].
      intros mark. rewrite elem_of_cons. intros [[= H1 _]|H1]; [congruence|by apply (Ha mark)].
    + intros mark. rewrite elem_of_cons. intros [[= H1 _]|H1]; [congruence|by apply (IH mark)].
Qed.
Lemma find_message_spec name files :
  match find_message name files with
  | Some o => exists before a b after, files = before ++ (a ++ (name, o) :: b) :: after
                /\ (forall f mark, f ∈ before -> (name, mark) ∉ f) /\ forall mark, (name, mark) ∉ a
  | None => forall f mark, f ∈ files -> (name, mark) ∉ f
  end.
Proof.
  induction files as [|f files IH]; cbn [find_message]; [intros f mark H; by apply elem_of_nil in H|].
  pose proof (find_named name f) as Hf. destruct (List.find _ f) as [[n o]|].
  - destruct Hf as (_ & a & b & -> & Ha). exists [], a, b, files. split; [reflexivity|]. split; [|exact Ha].
    intros g mark H. by apply elem_of_nil in H.
  - destruct (find_message name files) as [o|].
    + destruct IH as (before & a & b & after & -> & H1 & H2). exists (f :: before), a, b, after. split; [reflexivity|].
      split; [|exact H2]. intros g mark. rewrite elem_of_cons. intros [->|H]; [apply Hf|by apply H1].
    + intros g mark. rewrite elem_of_cons. intros [->|H]; [apply Hf|by apply IH].
Qed.
Lemma first_named {A} (name : bytes) (o o' : A) : forall a a' b b',
  a ++ (name, o) :: b = a' ++ (name, o') :: b' -> (forall mark, (name, mark) ∉ a) -> (forall mark, (name, mark) ∉ a') -> o = o'.
Proof.
  induction a as [|x a IH]; intros [|x' a'] b b' E H H'; cbn [app] in E.
  - injection E as E _. exact E.
  - injection E as <- _. exfalso. apply (H' o). left.
  - injection E as -> _. exfalso. apply (H o'). left.
  - injection E as <- E. apply (IH a' b b' E); intros mark Hm; [apply (H mark)|apply (H' mark)]; by right.
Qed.
Lemma first_file (name : bytes) (o o' : option bool) : forall before before' a b after a' b' after',
  before ++ (a ++ (name, o) :: b) :: after = before' ++ (a' ++ (name, o') :: b') :: after' ->
  (forall (f : proto_file) mark, f ∈ before -> (name, mark) ∉ f) -> (forall (f : proto_file) mark, f ∈ before' -> (name, mark) ∉ f) ->
  (forall mark, (name, mark) ∉ a) -> (forall mark, (name, mark) ∉ a') -> o = o'.
Proof.
  induction before as [|f before IH]; intros [|f' before'] a b after a' b' after' E H H' Ha Ha'; cbn [app] in E.
  - injection E as E _. by apply (first_named name o o' a a' b b').
  - injection E as <- _. exfalso. apply (H' _ o (elem_of_list_here _ _)). apply elem_of_app. right. left.
  - injection E as -> _. exfalso. apply (H _ o' (elem_of_list_here _ _)). apply elem_of_app. right. left.
  - injection E as <- E. apply (IH before' a b after a' b' after' E); try done; intros g mark Hg; [apply H|apply H']; by right.
Qed.
Lemma get_acl_spec t : get_acl t = Ok true <-> marked_external t.
Proof.
  unfold get_acl, marked_external. pose proof (find_message_spec (tt_short t) (tt_files t)) as H.
  destruct (find_message (tt_short t) (tt_files t)) as [o|].
  - destruct H as (before & a & b & after & E & H1 & H2). split.
    + intros Ho. assert (o = Some true) as -> by (destruct o; congruence). eauto 10.
    + intros (before' & a' & b' & after' & E' & H1' & H2'). rewrite E in E'.
      assert (o = Some true) as -> by (eapply first_file; eauto). reflexivity.
  - split; [discriminate|]. intros (before' & a' & b' & after' & E' & _). exfalso.
    apply (H (a' ++ (tt_short t, Some true) :: b') (Some true)); [rewrite E'|]; apply elem_of_app; right; left.
Qed.

Lemma role_transitions_lists l : forall r r' ext, role_transitions l r = Ok (r', ext) ->
  rl_id r' = rl_id r
  /\ (forall w y, lists r' y w <-> lists r y w \/ w = VDeliver /\ y ∈ map tt_name l)
  /\ forall y, y ∈ map ad_name ext <-> exists t, t ∈ l /\ marked_external t /\ y = tt_name t.
Proof.
  induction l as [|t l IH]; intros r r' ext; cbn [role_transitions map].
  - intros [= <- <-]. split; [reflexivity|]. split.
    + intros w y. rewrite elem_of_nil. tauto.
    + intros y. cbn [map]. rewrite elem_of_nil. split; [done|]. intros (t & Ht & _). by apply elem_of_nil in Ht.
  - destruct (get_acl t) as [e| | |] eqn:Ea; try discriminate. cbn [res_bind].
    destruct (extend_raw VDeliver (tt_api t) r) as [r1| | |] eqn:E; try discriminate. cbn [res_bind].
    destruct (role_transitions l r1) as [[r2 ext']| | |] eqn:El; try discriminate. cbn [res_bind fst snd]. intros [= <- <-].
    apply extend_lists in E as [E1 E2]. apply IH in El as (H1 & H2 & H3). split; [congruence|]. split.
    + intros w y. rewrite H2, E2, elem_of_cons. unfold tt_name. tauto.
    + intros y. assert (y ∈ map ad_name (if e then tt_api t :: ext' else ext') <-> e = true /\ y = tt_name t \/ y ∈ map ad_name ext') as ->.
      { destruct e; cbn [map]; rewrite ?elem_of_cons; unfold tt_name; intuition congruence. }
      rewrite H3. split.
      * intros [[-> ->]|(t' & Ht & Hm)]; [exists t|exists t']; [split; [left|]|split; [by right|done]].
        split; [by apply get_acl_spec|reflexivity].
      * intros (t' & Ht & Hm & ->). apply elem_of_cons in Ht as [->|Ht]; [left|right; eauto].
        apply get_acl_spec in Hm. split; [congruence|reflexivity].
Qed.
Lemma role_objects_lists l : forall r r', role_objects l r = Ok r' ->
  rl_id r' = rl_id r
  /\ forall w y, lists r' y w <-> lists r y w
       \/ (w = VGet \/ w = VList \/ w = VCreate \/ w = VUpdate \/ w = VDelete) /\ y ∈ map (fun o => ad_name (rw_api o)) l.
Proof.
  induction l as [|o l IH]; intros r r'; cbn [role_objects map].
  - intros [= <-]. split; [reflexivity|]. intros w y. rewrite elem_of_nil. tauto.
  - unfold extend_object.
    destruct (extend_raw VCreate (rw_api o) r) as [r1| | |] eqn:E1; try discriminate. cbn [res_bind].
    destruct (extend_raw VDelete (rw_api o) r1) as [r2| | |] eqn:E2; try discriminate. cbn [res_bind].
    destruct (extend_raw VUpdate (rw_api o) r2) as [r3| | |] eqn:E3; try discriminate. cbn [res_bind].
    destruct (extend_raw VGet (rw_api o) r3) as [r4| | |] eqn:E4; try discriminate. cbn [res_bind].
    destruct (extend_raw VList (rw_api o) r4) as [r5| | |] eqn:E5; try discriminate. cbn [res_bind]. intros H.
    apply extend_lists in E1 as [I1 E1], E2 as [I2 E2], E3 as [I3 E3], E4 as [I4 E4], E5 as [I5 E5].
    apply IH in H as [I6 H]. split; [congruence|].
    intros w y. rewrite H, E5, E4, E3, E2, E1, elem_of_cons. tauto.
Qed.
Lemma role_needs_lists l : forall r r', role_needs l r = Ok r' ->
  rl_id r' = rl_id r /\ forall w y, lists r' y w <-> lists r y w \/ w = VDeliver /\ y ∈ map ad_name l.
Proof.
  induction l as [|a l IH]; intros r r'; cbn [role_needs map].
  - intros [= <-]. split; [reflexivity|]. intros w y. rewrite elem_of_nil. tauto.
  - destruct (ad_transition a); [|discriminate].
    destruct (extend_raw VDeliver a r) as [r1| | |] eqn:E; try discriminate. cbn [res_bind]. intros H.
    apply extend_lists in E as [E1 E2]. apply IH in H as [H1 H2]. split; [congruence|].
    intros w y. rewrite H2, E2, elem_of_cons. tauto.
Qed.
Lemma empty_lists id y w : ~ lists (empty_role id) y w.
Proof. rewrite lists_spec. destruct w; apply not_elem_of_nil. Qed.
Lemma declares_spec d y w : declares d y w <->
  (w = VGet \/ w = VList \/ w = VCreate \/ w = VUpdate \/ w = VDelete) /\ y ∈ map (fun o => ad_name (rw_api o)) (rd_objects d)
  \/ w = VDeliver /\ (y ∈ map tt_name (rd_transitions d) \/ y ∈ map ad_name (rd_needs d)).
Proof.
  rewrite <- elem_of_app. split; [destruct 1; auto 10|].
  intros [[[->|[->|[->|[->| ->]]]] H]|[-> H]]; by constructor.
Qed.
Lemma module_role_lists d r ext : module_role d = Ok (r, ext) ->
  rl_id r = role_name_for_module (rd_name d)
  /\ (forall w y, lists r y w <-> declares d y w)
  /\ forall y, y ∈ map ad_name ext <-> exists t, t ∈ rd_transitions d /\ marked_external t /\ y = tt_name t.
Proof.
  unfold module_role. destruct (role_transitions _ _) as [[r1 ext']| | |] eqn:E1; try discriminate. cbn [res_bind fst snd].
  destruct (role_objects (rd_objects d) r1) as [r2| | |] eqn:E2; try discriminate. cbn [res_bind].
  destruct (role_needs (rd_needs d) r2) as [r3| | |] eqn:E3; try discriminate. cbn [res_bind]. intros [= <- <-].
  apply role_transitions_lists in E1 as (I1 & E1 & H1). apply role_objects_lists in E2 as [I2 E2]. apply role_needs_lists in E3 as [I3 E3].
  split; [rewrite I3, I2, I1; reflexivity|]. split; [|exact H1].
  intros w y. rewrite E3, E2, E1, declares_spec. pose proof (empty_lists (role_name_for_module (rd_name d)) y w). tauto.
Qed.

(** ** Descriptors delivered with authorization off *)
Notation at_role k := (ty_role, k).
Notation put_role r S := (<[at_role (string_key (rl_id r)) := ORole r]> S).
Notation put_binding u ref S := (<[at_binding (string_key u) := OBinding u ref]> S).
Inductive roles_made : list raw_descriptor -> role -> amap -> role -> amap -> Prop :=
| made_nil u S : roles_made [] u S u S
| made_bound d l r ext u u1 u' (S S' : amap) :
    module_role d = Ok (r, ext) -> S !! at_role (string_key (rl_id r)) = None ->
    extend_all VDeliver ext u = Ok u1 ->
    is_Some (put_role r S !! at_role (rl_id r)) ->
    put_role r S !! at_binding (string_key (rd_name d)) = None ->
    roles_made l u1 (put_binding (rd_name d) (rl_id r) (put_role r S)) u' S' ->
    roles_made (d :: l) u S u' S'
| made_unbound d l r ext u u1 u' (S S' : amap) :
    module_role d = Ok (r, ext) -> S !! at_role (string_key (rl_id r)) = None ->
    extend_all VDeliver ext u = Ok u1 ->
    put_role r S !! at_role (rl_id r) = None ->
    roles_made l u1 (put_role r S) u' S' ->
    roles_made (d :: l) u S u' S'.

Section Made.
  Context (C : codec) (bits : N) (verify : bytes -> bytes -> bytes -> bool).
  Context (app : application object msg tx) (HA : test_like bits verify app).
  Context (enum : list (event object msg) -> users -> list user) (HE : forall tr, fair_order (enum tr)).
  Notation wp := (wp C app enum false).
  Notation wpd := (wpd C app enum false).
  Notation wph := (wph C app enum false).
  Implicit Types (S : amap) (f : nat) (us self : users) (Q : res unit -> amap -> Prop).
  Local Ltac known := apply (bool_decide_unpack _); vm_compute; exact I.

  Lemma wpd_create_role f us r S Q : wt S -> wf_users us ->
    (string_key (rl_id r) <> [] -> S !! at_role (string_key (rl_id r)) = None -> Q (Ok tt) (put_role r S)) ->
    (forall e, Q (Fail e) S) ->
    wpd f false us (MsgCreateRole (Some r)) S Q.
  Proof.
    intros HW HU HQ HF. destruct f as [|f]; [intros w E; left; exact I|].
    eapply (wpd_route C bits verify app HA enum HE false); [exact HW|exact HU|reflexivity|..].
    - intros _. cbn [h_self h_run create_role_exec default].
      apply (wp_create_raw C bits verify app HA enum HE false); [exact HW|apply from_string_wf|..].
      + intros _ Hk Hn. apply wp_ret. cbn [post_of]. apply wph_nil. by apply HQ.
      + intros [Hb _]. discriminate Hb.
    - intros [Hb _]. discriminate Hb.
    - intros _. cbn [admission_of]. apply wph_cons. cbn [h_self h_run create_role_admission].
      destruct (bytes_eqb (rl_id r) []); [apply wp_fail; split; [reflexivity|apply HF]|].
      apply (wp_get C bits verify app HA); [known|..].
      + intros o _ _. apply wp_fail. split; [reflexivity|apply HF].
      + intros _ _. destruct (errors_is missing RtNotFound); [|apply wp_fail; split; [reflexivity|apply HF]].
        apply (wp_get C bits verify app HA); [known|..].
        * intros o _ _. destruct o; try apply wp_panic.
          destruct (negb _); [apply wp_fail; split; [reflexivity|apply HF]|].
          destruct (negb _); [apply wp_fail; split; [reflexivity|apply HF]|].
          apply wp_ret. apply wph_nil. split; [reflexivity|exact I].
        * intros _ _. apply wp_fail. split; [reflexivity|apply HF].
  Qed.

  Lemma wpd_bind_any f us ref u S Q : wt S -> wf_users us ->
    (is_Some (S !! at_role ref) -> string_key u <> [] -> S !! at_binding (string_key u) = None ->
       Q (Ok tt) (put_binding u ref S)) ->
    (S !! at_role ref = None -> forall e, Q (Fail e) S) ->
    wpd f false us (MsgBindRole ref u) S Q.
  Proof.
    intros HW HU HQ HF. destruct f as [|f]; [intros w E; left; exact I|].
    destruct (S !! at_role ref) as [o|] eqn:Eo.
    - eapply (wpd_route C bits verify app HA enum HE false); [exact HW|exact HU|reflexivity|..].
      + intros _. cbn [h_self h_run bind_exec].
        apply (wp_create_raw C bits verify app HA enum HE false); [exact HW|apply from_string_wf|..].
        * intros _ Hk Hn. apply wp_ret. cbn [post_of]. apply wph_nil. apply HQ; [eauto|done|done].
        * intros [Hb _]. discriminate Hb.
      + intros [Hb _]. discriminate Hb.
      + intros _. cbn [admission_of]. apply wph_cons. cbn [h_self h_run bind_admission].
        apply (wp_get C bits verify app HA); [known|..].
        * intros o' _ _. apply wp_ret. apply wph_nil. split; [reflexivity|exact I].
        * intros _ Hn. congruence.
    - intros w E. cbn [deliver]. unfold deliver_body, run_admission_chain. cbn [en_router env_of].
      destruct (tl_routes _ _ _ HA (MsgBindRole ref u)) as (_ & -> & _ & _). cbn [exec_of].
      assert (wph f bad_request (admission_of (MsgBindRole ref u)) us (MsgBindRole ref u) S
        (fun r S' => S' = S /\ exists e, r = Fail e)) as H.
      { cbn [admission_of]. apply wph_cons. cbn [h_self h_run bind_admission].
        apply (wp_get C bits verify app HA); [known|..].
        - intros o _ Ho. congruence.
        - intros _ _. apply wp_fail. split; [reflexivity|eauto]. }
      specialize (H w E). destruct (run_handlers _ _ _ _ _ _ _ _ _) as [r w1].
      destruct H as [H|[H1 [e H2]]]; cbn [fst snd] in *; [destruct r; try done; by left|].
      subst r. right. cbn [fst snd]. rewrite H1. by apply HF.
  Qed.

  Lemma wp_roles f self l : forall u S (k : role -> prog object msg unit) Q, wt S -> wf_users self ->
    (forall u' S', roles_made l u S u' S' -> wt S' -> wp f self (k u') S' Q) ->
    (forall e S', Q (Fail e) S') ->
    wp f self (apply_modules l u k) S Q.
  Proof.
    induction l as [|d l IH]; intros u S k Q HW HU HQ HF; cbn [apply_modules].
    - apply HQ; [constructor|exact HW].
    - destruct (module_role d) as [[r ext]|e| |] eqn:Er; [|apply wp_fail, HF|apply wp_panic..].
      apply wp_deliver_raw; [exact HU|]. apply wpd_create_role; [exact HW|exact HU|..].
      2:{ intros e. apply wp_fail, HF. }
      intros Hk Hn. assert (wt (put_role r S)) as HW1 by exact (wt_insert S (ORole r) HW Hk).
      apply wp_deliver_raw; [exact HU|]. apply wpd_bind_any; [exact HW1|exact HU|..].
      + intros Hs Hku Hnu. assert (wt (put_binding (rd_name d) (rl_id r) (put_role r S))) as HW2
          by exact (wt_insert (put_role r S) (OBinding (rd_name d) (rl_id r)) HW1 Hku).
        destruct (extend_all VDeliver ext u) as [u1|e| |] eqn:Ee; [|apply wp_fail, HF|apply wp_panic..].
        apply IH; [exact HW2|exact HU| |exact HF]. intros u' S' Hm. apply HQ. by eapply made_bound.
      + intros Hs e. destruct (extend_all VDeliver ext u) as [u1|e'| |] eqn:Ee; [|apply wp_fail, HF|apply wp_panic..].
        apply IH; [exact HW1|exact HU| |exact HF]. intros u' S' Hm. apply HQ. by eapply made_unbound.
  Qed.

  Lemma wpd_descriptors f skip us l S Q : wt S -> wf_users us ->
    (forall u S', roles_made l (empty_role external_role_id) (<[(ty_modules, singleton_id) := OModules l]> S) u S' ->
       S' !! at_role (string_key (rl_id u)) = None -> Q (Ok tt) (put_role u S')) ->
    (forall e S', Q (Fail e) S') ->
    wpd f skip us (CreateModuleDescriptors l) S Q.
  Proof.
    intros HW HU HQ HF. destruct f as [|f]; [intros w E; left; exact I|].
    eapply (wpd_route C bits verify app HA enum HE false); [exact HW|exact HU|reflexivity|..].
    - intros _. cbn [h_self h_run create_descriptors_exec].
      apply (wp_create_raw C bits verify app HA enum HE false); [exact HW|apply from_string_wf|..].
      + intros _ Hk Hn. apply wp_ret. cbn [post_of]. apply wph_cons. cbn [h_self h_run role_creator].
        apply wp_roles; [exact (wt_insert S (OModules l) HW Hk)|apply from_string_wf|..].
        * intros u' S' Hm HW'. apply wp_deliver_raw; [apply from_string_wf|].
          apply wpd_create_role; [exact HW'|apply from_string_wf|..].
          -- intros _ Hn'. apply wp_ret. apply wph_nil. apply (HQ u' S' Hm Hn').
          -- intros e. apply wp_fail. apply HF.
        * intros e S'. apply HF.
      + intros [Hb _]. discriminate Hb.
    - intros [Hb _]. discriminate Hb.
    - intros _. cbn [admission_of]. apply wph_nil. split; [reflexivity|exact I].
  Qed.
End Made.

Lemma roles_made_mono l u S u' S' : roles_made l u S u' S' -> forall k o, S !! k = Some o -> S' !! k = Some o.
Proof.
  induction 1 as [u S|d l r ext u u1 u' S S' H1 H2 H3 H4 H5 _ IH|d l r ext u u1 u' S S' H1 H2 H3 H4 _ IH]; intros k o Hk.
  - exact Hk.
  - apply IH. rewrite lookup_insert_ne, lookup_insert_ne; [exact Hk|..]; intros <-; [congruence|].
    rewrite lookup_insert_ne in H5; [congruence|]. intros E. pose proof (f_equal fst E) as E'. revert E'.
    change (ty_role <> ty_binding). apply (bool_decide_unpack _); vm_compute; exact I.
  - apply IH. rewrite lookup_insert_ne; [exact Hk|]. intros <-. congruence.
Qed.
Lemma roles_made_external l u S u' S' : roles_made l u S u' S' ->
  rl_id u' = rl_id u
  /\ forall w y, lists u' y w <-> lists u y w
       \/ w = VDeliver /\ exists d t, d ∈ l /\ t ∈ rd_transitions d /\ marked_external t /\ y = tt_name t.
Proof.
  assert (forall d l r ext u u1 u' w y, module_role d = Ok (r, ext) -> extend_all VDeliver ext u = Ok u1 ->
    (lists u' y w <-> lists u1 y w \/ w = VDeliver /\ exists d t, d ∈ l /\ t ∈ rd_transitions d /\ marked_external t /\ y = tt_name t) ->
    lists u' y w <-> lists u y w \/ w = VDeliver /\ exists d' t, d' ∈ d :: l /\ t ∈ rd_transitions d' /\ marked_external t /\ y = tt_name t) as H.
  { intros d l0 r ext u0 u1 u2 w y H1 H3 ->. apply module_role_lists in H1 as (_ & _ & H1).
    apply extend_all_lists in H3 as [_ H3]. rewrite H3, H1. split.
    - intros [[H|(Hw & t & Ht & Hm & Hy)]|(Hw & d' & t & Hd & Hr)]; [auto|right|right]; (split; [exact Hw|]).
      + exists d, t. split; [left|auto].
      + exists d', t. split; [by right|auto].
    - intros [H|(Hw & d' & t & Hd & Hr)]; [auto|]. apply elem_of_cons in Hd as [->|Hd]; [left; right|right]; (split; [exact Hw|]).
      + exists t. exact Hr.
      + exists d', t. auto. }
  induction 1 as [u S|d l r ext u u1 u' S S' H1 H2 H3 H4 H5 _ [IH1 IH2]|d l r ext u u1 u' S S' H1 H2 H3 H4 _ [IH1 IH2]].
  - split; [reflexivity|]. intros w y. split; [auto|]. intros [Hl|(_ & d & t & Hd & _)]; [exact Hl|]. by apply elem_of_nil in Hd.
  - split; [apply extend_all_lists in H3 as [H3 _]; congruence|]. intros w y. by eapply H.
  - split; [apply extend_all_lists in H3 as [H3 _]; congruence|]. intros w y. by eapply H.
Qed.
Local Lemma string_key_short (s : bytes) : length s < 128 -> string_key s = s.
Proof. intros H. apply string_key_small. unfold blen. lia. Qed.
Lemma roles_made_each l u S u' S' : roles_made l u S u' S' -> forall d, d ∈ l -> length (rd_name d) + 5 < 128 ->
  exists r, S' !! at_binding (rd_name d) = Some (OBinding (rd_name d) (rl_id r)) /\ S' !! at_role (rl_id r) = Some (ORole r)
    /\ forall w y, lists r y w <-> declares d y w.
Proof.
  induction 1 as [u S|d l r ext u u1 u' S S' H1 H2 H3 H4 H5 Hm IH|d l r ext u u1 u' S S' H1 H2 H3 H4 Hm IH]; intros d' Hd Hl.
  - by apply elem_of_nil in Hd.
  - apply elem_of_cons in Hd as [->|Hd]; [|by apply IH]. exists r.
    apply module_role_lists in H1 as (Hid & Hls & _).
    assert (length (rl_id r) < 128) as Hlr.
    { rewrite Hid. unfold role_name_for_module. rewrite !app_length. change (length (str "-")) with 1. change (length (str "role")) with 4. lia. }
    assert (string_key (rl_id r) = rl_id r) as E1 by (apply string_key_short; exact Hlr).
    assert (string_key (rd_name d) = rd_name d) as E2 by (apply string_key_short; lia).
    split; [|split; [|exact Hls]].
    + apply (roles_made_mono _ _ _ _ _ Hm). rewrite E2. apply lookup_insert.
    + apply (roles_made_mono _ _ _ _ _ Hm). rewrite lookup_insert_ne.
      * rewrite E1. apply lookup_insert.
      * intros E. pose proof (f_equal fst E) as E'. revert E'. change (ty_binding <> ty_role). apply (bool_decide_unpack _); vm_compute; exact I.
  - apply elem_of_cons in Hd as [->|Hd]; [|by apply IH]. exfalso.
    apply module_role_lists in H1 as (Hid & _ & _). revert H4. rewrite string_key_short; [by rewrite lookup_insert|].
    rewrite Hid. unfold role_name_for_module. rewrite !app_length. change (length (str "-")) with 1. change (length (str "role")) with 4. lia.
Qed.

Section Node.
  Context (C : codec) (bits : N) (verify : bytes -> bytes -> bytes -> bool).
  Context (enum : list (event object msg) -> users -> list user) (fuel : nat) (decode : bytes -> res tx).
  Context (HS : sound C enum decode).
  Notation app := (test_app bits verify).
  Notation O := (app_ops C).
  Notation R := (ap_registry app).
  Notation ORM := (orm_ops O R).
  Notation gets := (gets C bits verify).
  Notation written := (written C bits verify).
  Notation HA := (test_app_like bits verify).
  Notation deliver_to us m := (rt_deliver O msg_name (bytes_store C bits verify) (the_app bits verify) enum fuel us m).
  Implicit Types (x : node) (us : users).
  Local Ltac known := apply (bool_decide_unpack _); vm_compute; exact I.

  Lemma descriptors_delivered us l x (x' : node) : written x -> rt_enabled x = false -> wf_users us ->
    deliver_to us (CreateModuleDescriptors l) x = (Ok tt, x') ->
    (forall d, d ∈ l -> length (rd_name d) + 5 < 128 ->
       exists r, has_role (gets x') (rd_name d) r /\ forall v n, lists r n v <-> declares d n v)
    /\ exists r, gets x' ty_role external_role_id (ORole r)
       /\ forall v n, lists r n v <-> v = VDeliver /\ exists d t, d ∈ l /\ t ∈ rd_transitions d /\ marked_external t /\ n = tt_name t.
  Proof.
    intros Hw Hb HU Hd. destruct (written_shown C bits verify enum decode HS x Hw) as [S Hx].
    pose proof (shown_wt C bits verify x S Hx) as HW.
    unfold rt_deliver, bytes_store, the_app in Hd. rewrite Hb in Hd.
    destruct (deliver O msg_name ORM (env_of app enum false) fuel false us (CreateModuleDescriptors l) (rt_world x)) as [r0 w'] eqn:E.
    pose proof (f_equal fst Hd) as Hr. pose proof (f_equal snd Hd) as Hw'. cbn [fst snd] in Hr, Hw'. subst r0 x'.
    destruct (deliver_map C bits verify enum fuel decode HS false false us (CreateModuleDescriptors l) (rt_world x) w' S (Ok tt)
      (fun r S' => r = Ok tt -> exists u S1, roles_made l (empty_role external_role_id) (<[(ty_modules, singleton_id) := OModules l]> S) u S1
         /\ S1 !! at_role (string_key (rl_id u)) = None /\ S' = put_role u S1) Hx) as (S' & Hx' & HQ).
    - apply (wpd_descriptors C bits verify app HA enum (so_order _ _ _ HS)); [exact HW|exact HU|..].
      + intros u S1 H1 H2 _. exists u, S1. auto.
      + intros e S1. discriminate.
    - exact E.
    - exact I.
    - destruct (HQ eq_refl) as (u & S1 & Hm & Hn & ->). clear HQ E Hd.
      change (shown C bits verify (set_world x w') (put_role u S1)) in Hx'. revert Hx'. generalize (set_world x w'). intros x' Hx'.
      assert (forall ty k o, ty ∈ all_types -> S1 !! (ty, k) = Some o -> gets x' ty k o) as Hrd.
      { intros ty k o Ht Ho. apply (reads_iff C bits verify enum decode HS x' _ _ _ _ Hx' Ht).
        rewrite lookup_insert_ne; [exact Ho|]. intros Ek. rewrite <- Ek in Ho. congruence. }
      split.
      + intros d Hd Hl. destruct (roles_made_each _ _ _ _ _ Hm d Hd Hl) as (r & Hr1 & Hr2 & Hr3). exists r. split; [|auto].
        exists (rd_name d), (rl_id r). split; apply Hrd; try known; assumption.
      + destruct (roles_made_external _ _ _ _ _ Hm) as [Hid Hls]. exists u. split.
        * apply (reads_iff C bits verify enum decode HS x' _ _ _ _ Hx'); [known|].
          rewrite Hid. apply lookup_insert.
        * intros v n. rewrite Hls. pose proof (empty_lists external_role_id n v). tauto.
  Qed.

  (** ** The test application *)
  Notation running := (running C bits verify enum fuel decode).
  Notation decision := (decision C bits verify enum).
  Notation message_admission := (message_admission C bits verify enum fuel).

  Lemma external_role_lists v n : lists external_role n v <-> v = VDeliver /\ exists m, for_outsiders m /\ n = msg_name m.
  Proof.
    rewrite lists_spec. assert (rl_delivers external_role = [tt_name t_create_account; tt_name t_send_coins]) as E by (vm_compute; reflexivity).
    split.
    - destruct v; cbn [resources_for_verb]; try (intros H; by apply elem_of_nil in H).
      rewrite E. intros H. split; [reflexivity|]. apply elem_of_cons in H as [->|H]; [exists (MsgCreateAccount None)|];
        [split; [exact I|reflexivity]|]. apply elem_of_list_singleton in H as ->. exists (MsgSendCoins [] [] []). split; [exact I|reflexivity].
    - intros (-> & m & Hm & ->). cbn [resources_for_verb]. rewrite E. destruct m; try contradiction Hm; [left|right; left].
  Qed.
  Lemma table_lists m : m ∈ app_modules bits verify ->
    exists r, (mo_name m, r) ∈ role_table /\ forall v n, lists r n v <-> declares (raw m) n v.
  Proof.
    intros Hm.
    assert (raw m ∈ app_raw) as Hr.
    { rewrite <- (raw_modules bits verify). apply elem_of_list_fmap. exists m. split; [reflexivity|exact Hm]. }
    exists (role_of (raw m)). split.
    - assert (role_table = map (fun d => (rd_name d, role_of d)) app_raw) as -> by (vm_compute; reflexivity).
      apply elem_of_list_fmap. exists (raw m). split; [reflexivity|exact Hr].
    - assert (forallb (fun d => match module_role d with Ok _ => true | _ => false end) app_raw = true) as Hok by (vm_compute; reflexivity).
      rewrite forallb_forall in Hok. apply elem_of_list_In in Hr. specialize (Hok _ Hr).
      unfold role_of. destruct (module_role (raw m)) as [[r ext]| | |] eqn:E; try discriminate Hok.
      apply (module_role_lists _ _ _ E).
  Qed.

  Lemma roles_running id cs x : running id cs x ->
    (forall m, m ∈ app_modules bits verify ->
       exists r, has_role (gets x) (mo_name m) r /\ forall v n, lists r n v <-> declares (raw m) n v)
    /\ exists r, gets x ty_role external_role_id (ORole r)
       /\ forall v n, lists r n v <-> v = VDeliver /\ exists m, for_outsiders m /\ n = msg_name m.
  Proof.
    intros Hrun. destruct (running_tracked C bits verify enum fuel decode HS id cs x Hrun) as (S & [Hx HI _] & _). split.
    - intros m Hm. destruct (table_lists m Hm) as (r & Ht & Hl). exists r. split; [|exact Hl].
      destruct (iv_roles S HI _ _ Ht) as [H1 H2]. exists (mo_name m), (rl_id r).
      split; apply (reads_iff C bits verify enum decode HS x S _ _ _ Hx); try known; assumption.
    - exists external_role. split; [|apply external_role_lists].
      apply (reads_iff C bits verify enum decode HS x S _ _ _ Hx); [known|]. apply (iv_external S HI).
  Qed.

  (** ** The authorizer *)
  Lemma decision_shown v name us x S : shown C bits verify x S -> wf_users us ->
    match decision v name us x with
    | Ok d => granted (gets x) v name us /\ d = (true, None) \/ ~ granted (gets x) v name us /\ exists e, d = (false, Some e)
    | Panic => unnamed (gets x) us /\ ~ granted (gets x) v name us
    | _ => False
    end.
  Proof.
    intros Hx HU. unfold ChainSpec.decision, bytes_store, the_app. rewrite (tl_authorizer _ _ _ HA).
    exact (orm_decides C R (tl_registry _ _ _ HA) (tl_schema _ _ _ HA) S (w_store (rt_world x)) (enum (w_trace (rt_world x))) v name us
      (so_codec _ _ _ HS) Hx (so_order _ _ _ HS _) HU).
  Qed.
  Lemma decision_exact v name us x : written x -> wf_users us ->
    match decision v name us x with
    | Ok d => granted (gets x) v name us /\ d = (true, None) \/ ~ granted (gets x) v name us /\ exists e, d = (false, Some e)
    | Panic => unnamed (gets x) us /\ ~ granted (gets x) v name us
    | _ => False
    end.
  Proof.
    intros Hw. destruct (written_shown C bits verify enum decode HS x Hw) as [S Hx]. exact (decision_shown v name us x S Hx).
  Qed.

  (** One user with a role. *)
  Lemma single_decision v n u r x S : shown C bits verify x S -> has_role (gets x) u r ->
    decision v n (users_from_string [u]) x = Ok (true, None) <-> lists r n v.
  Proof.
    intros Hx Hr. pose proof (decision_shown v n (users_from_string [u]) x S Hx (from_string_wf _)) as H.
    pose proof (single_user u) as Hin.
    assert (granted (gets x) v n (users_from_string [u]) <-> lists r n v) as Hg.
    { split.
      - intros [_ (w & r' & Hwu & Hr' & Hl)]. apply Hin in Hwu. subst w.
        destruct Hr as (s & f & H1 & H2). destruct Hr' as (s' & f' & H1' & H2').
        unfold ChainSpec.gets in H1, H2, H1', H2'. rewrite H1 in H1'. injection H1' as <- <-.
        rewrite H2 in H2'. injection H2' as <-. exact Hl.
      - intros Hl. split; [|exists u, r; split; [by apply Hin|split; [exact Hr|exact Hl]]].
        intros w Hwu. apply Hin in Hwu. subst w. exists r. exact Hr. }
    eapply iff_trans; [|exact Hg]. clear Hg Hin. revert H. generalize (decision v n (users_from_string [u]) x). intros [d|e| |] H.
    - destruct H as [[Hg ->]|[Hg [e ->]]]; split; [intros _; exact Hg|reflexivity|clear; intros H; discriminate H|].
      intros Hg'. contradiction (Hg Hg').
    - contradiction H.
    - destruct H as [_ Hg]. split; [clear; intros H; discriminate H|]. intros Hg'. contradiction (Hg Hg').
    - contradiction H.
  Qed.
  Lemma module_decision id cs x m v n : running id cs x -> m ∈ app_modules bits verify ->
    decision v n (users_from_string [mo_name m]) x = Ok (true, None) <-> declares (raw m) n v.
  Proof.
    intros Hrun Hm. destruct (roles_running id cs x Hrun) as [H _]. destruct (H m Hm) as (r & Hr & Hl).
    destruct (running_tracked C bits verify enum fuel decode HS id cs x Hrun) as (S & [Hx _ _] & _).
    eapply iff_trans; [exact (single_decision v n (mo_name m) r x S Hx Hr)|apply Hl].
  Qed.

  (** ** Admission of roles *)
  Lemma all_known_spec set l : all_known set l = true <-> forall y, y ∈ l -> y ∈ set.
  Proof.
    unfold all_known. rewrite forallb_forall. split.
    - intros H y Hy. apply set_has_spec, H. by apply elem_of_list_In.
    - intros H y Hy. apply set_has_spec, H. by apply elem_of_list_In.
  Qed.
  Lemma known_spec l (r : role) : verify_objects r (known_objects l) && verify_transitions r (known_transitions l) = true
    <-> forall v n, lists r n v -> known_to l n v.
  Proof.
    unfold verify_objects, verify_transitions. rewrite !andb_true_iff, !all_known_spec.
    assert (forall n, n ∈ known_objects l <-> exists d, d ∈ l /\ n ∈ map (fun o => ad_name (rw_api o)) (rd_objects d)) as H1.
    { intros n. unfold known_objects. rewrite elem_of_list_In, in_flat_map. split; intros (d & A & B); exists d; rewrite ?elem_of_list_In in *; auto. }
    assert (forall n, n ∈ known_transitions l <-> exists d, d ∈ l /\ n ∈ map tt_name (rd_transitions d)) as H2.
    { intros n. unfold known_transitions. rewrite elem_of_list_In, in_flat_map. split; intros (d & A & B); exists d; rewrite ?elem_of_list_In in *; auto. }
    split.
    - intros (((((Hg & Hl) & Hc) & Hu) & Hd) & Ht) v n [H|H|H|H|H|H]; unfold known_to;
        [apply H1, Hg|apply H1, Hl|apply H1, Hc|apply H1, Hu|apply H1, Hd|apply H2, Ht]; exact H.
    - intros H. unfold known_to in H.
      repeat split; intros n Hn; [apply H1, (H VGet)|apply H1, (H VList)|apply H1, (H VCreate)|apply H1, (H VUpdate)|apply H1, (H VDelete)|apply H2, (H VDeliver)];
        by constructor.
  Qed.

  Lemma orm_rt_get x S ty id : shown C bits verify x S -> ty ∈ all_types ->
    rt_get ORM ty id (w_store (rt_world x)) =
      if decide (id = []) then Panic else match S !! (ty, id) with Some o => Ok o | None => Fail (EWrap (ESent RtNotFound)) end.
  Proof.
    intros Hx Ht.
    destruct (orm_get_map C R (tl_registry _ _ _ HA) (tl_schema _ _ _ HA) S (w_store (rt_world x)) ty id (so_codec _ _ _ HS) Hx Ht) as [_ H].
    rewrite <- (map_rt_get C R (tl_schema _ _ _ HA) S ty id Ht).
    destruct (map_get_sim O R (so_codec _ _ _ HS) (tl_registry _ _ _ HA) ty id (w_store (rt_world x)) S Hx) as [Hd|Hd]; [|exact Hd].
    rewrite (map_rt_get C R (tl_schema _ _ _ HA) S ty id Ht).
    revert H Hd. generalize (rt_get ORM ty id (w_store (rt_world x))). intros g H Hd.
    destruct g; try contradiction. rewrite H. reflexivity.
  Qed.

  Lemma role_admission us mr x : written x ->
    (exists l, gets x ty_modules singleton_id (OModules l)) ->
    unchanged x (snd (message_admission us (MsgCreateRole mr) x))
    /\ (fst (message_admission us (MsgCreateRole mr) x) = Ok tt
          /\ (exists r l, mr = Some r /\ rl_id r <> [] /\ (forall o, ~ gets x ty_role (rl_id r) o)
               /\ gets x ty_modules singleton_id (OModules l) /\ forall v n, lists r n v -> known_to l n v)
        \/ (exists e, fst (message_admission us (MsgCreateRole mr) x) = Fail e)
          /\ ~ exists r l, mr = Some r /\ rl_id r <> [] /\ (forall o, ~ gets x ty_role (rl_id r) o)
               /\ gets x ty_modules singleton_id (OModules l) /\ forall v n, lists r n v -> known_to l n v).
  Proof.
    intros Hw [l Hl]. destruct (written_shown C bits verify enum decode HS x Hw) as [S Hx].
    assert (ty_role ∈ all_types) as Kr by known. assert (ty_modules ∈ all_types) as Km by known.
    pose proof (proj1 (reads_iff C bits verify enum decode HS x S _ _ _ Hx Km) Hl) as Sl.
    unfold ChainSpec.message_admission, at_world, bytes_store, the_app. cbv zeta.
    unfold run_admission_chain. cbn [en_router env_of].
    destruct (tl_routes _ _ _ HA (MsgCreateRole mr)) as (_ & -> & _ & _). cbn [exec_of admission_of run_handlers].
    unfold run_handler. cbn [h_self h_run create_role_admission].
    assert (forall r, (forall o, ~ gets x ty_role (rl_id r) o) <-> S !! (ty_role, rl_id r) = None) as Hnone.
    { intros r. split.
      - intros H. destruct (S !! (ty_role, rl_id r)) as [o|] eqn:E; [|reflexivity]. exfalso. apply (H o).
        by apply (reads_iff C bits verify enum decode HS x S _ _ _ Hx Kr).
      - intros H o Ho. apply (reads_iff C bits verify enum decode HS x S _ _ _ Hx Kr) in Ho. congruence. }
    assert (forall l', gets x ty_modules singleton_id (OModules l') -> l' = l) as Hfun.
    { intros l' H. apply (reads_iff C bits verify enum decode HS x S _ _ _ Hx Km) in H. congruence. }
    destruct mr as [r|].
    2:{ cbn [exec fst snd]. split; [reflexivity|]. right. split; [eauto|]. intros (r & l' & [=] & _). }
    unfold bytes_eqb. case_bool_decide as Hid.
    { cbn [exec fst snd]. split; [reflexivity|]. right. split; [eauto|]. intros (r' & l' & [= <-] & H & _). contradiction. }
    unfold get_. cbn [exec get_height]. rewrite (orm_rt_get x S ty_role (rl_id r) Hx Kr).
    destruct (decide (rl_id r = [])); [contradiction|].
    change (negb (get_height [] =? 0)%N) with false. cbv iota.
    destruct (S !! (ty_role, rl_id r)) as [o|] eqn:Er.
    { cbn [exec fst snd]. split; [reflexivity|]. right. split; [eauto|].
      intros (r' & l' & [= <-] & _ & H & _). apply Hnone in H. congruence. }
    change (errors_is (EWrap (ESent RtNotFound)) RtNotFound) with true. cbv iota. cbn [exec].
    change (negb (get_height [] =? 0)%N) with false. cbv iota. rewrite (orm_rt_get x S ty_modules singleton_id Hx Km).
    destruct (decide (singleton_id = [])) as [E|_]; [discriminate E|]. rewrite Sl.
    pose proof (known_spec l r) as Hk.
    destruct (verify_objects r (known_objects l)); cbn [negb].
    2:{ cbn [exec fst snd]. split; [reflexivity|]. right. split; [eauto|]. intros (r' & l' & [= <-] & _ & _ & H & Hn).
        rewrite (Hfun l' H) in Hn. apply Hk in Hn. discriminate Hn. }
    destruct (verify_transitions r (known_transitions l)); cbn [negb].
    2:{ cbn [exec fst snd]. split; [reflexivity|]. right. split; [eauto|]. intros (r' & l' & [= <-] & _ & _ & H & Hn).
        rewrite (Hfun l' H) in Hn. apply Hk in Hn. discriminate Hn. }
    cbn [exec fst snd]. split; [reflexivity|]. left. split; [reflexivity|]. exists r, l.
    split; [reflexivity|]. split; [exact Hid|]. split; [by apply Hnone|]. split; [exact Hl|]. by apply Hk.
  Qed.

  (** Identifiers below 128 bytes: no role has the identifier. *)
  Lemma role_id_new r x : written x -> length (rl_id r) < 128 -> rl_id r <> [] ->
    (forall o, ~ gets x ty_role (rl_id r) o) <-> forall k r', gets x ty_role k (ORole r') -> rl_id r' <> rl_id r.
  Proof.
    intros Hw Hl Hn. destruct (written_shown C bits verify enum decode HS x Hw) as [S Hx].
    pose proof (shown_wt C bits verify x S Hx) as HW. assert (ty_role ∈ all_types) as Kr by known. split.
    - intros H k r' Hr E. pose proof Hr as Hr'. apply (reads_iff C bits verify enum decode HS x S _ _ _ Hx Kr) in Hr.
      destruct (HW _ _ _ Hr) as (_ & Ek & _). cbn [key_of] in Ek. rewrite E, string_key_short in Ek by exact Hl. subst k. by apply (H _ Hr').
    - intros H o Ho. pose proof Ho as Ho'. apply (reads_iff C bits verify enum decode HS x S _ _ _ Hx Kr) in Ho.
      destruct (wt_role S HW _ _ Ho) as (r' & -> & Ek). apply (H _ _ Ho').
      symmetry in Ek. apply string_key_small_inv in Ek; [exact Ek|unfold blen; lia|exact Hn].
  Qed.
End Node.
