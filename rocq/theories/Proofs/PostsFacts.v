(** The module of posts is a board for one post. *)
From Coq Require Import NArith List Bool String Lia Sorted.
From Coq Require Import ZifyBool ZifyN ZifyNat.
From stdpp Require Import base list gmap.
From Verif.Model Require Import Bytes KindEncoder Desc Schema Indexes Orm Users Strings Prog Router
  Runtime Services Module Universe Builder Posts.
From Verif.Spec Require Import UserSpec StoreSpec TextSpec RuntimeSpec PostsSpec.
From Verif.Proofs Require Import BytesFacts RegistryFacts OrmFacts OrmListFacts SimFacts BuilderFacts AppFacts
  UserFacts KVFacts.

(** ** Building *)
Lemma board_built : build 1 no_descs [board_module] = Ok board_app.
Proof.
  assert (is_ok (build (Tx:=unit) 1 no_descs [board_module]) = true) as H by (vm_compute; reflexivity).
  unfold board_app. set (b := build _ _ _) in *. clearbody b. destruct b; [reflexivity|discriminate H..].
Qed.
Definition params_schema : schema := {|
  sch_group := str "testmodule.v1"; sch_kind := str "Params"; sch_singleton := true;
  sch_pk := None; sch_indexes := [] |}.
Lemma board_post_schema : rg_schemas (ap_registry board_app) !! ty_post = Some post_schema.
Proof. vm_compute. reflexivity. Qed.
Lemma board_params_schema : rg_schemas (ap_registry board_app) !! ty_board_params = Some params_schema.
Proof. vm_compute. reflexivity. Qed.
Lemma board_registry_ok : registry_ok (ap_registry board_app).
Proof.
  apply (built_ok 1 no_descs). destruct (proj1 (build_value _ _ _ _) board_built) as [_ ->]. cbn [ap_registry].
  apply install_built; [constructor|]. repeat constructor; vm_compute; try reflexivity; try set_solver.
Qed.
Lemma board_modules : ap_modules board_app = [board_module].
Proof. destruct (proj1 (build_value _ _ _ _) board_built) as [_ ->]. reflexivity. Qed.
Lemma board_authorizer : ap_authorizer board_app = always_allow.
Proof. destruct (proj1 (build_value _ _ _ _) board_built) as [_ ->]. reflexivity. Qed.
Lemma board_declared_exec : declared mo_exec (tt_name t_create_post) [board_module (Tx:=unit)]
  = [with_client (board_module (Tx:=unit)) create_post_exec].
Proof. reflexivity. Qed.
Lemma board_declared_admission : declared mo_admission (tt_name t_create_post) [board_module (Tx:=unit)]
  = [with_client (board_module (Tx:=unit)) create_post_admission].
Proof. reflexivity. Qed.
Lemma board_routes :
  get_exec (ap_router board_app) (tt_name t_create_post) = Ok (with_client (board_module (Tx:=unit)) create_post_exec)
  /\ get_admission (ap_router board_app) (tt_name t_create_post) = Ok [with_client (board_module (Tx:=unit)) create_post_admission]
  /\ get_pre (ap_router board_app) (tt_name t_create_post) = Ok []
  /\ get_post (ap_router board_app) (tt_name t_create_post) = Ok [].
Proof.
  destruct (built_lookups 1 no_descs _ _ (tt_name t_create_post) board_built) as (-> & -> & -> & ->).
  rewrite board_declared_exec, board_declared_admission. auto.
Qed.
Lemma itoa_one : itoa 1 = str "1".
Proof. reflexivity. Qed.

Section Board.
  Context (enc : board_object -> option bytes) (dec : bytes -> bytes -> option board_object).
  Context (enum : list (event board_object board_msg) -> users -> list user) (fuel : nat) (enabled : bool).
  Notation O := (board_ops enc dec).
  Notation R := (ap_registry board_app).
  Notation SO := (board_store enc dec).
  Notation amap := (gmap (bytes * bytes) board_object).
  Notation en b := (env_of board_app enum b).
  Notation nodes := (rt board_object board_msg orm).
  Context (HC : codec_ok O).

  (** The map of objects behind a board. *)
  Definition board_map (b : option board_msg) : amap :=
    match b with
    | Some m => <[(ty_post, str "1") := OPost (numbered (str "1") m)]> {[ (ty_board_params, singleton_id) := OBoardParams 1 ]}
    | None => {[ (ty_board_params, singleton_id) := OBoardParams 1 ]}
    end.

  Lemma types_differ : ty_post <> ty_board_params.
  Proof. discriminate. Qed.
  Lemma post_name p : obj_name O (OPost p) = ty_post.
  Proof. reflexivity. Qed.
  Lemma params_name n : obj_name O (OBoardParams n) = ty_board_params.
  Proof. reflexivity. Qed.
  Lemma post_typed m : (blen (mp_creator m) < 2 ^ 63)%N -> typed_in O R (OPost (numbered (str "1") m)).
  Proof.
    intros Hm s. rewrite post_name, board_post_schema. intros [= <-]. split; [reflexivity|].
    constructor; [|constructor]. change ((blen (mp_creator m) <? 2 ^ 63)%N = true). lia.
  Qed.
  Lemma params_typed n : typed_in O R (OBoardParams n).
  Proof. intros s. rewrite params_name, board_params_schema. intros [= <-]. split; [exact I|constructor]. Qed.
  Lemma post_pk m : pk_of O post_schema (OPost (numbered (str "1") m)) = str "1".
  Proof. reflexivity. Qed.
  Lemma params_pk n : pk_of O params_schema (OBoardParams n) = singleton_id.
  Proof. reflexivity. Qed.

  Lemma board_map_post b id o : board_map b !! (ty_post, id) = Some o <->
    exists m, b = Some m /\ id = str "1" /\ o = OPost (numbered (str "1") m).
  Proof.
    destruct b as [m|]; unfold board_map.
    - rewrite lookup_insert_Some, lookup_singleton_Some. split.
      + intros [[E <-]|[_ [E _]]]; [|by inversion E]. inversion E; subst. eauto.
      + intros (m' & [= <-] & -> & ->). auto.
    - rewrite lookup_singleton_Some. split; [intros [E _]; by inversion E|]. intros (m & ? & _). discriminate.
  Qed.
  Lemma board_map_params b : board_map b !! (ty_board_params, singleton_id) = Some (OBoardParams 1).
  Proof.
    destruct b as [m|]; unfold board_map; [rewrite lookup_insert_ne by (intros E; inversion E)|]; apply lookup_singleton.
  Qed.

  (** ** Reading *)
  Lemma repr_get S st ty id o s : repr O R S st -> rg_schemas R !! ty = Some s ->
    rt_get SO ty id st = Ok o <-> id <> [] /\ S !! (ty, id) = Some o.
  Proof.
    intros HP Hs. destruct (get_refines O R S st ty id HC board_registry_ok HP) as [H1 H2].
    unfold rt_get, board_store. cbn [so_get orm_ops]. rewrite convert_answer, H1. unfold spec_get in *. rewrite Hs in *.
    destruct (decide (id = [])) as [->|Hid]; cbn in *.
    { split; [destruct (orm_get _ _ _ _ _); discriminate|intros [? _]; done]. }
    destruct (S !! (ty, id)) as [o'|] eqn:E; cbn in *.
    - destruct (orm_get _ _ _ _ _) as [o''|e| |]; try discriminate. injection H2 as ->.
      split; [intros [= ->]; auto|intros [_ [= ->]]; auto].
    - split; [discriminate|intros [_ ?]; discriminate].
  Qed.

  Lemma repr_on_board x b : repr O R (board_map b) (w_store (rt_world x)) -> on_board enc dec x b.
  Proof.
    intros HP. constructor.
    - intros id o. rewrite (repr_get _ _ _ _ _ _ HP board_post_schema), board_map_post. split; [by intros [_ H]|].
      intros (m & -> & -> & ->). split; [discriminate|eauto].
    - apply (repr_get _ _ _ _ _ _ HP board_params_schema). split; [discriminate|apply board_map_params].
    - intros c l Hc.
      pose proof (list_interface O R _ _ ty_post post_schema {| ix_name := str "creator"; ix_kind := StringKind |}
        (VString c) 0 0 board_registry_ok HP board_post_schema) as HL.
      unfold post_schema in HL. cbn [sch_indexes ix_kind ix_name value_ok] in HL.
      assert (HL' := HL ltac:(constructor) ltac:(lia)). clear HL. change (go_of (VString c)) with (GString c) in HL'.
      assert (forall id, (exists o, board_map b !! (ty_post, id) = Some o /\ oo_get O o (str "creator") = VString c)
                <-> exists m, b = Some m /\ mp_creator m = c /\ id = str "1") as Hm.
      { intros id. split.
        - intros (o & H1 & H2). apply board_map_post in H1 as (m & -> & -> & ->).
          exists m. split; [done|]. split; [|done]. by injection H2.
        - intros (m & -> & <- & ->). exists (OPost (numbered (str "1") m)). split; [apply board_map_post; eauto|reflexivity]. }
      destruct (orm_list _ _ _ _) as [l'|e| |]; cbn [list_answers] in HL'; try done.
      + destruct HL' as [Hn [Hsort Hin]]. split.
        * intros [= <-]. destruct l' as [|i l']; [done|].
          assert (i ∈ i :: l') as Hi by constructor. apply Hin, Hm in Hi as (m & -> & Hcr & ->).
          exists m. split; [done|]. split; [done|]. destruct l' as [|j l']; [done|].
          assert (j ∈ str "1" :: j :: l') as Hj by (apply elem_of_cons; right; constructor).
          apply Hin, Hm in Hj as (m' & _ & _ & ->).
          apply StronglySorted_inv in Hsort as [_ Hs]. apply Forall_cons_1 in Hs as [[_ Hs] _]. done.
        * intros (m & -> & Hcr & ->). f_equal.
          assert (str "1" ∈ l') as H1 by (apply Hin, Hm; eauto).
          assert (forall i, i ∈ l' -> i = str "1") as H2.
          { intros i Hi. apply Hin, Hm in Hi as (_ & _ & _ & ->). done. }
          destruct l' as [|i l']; [by apply elem_of_nil in H1|].
          rewrite (H2 i) in * by constructor. destruct l' as [|j l']; [done|].
          rewrite (H2 j) in Hsort by (apply elem_of_cons; right; constructor).
          apply StronglySorted_inv in Hsort as [_ Hs]. apply Forall_cons_1 in Hs as [[_ Hs] _]. done.
      + destruct HL' as [_ [_ Hin]]. split; [discriminate|]. intros (m & -> & Hcr & ->).
        assert (str "1" ∈ @nil bytes) as H1 by (apply Hin, Hm; eauto). by apply elem_of_nil in H1.
  Qed.

  (** ** Writing *)
  Lemma board_create S st us o s : repr O R S st -> typed_in O R o -> rg_schemas R !! obj_name O o = Some s ->
    pk_of O s o <> [] -> forall w : world board_object board_msg orm, w_store w = st ->
    exists r w', store_write SO (WCreate o) us w = (r, w') /\
      match S !! (obj_name O o, pk_of O s o) with
      | Some _ => r = Panic
      | None => if storable O s o then r = Ok tt /\ repr O R (<[(obj_name O o, pk_of O s o) := o]> S) (w_store w')
                else r = Panic \/ r = OutOfFuel
      end.
  Proof.
    intros HP HT Hs Hpk w <-. unfold store_write, board_store. cbn [apply_write so_create orm_ops].
    destruct (create_refines O R S _ o board_registry_ok HP HT) as [H1 H2].
    destruct (orm_create O R o (w_store w)) as [r st']. cbn [fst snd] in *.
    eexists _, _. split; [reflexivity|]. cbn [w_store]. rewrite convert_answer, H1.
    unfold spec_create in *. rewrite Hs in *. rewrite decide_False in * by done.
    destruct (S !! _); cbn in *.
    { destruct r; try done. }
    destruct (storable O s o); cbn in *.
    - split; [|by apply H2]. destruct r as [[]|e| |]; try done. cbn in H1.
      destruct (errors_is e OrmAlreadyExists), (errors_is e OrmNotFound), (errors_is e SchemaNotFound); done.
    - destruct r; auto.
  Qed.

  Lemma allowed b v n us (w : world board_object board_msg orm) : exists w', authorized SO (en b) v n us w = (Ok tt, w') /\ w_store w' = w_store w.
  Proof.
    unfold authorized. cbn [en_enabled en_authorizer env_of]. rewrite board_authorizer.
    destruct b; cbn; eauto.
  Qed.

  Lemma has_one (us : users) c : users_has us [c] = bool_decide (c ∈ dom us).
  Proof.
    unfold users_has, users_has1. destruct (us !! c) eqn:E; cbn; symmetry.
    - apply bool_decide_eq_true_2. by apply elem_of_dom_2 in E.
    - apply bool_decide_eq_false_2. by apply not_elem_of_dom.
  Qed.

  Lemma admission_spec us m : create_post_admission us m = if decide (postable us m) then PRet tt else PFail EAnon.
  Proof.
    unfold create_post_admission. rewrite has_one. unfold postable.
    destruct (decide _) as [(H1 & H2 & H3)|H].
    - rewrite bool_decide_eq_true_2 by done. cbn [negb].
      apply bytes_eqb_false in H2, H3. by rewrite H2, H3.
    - case_bool_decide as H1; cbn [negb]; [|done].
      destruct (bytes_eqb (mp_title m) []) eqn:E2; [done|]. destruct (bytes_eqb (mp_text m) []) eqn:E3; [done|].
      exfalso. apply H. apply bytes_eqb_false in E2, E3. auto.
  Qed.

  Lemma deliver_step e us m b (w : world board_object board_msg orm) :
    (blen (mp_creator m) < 2 ^ 63)%N -> repr O R (board_map b) (w_store w) ->
    exists r w', deliver O board_msg_name SO (en e) (S fuel) false us m w = (r, w')
      /\ outcome_of r = (board_step enc dec us m b).1
      /\ ((board_step enc dec us m b).1 <> Stopped -> repr O R (board_map (board_step enc dec us m b).2) (w_store w'))
      /\ (postable us m -> b <> None -> r = Panic).
  Proof.
    intros Hm HP. cbn [deliver]. unfold deliver_body, run_admission_chain, deliver_authorized, board_msg_name.
    cbn [en_router env_of]. destruct board_routes as (-> & -> & -> & ->).
    cbn [run_handlers]. unfold run_handler at 1. cbn [with_client h_self h_run].
    rewrite admission_spec. unfold board_step.
    destruct (decide (postable us m)) as [Hp|Hp]; cbn [exec]; cycle 1.
    { eexists _, _. split; [reflexivity|]. split; [reflexivity|]. split; [intros _; exact HP|done]. }
    destruct (allowed e VDeliver (tt_name t_create_post) us w) as (w1 & -> & Hw1).
    cbn [run_handlers]. unfold run_handler, create_post_exec. cbn [with_client h_self h_run exec]. cbn [get_height fold_left N.eqb negb].
    set (w2 := log (EvDeliver m us) w1). assert (w_store w2 = w_store w) as Hw2 by done. clearbody w2.
    rewrite Hw2. rewrite (proj2 (repr_get _ _ ty_board_params singleton_id (OBoardParams 1) _ HP board_params_schema))
      by (split; [discriminate|apply board_map_params]).
    cbn [exec]. rewrite itoa_one. change {| po_id := str "1"; po_creator := _; po_title := _; po_text := _ |} with (numbered (str "1") m).
    unfold rt_create. destruct (allowed e VCreate (obj_name O (OPost (numbered (str "1") m))) (module_self (board_module (Tx:=unit))) w2)
      as (w3 & -> & Hw3).
    destruct (board_create _ _ (module_self (board_module (Tx:=unit))) (OPost (numbered (str "1") m)) post_schema HP (post_typed m Hm)
      board_post_schema ltac:(discriminate) w3 ltac:(congruence)) as (r & w4 & -> & H).
    rewrite post_name, post_pk in H. unfold writable.
    destruct (board_map b !! (ty_post, str "1")) as [o|] eqn:Eb.
    - apply board_map_post in Eb as (m' & -> & _ & _). subst r. eexists _, _. split; [reflexivity|]. done.
    - destruct b as [m'|].
      { exfalso. assert (board_map (Some m') !! (ty_post, str "1") = Some (OPost (numbered (str "1") m'))) as E
          by (apply board_map_post; eauto). congruence. }
      destruct (storable O post_schema (OPost (numbered (str "1") m))).
      + destruct H as [-> H]. eexists _, _. split; [reflexivity|]. split; [reflexivity|]. split; [intros _; exact H|done].
      + destruct H as [-> | ->]; eexists _, _; (split; [reflexivity|]); done.
  Qed.

  Lemma genesis_step : storable O params_schema (OBoardParams 1) = true ->
    exists x, board_start enc dec enum fuel enabled = (Ok tt, x) /\ rt_enabled x = enabled
      /\ repr O R (board_map None) (w_store (rt_world x)).
  Proof.
    intros Hst. unfold board_start, genesis_modules. rewrite board_modules. cbn [each].
    change (mo_genesis (board_module (Tx:=unit))) with (Some board_genesis). cbn iota.
    unfold run_module. cbn [gn_default board_genesis exec]. unfold rt_create.
    destruct (allowed (rt_enabled (board_new enabled)) VCreate (obj_name O (OBoardParams 1)) (module_self (board_module (Tx:=unit)))
      (rt_world (board_new enabled))) as (w1 & -> & Hw1).
    destruct (board_create ∅ _ (module_self (board_module (Tx:=unit))) (OBoardParams 1) params_schema
      (repr_empty O R) (params_typed 1) board_params_schema ltac:(discriminate) w1 Hw1) as (r & w2 & -> & H).
    rewrite params_name, params_pk, lookup_empty, Hst in H. destruct H as [-> H].
    eexists. split; [reflexivity|]. split; [reflexivity|]. exact H.
  Qed.
End Board.

(** ** Histories *)
Section Run.
  Context (enc : board_object -> option bytes) (dec : bytes -> bytes -> option board_object).
  Context (enum : list (event board_object board_msg) -> users -> list user) (fuel : nat) (enabled : bool).
  Notation O := (board_ops enc dec).
  Notation R := (ap_registry board_app).
  Notation nodes := (rt board_object board_msg orm).
  Notation run_node := (deliveries_from (node_step enc dec enum (S fuel))).
  Notation run_board := (deliveries_from (board_step enc dec)).
  Context (HC : codec_ok O).

  Lemma run_same ds : forall x b, (Forall (fun d => (blen (mp_creator (snd d)) < 2 ^ 63)%N) ds) ->
    repr O R (board_map b) (w_store (rt_world x)) ->
    (run_node ds x).1 = (run_board ds b).1
    /\ match (run_node ds x).2, (run_board ds b).2 with
       | Some x', Some b' => repr O R (board_map b') (w_store (rt_world x'))
       | None, None => True
       | _, _ => False
       end.
  Proof.
    induction ds as [|[us m] ds IH]; intros x b HF HP; [done|].
    apply Forall_cons_1 in HF as [Hm HF]. cbn [snd] in Hm. cbn [deliveries_from fst snd].
    destruct (deliver_step enc dec enum fuel HC (rt_enabled x) us m b (rt_world x) Hm HP) as (r & w' & Hd & Hr & Hw & _).
    assert (node_step enc dec enum (S fuel) us m x = ((board_step enc dec us m b).1, set_world x w')) as ->.
    { unfold node_step, board_deliver, rt_deliver. rewrite Hd, Hr. reflexivity. }
    clear Hd Hr r. destruct (board_step enc dec us m b) as [o b']. cbn [fst snd] in *.
    destruct o; [..|exact (conj eq_refl I)].
    all: destruct (IH (set_world x w') b' HF (Hw ltac:(discriminate))) as [I1 I2].
    all: destruct (run_node ds (set_world x w')) as [l1 x1], (run_board ds b') as [l2 b1]; cbn [fst snd] in *; subst; auto.
  Qed.

  Lemma run_app {X} (f : users -> board_msg -> X -> outcome * X) ds ds' : forall x,
    deliveries_from f (ds ++ ds') x =
      match deliveries_from f ds x with
      | (l, Some x') => let '(l', r) := deliveries_from f ds' x' in (l ++ l', r)
      | (l, None) => (l, None)
      end.
  Proof.
    induction ds as [|d ds IH]; intros x; cbn [app deliveries_from].
    { by destruct (deliveries_from f ds' x). }
    destruct (f d.1 d.2 x) as [[] x']; try done; rewrite IH;
      destruct (deliveries_from f ds x') as [l [x''|]]; try done; destruct (deliveries_from f ds' x''); done.
  Qed.

  Lemma start_repr x : board_start enc dec enum (S fuel) enabled = (Ok tt, x) ->
    repr O R (board_map None) (w_store (rt_world x)).
  Proof.
    intros Hx. destruct (storable O params_schema (OBoardParams 1)) eqn:Hst.
    - destruct (genesis_step enc dec enum (S fuel) enabled Hst) as (x' & Hx' & _ & HP).
      rewrite Hx in Hx'. by injection Hx' as <-.
    - exfalso. revert Hx. unfold board_start, genesis_modules. rewrite board_modules. cbn [each].
      change (mo_genesis (board_module (Tx:=unit))) with (Some board_genesis). cbn iota.
      unfold run_module. cbn [gn_default board_genesis exec]. unfold rt_create.
      destruct (allowed enc dec enum (rt_enabled (board_new enabled)) VCreate (obj_name O (OBoardParams 1)) (module_self (board_module (Tx:=unit)))
        (rt_world (board_new enabled))) as (w1 & -> & Hw1).
      destruct (board_create enc dec ∅ _ (module_self (board_module (Tx:=unit))) (OBoardParams 1) params_schema
        (repr_empty O R) (params_typed enc dec 1) board_params_schema ltac:(discriminate) w1 Hw1) as (r & w2 & -> & H).
      rewrite params_name, params_pk, lookup_empty, Hst in H. destruct H as [-> | ->]; discriminate.
  Qed.

  Lemma board_run ds x : Forall (fun d => (blen (mp_creator (snd d)) < 2 ^ 63)%N) ds ->
    board_start enc dec enum (S fuel) enabled = (Ok tt, x) ->
    (run_node ds x).1 = (run_board ds None).1
    /\ match (run_node ds x).2, (run_board ds None).2 with
       | Some x', Some b => on_board enc dec x' b
       | None, None => True
       | _, _ => False
       end.
  Proof.
    intros HF Hx. destruct (run_same ds x None HF (start_repr x Hx)) as [H1 H2]. split; [done|].
    destruct (run_node ds x).2, (run_board ds None).2; try done. by apply repr_on_board.
  Qed.

  Lemma board_starts : is_Some (enc (OBoardParams 1)) -> exists x, board_start enc dec enum (S fuel) enabled = (Ok tt, x).
  Proof.
    intros [e He]. destruct (genesis_step enc dec enum (S fuel) enabled) as (x & Hx & _); [|eauto].
    unfold storable. cbn [oo_marshal board_ops]. rewrite He. reflexivity.
  Qed.

  (** The board keeps what it has. *)
  Lemma board_keeps ds : forall m b, (run_board ds (Some m)).2 = Some b -> b = Some m.
  Proof.
    induction ds as [|[us m'] ds IH]; intros m b; cbn [deliveries_from fst snd]; [by intros [= <-]|].
    unfold board_step at 1. destruct (decide _); [done|].
    specialize (IH m). destruct (run_board ds (Some m)). cbn [snd] in *. apply IH.
  Qed.

  Lemma post_stays ds ds' x l l' x1 x2 id o : Forall (fun d => (blen (mp_creator (snd d)) < 2 ^ 63)%N) (ds ++ ds') ->
    board_start enc dec enum (S fuel) enabled = (Ok tt, x) ->
    run_node ds x = (l, Some x1) -> run_node ds' x1 = (l', Some x2) ->
    rt_get (board_store enc dec) ty_post id (w_store (rt_world x1)) = Ok o ->
    rt_get (board_store enc dec) ty_post id (w_store (rt_world x2)) = Ok o.
  Proof.
    intros HF Hx H1 H2 Hg. pose proof (board_run _ _ HF Hx) as [_ HA]. apply Forall_app in HF as [HF _].
    pose proof (board_run _ _ HF Hx) as [_ HB]. rewrite !run_app, H1, H2 in HA. rewrite H1 in HB. cbn [snd] in *.
    destruct (run_board ds None) as [l1 [b1|]]; [|done]. cbn [snd] in HB.
    destruct (run_board ds' b1) as [l2 [b2|]] eqn:E2; [|done]. cbn [snd] in HA.
    apply (ob_post _ _ _ _ HB) in Hg as (m & -> & -> & ->). apply (ob_post _ _ _ _ HA).
    pose proof (board_keeps ds' m b2) as K. rewrite E2 in K. rewrite (K eq_refl). eauto.
  Qed.

  Lemma second_stops ds x l x1 us m o : Forall (fun d => (blen (mp_creator (snd d)) < 2 ^ 63)%N) ds ->
    (blen (mp_creator m) < 2 ^ 63)%N ->
    board_start enc dec enum (S fuel) enabled = (Ok tt, x) -> run_node ds x = (l, Some x1) ->
    rt_get (board_store enc dec) ty_post (str "1") (w_store (rt_world x1)) = Ok o -> postable us m ->
    fst (board_deliver enc dec enum (S fuel) us m x1) = Panic.
  Proof.
    intros HF Hm Hx H1 Hg Hp. pose proof (start_repr x Hx) as HP0.
    destruct (run_same ds x None HF HP0) as [_ H2]. rewrite H1 in H2. cbn [snd] in H2.
    destruct (run_board ds None).2 as [b|]; [|done].
    apply (ob_post _ _ _ _ (repr_on_board enc dec HC x1 b H2)) in Hg as (m' & -> & _ & _).
    destruct (deliver_step enc dec enum fuel HC (rt_enabled x1) us m (Some m') (rt_world x1) Hm H2) as (r & w' & Hd & _ & _ & Hr).
    unfold board_deliver, rt_deliver. rewrite Hd. by apply Hr.
  Qed.
End Run.
