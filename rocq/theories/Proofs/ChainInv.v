(** The state of the application after genesis: roles, bindings and the
    singletons, and who may do what. *)
From Coq Require Import NArith ZArith List Bool String Lia.
From stdpp Require Import base list gmap.
From Verif.Model Require Import Bytes KindEncoder Desc Schema Indexes Orm Users Prog Router Runtime
  Services Module Builder Universe CoreModules Rbac Bank Authn Distribution TestApp Abci.
From Verif.Spec Require Import UserSpec StoreSpec RuntimeSpec RbacSpec.
From Verif.Proofs Require Import BytesFacts KindEncoderFacts RegistryFacts OrmFacts UserFacts RuntimeFacts
  BuilderFacts SimFacts AppFacts AppSim RbacFacts MapExec.

Local Open Scope string_scope.
Local Open Scope list_scope.

(** ** Tables *)
Definition app_raw : list raw_descriptor := map raw (app_modules 0 (fun _ _ _ => false)).
Definition role_of (d : raw_descriptor) : role :=
  match module_role d with Ok (r, _) => r | _ => empty_role [] end.
Definition role_table : list (bytes * role) :=
  Eval vm_compute in map (fun d => (rd_name d, role_of d)) app_raw.
Definition external_role : role :=
  Eval vm_compute in
    {| rl_id := external_role_id; rl_gets := []; rl_lists := []; rl_creates := []; rl_updates := [];
       rl_deletes := []; rl_delivers := [tt_name t_create_account; tt_name t_send_coins] |}.
Definition module_names : list bytes := map fst role_table.

Definition initial_params : auth_params :=
  {| pr_max_memo := 1000000; pr_sig_limit := 1000000; pr_size_cost := 0;
     pr_ed25519_cost := 0; pr_secp256k1_cost := 0 |}.
Definition genesis_account : account :=
  {| ac_address := genesis_address; ac_pubkey := Some genesis_key; ac_number := 0; ac_sequence := 0 |}.
Definition genesis_objects (chain_id : bytes) : list object :=
  flat_map (fun x => [ORole (snd x); OBinding (fst x) (rl_id (snd x))]) role_table
  ++ [ORole external_role; OModules app_raw;
      OStage StInitChain; OBeginBlock None; OCheckTx None; ODeliverTx None; OCurrentBlock 0;
      OInitChainInfo chain_id; OUpdates []; OEndBlock None;
      OAuthParams initial_params; OAccountNumber 1; OAccount genesis_account;
      OBinding genesis_address external_role_id;
      OBalance genesis_address [{| co_denom := str "test"; co_amount := str "5000000000" |}]].
Definition genesis_store (chain_id : bytes) : amap :=
  list_to_map (map (fun o => ((ty_of o, key_of o), o)) (genesis_objects chain_id)).

Lemma raw_modules bits verify : map raw (app_modules bits verify) = app_raw.
Proof. reflexivity. Qed.

Section Genesis.
  Context (C : codec) (bits : N) (verify : bytes -> bytes -> bytes -> bool).
  Context (enum : list (event object msg) -> users -> list user) (fuel : nat) (id : bytes).
  Notation app := (test_app bits verify).
  Notation init := (init_chain (app_ops C) (map_ops (app_ops C) (ap_registry app)) app enum fuel id None (rt_start ∅)).

  Lemma genesis_outcome :
    match fuel with
    | 0 | 1 => fst init = OutOfFuel
    | _ => fst init = Ok tt /\ rt_initialized (snd init) = true /\ rt_enabled (snd init) = true
           /\ map_to_list (w_store (rt_world (snd init))) = map_to_list (genesis_store id)
    end.
  Proof.
    destruct fuel as [|[|f]]; [vm_compute; reflexivity..|].
    split; [vm_compute; reflexivity|]. split; [vm_compute; reflexivity|]. split; [vm_compute; reflexivity|].
    vm_compute. reflexivity.
  Qed.
End Genesis.

(** ** Types of objects *)
Definition ty_index (ty : bytes) : option nat :=
  (fix go (n : nat) (l : list bytes) :=
     match l with [] => None | x :: l' => if bytes_eqb x ty then Some n else go (Datatypes.S n) l' end) 0 all_types.
Definition tag (o : object) : nat :=
  match o with
  | OModules _ => 0 | OStage _ => 1 | OBeginBlock _ => 2 | OCheckTx _ => 3 | ODeliverTx _ => 4
  | OInitChainInfo _ => 5 | OEndBlock _ => 6 | OCurrentBlock _ => 7 | OUpdates _ => 8 | OAccount _ => 9
  | OAuthParams _ => 10 | OAccountNumber _ => 11 | ORole _ => 12 | OBinding _ _ => 13 | ORbacParams => 14
  | OBalance _ _ => 15
  end.
Lemma ty_index_tag o : ty_index (ty_of o) = Some (tag o).
Proof. destruct o; vm_compute; reflexivity. Qed.
Lemma ty_of_tag o o' : ty_of o = ty_of o' -> tag o = tag o'.
Proof. intros H. pose proof (ty_index_tag o) as H1. rewrite H, ty_index_tag in H1. congruence. Qed.
Lemma tag_ty_of o o' : tag o = tag o' -> ty_of o = ty_of o'.
Proof. destruct o, o'; try discriminate; reflexivity. Qed.

Section Shapes.
  Context (S : amap) (W : wt S).
  Lemma wt_binding k o : S !! (ty_binding, k) = Some o ->
    exists s r, o = OBinding s r /\ k = string_key s.
  Proof.
    intros H; destruct (W _ _ _ H) as (E & Ek & _). apply (ty_of_tag (OBinding [] [])) in E.
    destruct o; try discriminate E. eauto.
  Qed.
  Lemma wt_role k o : S !! (ty_role, k) = Some o -> exists r, o = ORole r /\ k = string_key (rl_id r).
  Proof.
    intros H; destruct (W _ _ _ H) as (E & Ek & _). apply (ty_of_tag (ORole (empty_role []))) in E.
    destruct o; try discriminate E. eauto.
  Qed.
  Lemma wt_account k o : S !! (ty_account, k) = Some o -> exists a, o = OAccount a /\ k = string_key (ac_address a).
  Proof.
    intros H; destruct (W _ _ _ H) as (E & Ek & _). apply (ty_of_tag (OAccount genesis_account)) in E.
    destruct o; try discriminate E. eauto.
  Qed.
  Lemma wt_balance k o : S !! (ty_balance, k) = Some o -> exists a c, o = OBalance a c /\ k = string_key a.
  Proof.
    intros H; destruct (W _ _ _ H) as (E & Ek & _). apply (ty_of_tag (OBalance [] [])) in E.
    destruct o; try discriminate E. eauto.
  Qed.
  Lemma wt_number k o : S !! (ty_account_number, k) = Some o -> k = singleton_id /\ exists n, o = OAccountNumber n.
  Proof.
    intros H; destruct (W _ _ _ H) as (E & Ek & _). apply (ty_of_tag (OAccountNumber 0)) in E.
    destruct o; try discriminate E. eauto.
  Qed.
  Lemma wt_stage k o : S !! (ty_stage, k) = Some o -> k = singleton_id /\ exists n, o = OStage n.
  Proof.
    intros H; destruct (W _ _ _ H) as (E & Ek & _). apply (ty_of_tag (OStage StUnknown)) in E.
    destruct o; try discriminate E. eauto.
  Qed.
  Lemma wt_current_block k o : S !! (ty_current_block, k) = Some o -> k = singleton_id /\ exists n, o = OCurrentBlock n.
  Proof.
    intros H; destruct (W _ _ _ H) as (E & Ek & _). apply (ty_of_tag (OCurrentBlock 0)) in E.
    destruct o; try discriminate E. eauto.
  Qed.
  Lemma wt_updates k o : S !! (ty_updates, k) = Some o -> k = singleton_id /\ exists n, o = OUpdates n.
  Proof.
    intros H; destruct (W _ _ _ H) as (E & Ek & _). apply (ty_of_tag (OUpdates [])) in E.
    destruct o; try discriminate E. eauto.
  Qed.
  Lemma wt_init_chain k o : S !! (ty_init_chain_info, k) = Some o -> k = singleton_id /\ exists n, o = OInitChainInfo n.
  Proof.
    intros H; destruct (W _ _ _ H) as (E & Ek & _). apply (ty_of_tag (OInitChainInfo [])) in E.
    destruct o; try discriminate E. eauto.
  Qed.
  Lemma wt_params k o : S !! (ty_auth_params, k) = Some o -> k = singleton_id /\ exists n, o = OAuthParams n.
  Proof.
    intros H; destruct (W _ _ _ H) as (E & Ek & _). apply (ty_of_tag (OAuthParams initial_params)) in E.
    destruct o; try discriminate E. eauto.
  Qed.
  Lemma wt_modules k o : S !! (ty_modules, k) = Some o -> k = singleton_id /\ exists l, o = OModules l.
  Proof.
    intros H; destruct (W _ _ _ H) as (E & Ek & _). apply (ty_of_tag (OModules [])) in E.
    destruct o; try discriminate E. eauto.
  Qed.
End Shapes.

Lemma wt_insert S o : wt S -> key_of o <> [] -> wt (<[(ty_of o, key_of o) := o]> S).
Proof.
  intros HW Hk ty id o'. rewrite lookup_insert_Some. intros [[E ->]|[_ H]]; [|by apply HW].
  injection E as <- <-. done.
Qed.

(** ** The invariant *)
(** Singletons that exist, by any object of the type. *)
Definition singletons : list object :=
  [OStage StUnknown; OBeginBlock None; OCheckTx None; ODeliverTx None; OInitChainInfo []; OEndBlock None;
   OCurrentBlock 0; OUpdates []; OAccountNumber 0].
Record inv (S : amap) : Prop := {
  iv_wt : wt S;
  iv_roles : forall n r, (n, r) ∈ role_table ->
    S !! (ty_binding, n) = Some (OBinding n (rl_id r)) /\ S !! (ty_role, rl_id r) = Some (ORole r);
  iv_external : S !! (ty_role, external_role_id) = Some (ORole external_role);
  iv_bindings : forall u s ref, S !! (ty_binding, u) = Some (OBinding s ref) ->
    u ∈ module_names \/ ref = external_role_id;
  iv_role_ids : forall k r, S !! (ty_role, k) = Some (ORole r) -> r = external_role \/ r ∈ map snd role_table;
  iv_modules : S !! (ty_modules, singleton_id) = Some (OModules app_raw);
  iv_params : S !! (ty_auth_params, singleton_id) = Some (OAuthParams initial_params);
  iv_singletons : Forall (fun o => is_Some (S !! (ty_of o, singleton_id))) singletons
}.

Definition harmless (S : amap) (o : object) : Prop :=
  match o with
  | ORole _ | OModules _ | OAuthParams _ => False
  | OBinding _ ref => ref = external_role_id /\ S !! (ty_binding, key_of o) = None
  | _ => True
  end.

Lemma inv_insert S o : inv S -> key_of o <> [] -> harmless S o -> inv (<[(ty_of o, key_of o) := o]> S).
Proof.
  intros HI Hk Ho. destruct HI as [H1 H2 H3 H4 H5 H6 H7 H8].
  assert (forall r, (ty_of o, key_of o) <> (ty_role, r)) as Nr.
  { intros r E. injection E as E _. apply (ty_of_tag o (ORole external_role)) in E. by destruct o. }
  assert ((ty_of o, key_of o) <> (ty_modules, singleton_id)) as Nm.
  { intros E. injection E as E _. apply (ty_of_tag o (OModules [])) in E. by destruct o. }
  assert ((ty_of o, key_of o) <> (ty_auth_params, singleton_id)) as Np.
  { intros E. injection E as E _. apply (ty_of_tag o (OAuthParams initial_params)) in E. by destruct o. }
  assert (forall u, (ty_of o, key_of o) = (ty_binding, u) ->
            (exists s, o = OBinding s external_role_id) /\ S !! (ty_binding, u) = None) as Nb.
  { intros u E. injection E as E <-. apply (ty_of_tag o (OBinding [] [])) in E.
    destruct o; try discriminate E. destruct Ho as [-> Ho]. eauto. }
  split.
  - by apply wt_insert.
  - intros n r Hn. destruct (H2 n r Hn) as [Hb Hr]. split; [|by rewrite lookup_insert_ne].
    rewrite lookup_insert_ne; [done|]. intros E. apply Nb in E as [_ E]. congruence.
  - by rewrite lookup_insert_ne.
  - intros u s ref. rewrite lookup_insert_Some. intros [[E ->]|[_ H]]; [|eauto].
    right. apply Nb in E as [[s' E] _]. congruence.
  - intros k r. rewrite lookup_insert_ne by done. apply H5.
  - by rewrite lookup_insert_ne.
  - by rewrite lookup_insert_ne.
  - eapply Forall_impl; [exact H8|]. intros o' Hs. apply lookup_insert_is_Some.
    destruct (decide ((ty_of o, key_of o) = (ty_of o', singleton_id))); auto.
Qed.

Lemma genesis_inv id : inv (genesis_store id).
Proof.
  assert (forall k o, genesis_store id !! k = Some o ->
            k = (ty_of o, key_of o) /\ o ∈ genesis_objects id) as HG.
  { intros k o H. apply elem_of_list_to_map_2 in H. apply elem_of_list_fmap in H as (o' & E & H).
    injection E as -> ->. done. }
  split.
  - intros ty k o H. destruct (HG _ _ H) as [E Ho]. injection E as -> ->. split; [done|]. split; [done|].
    assert (Forall (fun o => key_of o <> []) (genesis_objects id)) as HF.
    { unfold genesis_objects. cbn [role_table flat_map List.app].
      repeat (apply Forall_cons; split; [vm_compute; discriminate|]). by apply Forall_nil. }
    rewrite Forall_forall in HF. by apply HF.
  - intros n r Hn. revert n r Hn.
    assert (Forall (fun x => genesis_store id !! (ty_binding, fst x) = Some (OBinding (fst x) (rl_id (snd x)))
                       /\ genesis_store id !! (ty_role, rl_id (snd x)) = Some (ORole (snd x))) role_table) as H.
    { unfold role_table. repeat (apply Forall_cons; split; [split; vm_compute; reflexivity|]). by apply Forall_nil. }
    intros n r Hn. rewrite Forall_forall in H. apply (H _ Hn).
  - vm_compute. reflexivity.
  - intros u s ref H. destruct (HG _ _ H) as [_ Ho].
    assert (Forall (fun o => match o with OBinding s ref => key_of o ∈ module_names \/ ref = external_role_id
                                     | _ => True end) (genesis_objects id)) as HF.
    { unfold genesis_objects. cbn [role_table flat_map List.app].
      repeat (apply Forall_cons; split;
        [first [exact I|right; reflexivity|left; apply (bool_decide_unpack _); vm_compute; exact I]|]).
      by apply Forall_nil. }
    rewrite Forall_forall in HF. specialize (HF _ Ho). cbn beta iota in HF.
    destruct (HG _ _ H) as [Ek _]. injection Ek as ->. exact HF.
  - intros k r H. destruct (HG _ _ H) as [_ Ho].
    unfold genesis_objects in Ho. apply elem_of_app in Ho as [Ho|Ho].
    + right. apply elem_of_list_In, in_flat_map in Ho as (x & Hx & Ho). apply elem_of_list_In in Hx.
      destruct Ho as [Ho|[Ho|[]]]; [|discriminate Ho]. injection Ho as <-. apply elem_of_list_fmap. eauto.
    + left. repeat (apply elem_of_cons in Ho as [Ho|Ho]; [first [discriminate Ho|by injection Ho]|]).
      inversion Ho.
  - vm_compute. reflexivity.
  - vm_compute. reflexivity.
  - unfold singletons. repeat (apply Forall_cons; split; [vm_compute; eauto|]). by apply Forall_nil.
Qed.

(** ** Who may do what *)
Definition can (n : bytes) (v : verb) (x : bytes) : bool :=
  existsb (fun y => bytes_eqb (fst y) n && set_has (resources_for_verb v (snd y)) x) role_table.
Lemma module_grants S n r v x : inv S -> (n, r) ∈ role_table -> lists r x v ->
  granted (map_stored S) v x (users_from_string [n]).
Proof.
  intros HI Hn Hl. destruct (iv_roles S HI n r Hn) as [Hb Hr].
  assert (has_role (map_stored S) n r) as Hh by (exists n, (rl_id r); done).
  assert (forall u, is_Some (users_from_string [n] !! u) <-> u = n) as Hu.
  { intros u. rewrite from_string_lookup. destruct (decide (u ∈ [n])) as [H|H].
    - apply elem_of_list_singleton in H. split; [done|eauto].
    - split; [intros [? ?]; done|]. intros ->. by destruct H; left. }
  split.
  - intros u Hs. apply Hu in Hs as ->. eauto.
  - exists n, r. split; [by apply Hu|]. done.
Qed.
Lemma module_can S n v x : inv S -> can n v x = true -> granted (map_stored S) v x (users_from_string [n]).
Proof.
  intros HI H. apply existsb_exists in H as ([n' r] & Hin & H). apply andb_true_iff in H as [E H].
  apply bool_decide_eq_true in E. cbn [fst snd] in *. subst n'. apply elem_of_list_In in Hin.
  eapply module_grants; [done..|]. by apply lists_spec, set_has_spec.
Qed.

(** Users that are no modules. *)
Definition ordinary (us : users) : Prop := forall u, is_Some (us !! u) -> u ∉ module_names.
Lemma ordinary_role S u r : inv S -> u ∉ module_names -> has_role (map_stored S) u r -> r = external_role.
Proof.
  intros HI Hu (s & ref & H1 & H2). unfold map_stored in *.
  destruct (iv_bindings S HI u s ref H1) as [H| ->]; [done|].
  rewrite (iv_external S HI) in H2. congruence.
Qed.
Lemma ordinary_grants S v x us : inv S -> ordinary us -> granted (map_stored S) v x us ->
  v = VDeliver /\ (x = tt_name t_create_account \/ x = tt_name t_send_coins).
Proof.
  intros HI HO [_ (u & r & Hu & Hr & Hl)]. apply ordinary_role in Hr as ->; [|done|by apply HO].
  inversion Hl as [H|H|H|H|H|H]; clear Hl;
    unfold external_role in H; cbn [rl_gets rl_lists rl_creates rl_updates rl_deletes rl_delivers] in H;
    [inversion H..|].
  split; [done|]. apply elem_of_cons in H as [->|H]; [left; vm_compute; reflexivity|].
  apply elem_of_list_singleton in H as ->. right; vm_compute; reflexivity.
Qed.
Lemma external_grants S us : inv S -> us <> ∅ ->
  (forall u, is_Some (us !! u) -> exists s, S !! (ty_binding, u) = Some (OBinding s external_role_id)) ->
  granted (map_stored S) VDeliver (tt_name t_create_account) us
  /\ granted (map_stored S) VDeliver (tt_name t_send_coins) us.
Proof.
  intros HI Hne HB.
  assert (forall u, is_Some (us !! u) -> has_role (map_stored S) u external_role) as Hr.
  { intros u Hu. destruct (HB u Hu) as [s Hs]. exists s, external_role_id. split; [done|apply (iv_external S HI)]. }
  apply map_choose in Hne as (u & x & Hu).
  assert (is_Some (us !! u)) as Hu' by eauto.
  split; (split; [eauto|]); exists u, external_role; (split; [done|]); (split; [by apply Hr|]);
    apply lists_spec, set_has_spec; vm_compute; reflexivity.
Qed.

(** Transitions by name. *)
Lemma msg_name_index m m' : msg_name m = msg_name m' ->
  match m, m' with
  | CreateModuleDescriptors _, CreateModuleDescriptors _ | MsgSetInitChain _, MsgSetInitChain _
  | MsgSetCheckTxState _, MsgSetCheckTxState _ | MsgSetBeginBlockState _, MsgSetBeginBlockState _
  | MsgSetDeliverTxState _, MsgSetDeliverTxState _ | MsgSetEndBlockState _, MsgSetEndBlockState _
  | MsgSetValidatorUpdates _, MsgSetValidatorUpdates _ | MsgCreateAccount _, MsgCreateAccount _
  | MsgUpdateAccount _, MsgUpdateAccount _ | MsgDeleteAccount _, MsgDeleteAccount _
  | MsgCreateRole _, MsgCreateRole _ | MsgBindRole _ _, MsgBindRole _ _
  | MsgSendCoins _ _ _, MsgSendCoins _ _ _ | MsgSetBalance _ _, MsgSetBalance _ _ => True
  | _, _ => False
  end.
Proof. intros H. destruct m, m'; try exact I; vm_compute in H; discriminate H. Qed.

(** The transitions marked external. *)
Definition external (m : msg) : Prop :=
  match m with MsgCreateAccount _ | MsgSendCoins _ _ _ => True | _ => False end.
Lemma external_names m :
  external m <-> msg_name m = tt_name t_create_account \/ msg_name m = tt_name t_send_coins.
Proof.
  split.
  - destruct m; try done; auto.
  - intros [H|H]; [apply (msg_name_index m (MsgCreateAccount None)) in H|
      apply (msg_name_index m (MsgSendCoins [] [] [])) in H]; by destruct m.
Qed.
