(** The application of testapp: what [build] makes of its modules, and its
    store as a plain map. *)
From Coq Require Import NArith ZArith List Bool String Lia.
From Coq Require Import ZifyBool ZifyN ZifyNat.
From stdpp Require Import base list gmap.
From Verif.Model Require Import Bytes Wire KindEncoder Desc Schema Indexes Orm Users Prog Router Runtime
  Services Module Builder Universe CoreModules Rbac Bank Authn Distribution TestApp Abci.
From Verif.Spec Require Import UserSpec StoreSpec RuntimeSpec.
From Verif.Proofs Require Import BytesFacts KindEncoderFacts RegistryFacts OrmFacts UserFacts RuntimeFacts
  BuilderFacts SimFacts.

(** ** Building *)
Lemma app_is_built bits verify : is_ok (build 1 no_descs (app_modules bits verify)) = true.
Proof. vm_compute. reflexivity. Qed.

Lemma app_built bits verify : build 1 no_descs (app_modules bits verify) = Ok (test_app bits verify).
Proof.
  pose proof (app_is_built bits verify) as H. unfold test_app. set (b := build _ _ _) in *.
  clearbody b. destruct b; [reflexivity|discriminate H..].
Qed.

Definition app_registry (bits : N) (verify : bytes -> bytes -> bytes -> bool) : registry :=
  ap_registry (test_app bits verify).

(** The schema of an object. *)
Definition string_keyed (g : bytes) (k pk : string) (ixs : list indexer) : schema :=
  {| sch_group := g; sch_kind := str k; sch_singleton := false;
     sch_pk := Some (str pk, StringKind); sch_indexes := ixs |}.
Definition single (g : bytes) (k : string) : schema :=
  {| sch_group := g; sch_kind := str k; sch_singleton := true; sch_pk := None; sch_indexes := [] |}.
Definition schema_of (o : object) : schema :=
  match o with
  | OModules _ => single runtime_group "ModuleDescriptors"
  | OStage _ => single abci_group "Stage"
  | OBeginBlock _ => single abci_group "BeginBlockState"
  | OCheckTx _ => single abci_group "CheckTxState"
  | ODeliverTx _ => single abci_group "DeliverTxState"
  | OInitChainInfo _ => single abci_group "InitChainInfo"
  | OEndBlock _ => single abci_group "EndBlockState"
  | OCurrentBlock _ => single abci_group "CurrentBlock"
  | OUpdates _ => single abci_group "ValidatorUpdates"
  | OAccount _ => string_keyed authn_group "Account" "address"
                    [{| ix_name := str "accountNumber"; ix_kind := Uint64Kind |}]
  | OAuthParams _ => single authn_group "Params"
  | OAccountNumber _ => single authn_group "CurrentAccountNumber"
  | ORole _ => string_keyed rbac_group "Role" "id" []
  | OBinding _ _ => string_keyed rbac_group "RoleBinding" "subject"
                      [{| ix_name := str "roleRef"; ix_kind := StringKind |}]
  | ORbacParams => single rbac_group "Params"
  | OBalance _ _ => string_keyed bank_group "Balance" "address" []
  end.

(** The name of the type of an object. *)
Definition ty_of (o : object) : bytes :=
  match o with
  | OModules _ => ty_modules | OStage _ => ty_stage | OBeginBlock _ => ty_begin_block
  | OCheckTx _ => ty_check_tx | ODeliverTx _ => ty_deliver_tx | OInitChainInfo _ => ty_init_chain_info
  | OEndBlock _ => ty_end_block | OCurrentBlock _ => ty_current_block | OUpdates _ => ty_updates
  | OAccount _ => ty_account | OAuthParams _ => ty_auth_params | OAccountNumber _ => ty_account_number
  | ORole _ => ty_role | OBinding _ _ => ty_binding | ORbacParams => ty_rbac_params
  | OBalance _ _ => ty_balance
  end.
Definition all_types : list bytes :=
  [ty_modules; ty_stage; ty_begin_block; ty_check_tx; ty_deliver_tx; ty_init_chain_info; ty_end_block;
   ty_current_block; ty_updates; ty_account; ty_auth_params; ty_account_number; ty_role; ty_binding;
   ty_rbac_params; ty_balance].

Definition string_key (s : bytes) : bytes := drop1 (append_bytes (if (blen s <? 2 ^ 63)%N then s else [])).
Definition key_of (o : object) : bytes :=
  match o with
  | OAccount a => string_key (ac_address a)
  | ORole r => string_key (rl_id r)
  | OBinding s _ => string_key s
  | OBalance a _ => string_key a
  | _ => singleton_id
  end.

Lemma string_key_small s : (blen s < 128)%N -> string_key s = s.
Proof.
  intros H. unfold string_key. rewrite (proj2 (N.ltb_lt _ _)).
  - apply drop1_append_bytes_small, H.
  - eapply N.lt_trans; [exact H|]. reflexivity.
Qed.
Lemma string_key_nil s : string_key s = [] -> s = [] \/ (2 ^ 63 <= blen s)%N.
Proof.
  unfold string_key. rewrite drop1_append_bytes_nil. destruct (blen s <? 2 ^ 63)%N eqn:E; [auto|].
  intros _. right. apply N.ltb_ge in E. exact E.
Qed.
Lemma string_key_long s : (128 <= blen s < 2 ^ 63)%N -> (128 <= blen (string_key s))%N.
Proof.
  intros [H1 H2]. unfold string_key. rewrite (proj2 (N.ltb_lt _ _)) by exact H2.
  unfold blen. rewrite drop1_length. unfold blen in H1. lia.
Qed.
Lemma string_key_small_inv s t : (blen t < 128)%N -> t <> [] -> string_key s = t -> s = t.
Proof.
  intros Ht Hn H. destruct (N.lt_ge_cases (blen s) 128) as [Hs|Hs].
  - by rewrite string_key_small in H.
  - destruct (N.lt_ge_cases (blen s) (2 ^ 63)) as [Hb|Hb].
    + pose proof (string_key_long s (conj Hs Hb)) as HH. rewrite H in HH. lia.
    + exfalso. apply Hn. rewrite <- H. unfold string_key.
      rewrite (proj2 (N.ltb_ge _ _)) by exact Hb. reflexivity.
Qed.
Lemma string_key_inj s t : string_key s <> [] -> string_key s = string_key t -> s = t.
Proof.
  intros Hn H. assert (string_key t <> []) as Hn' by congruence. unfold string_key in *.
  destruct (blen s <? 2 ^ 63)%N eqn:Es; [|by destruct Hn].
  destruct (blen t <? 2 ^ 63)%N eqn:Et; [|by destruct Hn'].
  apply N.ltb_lt in Es, Et. apply drop1_append_bytes_inj in H; [done| |];
    (eapply N.lt_trans; [eassumption|reflexivity]).
Qed.

(** Registering objects with proper names makes a proper registry. *)
Definition plain_object (x : objtype * definition) : Prop :=
  proto_name (ot_name (fst x)) /\ NoDup (def_secondary_keys (snd x))
  /\ (N.of_nat (length (def_secondary_keys (snd x))) < 2 ^ 40)%N.
Lemma install_built {Obj Msg Tx} fuel D (ms : list (module Obj Msg Tx)) R :
  built fuel D R -> Forall (fun m => Forall plain_object (mo_objects m)) ms ->
  built fuel D (snd (install_objects fuel D ms R)).
Proof.
  intros HR HF. revert R HR. unfold install_objects.
  induction HF as [|m ms Hm _ IH]; intros R HR; cbn [each]; [done|].
  assert (built fuel D (snd (each id_err (fun x R => add_object fuel D R (fst x) (snd x)) (mo_objects m) R)))
    as Hb.
  { clear IH. revert R HR. induction Hm as [|x l (H1 & H2 & H3) _ IH]; intros R HR; cbn [each]; [done|].
    pose proof (built_add fuel D R (fst x) (snd x) HR H1 H2 H3) as Hb.
    destruct (add_object fuel D R (fst x) (snd x)) as [[[]|e| |] R']; cbn [snd] in *; auto. }
  destruct (each id_err _ (mo_objects m) R) as [[[]|e| |] R']; cbn [snd] in *; auto.
Qed.

Section App.
  Context (C : codec) (bits : N) (verify : bytes -> bytes -> bytes -> bool).
  Notation O := (app_ops C).
  Notation R := (app_registry bits verify).
  Notation app := (test_app bits verify).

  Lemma obj_name_ty o : obj_name O o = ty_of o.
  Proof. destruct o; reflexivity. Qed.

  Lemma app_schemas : map_to_list (rg_schemas R) = map_to_list (rg_schemas (app_registry 0 (fun _ _ _ => false))).
  Proof. vm_compute. reflexivity. Qed.

  Lemma app_schema o : rg_schemas R !! ty_of o = Some (schema_of o).
  Proof. destruct o; vm_compute; reflexivity. Qed.
  Lemma app_schema_name o : rg_schemas R !! obj_name O o = Some (schema_of o).
  Proof. rewrite obj_name_ty. apply app_schema. Qed.

  Definition known_type (ty : bytes) : Prop := ty ∈ all_types.
  Lemma known_schema ty : known_type ty -> exists s, rg_schemas R !! ty = Some s.
  Proof.
    intros H. unfold known_type, all_types in H.
    repeat (apply elem_of_cons in H as [->|H]; [eexists; vm_compute; reflexivity|]). inversion H.
  Qed.

  Lemma schema_known ty s : rg_schemas R !! ty = Some s -> ty ∈ all_types.
  Proof.
    intros H. apply elem_of_map_to_list in H. apply (elem_of_list_fmap_1 fst) in H. cbn [fst] in H. revert H.
    assert (Forall (fun x => x ∈ all_types) (fst <$> map_to_list (rg_schemas R))) as HF.
    { apply (bool_decide_unpack _). vm_compute. exact I. }
    apply (proj1 (Forall_forall _ _) HF).
  Qed.

  Lemma as_string_ok s : value_ok StringKind (as_string s) = true.
  Proof. unfold as_string, value_ok. destruct (blen s <? 2 ^ 63)%N eqn:E; [exact E|reflexivity]. Qed.
  Lemma as_uint64_ok n : value_ok Uint64Kind (as_uint64 n) = true.
  Proof.
    unfold as_uint64, value_ok. apply N.ltb_lt. apply N.mod_lt. discriminate.
  Qed.

  Lemma app_typed o : typed_in O R o.
  Proof.
    intros s H. rewrite app_schema_name in H. injection H as <-.
    destruct o; cbn [schema_of]; split;
      first [exact I | apply Forall_nil; exact I | apply as_string_ok
            | (apply Forall_cons; split; [first [apply as_uint64_ok|apply as_string_ok]|apply Forall_nil; exact I])].
  Qed.

  Lemma app_pk o : pk_of O (schema_of o) o = key_of o.
  Proof. destruct o; reflexivity. Qed.

  Lemma app_registry_ok : registry_ok R.
  Proof.
    apply (built_ok 1 no_descs). unfold app_registry.
    destruct (proj1 (build_value _ _ _ _) (app_built bits verify)) as [_ ->]. cbn [ap_registry].
    apply install_built; [constructor|]. repeat constructor; vm_compute; try reflexivity; try set_solver.
  Qed.
End App.

(** ** No handler lists objects *)
Ltac nl :=
  repeat match goal with
  | |- no_list (match ?x with _ => _ end) => destruct x
  | |- no_list (PRet _) => constructor
  | |- no_list (PFail _) => constructor
  | |- no_list PPanic => constructor
  | |- no_list (get_ _ _ _ _) => constructor; intros [?|?]
  | |- no_list (create_ _ _) => constructor; intros [?|]; cbn [pcall]
  | |- no_list (update_ _ _) => constructor; intros [?|]; cbn [pcall]
  | |- no_list (deliver_ _ _) => constructor; intros [?|]; cbn [pcall]
  | |- no_list (lift ?r _) => destruct r; cbn [lift]
  | |- no_list (PEnum _ _) => constructor; intros ?
  | |- no_list (PDeliver _ _ _) => constructor; intros ?
  | |- no_list _ => assumption
  end.

Lemma apply_modules_no_list l : forall u k, (forall r, no_list (k r)) -> no_list (apply_modules l u k).
Proof.
  induction l as [|d l IH]; intros u k Hk; cbn [apply_modules]; [auto|].
  nl. apply IH, Hk.
Qed.

Lemma handlers_no_list bits verify :
  Forall (fun m => forall us x,
    Forall (fun d => no_list (snd d us x)) (mo_exec m)
    /\ Forall (fun d => no_list (snd d us x)) (mo_admission m)
    /\ Forall (fun d => no_list (snd d us x)) (mo_pre m)
    /\ Forall (fun d => no_list (snd d us x)) (mo_post m)) (app_modules bits verify).
Proof.
  repeat (apply Forall_cons; split; [|]); [..|apply Forall_nil; exact I];
    intros us x; repeat (split || apply Forall_cons || apply Forall_nil); cbn [snd]; try exact I.
  all: try (unfold create_descriptors_exec, set_init_chain, set_check_tx, set_begin_block, set_deliver_tx,
    set_end_block, set_updates, create_account_exec, create_account_admission, create_role_exec,
    bind_exec, create_role_admission, bind_admission, send_coins_exec, set_balance_exec,
    create_account_if_not_exist; nl; done).
  all: try (unfold role_creator; nl; apply apply_modules_no_list; intros; nl; done).
Qed.

Lemma declared_Forall {Obj Msg Tx} (part : module Obj Msg Tx -> list _) n ms (P : _ -> Prop) :
  Forall (fun m => Forall (fun d => P (snd d)) (part m)) ms ->
  Forall (fun h => P (h_run h)) (declared part n ms).
Proof.
  intros H. unfold declared. induction H as [|m ms Hm _ IH]; cbn [flat_map]; [constructor|].
  apply Forall_app; split; [|exact IH]. clear IH.
  induction Hm as [|d l Hd _ IH]; cbn [flat_map]; [constructor|].
  apply Forall_app; split; [|exact IH]. destruct (decide _); [|constructor]. repeat constructor. exact Hd.
Qed.

Lemma app_router_no_list bits verify enum b :
  router_no_list (env_of (test_app bits verify) enum b).
Proof.
  intros n us m. cbn [en_router env_of].
  destruct (built_lookups 1 no_descs _ _ n (app_built bits verify)) as (-> & -> & -> & ->).
  pose proof (handlers_no_list bits verify) as H.
  assert (forall part, Forall (fun x => Forall (fun d => no_list (snd d us m)) (part x)) (app_modules bits verify)
            -> Forall (fun h => no_list (h_run h us m)) (declared part n (app_modules bits verify))) as HD.
  { intros part. apply (declared_Forall part n _ (fun f => no_list (f us m))). }
  assert (Forall (fun h => no_list (h_run h us m)) (declared mo_exec n (app_modules bits verify))) as HE.
  { apply HD. eapply Forall_impl; [exact H|]. intros x Hx. apply (Hx us m). }
  assert (Forall (fun h => no_list (h_run h us m)) (declared mo_admission n (app_modules bits verify))) as HA.
  { apply HD. eapply Forall_impl; [exact H|]. intros x Hx. apply (Hx us m). }
  assert (Forall (fun h => no_list (h_run h us m)) (declared mo_pre n (app_modules bits verify))) as HP.
  { apply HD. eapply Forall_impl; [exact H|]. intros x Hx. apply (Hx us m). }
  assert (Forall (fun h => no_list (h_run h us m)) (declared mo_post n (app_modules bits verify))) as HQ.
  { apply HD. eapply Forall_impl; [exact H|]. intros x Hx. apply (Hx us m). }
  clear HD. set (ms := app_modules bits verify) in *. clearbody ms.
  destruct (declared mo_exec n _) as [|h l]; [repeat split; discriminate|].
  split; [|split; [|split]]; intros ? [= <-]; try assumption. by inversion HE.
Qed.

Lemma accounts_exist_no_list l : no_list (accounts_exist l).
Proof. induction l; cbn [accounts_exist]; nl. Qed.
Lemma count_sigs_no_list a b l : no_list (count_sigs a b l).
Proof. revert b. induction l; intros b; cbn [count_sigs]; nl; auto. Qed.
Lemma verify_signers_no_list v t c l : no_list (verify_signers v t c l).
Proof. induction l; cbn [verify_signers]; nl. Qed.
Lemma set_keys_no_list l : no_list (set_keys l).
Proof. induction l; cbn [set_keys]; unfold update_public_key; nl. Qed.
Lemma increase_sequences_no_list l : no_list (increase_sequences l).
Proof. induction l; cbn [increase_sequences]; nl. Qed.

(** The chains of the application over whole transactions. *)
Lemma app_auth_admission bits verify :
  ro_auth_admission (ap_router (test_app bits verify))
  = declared_tx mo_auth_admission (app_modules bits verify).
Proof. apply (built_parts 1 no_descs _ _ (app_built bits verify)). Qed.
Lemma app_post_auth bits verify :
  ro_post_auth (ap_router (test_app bits verify))
  = declared_tx mo_post_auth (app_modules bits verify).
Proof. apply (built_parts 1 no_descs _ _ (app_built bits verify)). Qed.
Lemma app_authorizer bits verify : ap_authorizer (test_app bits verify) = rbac_authorize.
Proof. apply (built_parts 1 no_descs _ _ (app_built bits verify)). Qed.

Lemma tx_chains_no_list bits verify t :
  Forall (fun h => no_list (th_run h t)) (ro_auth_admission (ap_router (test_app bits verify)))
  /\ Forall (fun h => no_list (th_run h t)) (ro_post_auth (ap_router (test_app bits verify))).
Proof.
  rewrite app_auth_admission, app_post_auth.
  split; repeat (apply Forall_cons; split; [|]); try (apply Forall_nil; exact I); cbn [th_run].
  - constructor.
  - constructor. apply accounts_exist_no_list.
  - unfold timeout_block. nl.
  - unfold validate_memo, with_params. nl.
  - unfold sig_count, with_params. nl. apply count_sigs_no_list.
  - unfold sig_verifier. nl. apply verify_signers_no_list.
  - unfold fee_checker. nl.
  - constructor.
  - apply set_keys_no_list.
  - constructor. apply increase_sequences_no_list.
  - unfold fee_deduction. nl.
Qed.
