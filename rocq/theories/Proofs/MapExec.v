(** Requests of the application on the plain map: what each client call does,
    up to panics. *)
From Coq Require Import NArith ZArith List Bool String Lia.
From stdpp Require Import base list gmap.
From Verif.Model Require Import Bytes KindEncoder Desc Schema Indexes Orm Users Prog Router Runtime
  Services Module Builder Universe CoreModules Rbac Bank Authn Distribution TestApp Abci.
From Verif.Spec Require Import UserSpec StoreSpec RuntimeSpec RbacSpec.
From Verif.Proofs Require Import BytesFacts KindEncoderFacts RegistryFacts OrmFacts UserFacts RuntimeFacts
  BuilderFacts SimFacts AppFacts AppSim RbacFacts.

Notation amap := (gmap (bytes * bytes) object).

(** ** Handlers by transition *)
Notation by_module n f := {| h_self := users_from_string [n]; h_run := f |}.
Definition exec_of (bits : N) (m : msg) : option (handler object msg) :=
  match m with
  | CreateModuleDescriptors _ => Some (by_module runtime_user create_descriptors_exec)
  | MsgSetInitChain _ => Some (by_module abci_user set_init_chain)
  | MsgSetCheckTxState _ => Some (by_module abci_user set_check_tx)
  | MsgSetBeginBlockState _ => Some (by_module abci_user set_begin_block)
  | MsgSetDeliverTxState _ => Some (by_module abci_user set_deliver_tx)
  | MsgSetEndBlockState _ => Some (by_module abci_user set_end_block)
  | MsgSetValidatorUpdates _ => Some (by_module abci_user set_updates)
  | MsgCreateAccount _ => Some (by_module (str "authn") create_account_exec)
  | MsgUpdateAccount _ | MsgDeleteAccount _ => None
  | MsgCreateRole _ => Some (by_module (str "rbac") create_role_exec)
  | MsgBindRole _ _ => Some (by_module (str "rbac") bind_exec)
  | MsgSendCoins _ _ _ => Some (by_module (str "bank") (send_coins_exec bits))
  | MsgSetBalance _ _ => Some (by_module (str "bank") set_balance_exec)
  end.
Definition admission_of (m : msg) : list (handler object msg) :=
  match m with
  | MsgCreateAccount _ => [by_module (str "authn") create_account_admission]
  | MsgCreateRole _ => [by_module (str "rbac") create_role_admission]
  | MsgBindRole _ _ => [by_module (str "rbac") bind_admission]
  | _ => []
  end.
Definition post_of (m : msg) : list (handler object msg) :=
  match m with
  | CreateModuleDescriptors _ => [by_module (str "rbac") role_creator]
  | _ => []
  end.
Definition no_route {A : Type} : res A := Fail (EWrap (ESent RouterNotFound)).

Section Routes.
  Context (bits : N) (verify : bytes -> bytes -> bytes -> bool).
  Notation ms := (app_modules bits verify).
  Notation app := (test_app bits verify).

  Lemma app_declared m :
    declared mo_exec (msg_name m) ms = option_list (exec_of bits m)
    /\ declared mo_admission (msg_name m) ms = admission_of m
    /\ declared mo_pre (msg_name m) ms = []
    /\ declared mo_post (msg_name m) ms = post_of m.
  Proof. destruct m; (split; [|split; [|split]]); reflexivity. Qed.

  Lemma app_routes m :
    get_exec (ap_router app) (msg_name m) = match exec_of bits m with Some h => Ok h | None => no_route end
    /\ get_admission (ap_router app) (msg_name m)
       = match exec_of bits m with Some _ => Ok (admission_of m) | None => no_route end
    /\ get_pre (ap_router app) (msg_name m)
       = match exec_of bits m with Some _ => Ok [] | None => no_route end
    /\ get_post (ap_router app) (msg_name m)
       = match exec_of bits m with Some _ => Ok (post_of m) | None => no_route end.
  Proof.
    destruct (built_lookups 1 no_descs _ _ (msg_name m) (app_built bits verify)) as (-> & -> & -> & ->).
    destruct (app_declared m) as (-> & -> & -> & ->). by destruct (exec_of bits m).
  Qed.
End Routes.

(** What the proofs use of the application. *)
Record test_like (bits : N) (verify : bytes -> bytes -> bytes -> bool) (a : application object msg tx) : Prop := {
  tl_registry : registry_ok (ap_registry a);
  tl_schema : forall o, rg_schemas (ap_registry a) !! ty_of o = Some (schema_of o);
  tl_routes : forall m,
    get_exec (ap_router a) (msg_name m) = match exec_of bits m with Some h => Ok h | None => no_route end
    /\ get_admission (ap_router a) (msg_name m)
       = match exec_of bits m with Some _ => Ok (admission_of m) | None => no_route end
    /\ get_pre (ap_router a) (msg_name m)
       = match exec_of bits m with Some _ => Ok [] | None => no_route end
    /\ get_post (ap_router a) (msg_name m)
       = match exec_of bits m with Some _ => Ok (post_of m) | None => no_route end;
  tl_authorizer : ap_authorizer a = rbac_authorize;
  tl_modules : ap_modules a = app_modules bits verify;
  tl_admission : ro_auth_admission (ap_router a) = declared_tx mo_auth_admission (app_modules bits verify);
  tl_post_auth : ro_post_auth (ap_router a) = declared_tx mo_post_auth (app_modules bits verify)
}.
Lemma test_app_like bits verify : test_like bits verify (test_app bits verify).
Proof.
  split.
  - exact (app_registry_ok bits verify).
  - exact (app_schema bits verify).
  - apply app_routes.
  - apply app_authorizer.
  - apply app_modules_eq.
  - apply app_auth_admission.
  - apply app_post_auth.
Qed.

(** The answer for a missing object. *)
Definition missing : goerr := EWrap (ESent RtNotFound).

Lemma client_self self : wf_users self -> client_users self [] = self.
Proof.
  intros H. apply map_eq. intros n. unfold client_users. cbn [impersonated fold_left].
  rewrite union_lookup; [|repeat constructor; done|apply users_list_fair].
  cbn. by destruct (self !! n).
Qed.

Section Exec.
  Context (C : codec) (bits : N) (verify : bytes -> bytes -> bytes -> bool).
  Context (a : application object msg tx) (HA : test_like bits verify a).
  Context (enum : list (event object msg) -> users -> list user) (HE : forall tr, fair_order (enum tr)).
  Context (b : bool).
  Notation O := (app_ops C).
  Notation R := (ap_registry a).
  Notation MAP := (map_ops O R).
  Notation en := (env_of a enum b).
  Notation world := (world object msg amap).
  Implicit Types (S : amap) (f : nat) (self us : users) (m : msg) (t : tx) (skip : bool) (e : goerr)
    (ty id : bytes) (o : object) (h : handler object msg) (conv : goerr -> goerr).

  (** Unless the caller never sees an answer, answer and store satisfy [Q]. *)
  Definition out {A : Type} (x : res A * world) (Q : res A -> amap -> Prop) : Prop :=
    dead (fst x) \/ Q (fst x) (w_store (snd x)).
  Definition wp {A : Type} (f : nat) (self : users) (p : prog object msg A) (S : amap) (Q : res A -> amap -> Prop) :=
    forall w : world, w_store w = S -> out (exec O MAP en (deliver O msg_name MAP en f false) self p w) Q.
  Definition wph (f : nat) (conv : goerr -> goerr) (hs : list (handler object msg)) (us : users) (m : msg) (S : amap) (Q : res unit -> amap -> Prop) :=
    forall w : world, w_store w = S ->
      out (run_handlers O MAP en (deliver O msg_name MAP en f false) conv hs us m w) Q.
  Definition wpt (f : nat) (hs : list (tx_handler object msg tx)) (t : tx) (S : amap) (Q : res unit -> amap -> Prop) :=
    forall w : world, w_store w = S ->
      out (run_tx_handlers O MAP en (deliver O msg_name MAP en f false) hs t w) Q.
  Definition wpd (f : nat) (skip : bool) (us : users) (m : msg) (S : amap) (Q : res unit -> amap -> Prop) :=
    forall w : world, w_store w = S -> out (deliver O msg_name MAP en f skip us m w) Q.

  Definition permits (S : amap) (v : verb) (x : bytes) (us : users) : Prop :=
    b = true -> granted (map_stored S) v x us.
  Definition refuses (S : amap) (v : verb) (x : bytes) (us : users) : Prop :=
    b = true /\ ~ granted (map_stored S) v x us.

  Lemma authorized_out v x us w r w' : wt (w_store w) -> wf_users us ->
    authorized MAP en v x us w = (r, w') ->
    w_store w' = w_store w
    /\ (dead r \/ r = Ok tt /\ permits (w_store w) v x us
        \/ r = Fail (EWrap (ESent RtUnauthorized)) /\ refuses (w_store w) v x us).
  Proof.
    intros HW HU. unfold authorized. cbn [en_enabled env_of en_authorizer en_enum].
    rewrite (tl_authorizer _ _ _ HA).
    destruct b eqn:Eb; cbn [negb].
    - pose proof (map_decides C R (tl_schema _ _ _ HA) (w_store w) (enum (w_trace w)) v x us HW (HE _) HU) as H.
      destruct (run_read MAP _ _ _) as [d|e| |]; [|done| |done].
      + destruct H as [[H ->]|[H [e ->]]]; intros [= <- <-]; (split; [done|right]); [left|right]; unfold permits, refuses; auto.
      + intros [= <- <-]. split; [done|by left].
    - intros [= <- <-]. split; [done|]. right; left. split; [done|]. unfold permits. congruence.
  Qed.

  Lemma wp_ret {A : Type} f self (x : A) S (Q : res A -> amap -> Prop) : Q (Ok x) S -> wp f self (PRet x) S Q.
  Proof. intros H w <-. by right. Qed.
  Lemma wp_fail {A : Type} f self e S (Q : res A -> amap -> Prop) : Q (Fail e) S -> wp f self (PFail e) S Q.
  Proof. intros H w <-. by right. Qed.
  Lemma wp_panic {A : Type} f self S (Q : res A -> amap -> Prop) : wp f self PPanic S Q.
  Proof. intros w <-. by left. Qed.
  Lemma wp_lift {A B : Type} f self (r : res A) (k : A -> prog object msg B) S (Q : res B -> amap -> Prop) :
    (forall x, r = Ok x -> wp f self (k x) S Q) -> (forall e, r = Fail e -> Q (Fail e) S) ->
    wp f self (lift r k) S Q.
  Proof.
    intros H1 H2. destruct r; cbn [lift]; [by apply H1|by apply wp_fail, H2|apply wp_panic..].
  Qed.

  Lemma wp_get {A : Type} f self ty id (ok : object -> prog object msg A) (bad : goerr -> prog object msg A) S (Q : res A -> amap -> Prop) :
    ty ∈ all_types ->
    (forall o, id <> [] -> S !! (ty, id) = Some o -> wp f self (ok o) S Q) ->
    (id <> [] -> S !! (ty, id) = None -> wp f self (bad missing) S Q) ->
    wp f self (get_ ty id ok bad) S Q.
  Proof.
    intros HK H1 H2 w E. unfold get_. cbn [exec get_height fold_left N.eqb negb].
    rewrite (map_rt_get C R (tl_schema _ _ _ HA)) by done. rewrite E.
    destruct (decide (id = [])); [by left|].
    destruct (S !! (ty, id)) eqn:ES; [by apply H1|by apply H2].
  Qed.

  Lemma map_create_eq o (S : amap) :
    so_create MAP o S =
      if decide (key_of o = []) then (Panic, S)
      else match S !! (ty_of o, key_of o) with
           | Some _ => (Panic, S)
           | None => (Ok tt, <[(ty_of o, key_of o) := o]> S)
           end.
  Proof.
    cbn [so_create map_ops]. unfold map_create. rewrite obj_name_ty, (tl_schema _ _ _ HA), app_pk. done.
  Qed.
  Lemma map_update_eq o (S : amap) :
    so_update MAP o S =
      if decide (key_of o = []) then (Panic, S)
      else match S !! (ty_of o, key_of o) with
           | None => (Fail (ESent OrmNotFound), S)
           | Some _ => (Ok tt, <[(ty_of o, key_of o) := o]> S)
           end.
  Proof.
    cbn [so_update map_ops]. unfold map_update. rewrite obj_name_ty, (tl_schema _ _ _ HA), app_pk. done.
  Qed.

  Lemma wp_create_raw {A : Type} f self o (k : option goerr -> prog object msg A) S (Q : res A -> amap -> Prop) :
    wt S -> wf_users self ->
    (permits S VCreate (ty_of o) self -> key_of o <> [] -> S !! (ty_of o, key_of o) = None ->
       wp f self (k None) (<[(ty_of o, key_of o) := o]> S) Q) ->
    (refuses S VCreate (ty_of o) self -> wp f self (k (Some (EWrap (ESent RtUnauthorized)))) S Q) ->
    wp f self (PCreate o k) S Q.
  Proof.
    intros HW HU H1 H2 w E. cbn [exec]. unfold rt_create. rewrite obj_name_ty.
    destruct (authorized MAP en VCreate (ty_of o) self w) as [r w1] eqn:EA.
    apply authorized_out in EA as [ES HR]; [|by rewrite E|done]. rewrite E in *.
    destruct HR as [HR|[[-> HR]|[-> HR]]].
    - destruct r; try done; by left.
    - unfold store_write. cbn [apply_write]. rewrite map_create_eq, ES.
      destruct (decide (key_of o = [])); [by left|].
      destruct (S !! (ty_of o, key_of o)) eqn:El; [by left|]. cbn [convert_store_error]. by apply H1.
    - apply H2; done.
  Qed.
  Lemma wp_update_raw {A : Type} f self o (k : option goerr -> prog object msg A) S (Q : res A -> amap -> Prop) :
    wt S -> wf_users self ->
    (permits S VUpdate (ty_of o) self -> key_of o <> [] -> is_Some (S !! (ty_of o, key_of o)) ->
       wp f self (k None) (<[(ty_of o, key_of o) := o]> S) Q) ->
    (permits S VUpdate (ty_of o) self -> key_of o <> [] -> S !! (ty_of o, key_of o) = None ->
       wp f self (k (Some missing)) S Q) ->
    (refuses S VUpdate (ty_of o) self -> wp f self (k (Some (EWrap (ESent RtUnauthorized)))) S Q) ->
    wp f self (PUpdate o k) S Q.
  Proof.
    intros HW HU H1 H2 H3 w E. cbn [exec]. unfold rt_update. rewrite obj_name_ty.
    destruct (authorized MAP en VUpdate (ty_of o) self w) as [r w1] eqn:EA.
    apply authorized_out in EA as [ES HR]; [|by rewrite E|done]. rewrite E in *.
    destruct HR as [HR|[[-> HR]|[-> HR]]].
    - destruct r; try done; by left.
    - unfold store_write. cbn [apply_write]. rewrite map_update_eq, ES.
      destruct (decide (key_of o = [])); [by left|].
      destruct (S !! (ty_of o, key_of o)) eqn:El; cbn [convert_store_error].
      + apply H1; done.
      + apply H2; done.
    - apply H3; done.
  Qed.
  Lemma wp_deliver_raw {A : Type} f self m (k : option goerr -> prog object msg A) S (Q : res A -> amap -> Prop) :
    wf_users self ->
    wpd f false self m S (fun r S' => match r with
                                      | Ok _ => wp f self (k None) S' Q
                                      | Fail e => wp f self (k (Some e)) S' Q
                                      | _ => True
                                      end) ->
    wp f self (PDeliver m [] k) S Q.
  Proof.
    intros HU H w E. cbn [exec]. rewrite client_self by done.
    specialize (H w E). destruct (deliver _ _ _ _ _ _ _ _ _) as [r w1]. destruct H as [H|H]; cbn [fst snd] in H.
    - destruct r; try done; by left.
    - destruct r; [by apply H|by apply H|by left|by left].
  Qed.

  Lemma wp_enum {A : Type} f self us (k : list user -> prog object msg A) S (Q : res A -> amap -> Prop) :
    (forall l, enumerates us l -> wp f self (k l) S Q) -> wp f self (PEnum us k) S Q.
  Proof. intros H w E. cbn [exec]. apply H; [apply HE|done]. Qed.

  (** The steps of handlers. *)
  Lemma wp_create f self o (p : prog object msg unit) S (Q : res unit -> amap -> Prop) :
    wt S -> wf_users self -> permits S VCreate (ty_of o) self ->
    (key_of o <> [] -> S !! (ty_of o, key_of o) = None -> wp f self p (<[(ty_of o, key_of o) := o]> S) Q) ->
    wp f self (create_ o p) S Q.
  Proof. intros HW HU HP H. apply wp_create_raw; auto. intros [Hb HR]. by apply HP in Hb. Qed.
  Lemma wp_update f self o (p : prog object msg unit) S (Q : res unit -> amap -> Prop) :
    wt S -> wf_users self -> permits S VUpdate (ty_of o) self ->
    (key_of o <> [] -> is_Some (S !! (ty_of o, key_of o)) -> wp f self p (<[(ty_of o, key_of o) := o]> S) Q) ->
    (key_of o <> [] -> S !! (ty_of o, key_of o) = None -> Q (Fail missing) S) ->
    wp f self (update_ o p) S Q.
  Proof.
    intros HW HU HP H1 H2. apply wp_update_raw; auto.
    - intros _ Hk Hn. apply wp_fail. auto.
    - intros [Hb HR]. by apply HP in Hb.
  Qed.
  Lemma wp_deliver f self m (p : prog object msg unit) S (Q : res unit -> amap -> Prop) :
    wf_users self ->
    wpd f false self m S (fun r S' => match r with
                                      | Ok _ => wp f self p S' Q
                                      | Fail e => Q (Fail e) S'
                                      | _ => True
                                      end) ->
    wp f self (deliver_ m p) S Q.
  Proof.
    intros HU H. apply wp_deliver_raw; [done|]. intros w E. destruct (H w E) as [HD|HD]; [by left|right].
    destruct (fst _); try done. by apply wp_fail.
  Qed.

  Lemma wp_mono {A : Type} f self (p : prog object msg A) S (Q Q' : res A -> amap -> Prop) :
    wp f self p S Q -> (forall r S', Q r S' -> Q' r S') -> wp f self p S Q'.
  Proof. intros H HQ w E. destruct (H w E) as [HD|HD]; [by left|right; auto]. Qed.
  Lemma wpd_mono f skip us m S (Q Q' : res unit -> amap -> Prop) :
    wpd f skip us m S Q -> (forall r S', Q r S' -> Q' r S') -> wpd f skip us m S Q'.
  Proof. intros H HQ w E. destruct (H w E) as [HD|HD]; [by left|right; auto]. Qed.
  Lemma wph_mono f conv (hs : list (handler object msg)) us m S (Q Q' : res unit -> amap -> Prop) :
    wph f conv hs us m S Q -> (forall r S', Q r S' -> Q' r S') -> wph f conv hs us m S Q'.
  Proof. intros H HQ w E. destruct (H w E) as [HD|HD]; [by left|right; auto]. Qed.

  (** Loops over handlers. *)
  Lemma wph_nil f conv us m S (Q : res unit -> amap -> Prop) : Q (Ok tt) S -> wph f conv [] us m S Q.
  Proof. intros H w <-. by right. Qed.
  Lemma wph_cons f conv h (hs : list (handler object msg)) us m S (Q : res unit -> amap -> Prop) :
    wp f (h_self h) (h_run h us m) S (fun r S' => match r with
                                                  | Ok _ => wph f conv hs us m S' Q
                                                  | Fail e => Q (Fail (conv e)) S'
                                                  | _ => True
                                                  end) ->
    wph f conv (h :: hs) us m S Q.
  Proof.
    intros H w E. cbn [run_handlers]. unfold run_handler. specialize (H w E).
    destruct (exec _ _ _ _ _ _ _) as [r w1]. destruct H as [H|H]; cbn [fst snd] in H.
    - destruct r; try done; by left.
    - destruct r; [by apply H|by right|by left|by left].
  Qed.
  Lemma wpt_nil f t S (Q : res unit -> amap -> Prop) : Q (Ok tt) S -> wpt f [] t S Q.
  Proof. intros H w <-. by right. Qed.
  Lemma wpt_cons f (h : tx_handler object msg tx) (hs : list (tx_handler object msg tx)) t S (Q : res unit -> amap -> Prop) :
    wp f (th_self h) (th_run h t) S (fun r S' => match r with
                                                  | Ok _ => wpt f hs t S' Q
                                                  | Fail e => Q (Fail (bad_request e)) S'
                                                  | _ => True
                                                  end) ->
    wpt f (h :: hs) t S Q.
  Proof.
    intros H w E. cbn [run_tx_handlers]. specialize (H w E).
    destruct (exec _ _ _ _ _ _ _) as [r w1]. destruct H as [H|H]; cbn [fst snd] in H.
    - destruct r; try done; by left.
    - destruct r; [by apply H|by right|by left|by left].
  Qed.

  (** A delivery: admission controllers unless skipped, authorization, the
      execution handler, the handlers after it. *)
  Lemma wpd_route f skip us m h S (Q : res unit -> amap -> Prop) :
    wt S -> wf_users us -> exec_of bits m = Some h ->
    (permits S VDeliver (msg_name m) us ->
       wp f (h_self h) (h_run h us m) S
         (fun r S2 => match r with
                      | Ok _ => wph f (fun e => e) (post_of m) us m S2 Q
                      | _ => Q r S2
                      end)) ->
    (refuses S VDeliver (msg_name m) us -> Q (Fail (EWrap (ESent RtUnauthorized))) S) ->
    (skip = false ->
       wph f bad_request (admission_of m) us m S
         (fun r S1 => S1 = S /\ match r with Ok _ => True | _ => Q r S end)) ->
    wpd (Datatypes.S f) skip us m S Q.
  Proof.
    intros HW HU Hh H1 H2 H3 w E. cbn [deliver]. unfold deliver_body.
    assert (out (if skip then (Ok tt, w)
                 else run_admission_chain O msg_name MAP en (deliver O msg_name MAP en f false) us m w)
              (fun r S1 => S1 = S /\ match r with Ok _ => True | _ => Q r S end)) as Ha.
    { destruct skip; [right; done|]. unfold run_admission_chain. cbn [en_router env_of].
      destruct (tl_routes _ _ _ HA m) as (_ & -> & _ & _). rewrite Hh. by apply H3. }
    destruct (if skip then _ else _) as [r w1]. destruct Ha as [Ha|[Es Ha]]; cbn [fst snd] in *.
    { destruct r; try done; by left. }
    destruct r as [u|e| |]; [|right; cbn [fst snd]; congruence|by left|by left].
    destruct (authorized MAP en VDeliver (msg_name m) us w1) as [r w2] eqn:EA.
    apply authorized_out in EA as [ES HR]; [|by rewrite Es|done]. rewrite Es in *.
    destruct HR as [HR|[[-> HR]|[-> HR]]].
    { destruct r; try done; by left. }
    2:{ right. cbn [fst snd]. rewrite ES. auto. }
    unfold deliver_authorized. cbn [en_router env_of].
    destruct (tl_routes _ _ _ HA m) as (-> & _ & -> & ->). rewrite Hh. cbn [run_handlers].
    unfold run_handler.
    specialize (H1 HR (log (EvDeliver m us) w2) ES).
    destruct (exec _ _ _ _ _ _ _) as [r w3]. destruct H1 as [H1|H1]; cbn [fst snd] in *.
    { destruct r; try done; by left. }
    destruct r; [by apply H1|by right|by left|by left].
  Qed.
End Exec.
