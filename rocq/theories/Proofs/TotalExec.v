(** Requests of the application on the bytes it stores: when they are answered.
    The node may still stop while it writes an object that cannot be stored. *)
From Coq Require Import NArith ZArith List Bool String Lia.
From stdpp Require Import base list gmap.
From Verif.Model Require Import Bytes KindEncoder Desc Schema Indexes Orm Users Prog Router Runtime
  Services Module Builder Universe CoreModules Rbac Bank Authn Distribution TestApp Abci.
From Verif.Spec Require Import UserSpec StoreSpec RuntimeSpec RbacSpec ChainSpec.
From Verif.Proofs Require Import BytesFacts KindEncoderFacts RegistryFacts OrmFacts UserFacts RuntimeFacts
  BuilderFacts SimFacts AppFacts AppSim RbacFacts MapExec ChainInv.

(** What is granted depends on roles and bindings. *)
Lemma granted_impl (st1 st2 : bytes -> bytes -> object -> Prop) v x us :
  (forall ty id o, ty = ty_binding \/ ty = ty_role -> st1 ty id o -> st2 ty id o) ->
  granted st1 v x us -> granted st2 v x us.
Proof.
  intros H. assert (forall u r, has_role st1 u r -> has_role st2 u r) as Hr.
  { intros u r (s & ref & H1 & H2). exists s, ref. split; apply H; auto. }
  intros [G1 (u & r & G2 & G3 & G4)]. split.
  - intros u' Hu. destruct (G1 u' Hu) as [r' Hr']. eauto.
  - exists u, r. auto.
Qed.

(** Every user has a name. *)
Definition named (us : users) : Prop := forall u, is_Some (us !! u) -> u <> [].
(** Every binding names a role. *)
Definition no_blank (S : amap) : Prop := forall u s, S !! (ty_binding, u) <> Some (OBinding s []).

Lemma role_ids_named : Forall (fun x => rl_id (snd x) <> [] /\ fst x <> []) role_table.
Proof. unfold role_table. repeat (apply Forall_cons; split; [split; discriminate|]). by apply Forall_nil. Qed.
Lemma inv_no_blank S : inv S -> no_blank S.
Proof.
  intros HI u s H. destruct (iv_bindings S HI u s [] H) as [Hu|Hu].
  - unfold module_names in Hu. apply elem_of_list_fmap in Hu as ([n r] & -> & Hn). cbn [fst] in H.
    destruct (iv_roles S HI n r Hn) as [Hb _]. rewrite H in Hb. injection Hb as _ Hb.
    pose proof role_ids_named as HF. rewrite Forall_forall in HF. destruct (HF _ Hn) as [HF' _]. by apply HF'.
  - revert Hu. apply (bool_decide_unpack _). vm_compute. exact I.
Qed.
Lemma named_one n : n <> [] -> named (users_from_string [n]).
Proof.
  intros Hn u. rewrite from_string_lookup. destruct (decide (u ∈ [n])) as [H|H]; [|by intros [? ?]].
  apply elem_of_list_singleton in H as ->. done.
Qed.

Section Total.
  Context (C : codec) (HC : codec_ok (app_ops C)) (bits : N) (verify : bytes -> bytes -> bytes -> bool).
  Context (a : application object msg tx) (HA : test_like bits verify a).
  Context (enum : list (event object msg) -> users -> list user) (HE : forall tr, fair_order (enum tr)).
  Context (good : object -> Prop).
  Notation O := (app_ops C).
  Notation R := (ap_registry a).
  Notation ORM := (orm_ops O R).
  Notation en := (env_of a enum true).
  Notation world := (world object msg orm).
  Implicit Types (S : amap) (f : nat) (self us : users) (m : msg) (t : tx) (skip : bool) (e : goerr)
    (ty id : bytes) (o : object) (h : handler object msg) (conv : goerr -> goerr).

  (** The last thing that happened is an attempt to write an object that cannot be
      stored. *)
  Definition stuck (w : world) : Prop := exists tr o us,
    (w_trace w = tr ++ [EvWrite (WCreate o) us] \/ w_trace w = tr ++ [EvWrite (WUpdate o) us])
    /\ storable O (schema_of o) o = false /\ good o.

  Definition tout {A : Type} (x : res A * world) (Q : res A -> amap -> Prop) : Prop :=
    (dead (fst x) /\ stuck (snd x))
    \/ (alive (fst x) /\ exists S, repr O R S (w_store (snd x)) /\ Q (fst x) S).
  Definition twp {A : Type} (f : nat) (self : users) (p : prog object msg A) (S : amap) (Q : res A -> amap -> Prop) :=
    forall w : world, repr O R S (w_store w) -> tout (exec O ORM en (deliver O msg_name ORM en f false) self p w) Q.
  Definition twph (f : nat) (conv : goerr -> goerr) (hs : list (handler object msg)) (us : users) (m : msg) (S : amap) (Q : res unit -> amap -> Prop) :=
    forall w : world, repr O R S (w_store w) ->
      tout (run_handlers O ORM en (deliver O msg_name ORM en f false) conv hs us m w) Q.
  Definition twpt (f : nat) (hs : list (tx_handler object msg tx)) (t : tx) (S : amap) (Q : res unit -> amap -> Prop) :=
    forall w : world, repr O R S (w_store w) ->
      tout (run_tx_handlers O ORM en (deliver O msg_name ORM en f false) hs t w) Q.
  Definition twpd (f : nat) (skip : bool) (us : users) (m : msg) (S : amap) (Q : res unit -> amap -> Prop) :=
    forall w : world, repr O R S (w_store w) -> tout (deliver O msg_name ORM en f skip us m w) Q.

  Notation may S v x us := (granted (map_stored S) v x us).

  Lemma stored_same S st ty id o : repr O R S st -> ty = ty_binding \/ ty = ty_role ->
    orm_stored C R st ty id o <-> map_stored S ty id o.
  Proof.
    intros HR Ht. assert (ty ∈ all_types) as Hk.
    { destruct Ht as [->| ->]; apply (bool_decide_unpack _); vm_compute; exact I. }
    unfold orm_stored, map_stored.
    destruct (orm_get_map C R (tl_registry _ _ _ HA) (tl_schema _ _ _ HA) S st ty id HC HR Hk) as [H _].
    pose proof (repr_wt C R (tl_schema _ _ _ HA) S _ HR) as HW.
    generalize dependent (orm_get O R ty id st). intros g H.
    split.
    - intros ->. by destruct H.
    - intros Ho. destruct g as [o'|e| |]; [destruct H; congruence|..];
        destruct H as [->|H]; try congruence; by destruct (HW _ _ _ Ho) as (_ & _ & ?).
  Qed.

  Lemma tauthorized v x us S w r w' : repr O R S (w_store w) -> wf_users us -> named us -> no_blank S ->
    authorized ORM en v x us w = (r, w') ->
    w_store w' = w_store w
    /\ (r = Ok tt /\ may S v x us \/ r = Fail (EWrap (ESent RtUnauthorized)) /\ ~ may S v x us).
  Proof.
    intros HR HU HN HB. unfold authorized. cbn [en_enabled env_of en_authorizer en_enum negb].
    rewrite (tl_authorizer _ _ _ HA).
    pose proof (orm_decides C R (tl_registry _ _ _ HA) (tl_schema _ _ _ HA) S (w_store w) (enum (w_trace w)) v x us HC HR (HE _) HU) as H.
    assert (granted (orm_stored C R (w_store w)) v x us <-> may S v x us) as Hg.
    { split; apply granted_impl; intros ty id o Ht; by apply (stored_same S). }
    destruct (run_read ORM _ _ _) as [d|e| |]; [|done| |done].
    - destruct H as [[H ->]|[H [e ->]]]; intros [= <- <-]; (split; [done|]); rewrite Hg in H; auto.
    - exfalso. destruct H as [[H|(u & s & Hu & H)] _].
      + by apply HN in H.
      + apply (stored_same S) in H; [|done|by left]. by apply HB in H.
  Qed.

  Lemma twp_ret {A : Type} f self (x : A) S (Q : res A -> amap -> Prop) : Q (Ok x) S -> twp f self (PRet x) S Q.
  Proof. intros H w HR. right. split; [done|]. eauto. Qed.
  Lemma twp_fail {A : Type} f self e S (Q : res A -> amap -> Prop) : Q (Fail e) S -> twp f self (PFail e) S Q.
  Proof. intros H w HR. right. split; [done|]. eauto. Qed.
  Lemma twp_lift {A B : Type} f self (r : res A) (k : A -> prog object msg B) S (Q : res B -> amap -> Prop) :
    alive r ->
    (forall x, r = Ok x -> twp f self (k x) S Q) -> (forall e, r = Fail e -> Q (Fail e) S) ->
    twp f self (lift r k) S Q.
  Proof. intros Ha H1 H2. destruct r; cbn [lift]; [by apply H1|by apply twp_fail, H2|done..]. Qed.

  Lemma twp_get {A : Type} f self ty id (ok : object -> prog object msg A) (bad : goerr -> prog object msg A) S (Q : res A -> amap -> Prop) :
    ty ∈ all_types -> id <> [] ->
    (forall o, S !! (ty, id) = Some o -> twp f self (ok o) S Q) ->
    (S !! (ty, id) = None -> twp f self (bad missing) S Q) ->
    twp f self (get_ ty id ok bad) S Q.
  Proof.
    intros HK Hid H1 H2 w HR. unfold get_. cbn [exec get_height fold_left N.eqb negb].
    destruct (get_refines O R S (w_store w) ty id HC (tl_registry _ _ _ HA) HR) as [G1 G2].
    unfold rt_get. cbn [so_get orm_ops]. rewrite convert_answer, G1.
    destruct (known_schema_in R (tl_schema _ _ _ HA) ty HK) as [s Hs]. unfold spec_get in *. rewrite Hs in *. clear Hs.
    generalize dependent (orm_get O R ty id (w_store w)). intros g G1 G2.
    destruct (decide (id = [])) as [Hz|Hz]; [done|].
    destruct (S !! (ty, id)) as [o|] eqn:E; cbn [fst snd] in *.
    - destruct g as [o'| | |]; try discriminate. injection G2 as ->. by apply H1.
    - by apply H2.
  Qed.

  Lemma typed_here o : typed_in O R o.
  Proof.
    intros s H. rewrite obj_name_ty, (tl_schema _ _ _ HA) in H. injection H as <-.
    destruct (app_typed C bits verify o (schema_of o)); [|by split].
    exact (app_schema_name C bits verify o).
  Qed.

  Lemma twrite_create o us S (w w1 : world) : repr O R S (w_store w) -> key_of o <> [] ->
    S !! (ty_of o, key_of o) = None -> good o ->
    let x := store_write ORM (WCreate o) us w in
    (dead (fst x) /\ stuck (snd x))
    \/ (fst x = Ok tt /\ repr O R (<[(ty_of o, key_of o) := o]> S) (w_store (snd x))
        /\ storable O (schema_of o) o = true).
  Proof.
    intros HR Hk Hn Hg. unfold store_write. cbn [apply_write so_create orm_ops].
    destruct (create_refines O R S (w_store w) o (tl_registry _ _ _ HA) HR (typed_here o)) as [H1 H2].
    destruct (orm_create O R o (w_store w)) as [r st']. cbn [fst snd] in *. rewrite convert_answer, H1.
    unfold spec_create in *. rewrite obj_name_ty, (tl_schema _ _ _ HA), app_pk in *.
    destruct (decide (key_of o = [])); [done|]. rewrite Hn in *.
    destruct (storable O (schema_of o) o) eqn:Es; cbn [fst snd] in *.
    - right. split; [|split; [by apply H2|done]]. destruct r as [[]|e| |]; try done. cbn in H1.
      destruct (errors_is e OrmAlreadyExists), (errors_is e OrmNotFound), (errors_is e SchemaNotFound); done.
    - left. split; [by destruct r|]. unfold stuck. cbn [w_trace]. eauto 7.
  Qed.
  Lemma twrite_update o us S (w : world) : repr O R S (w_store w) -> key_of o <> [] ->
    is_Some (S !! (ty_of o, key_of o)) -> good o ->
    let x := store_write ORM (WUpdate o) us w in
    (dead (fst x) /\ stuck (snd x))
    \/ (fst x = Ok tt /\ repr O R (<[(ty_of o, key_of o) := o]> S) (w_store (snd x))
        /\ storable O (schema_of o) o = true).
  Proof.
    intros HR Hk [o' Hn] Hg. unfold store_write. cbn [apply_write so_update orm_ops].
    destruct (update_refines O R S (w_store w) o (tl_registry _ _ _ HA) HR (typed_here o)) as [H1 H2].
    destruct (orm_update O R o (w_store w)) as [r st']. cbn [fst snd] in *. rewrite convert_answer, H1.
    unfold spec_update in *. rewrite obj_name_ty, (tl_schema _ _ _ HA), app_pk in *.
    destruct (decide (key_of o = [])); [done|]. rewrite Hn in *.
    destruct (storable O (schema_of o) o) eqn:Es; cbn [fst snd] in *.
    - right. split; [|split; [by apply H2|done]]. destruct r as [[]|e| |]; try done. cbn in H1.
      destruct (errors_is e OrmAlreadyExists), (errors_is e OrmNotFound), (errors_is e SchemaNotFound); done.
    - left. split; [by destruct r|]. unfold stuck. cbn [w_trace]. eauto 7.
  Qed.

  Lemma twp_create f self o (p : prog object msg unit) S (Q : res unit -> amap -> Prop) :
    no_blank S -> wf_users self -> named self -> may S VCreate (ty_of o) self ->
    key_of o <> [] -> S !! (ty_of o, key_of o) = None -> good o ->
    (storable O (schema_of o) o = true -> twp f self p (<[(ty_of o, key_of o) := o]> S) Q) ->
    twp f self (create_ o p) S Q.
  Proof.
    intros HB HU HN HP Hk Hn Hg H w HR. unfold create_. cbn [exec]. unfold rt_create. rewrite obj_name_ty.
    destruct (authorized ORM en VCreate (ty_of o) self w) as [r w1] eqn:EA.
    apply (tauthorized _ _ _ S) in EA as [ES HS]; [|done..].
    destruct HS as [[-> HS]|[-> HS]]; [|done].
    rewrite <- ES in HR. pose proof (twrite_create o self S w1 w1 HR Hk Hn Hg) as Hw. cbv zeta in Hw.
    destruct (store_write ORM (WCreate o) self w1) as [r w2]. cbn [fst snd] in Hw.
    destruct Hw as [[Hd Hs]|(-> & Hs & Ht)]; [|by apply H]. left. by destruct r.
  Qed.
  Lemma twp_update f self o (p : prog object msg unit) S (Q : res unit -> amap -> Prop) :
    no_blank S -> wf_users self -> named self -> may S VUpdate (ty_of o) self ->
    key_of o <> [] -> is_Some (S !! (ty_of o, key_of o)) -> good o ->
    (storable O (schema_of o) o = true -> twp f self p (<[(ty_of o, key_of o) := o]> S) Q) ->
    twp f self (update_ o p) S Q.
  Proof.
    intros HB HU HN HP Hk Hn Hg H w HR. unfold update_. cbn [exec]. unfold rt_update. rewrite obj_name_ty.
    destruct (authorized ORM en VUpdate (ty_of o) self w) as [r w1] eqn:EA.
    apply (tauthorized _ _ _ S) in EA as [ES HS]; [|done..].
    destruct HS as [[-> HS]|[-> HS]]; [|done].
    rewrite <- ES in HR. pose proof (twrite_update o self S w1 HR Hk Hn Hg) as Hw. cbv zeta in Hw.
    destruct (store_write ORM (WUpdate o) self w1) as [r w2]. cbn [fst snd] in Hw.
    destruct Hw as [[Hd Hs]|(-> & Hs & Ht)]; [|by apply H]. left. by destruct r.
  Qed.
  (** Updating what is not there fails. *)
  Lemma twp_update_missing f self o (p : prog object msg unit) S (Q : res unit -> amap -> Prop) :
    no_blank S -> wf_users self -> named self -> may S VUpdate (ty_of o) self ->
    key_of o <> [] -> S !! (ty_of o, key_of o) = None ->
    Q (Fail missing) S -> twp f self (update_ o p) S Q.
  Proof.
    intros HB HU HN HP Hk Hn H w HR. unfold update_. cbn [exec]. unfold rt_update. rewrite obj_name_ty.
    destruct (authorized ORM en VUpdate (ty_of o) self w) as [r w1] eqn:EA.
    apply (tauthorized _ _ _ S) in EA as [ES HS]; [|done..].
    destruct HS as [[-> HS]|[-> HS]]; [|done].
    rewrite <- ES in HR. unfold store_write. cbn [apply_write so_update orm_ops].
    destruct (update_refines O R S (w_store w1) o (tl_registry _ _ _ HA) HR (typed_here o)) as [H1 H2].
    destruct (orm_update O R o (w_store w1)) as [r st']. cbn [fst snd] in *. rewrite convert_answer, H1.
    unfold spec_update in *. rewrite obj_name_ty, (tl_schema _ _ _ HA), app_pk in *.
    destruct (decide (key_of o = [])); [done|]. rewrite Hn in *. cbn [fst snd is_crash] in *.
    right. split; [done|]. exists S. split; [by apply H2|done].
  Qed.
  Lemma twp_deliver f self m (p : prog object msg unit) S (Q : res unit -> amap -> Prop) :
    wf_users self ->
    twpd f false self m S (fun r S' => match r with
                                      | Ok _ => twp f self p S' Q
                                      | Fail e => Q (Fail e) S'
                                      | _ => True
                                      end) ->
    twp f self (deliver_ m p) S Q.
  Proof.
    intros HU H w HR. unfold deliver_. cbn [exec]. rewrite client_self by done.
    specialize (H w HR). destruct (deliver _ _ _ _ _ _ _ _ _) as [r w1].
    destruct H as [[Hd Hs]|(Ha & S' & HR' & HQ)]; cbn [fst snd] in *.
    - left. by destruct r.
    - destruct r; try done; [by apply HQ|]. right. split; [done|]. eauto.
  Qed.
  Lemma twp_enum {A : Type} f self us (k : list user -> prog object msg A) S (Q : res A -> amap -> Prop) :
    (forall l, enumerates us l -> twp f self (k l) S Q) -> twp f self (PEnum us k) S Q.
  Proof. intros H w HR. cbn [exec]. apply H; [apply HE|done]. Qed.

  Lemma tout_mono {A : Type} (x : res A * world) (Q Q' : res A -> amap -> Prop) :
    tout x Q -> (forall r S', Q r S' -> Q' r S') -> tout x Q'.
  Proof. intros [H|(Ha & S' & HR & HQ)] H'; [by left|right]. split; [done|]. eauto. Qed.
  Lemma twp_mono {A : Type} f self (p : prog object msg A) S (Q Q' : res A -> amap -> Prop) :
    twp f self p S Q -> (forall r S', Q r S' -> Q' r S') -> twp f self p S Q'.
  Proof. intros H HQ w HR. eapply tout_mono; eauto. Qed.
  Lemma twpd_mono f skip us m S (Q Q' : res unit -> amap -> Prop) :
    twpd f skip us m S Q -> (forall r S', Q r S' -> Q' r S') -> twpd f skip us m S Q'.
  Proof. intros H HQ w HR. eapply tout_mono; eauto. Qed.

  Lemma twph_nil f conv us m S (Q : res unit -> amap -> Prop) : Q (Ok tt) S -> twph f conv [] us m S Q.
  Proof. intros H w HR. right. split; [done|]. eauto. Qed.
  Lemma twph_cons f conv h (hs : list (handler object msg)) us m S (Q : res unit -> amap -> Prop) :
    twp f (h_self h) (h_run h us m) S (fun r S' => match r with
                                                  | Ok _ => twph f conv hs us m S' Q
                                                  | Fail e => Q (Fail (conv e)) S'
                                                  | _ => True
                                                  end) ->
    twph f conv (h :: hs) us m S Q.
  Proof.
    intros H w HR. cbn [run_handlers]. unfold run_handler. specialize (H w HR).
    destruct (exec _ _ _ _ _ _ _) as [r w1]. destruct H as [[Hd Hs]|(Ha & S' & HR' & HQ)]; cbn [fst snd] in *.
    - left. by destruct r.
    - destruct r; try done; [by apply HQ|]. right. split; [done|]. eauto.
  Qed.
  Lemma twpt_nil f t S (Q : res unit -> amap -> Prop) : Q (Ok tt) S -> twpt f [] t S Q.
  Proof. intros H w HR. right. split; [done|]. eauto. Qed.
  Lemma twpt_cons f (h : tx_handler object msg tx) (hs : list (tx_handler object msg tx)) t S (Q : res unit -> amap -> Prop) :
    twp f (th_self h) (th_run h t) S (fun r S' => match r with
                                                  | Ok _ => twpt f hs t S' Q
                                                  | Fail e => Q (Fail (bad_request e)) S'
                                                  | _ => True
                                                  end) ->
    twpt f (h :: hs) t S Q.
  Proof.
    intros H w HR. cbn [run_tx_handlers]. specialize (H w HR).
    destruct (exec _ _ _ _ _ _ _) as [r w1]. destruct H as [[Hd Hs]|(Ha & S' & HR' & HQ)]; cbn [fst snd] in *.
    - left. by destruct r.
    - destruct r; try done; [by apply HQ|]. right. split; [done|]. eauto.
  Qed.

  Lemma twpd_route f skip us m h S (Q : res unit -> amap -> Prop) :
    no_blank S -> wf_users us -> named us -> exec_of bits m = Some h ->
    (may S VDeliver (msg_name m) us ->
       twp f (h_self h) (h_run h us m) S
         (fun r S2 => match r with
                      | Ok _ => twph f (fun e => e) (post_of m) us m S2 Q
                      | _ => Q r S2
                      end)) ->
    (~ may S VDeliver (msg_name m) us -> Q (Fail (EWrap (ESent RtUnauthorized))) S) ->
    (skip = false ->
       twph f bad_request (admission_of m) us m S
         (fun r S1 => S1 = S /\ match r with Ok _ => True | _ => Q r S end)) ->
    twpd (Datatypes.S f) skip us m S Q.
  Proof.
    intros HB HU HN Hh H1 H2 H3 w HR. cbn [deliver]. unfold deliver_body.
    assert (tout (if skip then (Ok tt, w)
                 else run_admission_chain O msg_name ORM en (deliver O msg_name ORM en f false) us m w)
              (fun r S1 => S1 = S /\ match r with Ok _ => True | _ => Q r S end)) as Ha.
    { destruct skip; [right; split; [done|]; by exists S|]. unfold run_admission_chain. cbn [en_router env_of].
      destruct (tl_routes _ _ _ HA m) as (_ & -> & _ & _). rewrite Hh. by apply H3. }
    destruct (if skip then _ else _) as [r w1]. destruct Ha as [[Hd Hs]|(Ha & S' & HR' & -> & HQ)]; cbn [fst snd] in *.
    { left. by destruct r. }
    destruct r as [u|e| |]; [|right; split; [done|]; by eauto|done|done].
    destruct (authorized ORM en VDeliver (msg_name m) us w1) as [r w2] eqn:EA.
    apply (tauthorized _ _ _ S) in EA as [ES HS]; [|done..].
    destruct HS as [[-> HS]|[-> HS]].
    2:{ right. cbn [fst snd]. split; [done|]. rewrite ES. eauto. }
    unfold deliver_authorized. cbn [en_router env_of].
    destruct (tl_routes _ _ _ HA m) as (-> & _ & -> & ->). rewrite Hh. cbn [run_handlers].
    unfold run_handler. rewrite <- ES in HR'.
    specialize (H1 HS (log (EvDeliver m us) w2) HR').
    destruct (exec _ _ _ _ _ _ _) as [r w3]. destruct H1 as [[Hd Hs]|(Ha' & S3 & HR3 & H1)]; cbn [fst snd] in *.
    { left. by destruct r. }
    destruct r; try done; [by apply H1|]. right. split; [done|]. eauto.
  Qed.
End Total.
