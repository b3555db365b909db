(** Stages of deliveries and identities in built applications; the read-only
    client; services; result codes. *)
From Coq Require Import NArith List Bool String Lia.
From stdpp Require Import base list gmap.
From Verif.Model Require Import Bytes KindEncoder Desc Schema Indexes Orm Users Prog Router Runtime
  Services Errors Client Module Builder.
From Verif.Spec Require Import UserSpec RuntimeSpec.
From Verif.Proofs Require Import UserFacts RouterFacts RuntimeFacts BuilderFacts.

Section Deliver.
  Context {Obj Msg Tx St : Type} (O : objops Obj) (mname : Msg -> bytes) (SO : storeops Obj St).
  Notation env := (env Obj Msg Tx).
  Notation world := (world Obj Msg St).
  Notation event := (event Obj Msg).
  Implicit Types (w : world) (s : St) (en : env) (ms : list (module Obj Msg Tx)) (a : application Obj Msg Tx).

  (** *** C16 *)
  Lemma deliver_stages fuel0 D ms a enum enabled f skip us m w r w' h hs :
    build fuel0 D ms = Ok a ->
    let en := env_of a enum enabled in
    let run := handler_step O SO en (deliver O mname SO en f false) us m in
    let n := mname m in
    declared mo_exec n ms = h :: hs ->
    deliver O mname SO en (S f) skip us m w = (r, w') <->
    in_order ((if skip then []
               else map (fun x => reporting (fun _ => EWrap (ESent RtBadRequest)) (run x))
                        (declared mo_admission n ms))
              ++ [check_step mname SO en us m]
              ++ map run (declared mo_pre n ms) ++ [run h] ++ map run (declared mo_post n ms))
             w r w'.
  Proof.
    intros HB en run n Hd. destruct (built_lookups fuel0 D ms a n HB) as (H1 & H2 & H3 & H4).
    rewrite Hd in *. rewrite <- seq_in_order. cbn [deliver].
    assert (forall w, deliver_body O mname SO en (deliver O mname SO en f false) skip us m w
      = seq ((if skip then []
               else map (fun x => reporting (fun _ => EWrap (ESent RtBadRequest)) (run x))
                        (declared mo_admission n ms))
              ++ [check_step mname SO en us m]
              ++ map run (declared mo_pre n ms) ++ [run h] ++ map run (declared mo_post n ms)) w) as ->; [|done].
    clear w r w'. intros w. unfold deliver_body. rewrite seq_app.
    assert ((if skip then (Ok tt, w) else run_admission_chain O mname SO en (deliver O mname SO en f false) us m w)
            = seq (if skip then []
               else map (fun x => reporting (fun _ => EWrap (ESent RtBadRequest)) (run x))
                        (declared mo_admission n ms)) w) as ->.
    { destruct skip; [done|]. unfold run_admission_chain. fold n.
      change (en_router en) with (ap_router a). rewrite H2. apply run_handlers_seq. }
    destruct (seq _ w) as [[[]|e| |] w1]; try done.
    rewrite seq_app. cbn [seq]. unfold check_step at 1. fold n.
    destruct (authorized SO en VDeliver n us w1) as [[[]|e| |] w2]; try done.
    unfold deliver_authorized. fold n. change (en_router en) with (ap_router a).
    rewrite H3, H1, H4. rewrite seq_app, run_handlers_seq_id. fold (handler_step O SO en (deliver O mname SO en f false) us m).
    change (seq (map (fun h0 => exec O SO en (deliver O mname SO en f false) (h_self h0) (h_run h0 us m))
              (declared mo_pre n ms)) (log (EvDeliver m us) w2))
      with (seq (map run (declared mo_pre n ms)) (log (EvDeliver m us) w2)).
    destruct (seq (map run _) _) as [[[]|e| |] w3]; try done.
    rewrite seq_app. cbn [seq]. unfold run at 1, handler_step at 1. unfold run_handler.
    destruct (exec _ _ _ _ (h_self h) _ _) as [[[]|e| |] w4]; try done.
    rewrite run_handlers_seq_id. done.
  Qed.

  Lemma deliver_unknown fuel0 D ms a enum enabled f skip us m w r w' :
    build fuel0 D ms = Ok a ->
    let en := env_of a enum enabled in
    declared mo_exec (mname m) ms = [] ->
    deliver O mname SO en (S f) skip us m w = (r, w') ->
    is_ok r = false /\ w_store w' = w_store w
    /\ (skip = false -> exists e, r = Fail e /\ errors_is e RouterNotFound = true).
  Proof.
    intros HB en Hd. destruct (built_lookups fuel0 D ms a (mname m) HB) as (H1 & H2 & H3 & H4).
    rewrite Hd in *. cbn [deliver]. unfold deliver_body. destruct skip.
    - destruct (authorized SO en VDeliver (mname m) us w) as [r1 w1] eqn:Ea.
      assert (w_store w1 = w_store w) as Es.
      { unfold authorized in Ea. destruct (negb _); [by injection Ea as <- <-|].
        destruct (run_read _ _ _ _) as [[[] [|]]| | |]; injection Ea as <- <-; done. }
      destruct r1 as [[]|e| |]; intros E; try (injection E as <- <-; done).
      unfold deliver_authorized in E. change (en_router en) with (ap_router a) in E.
      rewrite H3, H1 in E. cbn in E. injection E as <- <-. done.
    - unfold run_admission_chain. change (en_router en) with (ap_router a). rewrite H2.
      intros E. injection E as <- <-. split; [done|]. split; [done|]. intros _. by eexists.
  Qed.

  (** *** C19: what one client does. *)
  Definition new_events w w' (Q : event -> Prop) : Prop :=
    exists tr, w_trace w' = w_trace w ++ tr /\ Forall Q tr.

  Lemma new_events_refl w (Q : event -> Prop) : new_events w w Q.
  Proof. exists []. by rewrite app_nil_r. Qed.
  Lemma new_events_trans w1 w2 w3 (Q : event -> Prop) : new_events w1 w2 Q -> new_events w2 w3 Q -> new_events w1 w3 Q.
  Proof.
    intros (t1 & E1 & F1) (t2 & E2 & F2). exists (t1 ++ t2).
    rewrite E2, E1, app_assoc. split; [done|]. by apply Forall_app.
  Qed.
  Lemma new_events_log w e (Q : event -> Prop) : Q e -> new_events w (log e w) Q.
  Proof. intros H. exists [e]. split; [done|]. by constructor. Qed.
  Lemma new_events_impl w w' (Q Q' : event -> Prop) : (forall e, Q e -> Q' e) -> new_events w w' Q -> new_events w w' Q'.
  Proof. intros H (t & E & F). exists t. split; [done|]. eapply Forall_impl; eauto. Qed.

  Lemma authorized_events en v n us w r w' (Q : event -> Prop) :
    (forall b, Q (EvCheck v n us b)) -> authorized SO en v n us w = (r, w') -> new_events w w' Q.
  Proof.
    unfold authorized. intros HQ. destruct (negb _); [intros E; injection E as <- <-; apply new_events_refl|].
    destruct (run_read _ _ _ _) as [[[] [|]]| | |]; intros E; injection E as <- <-;
      first [by apply new_events_log | apply new_events_refl].
  Qed.
  Lemma write_events x us w r w' (Q : event -> Prop) :
    Q (EvWrite x us) -> store_write SO x us w = (r, w') -> new_events w w' Q.
  Proof.
    intros HQ. unfold store_write. destruct (apply_write _ _ _) as [r0 s0]. intros E. injection E as <- <-.
    exists [EvWrite x us]. split; [done|]. by constructor.
  Qed.
  Lemma create_events en us o w r w' (Q : event -> Prop) :
    (forall n b, Q (EvCheck VCreate n us b)) -> (forall x, Q (EvWrite x us)) ->
    rt_create O SO en us o w = (r, w') -> new_events w w' Q.
  Proof.
    intros H1 H2. unfold rt_create. destruct (authorized _ _ _ _ _ _) as [r1 w1] eqn:E.
    apply (authorized_events _ _ _ _ _ _ _ Q) in E; [|done].
    destruct r1; intros H; [|injection H as <- <-; done..].
    eapply new_events_trans; [exact E|]. by eapply write_events.
  Qed.
  Lemma update_events en us o w r w' (Q : event -> Prop) :
    (forall n b, Q (EvCheck VUpdate n us b)) -> (forall x, Q (EvWrite x us)) ->
    rt_update O SO en us o w = (r, w') -> new_events w w' Q.
  Proof.
    intros H1 H2. unfold rt_update. destruct (authorized _ _ _ _ _ _) as [r1 w1] eqn:E.
    apply (authorized_events _ _ _ _ _ _ _ Q) in E; [|done].
    destruct r1; intros H; [|injection H as <- <-; done..].
    eapply new_events_trans; [exact E|]. by eapply write_events.
  Qed.
  Lemma delete_events en us o w r w' (Q : event -> Prop) :
    (forall n b, Q (EvCheck VDelete n us b)) -> (forall x, Q (EvWrite x us)) ->
    rt_delete O SO en us o w = (r, w') -> new_events w w' Q.
  Proof.
    intros H1 H2. unfold rt_delete. destruct (authorized _ _ _ _ _ _) as [r1 w1] eqn:E.
    apply (authorized_events _ _ _ _ _ _ _ Q) in E; [|done].
    destruct r1; intros H; [|injection H as <- <-; done..].
    eapply new_events_trans; [exact E|]. by eapply write_events.
  Qed.

  (** A program under a client that only records what is delivered. *)
  Lemma client_identity en (answer : users -> Msg -> world -> res unit) self {A} (p : prog Obj Msg A) :
    wf_users self -> forall w r w',
    exec O SO en (fun us m w => (answer us m w, log (EvDeliver m us) w)) self p w = (r, w') ->
    new_events w w' (fun e =>
      match e with
      | EvCheck _ _ us _ => us = self
      | EvWrite _ us => us = self
      | EvDeliver m us =>
          exists opts, may_deliver m opts p
            /\ forall n, users_has1 us n = true <->
                 users_has1 self n = true
                 \/ match last opts with Some (DeliverImpersonating l) => n ∈ l | None => False end
      | EvEnum _ => True
      end).
  Proof.
    intros Hwf.
    set (Q := fun (p : prog Obj Msg A) (e : event) => match e with
      | EvCheck _ _ us _ => us = self
      | EvWrite _ us => us = self
      | EvDeliver m us =>
          exists opts, may_deliver m opts p
            /\ forall n, users_has1 us n = true <->
                 users_has1 self n = true
                 \/ match last opts with Some (DeliverImpersonating l) => n ∈ l | None => False end
      | EvEnum _ => True end).
    assert (forall p p' e, (forall m o, may_deliver m o p -> may_deliver m o p') -> Q p e -> Q p' e) as Hmono.
    { intros p1 p2 e Hm. destruct e; cbn; try done. intros (o & H1 & H2). exists o. auto. }
    fold (Q p).
    induction p as [a|e| |ty id o k IH|ty o k IH|us k IH|o k IH|o k IH|o k IH|m o k IH];
      intros w r w'; cbn [exec].
    - intros E; injection E as <- <-; apply new_events_refl.
    - intros E; injection E as <- <-; apply new_events_refl.
    - intros E; injection E as <- <-; apply new_events_refl.
    - assert (forall x w r w', exec O SO en (fun us m w => (answer us m w, log (EvDeliver m us) w)) self (k x) w = (r, w') ->
                new_events w w' (Q (PGet ty id o k))) as IH'.
      { intros x w0 r0 w0' E. eapply new_events_impl; [|by eapply IH].
        intros e. apply Hmono. intros m o' Hm. by eapply md_get. }
      destruct (negb _); [apply IH'|].
      destruct (rt_get _ _ _ _); [apply IH'|apply IH'| |];
        intros E; injection E as <- <-; apply new_events_refl.
    - assert (forall x w r w', exec O SO en (fun us m w => (answer us m w, log (EvDeliver m us) w)) self (k x) w = (r, w') ->
                new_events w w' (Q (PList ty o k))) as IH'.
      { intros x w0 r0 w0' E. eapply new_events_impl; [|by eapply IH].
        intros e. apply Hmono. intros m o' Hm. by eapply md_list. }
      destruct (negb _); [apply IH'|].
      destruct (rt_list _ _ _ _); [apply IH'|apply IH'| |];
        intros E; injection E as <- <-; apply new_events_refl.
    - intros E. apply IH in E. eapply new_events_trans; [apply (new_events_log _ (EvEnum us)); exact I|].
      eapply new_events_impl; [|exact E]. intros e. apply Hmono. intros m o' Hm. by eapply md_enum.
    - destruct (rt_create _ _ _ _ _ _) as [r1 w1] eqn:Ec.
      assert (new_events w w1 (Q (PCreate o k))) as Hc by (eapply create_events; [..|exact Ec]; done).
      destruct r1; intros E; try (injection E as <- <-; exact Hc);
        apply IH in E; (eapply new_events_trans; [exact Hc|]; eapply new_events_impl; [|exact E];
        intros e'; apply Hmono; intros m o' Hm; by eapply md_create).
    - destruct (rt_update _ _ _ _ _ _) as [r1 w1] eqn:Ec.
      assert (new_events w w1 (Q (PUpdate o k))) as Hc by (eapply update_events; [..|exact Ec]; done).
      destruct r1; intros E; try (injection E as <- <-; exact Hc);
        apply IH in E; (eapply new_events_trans; [exact Hc|]; eapply new_events_impl; [|exact E];
        intros e'; apply Hmono; intros m o' Hm; by eapply md_update).
    - destruct (rt_delete _ _ _ _ _ _) as [r1 w1] eqn:Ec.
      assert (new_events w w1 (Q (PDelete o k))) as Hc by (eapply delete_events; [..|exact Ec]; done).
      destruct r1; intros E; try (injection E as <- <-; exact Hc);
        apply IH in E; (eapply new_events_trans; [exact Hc|]; eapply new_events_impl; [|exact E];
        intros e'; apply Hmono; intros m o' Hm; by eapply md_delete).
    - assert (new_events w (log (EvDeliver m (client_users self o)) w) (Q (PDeliver m o k))) as Hc.
      { apply new_events_log. exists o. split; [constructor|]. intros n. by apply client_users_has. }
      destruct (answer _ _ _); intros E; try (injection E as <- <-; exact Hc);
        apply IH in E; (eapply new_events_trans; [exact Hc|]; eapply new_events_impl; [|exact E];
        intros e'; apply Hmono; intros m' o' Hm; by eapply md_deliver).
  Qed.

  (** In a whole application. *)
  Definition module_event (ms : list (module Obj Msg Tx)) (e : event) : Prop :=
    match e with
    | EvWrite _ us => exists m, m ∈ ms /\ us = users_from_string [mo_name m]
    | EvDeliver _ us => exists m, m ∈ ms /\ users_has1 us (mo_name m) = true
    | _ => True
    end.

  Lemma declared_in part n ms h :
    h ∈ declared part n ms -> exists m, m ∈ ms /\ h_self h = users_from_string [@mo_name Obj Msg Tx m].
  Proof.
    unfold declared. rewrite elem_of_list_In, in_flat_map. intros (m & Hm & H).
    apply in_flat_map in H as (d & _ & H). destruct (decide _); [|done]. destruct H as [<-|[]].
    exists m. by rewrite elem_of_list_In.
  Qed.

  Lemma router_handler_module fuel0 D ms a enum enabled n h :
    build fuel0 D ms = Ok a -> router_handler (env_of a enum enabled) n h ->
    exists m, m ∈ ms /\ h_self h = users_from_string [mo_name m].
  Proof.
    intros HB Hh. apply build_value in HB as [HB ->]. unfold router_handler in Hh.
    cbn [env_of en_router ap_router final_router ro_admission ro_pre ro_exec ro_post] in Hh.
    pose proof (agrees_all (Tx:=Tx) (all_regs ms)) as HA.
    destruct Hh as [H|[H|[H|H]]].
    - rewrite (ag_adm _ _ HA), admissions_all in H. by eapply declared_in.
    - rewrite (ag_pre _ _ HA) in H.
      destruct (declared mo_exec n ms) eqn:Ed.
      + rewrite since_known_nil in H by (by rewrite execs_all). inversion H.
      + rewrite pres_all in H by (by rewrite Ed). by eapply declared_in.
    - rewrite (ag_exec _ _ HA), execs_all in H. apply (declared_in mo_exec n).
      destruct (declared mo_exec n ms); [done|]. injection H as ->. left.
    - rewrite (ag_post _ _ HA) in H.
      destruct (declared mo_exec n ms) eqn:Ed.
      + rewrite since_known_nil in H by (by rewrite execs_all). inversion H.
      + rewrite posts_all in H by (by rewrite Ed). by eapply declared_in.
  Qed.

  Lemma client_users_self self opts n : wf_users self ->
    users_has1 self n = true -> users_has1 (client_users self opts) n = true.
  Proof. intros H1 H2. apply client_users_has; [done|]. by left. Qed.

  Lemma exec_module_events ms m en dlv {A} (p : prog Obj Msg A) w r w' :
    m ∈ ms ->
    (forall us m' w r w', users_has1 us (mo_name m) = true -> dlv us m' w = (r, w') ->
       new_events w w' (module_event ms)) ->
    exec O SO en dlv (users_from_string [mo_name m]) p w = (r, w') ->
    new_events w w' (module_event ms).
  Proof.
    intros Hm Hd. revert w r w'. apply exec_inv.
    - intros. apply new_events_refl.
    - intros w1 w2 w3. apply new_events_trans.
    - intros. by apply new_events_log.
    - intros o w r w' E. eapply create_events; [..|exact E]; cbn; eauto.
    - intros o w r w' E. eapply update_events; [..|exact E]; cbn; eauto.
    - intros o w r w' E. eapply delete_events; [..|exact E]; cbn; eauto.
    - intros opts m' w r w' E. eapply Hd; [|exact E].
      apply client_users_self; [apply from_string_wf|]. apply from_string_has. left.
  Qed.

  Lemma deliver_module_events fuel0 D ms a enum enabled f :
    build fuel0 D ms = Ok a ->
    forall skip us m w r w',
    (exists x, x ∈ ms /\ users_has1 us (mo_name x) = true) ->
    deliver O mname SO (env_of a enum enabled) f skip us m w = (r, w') ->
    new_events w w' (module_event ms).
  Proof.
    intros HB. induction f as [|f IH]; intros skip us m w r w' Hus; cbn [deliver].
    - intros E; injection E as <- <-; apply new_events_refl.
    - apply (deliver_body_inv O mname SO (env_of a enum enabled) (fun w w' => new_events w w' (module_event ms))).
      + intros. apply new_events_refl.
      + intros w1 w2 w3. apply new_events_trans.
      + intros h w1 r1 w1' Hh E. destruct (router_handler_module _ _ _ _ _ _ _ _ HB Hh) as (x & Hx & Es).
        unfold run_handler in E. rewrite Es in E. eapply exec_module_events; [exact Hx| |exact E].
        intros us' m' w2 r2 w2' Hn. apply IH. eauto.
      + intros w1 r1 w1' E _. eapply authorized_events; [|exact E]. done.
      + intros w1 w1' E. eapply new_events_trans.
        * eapply authorized_events; [|exact E]. done.
        * apply new_events_log. exact Hus.
  Qed.

  (** The delivery of [m] for any users: besides its own entry only entries of
      modules. *)
  Lemma delivery_identity fuel0 D ms a enum enabled f skip us m w r w' :
    build fuel0 D ms = Ok a ->
    deliver O mname SO (env_of a enum enabled) f skip us m w = (r, w') ->
    new_events w w' (fun e => e = EvDeliver m us \/ module_event ms e).
  Proof.
    intros HB. destruct f as [|f]; cbn [deliver].
    - intros E; injection E as <- <-; apply new_events_refl.
    - apply (deliver_body_inv O mname SO (env_of a enum enabled)
               (fun w w' => new_events w w' (fun e => e = EvDeliver m us \/ module_event ms e))).
      + intros. apply new_events_refl.
      + intros w1 w2 w3. apply new_events_trans.
      + intros h w1 r1 w1' Hh E. destruct (router_handler_module _ _ _ _ _ _ _ _ HB Hh) as (x & Hx & Es).
        unfold run_handler in E. rewrite Es in E.
        eapply new_events_impl; [|eapply exec_module_events; [exact Hx| |exact E]].
        * intros e He. by right.
        * intros us' m' w2 r2 w2' Hn. eapply deliver_module_events; eauto.
      + intros w1 r1 w1' E _. eapply authorized_events; [|exact E]. by right.
      + intros w1 w1' E. eapply new_events_trans.
        * eapply authorized_events; [|exact E]. by right.
        * apply new_events_log. by left.
  Qed.

  (** *** C18 *)
  Lemma create_error en us o w :
    en_enabled en = false ->
    (rt_create O SO en us o w).1 =
    match (so_create SO o (w_store w)).1 with
    | Fail e => if errors_is e OrmNotFound then Fail (EWrap (ESent RtNotFound)) else Panic
    | r => r
    end.
  Proof.
    intros He. unfold rt_create, authorized. rewrite He. cbn. unfold store_write, apply_write.
    destruct (so_create _ _ _) as [[] ?]; done.
  Qed.
  Lemma store_error {A} (r : res A) :
    match r with
    | Ok x => convert_store_error r = Ok x
    | Fail e =>
        (errors_is e OrmNotFound = true ->
         exists e', convert_store_error r = Fail e' /\ errors_is e' RtNotFound = true)
        /\ (errors_is e OrmNotFound = false -> convert_store_error r = Panic)
    | Panic => convert_store_error r = Panic
    | OutOfFuel => convert_store_error r = OutOfFuel
    end.
  Proof.
    destruct r as [x|e| |]; try done. cbn. destruct (errors_is e OrmNotFound); split; try done.
    intros _. by eexists.
  Qed.
End Deliver.

(** *** C22 *)
Section Client.
  Context {Obj Msg St : Type} (SO : storeops Obj St).
  Lemma client_keeps (cs : list (client_call Obj Msg)) s : (orm_client_run SO cs s).2 = s.
  Proof.
    induction cs as [|c cs IH]; cbn; [done|].
    assert ((orm_client SO c s).2 = s) as Hc by (by destruct c).
    destruct (orm_client SO c s) as [x s'] eqn:E. cbn in Hc. subst s'.
    destruct (orm_client_run SO cs s) as [l s''] eqn:E'. done.
  Qed.
  Lemma client_answers (cs : list (client_call Obj Msg)) s :
    (orm_client_run SO cs s).1 =
    map (fun c => match c with
                  | KGet ty id _ => KObject (so_get SO ty id s)
                  | KList ty opts => KKeys (so_list SO ty (lr_orm (list_options_of opts)) s)
                  | _ => KDone (Fail EAnon)
                  end) cs.
  Proof.
    induction cs as [|c cs IH]; cbn [orm_client_run map]; [done|].
    assert (exists x, orm_client SO c s = (x, s) /\ x = match c with
                  | KGet ty id _ => KObject (so_get SO ty id s)
                  | KList ty opts => KKeys (so_list SO ty (lr_orm (list_options_of opts)) s)
                  | _ => KDone (Fail EAnon) end) as (x & -> & ->) by (by destruct c; eexists).
    rewrite <- IH. by destruct (orm_client_run SO cs s).
  Qed.
End Client.

(** *** C24 *)
Lemma services_start_spec g :
  let starts l := flat_map (fun s => [SetClient s (default [] (ms_name s)); StartCall s]) l in
  let fine s := is_Some (ms_name s) /\ sv_start (ms_service s) = Ok tt in
  (Forall fine g /\ services_start g = (starts g, Ok tt))
  \/ exists g1 s g2, g = g1 ++ s :: g2 /\ Forall fine g1
     /\ ((ms_name s = None /\ services_start g = (starts g1, Panic))
         \/ (is_Some (ms_name s) /\ sv_start (ms_service s) <> Ok tt
             /\ services_start g = (starts (g1 ++ [s]),
                                    match sv_start (ms_service s) with
                                    | Fail e => Fail (EWrap e) | r => r end))).
Proof.
  intros starts fine. induction g as [|s g IH]; [left; by split|]. cbn [services_start].
  destruct (ms_name s) as [n|] eqn:En.
  2: { right. exists [], s, g. split; [done|]. split; [constructor|]. left. done. }
  destruct (sv_start (ms_service s)) as [[]|e| |] eqn:Es.
  - destruct IH as [[Hf Hr]|(g1 & s' & g2 & -> & Hf & H)].
    + left. split; [constructor; [split; [by eexists|done]|done]|]. rewrite Hr. cbn. by rewrite En.
    + right. exists (s :: g1), s', g2. split; [done|].
      split; [constructor; [split; [by eexists|done]|done]|].
      destruct H as [[H1 H2]|(H1 & H2 & H3)].
      * left. split; [done|]. rewrite H2. cbn. by rewrite En.
      * right. split; [done|]. split; [done|]. rewrite H3. cbn. by rewrite En.
  - right. exists [], s, g. split; [done|]. split; [constructor|]. right.
    split; [by eexists|]. split; [congruence|]. cbn. by rewrite En, Es.
  - right. exists [], s, g. split; [done|]. split; [constructor|]. right.
    split; [by eexists|]. split; [congruence|]. cbn. by rewrite En, Es.
  - right. exists [], s, g. split; [done|]. split; [constructor|]. right.
    split; [by eexists|]. split; [congruence|]. cbn. by rewrite En, Es.
Qed.

Lemma services_stop_spec g :
  Forall (fun s => is_Some (ms_name s)
                   /\ (sv_stop (ms_service s) = Ok tt \/ exists e, sv_stop (ms_service s) = Fail e)) g ->
  services_stop g =
  (map StopCall g,
   Ok (flat_map (fun s => match sv_stop (ms_service s) with Fail e => [e] | _ => [] end) g)).
Proof.
  induction 1 as [|s g [[n En] Hs] _ IH]; [done|]. cbn [services_stop flat_map map]. rewrite En, IH.
  destruct Hs as [->|[e ->]]; done.
Qed.

(** *** C25 *)
Lemma code_never_success e : to_abci_code e <> 0%N.
Proof. unfold to_abci_code. repeat destruct (errors_is _ _); discriminate. Qed.

Fixpoint root_error (e : goerr) : goerr := match e with EWrap e => root_error e | e => e end.
Lemma errors_is_root e t : errors_is e t = true <-> root_error e = ESent t.
Proof.
  induction e as [s| |e IH]; cbn; [|done|done].
  rewrite bool_decide_eq_true. split; congruence.
Qed.
Lemma code_classes e :
  (to_abci_code e = 400%N <-> errors_is e RtBadRequest = true)
  /\ (to_abci_code e = 404%N <-> errors_is e RtNotFound = true)
  /\ (to_abci_code e = 409%N <-> errors_is e RtAlreadyExists = true)
  /\ (to_abci_code e = 412%N <-> errors_is e RtConditionNotMet = true)
  /\ (to_abci_code e = 1%N <->
      Forall (fun t => errors_is e t = false)
             [RtBadRequest; RtNotFound; RtAlreadyExists; RtConditionNotMet]).
Proof.
  unfold to_abci_code.
  assert (forall t t', errors_is e t = true -> errors_is e t' = true -> t = t') as Huniq.
  { intros t t' H H'. apply errors_is_root in H, H'. congruence. }
  destruct (errors_is e RtBadRequest) eqn:E1; destruct (errors_is e RtNotFound) eqn:E2;
    destruct (errors_is e RtAlreadyExists) eqn:E3; destruct (errors_is e RtConditionNotMet) eqn:E4;
    try (specialize (Huniq _ _ E1 E2); discriminate); try (specialize (Huniq _ _ E1 E3); discriminate);
    try (specialize (Huniq _ _ E1 E4); discriminate); try (specialize (Huniq _ _ E2 E3); discriminate);
    try (specialize (Huniq _ _ E2 E4); discriminate); try (specialize (Huniq _ _ E3 E4); discriminate);
    (repeat split); intros H; try discriminate; try reflexivity; try exact H;
    rewrite ?Forall_cons in *; rewrite ?E1, ?E2, ?E3, ?E4 in *; intuition (try discriminate); auto.
Qed.
