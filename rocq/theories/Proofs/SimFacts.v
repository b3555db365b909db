(** Two stores whose answers agree give requests the same results. Used to
    reason about requests on a plain map instead of bytes. *)
From Coq Require Import NArith List Bool String Lia.
From stdpp Require Import base list gmap.
From Verif.Model Require Import Bytes KindEncoder Desc Schema Indexes Orm Users Prog Router Runtime.
From Verif.Spec Require Import StoreSpec.
From Verif.Proofs Require Import RegistryFacts OrmFacts RuntimeFacts.

(** Programs that never list objects. *)
Inductive no_list {Obj Msg A} : prog Obj Msg A -> Prop :=
| nl_ret a : no_list (PRet a)
| nl_fail e : no_list (PFail e)
| nl_panic : no_list PPanic
| nl_get ty id o k : (forall x, no_list (k x)) -> no_list (PGet ty id o k)
| nl_enum us k : (forall x, no_list (k x)) -> no_list (PEnum us k)
| nl_create o k : (forall x, no_list (k x)) -> no_list (PCreate o k)
| nl_update o k : (forall x, no_list (k x)) -> no_list (PUpdate o k)
| nl_delete o k : (forall x, no_list (k x)) -> no_list (PDelete o k)
| nl_deliver m o k : (forall x, no_list (k x)) -> no_list (PDeliver m o k).

(** The caller never sees an answer. *)
Definition dead {A} (r : res A) : Prop := match r with Panic | OutOfFuel => True | _ => False end.

Section Sim.
  Context {Obj Msg Tx St1 St2 : Type}.
  Context (O : objops Obj) (mname : Msg -> bytes).
  Context (SO1 : storeops Obj St1) (SO2 : storeops Obj St2) (Rel : St1 -> St2 -> Prop).

  Definition sim_step {A} (x : res A * St1) (y : res A * St2) : Prop :=
    dead (convert_store_error (fst x))
    \/ convert_store_error (fst x) = convert_store_error (fst y) /\ Rel (snd x) (snd y).

  Context (Hget : forall ty id s1 s2, Rel s1 s2 ->
             dead (rt_get SO1 ty id s1) \/ rt_get SO1 ty id s1 = rt_get SO2 ty id s2).
  Context (Hcreate : forall o s1 s2, Rel s1 s2 -> sim_step (so_create SO1 o s1) (so_create SO2 o s2)).
  Context (Hupdate : forall o s1 s2, Rel s1 s2 -> sim_step (so_update SO1 o s1) (so_update SO2 o s2)).
  Context (Hdelete : forall o s1 s2, Rel s1 s2 -> sim_step (so_delete SO1 o s1) (so_delete SO2 o s2)).

  Definition simw (w1 : world Obj Msg St1) (w2 : world Obj Msg St2) : Prop :=
    Rel (w_store w1) (w_store w2) /\ w_trace w1 = w_trace w2.
  Definition simr {A} (x : res A * world Obj Msg St1) (y : res A * world Obj Msg St2) : Prop :=
    dead (fst x) \/ fst x = fst y /\ simw (snd x) (snd y).

  Lemma simw_log e w1 w2 : simw w1 w2 -> simw (log e w1) (log e w2).
  Proof. intros [H1 H2]. split; [done|]. cbn. by rewrite H2. Qed.

  Lemma run_read_sim {A} enum (p : rprog Obj A) s1 s2 :
    Rel s1 s2 -> dead (run_read SO1 enum p s1) \/ run_read SO1 enum p s1 = run_read SO2 enum p s2.
  Proof.
    intros HR. induction p as [a| |ty id k IH|us k IH]; cbn [run_read]; auto.
    destruct (Hget ty id s1 s2 HR) as [H| ->]; [destruct (rt_get SO1 ty id s1); try done; left; done|]. destruct (rt_get SO2 ty id s2); auto.
  Qed.

  Context (en : env Obj Msg Tx).

  Lemma authorized_sim v n us w1 w2 :
    simw w1 w2 -> simr (authorized SO1 en v n us w1) (authorized SO2 en v n us w2).
  Proof.
    intros H. pose proof H as [H1 H2]. unfold authorized.
    destruct (negb (en_enabled en)); [right; done|]. rewrite H2.
    destruct (run_read_sim (en_enum en (w_trace w2)) (en_authorizer en v n us) _ _ H1) as [HH| ->].
    - destruct (run_read SO1 _ _ _); try done; left; done.
    - destruct (run_read _ _ _ _) as [[[] [e|]]|e| |]; right; (split; [done|]);
        try apply simw_log; try done.
  Qed.

  Lemma store_write_sim x us w1 w2 :
    simw w1 w2 -> simr (store_write SO1 x us w1) (store_write SO2 x us w2).
  Proof.
    intros [H1 H2]. unfold store_write.
    assert (sim_step (apply_write SO1 x (w_store w1)) (apply_write SO2 x (w_store w2))) as H.
    { destruct x; cbn; auto. }
    destruct (apply_write SO1 x (w_store w1)) as [r1 s1], (apply_write SO2 x (w_store w2)) as [r2 s2].
    destruct H as [H|[H H']]; [left; done|right]. split; [done|]. split; [done|]. cbn. by rewrite H2.
  Qed.

  Ltac two H x y := destruct x as [? ?], y as [? ?]; cbn in H;
    destruct H as [H|[H ?]]; cbn in H; subst; [left; try done|].

  Lemma rt_create_sim us o w1 w2 :
    simw w1 w2 -> simr (rt_create O SO1 en us o w1) (rt_create O SO2 en us o w2).
  Proof.
    intros H. unfold rt_create. pose proof (authorized_sim VCreate (obj_name O o) us w1 w2 H) as Ha.
    destruct (authorized SO1 _ _ _ _ _) as [r1 v1], (authorized SO2 _ _ _ _ _) as [r2 v2].
    destruct Ha as [Ha|[Ha Hv]]; cbn in *; subst; [destruct r1; try done; left; done|].
    destruct r2; [by apply store_write_sim|right; done..].
  Qed.
  Lemma rt_update_sim us o w1 w2 :
    simw w1 w2 -> simr (rt_update O SO1 en us o w1) (rt_update O SO2 en us o w2).
  Proof.
    intros H. unfold rt_update. pose proof (authorized_sim VUpdate (obj_name O o) us w1 w2 H) as Ha.
    destruct (authorized SO1 _ _ _ _ _) as [r1 v1], (authorized SO2 _ _ _ _ _) as [r2 v2].
    destruct Ha as [Ha|[Ha Hv]]; cbn in *; subst; [destruct r1; try done; left; done|].
    destruct r2; [by apply store_write_sim|right; done..].
  Qed.
  Lemma rt_delete_sim us o w1 w2 :
    simw w1 w2 -> simr (rt_delete O SO1 en us o w1) (rt_delete O SO2 en us o w2).
  Proof.
    intros H. unfold rt_delete. pose proof (authorized_sim VDelete (obj_name O o) us w1 w2 H) as Ha.
    destruct (authorized SO1 _ _ _ _ _) as [r1 v1], (authorized SO2 _ _ _ _ _) as [r2 v2].
    destruct Ha as [Ha|[Ha Hv]]; cbn in *; subst; [destruct r1; try done; left; done|].
    destruct r2; [by apply store_write_sim|right; done..].
  Qed.

  Section Exec.
    Context (dlv1 : users -> Msg -> world Obj Msg St1 -> res unit * world Obj Msg St1).
    Context (dlv2 : users -> Msg -> world Obj Msg St2 -> res unit * world Obj Msg St2).
    Context (Hdlv : forall us m w1 w2, simw w1 w2 -> simr (dlv1 us m w1) (dlv2 us m w2)).

    Lemma exec_sim {A} self (p : prog Obj Msg A) : no_list p -> forall w1 w2, simw w1 w2 ->
      simr (exec O SO1 en dlv1 self p w1) (exec O SO2 en dlv2 self p w2).
    Proof.
      induction 1 as [a|e| |ty id o k _ IH|us k _ IH|o k _ IH|o k _ IH|o k _ IH|m o k _ IH];
        intros w1 w2 H; cbn [exec].
      1-3: right; done.
      - destruct (negb _); [by apply IH|].
        destruct (Hget ty id (w_store w1) (w_store w2) (proj1 H)) as [HH| ->];
          [destruct (rt_get SO1 _ _ _); try done; left; done|].
        destruct (rt_get SO2 _ _ _); try (by apply IH); right; done.
      - rewrite (proj2 H). apply IH, simw_log, H.
      - pose proof (rt_create_sim self o w1 w2 H) as Hc.
        destruct (rt_create _ SO1 _ _ _ _) as [r1 v1], (rt_create _ SO2 _ _ _ _) as [r2 v2].
        destruct Hc as [Hc|[Hc Hv]]; cbn in *; subst; [destruct r1; try done; left; done|].
        destruct r2; try (by apply IH); right; done.
      - pose proof (rt_update_sim self o w1 w2 H) as Hc.
        destruct (rt_update _ SO1 _ _ _ _) as [r1 v1], (rt_update _ SO2 _ _ _ _) as [r2 v2].
        destruct Hc as [Hc|[Hc Hv]]; cbn in *; subst; [destruct r1; try done; left; done|].
        destruct r2; try (by apply IH); right; done.
      - pose proof (rt_delete_sim self o w1 w2 H) as Hc.
        destruct (rt_delete _ SO1 _ _ _ _) as [r1 v1], (rt_delete _ SO2 _ _ _ _) as [r2 v2].
        destruct Hc as [Hc|[Hc Hv]]; cbn in *; subst; [destruct r1; try done; left; done|].
        destruct r2; try (by apply IH); right; done.
      - pose proof (Hdlv (client_users self o) m w1 w2 H) as Hc.
        destruct (dlv1 _ _ _) as [r1 v1], (dlv2 _ _ _) as [r2 v2].
        destruct Hc as [Hc|[Hc Hv]]; cbn in *; subst; [destruct r1; try done; left; done|].
        destruct r2; try (by apply IH); right; done.
    Qed.

    Lemma run_handlers_sim conv hs us m :
      Forall (fun h => no_list (h_run h us m)) hs -> forall w1 w2, simw w1 w2 ->
      simr (run_handlers O SO1 en dlv1 conv hs us m w1) (run_handlers O SO2 en dlv2 conv hs us m w2).
    Proof.
      induction 1 as [|h hs Hh _ IH]; intros w1 w2 H; cbn [run_handlers]; [right; done|].
      unfold run_handler. pose proof (exec_sim (h_self h) _ Hh w1 w2 H) as Hc.
      destruct (exec _ SO1 _ _ _ _ _) as [r1 v1], (exec _ SO2 _ _ _ _ _) as [r2 v2].
      destruct Hc as [Hc|[Hc Hv]]; cbn in *; subst; [destruct r1; try done; left; done|].
      destruct r2; [by apply IH|right; done..].
    Qed.

    Lemma run_tx_handlers_sim hs (t : Tx) :
      Forall (fun h => no_list (th_run h t)) hs -> forall w1 w2, simw w1 w2 ->
      simr (run_tx_handlers O SO1 en dlv1 hs t w1) (run_tx_handlers O SO2 en dlv2 hs t w2).
    Proof.
      induction 1 as [|h hs Hh _ IH]; intros w1 w2 H; cbn [run_tx_handlers]; [right; done|].
      pose proof (exec_sim (th_self h) _ Hh w1 w2 H) as Hc.
      destruct (exec _ SO1 _ _ _ _ _) as [r1 v1], (exec _ SO2 _ _ _ _ _) as [r2 v2].
      destruct Hc as [Hc|[Hc Hv]]; cbn in *; subst; [destruct r1; try done; left; done|].
      destruct r2; [by apply IH|right; done..].
    Qed.

    Definition router_no_list : Prop := forall n us m,
      (forall hs, get_admission (en_router en) n = Ok hs -> Forall (fun h => no_list (h_run h us m)) hs)
      /\ (forall hs, get_pre (en_router en) n = Ok hs -> Forall (fun h => no_list (h_run h us m)) hs)
      /\ (forall h, get_exec (en_router en) n = Ok h -> no_list (h_run h us m))
      /\ (forall hs, get_post (en_router en) n = Ok hs -> Forall (fun h => no_list (h_run h us m)) hs).
    Context (Hro : router_no_list).

    Lemma admission_sim us m w1 w2 : simw w1 w2 ->
      simr (run_admission_chain O mname SO1 en dlv1 us m w1) (run_admission_chain O mname SO2 en dlv2 us m w2).
    Proof.
      intros H. unfold run_admission_chain.
      destruct (get_admission _ _) as [hs|e| |] eqn:E; [|right; done..].
      apply run_handlers_sim; [|done]. by apply (proj1 (Hro (mname m) us m)).
    Qed.

    Lemma deliver_body_sim skip us m w1 w2 : simw w1 w2 ->
      simr (deliver_body O mname SO1 en dlv1 skip us m w1) (deliver_body O mname SO2 en dlv2 skip us m w2).
    Proof.
      intros H. unfold deliver_body.
      assert (simr (if skip then (Ok tt, w1) else run_admission_chain O mname SO1 en dlv1 us m w1)
                   (if skip then (Ok tt, w2) else run_admission_chain O mname SO2 en dlv2 us m w2)) as Ha.
      { destruct skip; [right; done|by apply admission_sim]. }
      destruct (if skip then _ else _) as [r1 v1], (if skip then _ else _) as [r2 v2].
      destruct Ha as [Ha|[Ha Hv]]; cbn in *; subst; [destruct r1; try done; left; done|].
      destruct r2; [|right; done..].
      pose proof (authorized_sim VDeliver (mname m) us v1 v2 Hv) as Hb.
      destruct (authorized SO1 _ _ _ _ _) as [r1 u1], (authorized SO2 _ _ _ _ _) as [r2 u2].
      destruct Hb as [Hb|[Hb Hu]]; cbn in *; subst; [destruct r1; try done; left; done|].
      destruct r2; [|right; done..]. unfold deliver_authorized.
      set (pres := match get_pre _ _ with Ok hs => hs | _ => [] end).
      assert (Forall (fun h => no_list (h_run h us m)) pres) as Hp.
      { unfold pres. destruct (get_pre _ _) as [hs|e| |] eqn:E; [|apply Forall_nil; done..].
        by apply (proj1 (proj2 (Hro (mname m) us m))). }
      apply (simw_log (EvDeliver m us)) in Hu.
      pose proof (run_handlers_sim (fun e => e) pres us m Hp _ _ Hu) as Hc.
      destruct (run_handlers _ SO1 _ _ _ _ _ _ _) as [r1 x1], (run_handlers _ SO2 _ _ _ _ _ _ _) as [r2 x2].
      destruct Hc as [Hc|[Hc Hx]]; cbn in *; subst; [destruct r1; try done; left; done|].
      destruct r2; [|right; done..].
      destruct (get_exec _ _) as [h|e| |] eqn:Eh; [|right; done..].
      unfold run_handler.
      assert (no_list (h_run h us m)) as Hh by (by apply (proj1 (proj2 (proj2 (Hro (mname m) us m))))).
      pose proof (exec_sim (h_self h) _ Hh x1 x2 Hx) as Hd.
      destruct (exec _ SO1 _ _ _ _ _) as [r1 y1], (exec _ SO2 _ _ _ _ _) as [r2 y2].
      destruct Hd as [Hd|[Hd Hy]]; cbn in *; subst; [destruct r1; try done; left; done|].
      destruct r2; [|right; done..].
      destruct (get_post _ _) as [hs|e| |] eqn:Ep; [|right; done..].
      apply run_handlers_sim; [|done]. by apply (proj2 (proj2 (proj2 (Hro (mname m) us m)))).
    Qed.
  End Exec.

  Context (Hro : router_no_list).
  Lemma deliver_sim fuel : forall skip us m w1 w2, simw w1 w2 ->
    simr (deliver O mname SO1 en fuel skip us m w1) (deliver O mname SO2 en fuel skip us m w2).
  Proof.
    induction fuel as [|f IH]; intros skip us m w1 w2 H; cbn [deliver]; [right; done|].
    apply deliver_body_sim; auto.
  Qed.
End Sim.

(** The plain map as a store. Every failure but a missing object is a panic (as
    it is for callers of the runtime); everything can be stored. *)
Section MapOps.
  Context {Obj : Type} (O : objops Obj) (R : registry).
  Notation amap := (gmap (bytes * bytes) Obj).

  Definition filed (o : Obj) (k : bytes * bytes) : Prop :=
    exists s, rg_schemas R !! obj_name O o = Some s /\ k = (obj_name O o, pk_of O s o).

  Definition map_get (ty id : bytes) (S : amap) : res Obj :=
    match rg_schemas R !! ty with
    | None => Panic
    | Some _ => if decide (id = []) then Panic
                else match S !! (ty, id) with Some o => Ok o | None => Fail (ESent OrmNotFound) end
    end.
  Definition map_create (o : Obj) (S : amap) : res unit * amap :=
    match rg_schemas R !! obj_name O o with
    | None => (Panic, S)
    | Some s => if decide (pk_of O s o = []) then (Panic, S)
                else match S !! (obj_name O o, pk_of O s o) with
                     | Some _ => (Panic, S)
                     | None => (Ok tt, <[(obj_name O o, pk_of O s o) := o]> S)
                     end
    end.
  Definition map_update (o : Obj) (S : amap) : res unit * amap :=
    match rg_schemas R !! obj_name O o with
    | None => (Panic, S)
    | Some s => if decide (pk_of O s o = []) then (Panic, S)
                else match S !! (obj_name O o, pk_of O s o) with
                     | None => (Fail (ESent OrmNotFound), S)
                     | Some _ => (Ok tt, <[(obj_name O o, pk_of O s o) := o]> S)
                     end
    end.
  Definition map_delete (o : Obj) (S : amap) : res unit * amap :=
    match rg_schemas R !! obj_name O o with
    | None => (Panic, S)
    | Some s => if decide (pk_of O s o = []) then (Panic, S)
                else match S !! (obj_name O o, pk_of O s o) with
                     | None => (Fail (ESent OrmNotFound), S)
                     | Some _ => (Ok tt, base.delete (obj_name O o, pk_of O s o) S)
                     end
    end.
  Definition map_ops : storeops Obj amap := {|
    so_get := map_get; so_list := fun _ _ _ => Panic;
    so_create := map_create; so_update := map_update; so_delete := map_delete |}.

  Definition map_rel (st : orm) (S : amap) : Prop := repr O R S st.

  Lemma errors_is_one e s t : errors_is e s = true -> errors_is e t = true -> s = t.
  Proof.
    induction e as [x| |e IH]; cbn; [|discriminate|exact IH].
    intros H1 H2. apply bool_decide_eq_true in H1, H2. congruence.
  Qed.

  Lemma convert_answer {A} (r : res A) :
    convert_store_error r =
      match answer_of r with
      | ASuccess => r
      | ANotFound => Fail (EWrap (ESent RtNotFound))
      | _ => match r with OutOfFuel => OutOfFuel | _ => Panic end
      end.
  Proof.
    destruct r as [a|e| |]; cbn; try done.
    destruct (errors_is e OrmAlreadyExists) eqn:E1.
    - destruct (errors_is e OrmNotFound) eqn:E2; [|done].
      pose proof (errors_is_one _ _ _ E1 E2). discriminate.
    - destruct (errors_is e OrmNotFound); [done|]. destruct (errors_is e SchemaNotFound); done.
  Qed.

  Context (HC : codec_ok O) (HR : registry_ok R) (HT : forall o, typed_in O R o).

  Lemma map_get_sim ty id st S :
    map_rel st S ->
    dead (rt_get (orm_ops O R) ty id st)
    \/ rt_get (orm_ops O R) ty id st = rt_get map_ops ty id S.
  Proof.
    intros H. destruct (get_refines O R S st ty id HC HR H) as [H1 H2].
    unfold rt_get. cbn [so_get orm_ops map_ops]. rewrite convert_answer, H1.
    unfold map_get. unfold spec_get in *.
    destruct (rg_schemas R !! ty); cbn in *; [|left; by destruct (orm_get _ _ _ _ _)].
    destruct (decide (id = [])); cbn in *; [left; by destruct (orm_get _ _ _ _ _)|].
    destruct (S !! (ty, id)); cbn in *; right; [|done].
    destruct (orm_get _ _ _ _ _); [congruence|done..].
  Qed.

  Lemma map_create_sim o st S :
    map_rel st S -> sim_step map_rel (so_create (orm_ops O R) o st) (so_create map_ops o S).
  Proof.
    intros H. destruct (create_refines O R S st o HR H (HT o)) as [H1 H2].
    unfold sim_step. cbn [so_create orm_ops map_ops]. rewrite convert_answer, H1.
    unfold map_create, spec_create in *.
    destruct (orm_create O R o st) as [r st']; cbn [fst snd] in *.
    destruct (rg_schemas R !! obj_name O o) as [s|]; cbn in *; [|left; by destruct r].
    destruct (decide (pk_of O s o = [])); cbn in *; [left; by destruct r|].
    destruct (S !! (obj_name O o, pk_of O s o)); cbn in *; [left; by destruct r|].
    destruct (storable O s o); cbn in *; [|left; by destruct r].
    right. split; [|by apply H2]. destruct r as [[]|e| |]; try done. cbn in H1.
    destruct (errors_is e OrmAlreadyExists), (errors_is e OrmNotFound), (errors_is e SchemaNotFound); done.
  Qed.

  Lemma map_update_sim o st S :
    map_rel st S -> sim_step map_rel (so_update (orm_ops O R) o st) (so_update map_ops o S).
  Proof.
    intros H. destruct (update_refines O R S st o HR H (HT o)) as [H1 H2].
    unfold sim_step. cbn [so_update orm_ops map_ops]. rewrite convert_answer, H1.
    unfold map_update, spec_update in *.
    destruct (orm_update O R o st) as [r st']; cbn [fst snd] in *.
    destruct (rg_schemas R !! obj_name O o) as [s|]; cbn in *; [|left; by destruct r].
    destruct (decide (pk_of O s o = [])); cbn in *; [left; by destruct r|].
    destruct (S !! (obj_name O o, pk_of O s o)); cbn in *; [|right; split; [done|by apply H2]].
    destruct (storable O s o); cbn in *; [|left; by destruct r].
    right. split; [|by apply H2]. destruct r as [[]|e| |]; try done. cbn in H1.
    destruct (errors_is e OrmAlreadyExists), (errors_is e OrmNotFound), (errors_is e SchemaNotFound); done.
  Qed.

  Lemma map_delete_sim o st S :
    map_rel st S -> sim_step map_rel (so_delete (orm_ops O R) o st) (so_delete map_ops o S).
  Proof.
    intros H. destruct (delete_refines O R S st o HR H (HT o)) as [H1 H2].
    unfold sim_step. cbn [so_delete orm_ops map_ops]. rewrite convert_answer, H1.
    unfold map_delete, spec_delete in *.
    destruct (orm_delete O R o st) as [r st']; cbn [fst snd] in *.
    destruct (rg_schemas R !! obj_name O o) as [s|]; cbn in *; [|left; by destruct r].
    destruct (decide (pk_of O s o = [])); cbn in *; [left; by destruct r|].
    destruct (S !! (obj_name O o, pk_of O s o)); cbn in *; right; [|split; [done|by apply H2]].
    split; [|by apply H2]. destruct r as [[]|e| |]; try done. cbn in H1.
    destruct (errors_is e OrmAlreadyExists), (errors_is e OrmNotFound), (errors_is e SchemaNotFound); done.
  Qed.
End MapOps.
