(** The application on bytes does exactly what it does on a plain map of objects,
    up to the first object that cannot be stored. *)
From Coq Require Import NArith ZArith List Bool String Lia.
From stdpp Require Import base list gmap.
From Verif.Model Require Import Bytes KindEncoder Desc Schema Indexes Orm Users Prog Router Runtime
  Services Module Builder Universe CoreModules Rbac Bank Authn Distribution TestApp Abci.
From Verif.Spec Require Import UserSpec StoreSpec RuntimeSpec RbacSpec ChainSpec LiveSpec.
From Verif.Proofs Require Import RegistryFacts OrmFacts RuntimeFacts BuilderFacts SimFacts AppFacts AppSim
  RbacFacts MapExec ChainInv TotalExec.

(** The two runs agree, or the first stops for a reason of its own, or the second
    stops (then so does the first, by [SimFacts]). *)
Definition xr {A S1 S2} (Bad : S1 -> Prop) (P : S1 -> S2 -> Prop) (x : res A * S1) (y : res A * S2) : Prop :=
  (dead (fst y) \/ dead (fst x) /\ Bad (snd x)) \/ fst x = fst y /\ P (snd x) (snd y).

Ltac by_dead H r1 r2 := left;
  destruct H as [H|[? ?]]; [left; by destruct r2|right; split; [by destruct r1|by destruct r1]].

Section Exact.
  Context {Obj Msg Tx St1 St2 : Type}.
  Context (O : objops Obj) (mname : Msg -> bytes).
  Context (SO1 : storeops Obj St1) (SO2 : storeops Obj St2) (Rel : St1 -> St2 -> Prop).
  Context (Bad : world Obj Msg St1 -> Prop).
  Notation simw := (simw (Msg:=Msg) Rel).
  Context (Hget : forall ty id s1 s2, Rel s1 s2 ->
             dead (rt_get SO2 ty id s2) \/ rt_get SO1 ty id s1 = rt_get SO2 ty id s2).
  Context (Hwrite : forall x us w1 w2, simw w1 w2 -> xr Bad simw (store_write SO1 x us w1) (store_write SO2 x us w2)).

  Lemma run_read_exact {A} enum (p : rprog Obj A) s1 s2 : Rel s1 s2 ->
    dead (run_read SO2 enum p s2) \/ run_read SO1 enum p s1 = run_read SO2 enum p s2.
  Proof.
    intros HR. induction p as [a| |ty id k IH|us k IH]; cbn [run_read]; auto.
    destruct (Hget ty id s1 s2 HR) as [H| ->]; [|destruct (rt_get SO2 ty id s2); auto].
    left. by destruct (rt_get SO2 ty id s2).
  Qed.

  Context (en : env Obj Msg Tx).

  Lemma authorized_exact v n us w1 w2 :
    simw w1 w2 -> xr Bad simw (authorized SO1 en v n us w1) (authorized SO2 en v n us w2).
  Proof.
    intros H. pose proof H as [H1 H2]. unfold authorized.
    destruct (negb (en_enabled en)); [right; done|]. rewrite H2.
    destruct (run_read_exact (en_enum en (w_trace w2)) (en_authorizer en v n us) _ _ H1) as [HA| ->].
    - left. left. by destruct (run_read SO2 _ _ _).
    - destruct (run_read _ _ _ _) as [[[] [e|]]|e| |]; right; (split; [done|]);
        try apply (simw_log Rel); try done.
  Qed.

  Lemma rt_create_exact us o w1 w2 :
    simw w1 w2 -> xr Bad simw (rt_create O SO1 en us o w1) (rt_create O SO2 en us o w2).
  Proof.
    intros H. unfold rt_create. pose proof (authorized_exact VCreate (obj_name O o) us w1 w2 H) as Ha.
    destruct (authorized SO1 _ _ _ _ _) as [r1 v1], (authorized SO2 _ _ _ _ _) as [r2 v2].
    destruct Ha as [Ha|[Ha Hv]]; cbn in *; [by_dead Ha r1 r2|subst].
    destruct r2; [by apply Hwrite|right; done..].
  Qed.
  Lemma rt_update_exact us o w1 w2 :
    simw w1 w2 -> xr Bad simw (rt_update O SO1 en us o w1) (rt_update O SO2 en us o w2).
  Proof.
    intros H. unfold rt_update. pose proof (authorized_exact VUpdate (obj_name O o) us w1 w2 H) as Ha.
    destruct (authorized SO1 _ _ _ _ _) as [r1 v1], (authorized SO2 _ _ _ _ _) as [r2 v2].
    destruct Ha as [Ha|[Ha Hv]]; cbn in *; [by_dead Ha r1 r2|subst].
    destruct r2; [by apply Hwrite|right; done..].
  Qed.
  Lemma rt_delete_exact us o w1 w2 :
    simw w1 w2 -> xr Bad simw (rt_delete O SO1 en us o w1) (rt_delete O SO2 en us o w2).
  Proof.
    intros H. unfold rt_delete. pose proof (authorized_exact VDelete (obj_name O o) us w1 w2 H) as Ha.
    destruct (authorized SO1 _ _ _ _ _) as [r1 v1], (authorized SO2 _ _ _ _ _) as [r2 v2].
    destruct Ha as [Ha|[Ha Hv]]; cbn in *; [by_dead Ha r1 r2|subst].
    destruct r2; [by apply Hwrite|right; done..].
  Qed.

  Section Exec.
    Context (dlv1 : users -> Msg -> world Obj Msg St1 -> res unit * world Obj Msg St1).
    Context (dlv2 : users -> Msg -> world Obj Msg St2 -> res unit * world Obj Msg St2).
    Context (Hdlv : forall us m w1 w2, simw w1 w2 -> xr Bad simw (dlv1 us m w1) (dlv2 us m w2)).

    Lemma exec_exact {A} self (p : prog Obj Msg A) : no_list p -> forall w1 w2, simw w1 w2 ->
      xr Bad simw (exec O SO1 en dlv1 self p w1) (exec O SO2 en dlv2 self p w2).
    Proof.
      induction 1 as [a|e| |ty id o k _ IH|us k _ IH|o k _ IH|o k _ IH|o k _ IH|m o k _ IH];
        intros w1 w2 H; cbn [exec].
      1-3: right; done.
      - destruct (negb _); [by apply IH|].
        destruct (Hget ty id (w_store w1) (w_store w2) (proj1 H)) as [HA| ->];
          [left; left; by destruct (rt_get SO2 _ _ _)|].
        destruct (rt_get SO2 _ _ _); try (by apply IH); right; done.
      - rewrite (proj2 H). apply IH, (simw_log Rel), H.
      - pose proof (rt_create_exact self o w1 w2 H) as Hc.
        destruct (rt_create _ SO1 _ _ _ _) as [r1 v1], (rt_create _ SO2 _ _ _ _) as [r2 v2].
        destruct Hc as [Hc|[Hc Hv]]; cbn in *; [by_dead Hc r1 r2|subst].
        destruct r2; try (by apply IH); right; done.
      - pose proof (rt_update_exact self o w1 w2 H) as Hc.
        destruct (rt_update _ SO1 _ _ _ _) as [r1 v1], (rt_update _ SO2 _ _ _ _) as [r2 v2].
        destruct Hc as [Hc|[Hc Hv]]; cbn in *; [by_dead Hc r1 r2|subst].
        destruct r2; try (by apply IH); right; done.
      - pose proof (rt_delete_exact self o w1 w2 H) as Hc.
        destruct (rt_delete _ SO1 _ _ _ _) as [r1 v1], (rt_delete _ SO2 _ _ _ _) as [r2 v2].
        destruct Hc as [Hc|[Hc Hv]]; cbn in *; [by_dead Hc r1 r2|subst].
        destruct r2; try (by apply IH); right; done.
      - pose proof (Hdlv (client_users self o) m w1 w2 H) as Hc.
        destruct (dlv1 _ _ _) as [r1 v1], (dlv2 _ _ _) as [r2 v2].
        destruct Hc as [Hc|[Hc Hv]]; cbn in *; [by_dead Hc r1 r2|subst].
        destruct r2; try (by apply IH); right; done.
    Qed.

    Lemma run_handlers_exact conv hs us m :
      Forall (fun h => no_list (h_run h us m)) hs -> forall w1 w2, simw w1 w2 ->
      xr Bad simw (run_handlers O SO1 en dlv1 conv hs us m w1) (run_handlers O SO2 en dlv2 conv hs us m w2).
    Proof.
      induction 1 as [|h hs Hh _ IH]; intros w1 w2 H; cbn [run_handlers]; [right; done|].
      unfold run_handler. pose proof (exec_exact (h_self h) _ Hh w1 w2 H) as Hc.
      destruct (exec _ SO1 _ _ _ _ _) as [r1 v1], (exec _ SO2 _ _ _ _ _) as [r2 v2].
      destruct Hc as [Hc|[Hc Hv]]; cbn in *; [by_dead Hc r1 r2|subst].
      destruct r2; [by apply IH|right; done..].
    Qed.

    Lemma run_tx_handlers_exact hs (t : Tx) :
      Forall (fun h => no_list (th_run h t)) hs -> forall w1 w2, simw w1 w2 ->
      xr Bad simw (run_tx_handlers O SO1 en dlv1 hs t w1) (run_tx_handlers O SO2 en dlv2 hs t w2).
    Proof.
      induction 1 as [|h hs Hh _ IH]; intros w1 w2 H; cbn [run_tx_handlers]; [right; done|].
      pose proof (exec_exact (th_self h) _ Hh w1 w2 H) as Hc.
      destruct (exec _ SO1 _ _ _ _ _) as [r1 v1], (exec _ SO2 _ _ _ _ _) as [r2 v2].
      destruct Hc as [Hc|[Hc Hv]]; cbn in *; [by_dead Hc r1 r2|subst].
      destruct r2; [by apply IH|right; done..].
    Qed.

    Context (Hro : router_no_list en).

    Lemma admission_exact us m w1 w2 : simw w1 w2 ->
      xr Bad simw (run_admission_chain O mname SO1 en dlv1 us m w1) (run_admission_chain O mname SO2 en dlv2 us m w2).
    Proof.
      intros H. unfold run_admission_chain.
      destruct (get_admission _ _) as [hs|e| |] eqn:E; [|right; done..].
      apply run_handlers_exact; [|done]. by apply (proj1 (Hro (mname m) us m)).
    Qed.

    Lemma deliver_body_exact skip us m w1 w2 : simw w1 w2 ->
      xr Bad simw (deliver_body O mname SO1 en dlv1 skip us m w1) (deliver_body O mname SO2 en dlv2 skip us m w2).
    Proof.
      intros H. unfold deliver_body.
      assert (xr Bad simw (if skip then (Ok tt, w1) else run_admission_chain O mname SO1 en dlv1 us m w1)
                   (if skip then (Ok tt, w2) else run_admission_chain O mname SO2 en dlv2 us m w2)) as Ha.
      { destruct skip; [right; done|by apply admission_exact]. }
      destruct (if skip then _ else _) as [r1 v1], (if skip then _ else _) as [r2 v2].
      destruct Ha as [Ha|[Ha Hv]]; cbn in *; [by_dead Ha r1 r2|subst].
      destruct r2; [|right; done..].
      pose proof (authorized_exact VDeliver (mname m) us v1 v2 Hv) as Hb.
      destruct (authorized SO1 _ _ _ _ _) as [r1 u1], (authorized SO2 _ _ _ _ _) as [r2 u2].
      destruct Hb as [Hb|[Hb Hu]]; cbn in *; [by_dead Hb r1 r2|subst].
      destruct r2; [|right; done..]. unfold deliver_authorized.
      set (pres := match get_pre _ _ with Ok hs => hs | _ => [] end).
      assert (Forall (fun h => no_list (h_run h us m)) pres) as Hp.
      { unfold pres. destruct (get_pre _ _) as [hs|e| |] eqn:E; [|apply Forall_nil; done..].
        by apply (proj1 (proj2 (Hro (mname m) us m))). }
      apply ((simw_log Rel) (EvDeliver m us)) in Hu.
      pose proof (run_handlers_exact (fun e => e) pres us m Hp _ _ Hu) as Hc.
      destruct (run_handlers _ SO1 _ _ _ _ _ _ _) as [r1 x1], (run_handlers _ SO2 _ _ _ _ _ _ _) as [r2 x2].
      destruct Hc as [Hc|[Hc Hx]]; cbn in *; [by_dead Hc r1 r2|subst].
      destruct r2; [|right; done..].
      destruct (get_exec _ _) as [h|e| |] eqn:Eh; [|right; done..].
      unfold run_handler.
      assert (no_list (h_run h us m)) as Hh by (by apply (proj1 (proj2 (proj2 (Hro (mname m) us m))))).
      pose proof (exec_exact (h_self h) _ Hh x1 x2 Hx) as Hd.
      destruct (exec _ SO1 _ _ _ _ _) as [r1 y1], (exec _ SO2 _ _ _ _ _) as [r2 y2].
      destruct Hd as [Hd|[Hd Hy]]; cbn in *; [by_dead Hd r1 r2|subst].
      destruct r2; [|right; done..].
      destruct (get_post _ _) as [hs|e| |] eqn:Ep; [|right; done..].
      apply run_handlers_exact; [|done]. by apply (proj2 (proj2 (proj2 (Hro (mname m) us m)))).
    Qed.
  End Exec.

  Context (Hro : router_no_list en).
  Lemma deliver_exact fuel : forall skip us m w1 w2, simw w1 w2 ->
    xr Bad simw (deliver O mname SO1 en fuel skip us m w1) (deliver O mname SO2 en fuel skip us m w2).
  Proof.
    induction fuel as [|f IH]; intros skip us m w1 w2 H; cbn [deliver]; [right; done|].
    apply deliver_body_exact; auto.
  Qed.
End Exact.

(** The plain map that takes only some objects. *)
Definition map_only {Obj} (O : objops Obj) (R : registry) (ok : Obj -> bool) : storeops Obj (gmap (bytes * bytes) Obj) := {|
  so_get := map_get R; so_list := fun _ _ _ => Panic;
  so_create := fun o S => if ok o then map_create O R o S else (Panic, S);
  so_update := fun o S => if ok o then map_update O R o S else (Panic, S);
  so_delete := map_delete O R |}.

Lemma answered_ok (r : res unit) : answer_of r = ASuccess -> r = Ok tt.
Proof.
  destruct r as [[]|e| |]; cbn; try done.
  destruct (errors_is e OrmAlreadyExists), (errors_is e OrmNotFound), (errors_is e SchemaNotFound); done.
Qed.

Section ExactApp.
  Context (C : codec) (R : registry) (app : application object msg tx).
  Context (enum : list (event object msg) -> users -> list user) (fuel : nat).
  Context (decode : bytes -> res tx).
  Context (HC : codec_ok (app_ops C)).
  Notation O := (app_ops C).
  Context (HR : registry_ok R) (HT : forall o, typed_in O R o).
  Context (Hschema : forall o, rg_schemas R !! ty_of o = Some (schema_of o)).
  Context (Hrouter : forall b, router_no_list (env_of app enum b)).
  Context (Htx : forall t, Forall (fun h => no_list (th_run h t)) (ro_auth_admission (ap_router app))
                      /\ Forall (fun h => no_list (th_run h t)) (ro_post_auth (ap_router app))).
  Context (Hgen : Forall (fun m => match mo_genesis m with
                   | None => True
                   | Some g => no_list (gn_default g) /\ forall x, no_list (gn_import g x)
                   end) (ap_modules app)).
  Notation ORM := (orm_ops O R).
  Context (ok : object -> bool).
  Notation MAP := (map_only O R ok).
  Notation Rel := (map_rel O R).
  Notation env_at b := (env_of app enum b).

  Notation stuck := (stuck C (fun o => ok o = true)).
  Notation simw' := (simw (Msg:=msg) Rel).
  Notation simrt := (simrt C R).
  Notation "x ~ y" := (xr stuck simw' x y) (at level 70).

  Local Lemma xget ty id s1 s2 : Rel s1 s2 ->
    dead (rt_get MAP ty id s2) \/ rt_get ORM ty id s1 = rt_get MAP ty id s2.
  Proof.
    intros H. destruct (get_refines O R s2 s1 ty id HC HR H) as [H1 H2].
    unfold rt_get. cbn [so_get orm_ops map_only]. rewrite !convert_answer, H1.
    unfold map_get. unfold spec_get in *.
    generalize dependent (orm_get O R ty id s1). intros g H1 H2.
    destruct (rg_schemas R !! ty); cbn in *; [|by left].
    destruct (decide (id = [])); cbn in *; [by left|].
    destruct (s2 !! (ty, id)); cbn in *; right; [|done].
    destruct g; [congruence|done..].
  Qed.

  Local Lemma xwrite x us w1 w2 : simw' w1 w2 -> store_write ORM x us w1 ~ store_write MAP x us w2.
  Proof.
    intros [Hs Ht]. unfold store_write.
    assert (forall r1 r2 : res unit, forall s1 s2,
      (dead (convert_store_error r2)
       \/ convert_store_error r1 = convert_store_error r2 /\ Rel s1 s2) ->
      (convert_store_error r1, {| w_store := s1; w_trace := w_trace w1 ++ [EvWrite x us] |})
      ~ (convert_store_error r2, {| w_store := s2; w_trace := w_trace w2 ++ [EvWrite x us] |})) as Hsame.
    { intros r1 r2 s1 s2 [A|[A B]]; [left; left; exact A|right]. split; [exact A|]. split; [exact B|].
      cbn [w_trace]. by rewrite Ht. }
    assert (forall o (r1 r2 : res unit) s1 s2, x = WCreate o \/ x = WUpdate o ->
      dead (convert_store_error r1) -> storable O (schema_of o) o = false -> ok o = true ->
      (convert_store_error r1, {| w_store := s1; w_trace := w_trace w1 ++ [EvWrite x us] |})
      ~ (convert_store_error r2, {| w_store := s2; w_trace := w_trace w2 ++ [EvWrite x us] |})) as Hbad.
    { intros o r1 r2 s1 s2 Hx Hd Hst Hok. left. right. split; [exact Hd|]. exists (w_trace w1), o, us. cbn [snd w_trace].
      split; [|by split]. destruct Hx as [->| ->]; auto. }
    destruct x as [o|o|o]; cbn [apply_write so_create so_update so_delete orm_ops map_only].
    - destruct (ok o) eqn:Hok; [|destruct (orm_create O R o (w_store w1)) as [? ?]; apply Hsame; by left].
      destruct (create_refines O R _ _ o HR Hs (HT o)) as [H1 H2].
      unfold map_create, spec_create in *.
      destruct (orm_create O R o (w_store w1)) as [r st']; cbn [fst snd] in *.
      destruct (rg_schemas R !! obj_name O o) as [s|] eqn:Es; cbn [fst snd] in *.
      2:{ apply Hsame. by left. }
      destruct (decide (pk_of O s o = [])); cbn [fst snd] in *.
      { apply Hsame. by left. }
      destruct (w_store w2 !! (obj_name O o, pk_of O s o)); cbn [fst snd] in *.
      { apply Hsame. by left. }
      destruct (storable O s o) eqn:Est; cbn [fst snd] in *.
      + apply Hsame. right. split; [|by apply H2]. by rewrite (answered_ok _ H1).
      + apply (Hbad o); [by left| | |exact Hok].
        * rewrite convert_answer, H1. by destruct r.
        * rewrite obj_name_ty, Hschema in Es. by injection Es as <-.
    - destruct (ok o) eqn:Hok; [|destruct (orm_update O R o (w_store w1)) as [? ?]; apply Hsame; by left].
      destruct (update_refines O R _ _ o HR Hs (HT o)) as [H1 H2].
      unfold map_update, spec_update in *.
      destruct (orm_update O R o (w_store w1)) as [r st']; cbn [fst snd] in *.
      destruct (rg_schemas R !! obj_name O o) as [s|] eqn:Es; cbn [fst snd] in *.
      2:{ apply Hsame. by left. }
      destruct (decide (pk_of O s o = [])); cbn [fst snd] in *.
      { apply Hsame. by left. }
      destruct (w_store w2 !! (obj_name O o, pk_of O s o)); cbn [fst snd] in *.
      2:{ apply Hsame. right. split; [|by apply H2]. by rewrite !convert_answer, H1. }
      destruct (storable O s o) eqn:Est; cbn [fst snd] in *.
      + apply Hsame. right. split; [|by apply H2]. by rewrite (answered_ok _ H1).
      + apply (Hbad o); [by right| | |exact Hok].
        * rewrite convert_answer, H1. by destruct r.
        * rewrite obj_name_ty, Hschema in Es. by injection Es as <-.
    - destruct (delete_refines O R _ _ o HR Hs (HT o)) as [H1 H2].
      unfold map_delete, spec_delete in *.
      destruct (orm_delete O R o (w_store w1)) as [r st']; cbn [fst snd] in *.
      destruct (rg_schemas R !! obj_name O o) as [s|] eqn:Es; cbn [fst snd] in *.
      2:{ apply Hsame. by left. }
      destruct (decide (pk_of O s o = [])); cbn [fst snd] in *.
      { apply Hsame. by left. }
      destruct (w_store w2 !! (obj_name O o, pk_of O s o)); cbn [fst snd] in *; apply Hsame; right.
      + split; [|by apply H2]. by rewrite (answered_ok _ H1).
      + split; [|by apply H2]. by rewrite !convert_answer, H1.
  Qed.

  Lemma app_deliver_exact b skip us m w1 w2 : simw' w1 w2 ->
    deliver O msg_name ORM (env_at b) fuel skip us m w1 ~ deliver O msg_name MAP (env_at b) fuel skip us m w2.
  Proof.
    apply deliver_exact; [exact xget|exact xwrite|].
    apply Hrouter.
  Qed.

  Lemma app_exec_exact b self (p : prog object msg unit) w1 w2 : no_list p -> simw' w1 w2 ->
    exec O ORM (env_at b) (deliver O msg_name ORM (env_at b) fuel false) self p w1
    ~ exec O MAP (env_at b) (deliver O msg_name MAP (env_at b) fuel false) self p w2.
  Proof.
    intros Hp. apply exec_exact; [exact xget|exact xwrite| |exact Hp].
    intros. by apply app_deliver_exact.
  Qed.

  Lemma app_admission_exact b us m w1 w2 : simw' w1 w2 ->
    run_admission_chain O msg_name ORM (env_at b) (deliver O msg_name ORM (env_at b) fuel false) us m w1
    ~ run_admission_chain O msg_name MAP (env_at b) (deliver O msg_name MAP (env_at b) fuel false) us m w2.
  Proof.
    apply admission_exact; [exact xget|exact xwrite| |apply Hrouter].
    intros. by apply app_deliver_exact.
  Qed.

  Lemma app_tx_admission_exact b t w1 w2 : simw' w1 w2 ->
    run_tx_admission_chain O ORM (env_at b) (deliver O msg_name ORM (env_at b) fuel false) t w1
    ~ run_tx_admission_chain O MAP (env_at b) (deliver O msg_name MAP (env_at b) fuel false) t w2.
  Proof.
    apply run_tx_handlers_exact; [exact xget|exact xwrite| |apply Htx].
    intros. by apply app_deliver_exact.
  Qed.
  Lemma app_tx_post_auth_exact b t w1 w2 : simw' w1 w2 ->
    run_tx_post_auth_chain O ORM (env_at b) (deliver O msg_name ORM (env_at b) fuel false) t w1
    ~ run_tx_post_auth_chain O MAP (env_at b) (deliver O msg_name MAP (env_at b) fuel false) t w2.
  Proof.
    apply run_tx_handlers_exact; [exact xget|exact xwrite| |apply Htx].
    intros. by apply app_deliver_exact.
  Qed.

  Definition rstuck (x : rt object msg orm) : Prop := stuck (rt_world x).
  Notation simx := (xr rstuck simrt).

  Lemma set_world_exact x y w v : simrt x y -> simw' w v -> simrt (set_world x w) (set_world y v).
  Proof. intros [H1 H2 H3 H4] H. split; done. Qed.

  Lemma then_do_exact {S1 S2} Bad (P : S1 -> S2 -> Prop) (p : res unit * S1) (q : res unit * S2) f g :
    xr Bad P p q -> (forall a b, P a b -> xr Bad P (f a) (g b)) -> xr Bad P (then_do p f) (then_do q g).
  Proof.
    destruct p as [r1 a], q as [r2 b]. intros [H|[H1 H2]] Hf; cbn [fst snd then_do] in *; [by_dead H r1 r2|].
    subst. destruct r2; [by apply Hf|right; done..].
  Qed.

  Lemma each_msg_exact {S1 S2} Bad (P : S1 -> S2 -> Prop) f g l :
    (forall m a b, P a b -> xr Bad P (f m a) (g m b)) -> forall a b, P a b ->
    xr Bad P (each_msg f l a) (each_msg g l b).
  Proof.
    intros Hf. induction l as [|m l IH]; intros a b H; cbn [each_msg]; [right; done|].
    apply then_do_exact; auto.
  Qed.

  Lemma at_world_exact f g x y : simrt x y ->
    (forall b w v, simw' w v -> f b w ~ g b v) -> simx (at_world f x) (at_world g y).
  Proof.
    intros H Hf. unfold at_world. pose proof H as [H1 H2 H3 H4].
    pose proof (Hf (rt_enabled x) _ _ H4) as Hs. rewrite H2 in *.
    destruct (f _ _) as [r1 w], (g _ _) as [r2 v].
    destruct Hs as [Hs|[Hs Hv]]; cbn [fst snd] in *; [left; exact Hs|right].
    split; [done|]. by apply set_world_exact.
  Qed.

  Lemma check_tx_exact raw x y : simrt x y ->
    simx (check_tx O ORM app enum fuel decode tx_users tx_msgs raw x)
         (check_tx O MAP app enum fuel decode tx_users tx_msgs raw y).
  Proof.
    intros H. unfold check_tx, with_tx. destruct (decode raw) as [t|e| |]; [|right; done..].
    apply at_world_exact; [done|]. intros b w v Hw.
    apply (then_do_exact stuck simw'); [by apply app_tx_admission_exact|].
    apply each_msg_exact. intros. by apply app_admission_exact.
  Qed.

  Lemma deliver_tx_exact raw x y : simrt x y ->
    simx (deliver_tx O ORM app enum fuel decode tx_users tx_msgs raw x)
         (deliver_tx O MAP app enum fuel decode tx_users tx_msgs raw y).
  Proof.
    intros H. unfold deliver_tx, with_tx. destruct (decode raw) as [t|e| |]; [|right; done..].
    apply at_world_exact; [done|]. intros b w v Hw.
    apply (then_do_exact stuck simw'); [by apply app_tx_admission_exact|]. intros.
    apply (then_do_exact stuck simw'); [by apply app_tx_post_auth_exact|].
    apply each_msg_exact. intros. by apply app_deliver_exact.
  Qed.

  Lemma or_panic_exact {A} (p : res A * rt object msg orm) q : simx p q -> simx (or_panic p) (or_panic q).
  Proof.
    destruct p as [r1 x], q as [r2 y]. intros [H|[H1 H2]]; cbn [fst snd or_panic] in *; [by_dead H r1 r2|].
    subst. destruct r2; right; done.
  Qed.

  Lemma rt_deliver_exact us m x y : simrt x y ->
    simx (rt_deliver O msg_name ORM app enum fuel us m x) (rt_deliver O msg_name MAP app enum fuel us m y).
  Proof.
    intros H. apply (at_world_exact (fun b => deliver O msg_name ORM (env_at b) fuel false us m)
                                  (fun b => deliver O msg_name MAP (env_at b) fuel false us m)); [done|].
    intros. by apply app_deliver_exact.
  Qed.

  Lemma run_module_exact m p x y : no_list p -> simrt x y ->
    simx (run_module O msg_name ORM app enum fuel m p x) (run_module O msg_name MAP app enum fuel m p y).
  Proof.
    intros Hp H. apply (at_world_exact (fun b => exec O ORM (env_at b) (deliver O msg_name ORM (env_at b) fuel false) (module_self m) p)
      (fun b => exec O MAP (env_at b) (deliver O msg_name MAP (env_at b) fuel false) (module_self m) p)); [done|].
    intros. by apply app_exec_exact.
  Qed.

  Lemma each_exact {A} wrap (f : A -> rt object msg orm -> _) g l x y :
    Forall (fun a => forall x y, simrt x y -> simx (f a x) (g a y)) l -> simrt x y ->
    simx (each wrap f l x) (each wrap g l y).
  Proof.
    intros HF. revert x y. induction HF as [|a l Ha _ IH]; intros x y H; cbn [each]; [right; done|].
    specialize (Ha x y H). destruct (f a x) as [r1 x1], (g a y) as [r2 y1].
    destruct Ha as [Ha|[Ha Hx]]; cbn [fst snd] in *; [by_dead Ha r1 r2|subst].
    destruct r2; [by apply IH|right; done..].
  Qed.

  Lemma init_genesis_exact x y : simrt x y ->
    simx (init_genesis O msg_name ORM CreateModuleDescriptors app enum fuel x)
         (init_genesis O msg_name MAP CreateModuleDescriptors app enum fuel y).
  Proof.
    intros H.
    unfold init_genesis. rewrite (sr_initialized _ _ _ _ H). destruct (rt_initialized y); [right; done|].
    pose proof (rt_deliver_exact (users_from_string [runtime_user])
      (CreateModuleDescriptors (map raw (ap_modules app))) x y H) as Hd.
    destruct (rt_deliver _ _ ORM _ _ _ _ _ _) as [r1 x1], (rt_deliver _ _ MAP _ _ _ _ _ _) as [r2 y1].
    destruct Hd as [Hd|[Hd Hx]]; cbn [fst snd] in *; [by_dead Hd r1 r2|subst].
    destruct r2; [|right; done..].
    assert (simx (genesis_modules O msg_name ORM app enum fuel (ap_modules app) x1)
                 (genesis_modules O msg_name MAP app enum fuel (ap_modules app) y1)) as Hg.
    { unfold genesis_modules. apply each_exact; [|done].
      eapply Forall_impl; [apply Hgen|]. intros m Hm x2 y2 H1. cbn beta in *.
      destruct (mo_genesis m) as [g|]; [|right; done]. apply run_module_exact; [apply Hm|done]. }
    destruct (genesis_modules _ _ ORM _ _ _ _ _) as [r1 x2], (genesis_modules _ _ MAP _ _ _ _ _) as [r2 y2].
    destruct Hg as [Hg|[Hg Hy]]; cbn [fst snd] in *; [by_dead Hg r1 r2|subst].
    destruct r2; [|right; done..]. destruct Hy as [A1 A2 A3 A4].
    destruct (services_start _) as [l r]. right. split; [done|]. split; cbn; [done|done|by rewrite A3|done].
  Qed.

  Lemma init_chain_exact id st x y : simrt x y ->
    simx (init_chain O ORM app enum fuel id st x) (init_chain O MAP app enum fuel id st y).
  Proof.
    intros H. unfold init_chain.
    apply (then_do_exact rstuck simrt).
    - apply or_panic_exact. destruct st as [[d|]|].
      + unfold import. apply each_exact; [|done].
        eapply Forall_impl; [apply Hgen|]. intros m Hm x1 y1 H1. cbn beta in *.
        destruct (mo_genesis m) as [g|]; [|right; done]. apply run_module_exact; [apply Hm|done].
      + right; done.
      + by apply init_genesis_exact.
    - intros a b Hab. apply (then_do_exact rstuck simrt); [by apply or_panic_exact, rt_deliver_exact|].
      intros a1 b1 [A1 A2 A3 A4]. right. split; [done|]. split; done.
  Qed.

  Lemma end_block_exact h x y : simrt x y ->
    simx (end_block O ORM app enum fuel h x) (end_block O MAP app enum fuel h y).
  Proof.
    intros H. unfold end_block.
    pose proof (or_panic_exact _ _ (rt_deliver_exact abci_users (MsgSetEndBlockState (Some h)) x y H)) as Hd.
    destruct (or_panic (rt_deliver _ _ ORM _ _ _ _ _ _)) as [r1 x1],
             (or_panic (rt_deliver _ _ MAP _ _ _ _ _ _)) as [r2 y1].
    destruct Hd as [Hd|[Hd Hx]]; cbn [fst snd] in *; [by_dead Hd r1 r2|subst].
    destruct r2; [|right; done..].
    destruct (xget ty_updates singleton_id _ _ (proj1 (sr_world _ _ _ _ Hx))) as [HA| ->].
    - left. left. by destruct (rt_get MAP _ _ _).
    - destruct (rt_get MAP _ _ _) as [[]|e| |]; right; done.
  Qed.

  Lemma abci_step_exact c x y : simrt x y ->
    simx (abci_step O ORM app enum fuel decode tx_users tx_msgs c x)
         (abci_step O MAP app enum fuel decode tx_users tx_msgs c y).
  Proof.
    intros H. destruct c as [id st|h r|raw|raw|h|]; cbn [abci_step].
    - by apply init_chain_exact.
    - by apply or_panic_exact, rt_deliver_exact.
    - by apply check_tx_exact.
    - by apply deliver_tx_exact.
    - pose proof (end_block_exact h x y H) as He.
      destruct (end_block O ORM _ _ _ _ _) as [r1 x1], (end_block O MAP _ _ _ _ _) as [r2 y1].
      destruct He as [He|[He Hx]]; cbn [fst snd] in *; [by_dead He r1 r2|subst].
      destruct r2; right; done.
    - right; done.
  Qed.

End ExactApp.
