(** Facts about authorization, execution of programs and deliveries. *)
From Coq Require Import NArith List Bool String Lia.
From stdpp Require Import base list gmap.
From Verif.Model Require Import Bytes KindEncoder Desc Schema Indexes Orm Users Prog Router Runtime.
From Verif.Spec Require Import UserSpec RuntimeSpec.
From Verif.Proofs Require Import UserFacts.

Section Steps.
  Context {X : Type}.
  (** [in_order] as a function. *)
  Fixpoint seq (l : list (X -> res unit * X)) (x : X) : res unit * X :=
    match l with
    | [] => (Ok tt, x)
    | s :: l' => match s x with (Ok _, x1) => seq l' x1 | r => r end
    end.

  Lemma seq_in_order l : forall x r x', seq l x = (r, x') <-> in_order l x r x'.
  Proof.
    induction l as [|s l IH]; intros x r x'; cbn [seq].
    - split; [intros H; inversion H; constructor|intros H; inversion H; done].
    - destruct (s x) as [[[]|e| |] x1] eqn:E.
      + rewrite IH. split; [intros H; econstructor; eauto|].
        intros H. inversion H; subst; [congruence|]. rewrite E in *. congruence.
      + split; [intros H; inversion H; subst; eapply io_stop; eauto; discriminate|].
        intros H. inversion H; subst; rewrite E in *; congruence.
      + split; [intros H; inversion H; subst; eapply io_stop; eauto; discriminate|].
        intros H. inversion H; subst; rewrite E in *; congruence.
      + split; [intros H; inversion H; subst; eapply io_stop; eauto; discriminate|].
        intros H. inversion H; subst; rewrite E in *; congruence.
  Qed.

  Lemma seq_app l1 l2 x :
    seq (l1 ++ l2) x = match seq l1 x with (Ok _, x1) => seq l2 x1 | r => r end.
  Proof.
    revert x. induction l1 as [|s l1 IH]; intros x; cbn [app seq]; [done|].
    destruct (s x) as [[[]|e| |] x1]; auto.
  Qed.
End Steps.

Section Runtime.
  Context {Obj Msg Tx St : Type} (O : objops Obj) (mname : Msg -> bytes) (SO : storeops Obj St).
  Notation env := (env Obj Msg Tx).
  Notation world := (world Obj Msg St).
  Notation event := (event Obj Msg).
  Implicit Types (w : world) (s : St) (en : env).

  Lemma after_app s t1 t2 : after (Msg:=Msg) SO s (t1 ++ t2) = after SO (after SO s t1) t2.
  Proof. apply fold_left_app. Qed.

  Definition effect_ok en s (e : event) : Prop :=
    match e with
    | EvWrite (WCreate o) us => allows SO en s VCreate (obj_name O o) us
    | EvWrite (WUpdate o) us => allows SO en s VUpdate (obj_name O o) us
    | EvWrite (WDelete o) us => allows SO en s VDelete (obj_name O o) us
    | EvDeliver m us => allows SO en s VDeliver (mname m) us
    | _ => True
    end.
  Fixpoint gated en s (tr : list event) : Prop :=
    match tr with
    | [] => True
    | e :: tr' => effect_ok en s e /\ gated en (after SO s [e]) tr'
    end.

  Lemma gated_app en s t1 t2 : gated en s t1 -> gated en (after SO s t1) t2 -> gated en s (t1 ++ t2).
  Proof.
    revert s. induction t1 as [|e t1 IH]; intros s H1 H2; [done|].
    destruct H1 as [He H1]. split; [done|]. apply IH; [done|]. exact H2.
  Qed.

  Lemma gated_all_allowed en s tr : gated en s tr -> all_allowed O mname SO en s tr.
  Proof.
    intros H before e rest ->. revert s H. induction before as [|x before IH]; intros s H.
    - destruct H as [H _]. exact H.
    - destruct H as [_ H]. apply (IH (after SO s [x]) H).
  Qed.

  Definition grun en w w' : Prop :=
    exists tr, w_trace w' = w_trace w ++ tr /\ w_store w' = after SO (w_store w) tr
               /\ gated en (w_store w) tr.
  Lemma grun_refl en w : grun en w w.
  Proof. exists []. rewrite app_nil_r. done. Qed.
  Lemma grun_trans en w1 w2 w3 : grun en w1 w2 -> grun en w2 w3 -> grun en w1 w3.
  Proof.
    intros (t1 & E1 & S1 & G1) (t2 & E2 & S2 & G2). exists (t1 ++ t2).
    split; [by rewrite E2, E1, app_assoc|]. split; [by rewrite S2, S1, after_app|].
    apply gated_app; [done|]. by rewrite <- S1.
  Qed.
  Lemma grun_allowed en w w' : grun en w w' -> allowed_run O mname SO en w w'.
  Proof. intros (t & ? & ? & ?). exists t. auto using gated_all_allowed. Qed.

  (** Logging something that is no effect. *)
  Lemma grun_check en v n us b w : grun en w (log (EvCheck v n us b) w).
  Proof. exists [EvCheck v n us b]. done. Qed.
  Lemma grun_enum en us w : grun en w (log (EvEnum us) w).
  Proof. exists [EvEnum us]. done. Qed.

  Lemma authorized_grun en v n us w r w' :
    authorized SO en v n us w = (r, w') ->
    grun en w w' /\ w_store w' = w_store w
    /\ (en_enabled en = true -> is_ok r = true -> allows SO en (w_store w) v n us).
  Proof.
    unfold authorized. destruct (en_enabled en); cbn [negb].
    - destruct (run_read _ _ _ _) as [[[] [e|]]|e| |] eqn:E; intros H; inversion H; subst;
        (split; [auto using grun_refl, grun_check|]); (split; [done|]); try done.
      intros _ _. by exists (w_trace w).
    - intros H; inversion H; subst. split; [apply grun_refl|]. split; [done|]. done.
  Qed.

  Lemma write_grun en x us w r w' :
    effect_ok en (w_store w) (EvWrite x us) -> store_write SO x us w = (r, w') -> grun en w w'.
  Proof.
    unfold store_write. intros Hok. destruct (apply_write SO x (w_store w)) as [r0 s0] eqn:E.
    intros H; inversion H; subst. exists [EvWrite x us]. cbn [w_trace w_store].
    split; [done|]. split; [|split; done].
    destruct x; cbn in *; by rewrite E.
  Qed.

  Lemma create_grun en us o w r w' :
    en_enabled en = true -> rt_create O SO en us o w = (r, w') -> grun en w w'.
  Proof.
    unfold rt_create. intros Hen.
    destruct (authorized SO en VCreate (obj_name O o) us w) as [r1 w1] eqn:E.
    destruct (authorized_grun _ _ _ _ _ _ _ E) as (G & Es & Ha).
    destruct r1 as [u|e| |]; intros H; try (inversion H; subst; done).
    eapply grun_trans; [exact G|]. eapply write_grun; [|exact H]. cbn. rewrite Es. by apply Ha.
  Qed.
  Lemma update_grun en us o w r w' :
    en_enabled en = true -> rt_update O SO en us o w = (r, w') -> grun en w w'.
  Proof.
    unfold rt_update. intros Hen.
    destruct (authorized SO en VUpdate (obj_name O o) us w) as [r1 w1] eqn:E.
    destruct (authorized_grun _ _ _ _ _ _ _ E) as (G & Es & Ha).
    destruct r1 as [u|e| |]; intros H; try (inversion H; subst; done).
    eapply grun_trans; [exact G|]. eapply write_grun; [|exact H]. cbn. rewrite Es. by apply Ha.
  Qed.
  Lemma delete_grun en us o w r w' :
    en_enabled en = true -> rt_delete O SO en us o w = (r, w') -> grun en w w'.
  Proof.
    unfold rt_delete. intros Hen.
    destruct (authorized SO en VDelete (obj_name O o) us w) as [r1 w1] eqn:E.
    destruct (authorized_grun _ _ _ _ _ _ _ E) as (G & Es & Ha).
    destruct r1 as [u|e| |]; intros H; try (inversion H; subst; done).
    eapply grun_trans; [exact G|]. eapply write_grun; [|exact H]. cbn. rewrite Es. by apply Ha.
  Qed.

  (** A property of transitions between worlds that every client call has, every
      program has. *)
  Section ExecInv.
    Context (en : env) (dlv : users -> Msg -> world -> res unit * world) (self : users).
    Context (P : world -> world -> Prop).
    Context (Prefl : forall w, P w w) (Ptrans : forall w1 w2 w3, P w1 w2 -> P w2 w3 -> P w1 w3).
    Context (Penum : forall us w, P w (log (EvEnum us) w)).
    Context (Pcreate : forall o w r w', rt_create O SO en self o w = (r, w') -> P w w').
    Context (Pupdate : forall o w r w', rt_update O SO en self o w = (r, w') -> P w w').
    Context (Pdelete : forall o w r w', rt_delete O SO en self o w = (r, w') -> P w w').
    Context (Pdlv : forall opts m w r w', dlv (client_users self opts) m w = (r, w') -> P w w').

    Lemma exec_inv {A} (p : prog Obj Msg A) : forall w r w', exec O SO en dlv self p w = (r, w') -> P w w'.
    Proof.
      induction p as [a|e| |ty id opts k IH|ty opts k IH|us k IH|o k IH|o k IH|o k IH|m opts k IH];
        intros w r w'; cbn [exec].
      1-3: intros H; inversion H; subst; done.
      - destruct (negb _); [apply IH|]. destruct (rt_get _ _ _ _); try apply IH;
          intros H; inversion H; subst; done.
      - destruct (negb _); [apply IH|]. destruct (rt_list _ _ _ _); try apply IH;
          intros H; inversion H; subst; done.
      - intros H. eapply Ptrans; [apply Penum|]. eapply IH; exact H.
      - destruct (rt_create _ _ _ _ _ _) as [[u|e| |] w1] eqn:E; intros H;
          try (inversion H; subst; by eapply Pcreate);
          (eapply Ptrans; [by eapply Pcreate|]; eapply IH; exact H).
      - destruct (rt_update _ _ _ _ _ _) as [[u|e| |] w1] eqn:E; intros H;
          try (inversion H; subst; by eapply Pupdate);
          (eapply Ptrans; [by eapply Pupdate|]; eapply IH; exact H).
      - destruct (rt_delete _ _ _ _ _ _) as [[u|e| |] w1] eqn:E; intros H;
          try (inversion H; subst; by eapply Pdelete);
          (eapply Ptrans; [by eapply Pdelete|]; eapply IH; exact H).
      - destruct (dlv _ _ _) as [[u|e| |] w1] eqn:E; intros H;
          try (inversion H; subst; by eapply Pdlv);
          (eapply Ptrans; [by eapply Pdlv|]; eapply IH; exact H).
    Qed.
  End ExecInv.

  Lemma exec_grun en dlv self {A} (p : prog Obj Msg A) w r w' :
    en_enabled en = true ->
    (forall us m w r w', dlv us m w = (r, w') -> grun en w w') ->
    exec O SO en dlv self p w = (r, w') -> grun en w w'.
  Proof.
    intros Hen Hd. apply (exec_inv en dlv self (grun en)); eauto using grun_refl, grun_trans, grun_enum,
      create_grun, update_grun, delete_grun.
  Qed.

  (** The same for lists of handlers and deliveries. *)
  Section DeliverInv.
    Context (en : env) (P : world -> world -> Prop).
    Context (Prefl : forall w, P w w) (Ptrans : forall w1 w2 w3, P w1 w2 -> P w2 w3 -> P w1 w3).

    Lemma run_handlers_inv dlv conv hs us m :
      (forall h w r w', h ∈ hs -> run_handler O SO en dlv h us m w = (r, w') -> P w w') ->
      forall w r w', run_handlers O SO en dlv conv hs us m w = (r, w') -> P w w'.
    Proof.
      induction hs as [|h hs IH]; intros Hh w r w'; cbn [run_handlers].
      - intros H; inversion H; subst; done.
      - destruct (run_handler _ _ _ _ _ _ _ _) as [[u|e| |] w1] eqn:E; intros H.
        + eapply Ptrans; [eapply Hh; [left|exact E]|]. eapply IH; [|exact H].
          intros h' ? ? ? Hin. apply Hh. by right.
        + inversion H; subst. eapply Hh; [left|exact E].
        + inversion H; subst. eapply Hh; [left|exact E].
        + inversion H; subst. eapply Hh; [left|exact E].
    Qed.

    Lemma run_tx_handlers_inv dlv hs (tx : Tx) :
      (forall h w r w', h ∈ hs -> exec O SO en dlv (th_self h) (th_run h tx) w = (r, w') -> P w w') ->
      forall w r w', run_tx_handlers O SO en dlv hs tx w = (r, w') -> P w w'.
    Proof.
      induction hs as [|h hs IH]; intros Hh w r w'; cbn [run_tx_handlers].
      - intros H; inversion H; subst; done.
      - destruct (exec _ _ _ _ _ _ _) as [[u|e| |] w1] eqn:E; intros H.
        + eapply Ptrans; [eapply Hh; [left|exact E]|]. eapply IH; [|exact H].
          intros h' ? ? ? Hin. apply Hh. by right.
        + inversion H; subst. eapply Hh; [left|exact E].
        + inversion H; subst. eapply Hh; [left|exact E].
        + inversion H; subst. eapply Hh; [left|exact E].
    Qed.

    Definition router_handler (n : bytes) (h : handler Obj Msg) : Prop :=
      h ∈ default [] (ro_admission (en_router en) !! n)
      \/ h ∈ default [] (ro_pre (en_router en) !! n)
      \/ ro_exec (en_router en) !! n = Some h
      \/ h ∈ default [] (ro_post (en_router en) !! n).

    Lemma deliver_body_inv dlv skip us m :
      (forall h w r w', router_handler (mname m) h ->
                        run_handler O SO en dlv h us m w = (r, w') -> P w w') ->
      (forall w r w', authorized SO en VDeliver (mname m) us w = (r, w') -> is_ok r = false -> P w w') ->
      (forall w w', authorized SO en VDeliver (mname m) us w = (Ok tt, w') ->
                    P w (log (EvDeliver m us) w')) ->
      forall w r w', deliver_body O mname SO en dlv skip us m w = (r, w') -> P w w'.
    Proof.
      intros Hh Hauth Hdel w r w'. unfold deliver_body.
      assert (forall w r w', run_admission_chain O mname SO en dlv us m w = (r, w') -> P w w') as Hadm.
      { clear w r w'. intros w r w'. unfold run_admission_chain, get_admission.
        destruct (known _ _); [|intros H; inversion H; subst; done].
        apply run_handlers_inv. intros h ? ? ? Hin. apply Hh. by left. }
      assert (forall w r w', deliver_authorized O mname SO en dlv us m w = (r, w') -> P w w') as Hda.
      { clear w r w'. intros w r w'. unfold deliver_authorized.
        destruct (run_handlers O SO en dlv (fun e => e) _ us m w) as [r1 w1] eqn:E1.
        assert (P w w1) as P1.
        { eapply run_handlers_inv; [|exact E1]. intros h ? ? ? Hin. apply Hh. right. left.
          unfold get_pre in Hin. destruct (known _ _); cbn in Hin; [done|inversion Hin]. }
        destruct r1; try (intros H; inversion H; subst; done).
        unfold get_exec. destruct (ro_exec _ !! _) as [h|] eqn:Ex; cbn;
          [|intros H; inversion H; subst; done].
        destruct (run_handler O SO en dlv h us m w1) as [r2 w2] eqn:E2.
        assert (P w w2) as P2.
        { eapply Ptrans; [exact P1|]. eapply Hh; [|exact E2]. right. right. by left. }
        destruct r2; try (intros H; inversion H; subst; done).
        unfold get_post. destruct (known _ _); cbn; [|intros H; inversion H; subst; done].
        intros H. eapply Ptrans; [exact P2|]. eapply run_handlers_inv; [|exact H].
        intros h' ? ? ? Hin. apply Hh. right. right. by right. }
      destruct (if skip then (Ok tt, w) else run_admission_chain O mname SO en dlv us m w)
        as [r1 w1] eqn:E1.
      assert (P w w1) as P1.
      { destruct skip; [inversion E1; subst; done|]. by eapply Hadm. }
      destruct r1 as [[]|e| |]; try (intros H; inversion H; subst; done).
      destruct (authorized SO en VDeliver (mname m) us w1) as [r2 w2] eqn:E2.
      destruct r2 as [[]|e| |]; intros H.
      - eapply Ptrans; [exact P1|]. eapply Ptrans; [by eapply Hdel|]. by eapply Hda.
      - inversion H; subst. eapply Ptrans; [exact P1|]. by eapply Hauth.
      - inversion H; subst. eapply Ptrans; [exact P1|]. by eapply Hauth.
      - inversion H; subst. eapply Ptrans; [exact P1|]. by eapply Hauth.
    Qed.
  End DeliverInv.

  Lemma log_deliver_grun en m us w w' :
    en_enabled en = true -> authorized SO en VDeliver (mname m) us w = (Ok tt, w') ->
    grun en w (log (EvDeliver m us) w').
  Proof.
    intros Hen H. destruct (authorized_grun _ _ _ _ _ _ _ H) as (G & Es & Ha).
    eapply grun_trans; [exact G|]. exists [EvDeliver m us]. split; [done|]. split; [done|].
    split; [|done]. cbn. rewrite Es. by apply Ha.
  Qed.

  Lemma deliver_grun en fuel : en_enabled en = true ->
    forall skip us m w r w', deliver O mname SO en fuel skip us m w = (r, w') -> grun en w w'.
  Proof.
    intros Hen. induction fuel as [|f IH]; intros skip us m w r w'; cbn [deliver].
    - intros H; inversion H; subst. apply grun_refl.
    - apply (deliver_body_inv en (grun en)); eauto using grun_refl, grun_trans, log_deliver_grun.
      + intros h ? ? ? _ H. eapply exec_grun; eauto.
      + intros ? ? ? H _. by eapply authorized_grun.
  Qed.

  (** *** C15 *)
  Lemma deliver_allowed en fuel skip us m w r w' :
    en_enabled en = true -> deliver O mname SO en fuel skip us m w = (r, w') ->
    allowed_run O mname SO en w w'.
  Proof. intros. eapply grun_allowed, deliver_grun; eauto. Qed.

  Lemma program_allowed en fuel self {A} (p : prog Obj Msg A) w r w' :
    en_enabled en = true ->
    exec O SO en (deliver O mname SO en fuel false) self p w = (r, w') ->
    allowed_run O mname SO en w w'.
  Proof. intros. eapply grun_allowed, exec_grun; eauto using deliver_grun. Qed.

  Lemma tx_chain_allowed en fuel hs (tx : Tx) w r w' :
    en_enabled en = true ->
    run_tx_handlers O SO en (deliver O mname SO en fuel false) hs tx w = (r, w') ->
    allowed_run O mname SO en w w'.
  Proof.
    intros Hen. intros H. apply grun_allowed.
    eapply (run_tx_handlers_inv en (grun en)); eauto using grun_refl, grun_trans.
    intros; eapply exec_grun; eauto using deliver_grun.
  Qed.

  (** Refusals: the authorizer, asked in the state at hand, does not allow. *)
  Lemma authorized_refused en v n us w d :
    en_enabled en = true ->
    run_read SO (en_enum en (w_trace w)) (en_authorizer en v n us) (w_store w) = Ok d ->
    d <> (true, None) ->
    authorized SO en v n us w = (Fail (EWrap (ESent RtUnauthorized)), log (EvCheck v n us false) w).
  Proof.
    intros Hen Hr Hd. unfold authorized. rewrite Hen. cbn [negb]. rewrite Hr.
    destruct d as [[] [e|]]; done.
  Qed.
  Lemma create_refused en us o w d :
    en_enabled en = true ->
    run_read SO (en_enum en (w_trace w)) (en_authorizer en VCreate (obj_name O o) us) (w_store w) = Ok d ->
    d <> (true, None) ->
    exists e w', rt_create O SO en us o w = (Fail e, w') /\ errors_is e RtUnauthorized = true
                 /\ w_store w' = w_store w.
  Proof.
    intros H1 H2 H3. unfold rt_create. rewrite (authorized_refused en _ _ us w d) by done.
    eexists _, _. split; [reflexivity|]. done.
  Qed.
  Lemma update_refused en us o w d :
    en_enabled en = true ->
    run_read SO (en_enum en (w_trace w)) (en_authorizer en VUpdate (obj_name O o) us) (w_store w) = Ok d ->
    d <> (true, None) ->
    exists e w', rt_update O SO en us o w = (Fail e, w') /\ errors_is e RtUnauthorized = true
                 /\ w_store w' = w_store w.
  Proof.
    intros H1 H2 H3. unfold rt_update. rewrite (authorized_refused en _ _ us w d) by done.
    eexists _, _. split; [reflexivity|]. done.
  Qed.
  Lemma delete_refused en us o w d :
    en_enabled en = true ->
    run_read SO (en_enum en (w_trace w)) (en_authorizer en VDelete (obj_name O o) us) (w_store w) = Ok d ->
    d <> (true, None) ->
    exists e w', rt_delete O SO en us o w = (Fail e, w') /\ errors_is e RtUnauthorized = true
                 /\ w_store w' = w_store w.
  Proof.
    intros H1 H2 H3. unfold rt_delete. rewrite (authorized_refused en _ _ us w d) by done.
    eexists _, _. split; [reflexivity|]. done.
  Qed.
  Lemma deliver_refused en fuel us m w d :
    en_enabled en = true ->
    run_read SO (en_enum en (w_trace w)) (en_authorizer en VDeliver (mname m) us) (w_store w) = Ok d ->
    d <> (true, None) ->
    exists e w', deliver O mname SO en (S fuel) true us m w = (Fail e, w')
                 /\ errors_is e RtUnauthorized = true /\ w_store w' = w_store w.
  Proof.
    intros H1 H2 H3. cbn [deliver]. unfold deliver_body.
    rewrite (authorized_refused en _ _ us w d) by done.
    eexists _, _. split; [reflexivity|]. done.
  Qed.
  Lemma deliver_refused_admitted en fuel us m w w1 d :
    en_enabled en = true ->
    run_admission_chain O mname SO en (deliver O mname SO en fuel false) us m w = (Ok tt, w1) ->
    run_read SO (en_enum en (w_trace w1)) (en_authorizer en VDeliver (mname m) us) (w_store w1) = Ok d ->
    d <> (true, None) ->
    exists e w', deliver O mname SO en (S fuel) false us m w = (Fail e, w')
                 /\ errors_is e RtUnauthorized = true /\ w_store w' = w_store w1.
  Proof.
    intros H1 H2 H3 H4. cbn [deliver]. unfold deliver_body. rewrite H2.
    rewrite (authorized_refused en _ _ us w1 d) by done.
    eexists _, _. split; [reflexivity|]. done.
  Qed.

  (** *** Fuel only bounds the depth: a finished delivery stays as it is. *)
  Definition le_dlv (d1 d2 : users -> Msg -> world -> res unit * world) : Prop :=
    forall us m w r w', d1 us m w = (r, w') -> r <> OutOfFuel -> d2 us m w = (r, w').

  Lemma exec_mono en d1 d2 self {A} (p : prog Obj Msg A) : le_dlv d1 d2 ->
    forall w r w', exec O SO en d1 self p w = (r, w') -> r <> OutOfFuel ->
                   exec O SO en d2 self p w = (r, w').
  Proof.
    intros Hd. induction p as [a|e| |ty id opts k IH|ty opts k IH|us k IH|o k IH|o k IH|o k IH|m opts k IH];
      intros w r w'; cbn [exec]; auto.
    - destruct (negb _); [apply IH|]. destruct (rt_get _ _ _ _); auto.
    - destruct (negb _); [apply IH|]. destruct (rt_list _ _ _ _); auto.
    - destruct (rt_create _ _ _ _ _ _) as [[u|e| |] w1]; auto.
    - destruct (rt_update _ _ _ _ _ _) as [[u|e| |] w1]; auto.
    - destruct (rt_delete _ _ _ _ _ _) as [[u|e| |] w1]; auto.
    - destruct (d1 _ _ _) as [r1 w1] eqn:E. intros H Hr.
      rewrite (Hd _ _ _ _ _ E); [destruct r1; auto|].
      intros ->. inversion H; subst. done.
  Qed.

  Lemma run_handlers_mono en d1 d2 conv hs us m : le_dlv d1 d2 ->
    forall w r w', run_handlers O SO en d1 conv hs us m w = (r, w') -> r <> OutOfFuel ->
                   run_handlers O SO en d2 conv hs us m w = (r, w').
  Proof.
    intros Hd. induction hs as [|h hs IH]; intros w r w'; cbn [run_handlers]; [done|].
    unfold run_handler. destruct (exec O SO en d1 _ _ _) as [r1 w1] eqn:E. intros H Hr.
    rewrite (exec_mono _ _ _ _ _ Hd _ _ _ E); [destruct r1; auto|].
    intros ->. inversion H; subst. done.
  Qed.

  Lemma run_tx_handlers_mono en d1 d2 hs (tx : Tx) : le_dlv d1 d2 ->
    forall w r w', run_tx_handlers O SO en d1 hs tx w = (r, w') -> r <> OutOfFuel ->
                   run_tx_handlers O SO en d2 hs tx w = (r, w').
  Proof.
    intros Hd. induction hs as [|h hs IH]; intros w r w'; cbn [run_tx_handlers]; [done|].
    destruct (exec O SO en d1 _ _ _) as [r1 w1] eqn:E. intros H Hr.
    rewrite (exec_mono _ _ _ _ _ Hd _ _ _ E); [destruct r1; auto|].
    intros ->. inversion H; subst. done.
  Qed.

  Lemma deliver_body_mono en d1 d2 skip us m : le_dlv d1 d2 ->
    forall w r w', deliver_body O mname SO en d1 skip us m w = (r, w') -> r <> OutOfFuel ->
                   deliver_body O mname SO en d2 skip us m w = (r, w').
  Proof.
    intros Hd w r w'. unfold deliver_body.
    assert (forall w r w', run_admission_chain O mname SO en d1 us m w = (r, w') -> r <> OutOfFuel ->
              run_admission_chain O mname SO en d2 us m w = (r, w')) as Ha.
    { clear w r w'. intros w r w'. unfold run_admission_chain. destruct (get_admission _ _); auto.
      by apply run_handlers_mono. }
    assert (forall w r w', deliver_authorized O mname SO en d1 us m w = (r, w') -> r <> OutOfFuel ->
              deliver_authorized O mname SO en d2 us m w = (r, w')) as Hb.
    { clear w r w'. intros w r w'. unfold deliver_authorized.
      destruct (run_handlers O SO en d1 _ _ us m w) as [r1 w1] eqn:E1. intros H Hr.
      rewrite (run_handlers_mono _ _ _ _ _ _ _ Hd _ _ _ E1) by (intros ->; inversion H; subst; done).
      destruct r1; auto. destruct (get_exec _ _) as [h| | |]; auto.
      unfold run_handler in *. destruct (exec O SO en d1 _ _ w1) as [r2 w2] eqn:E2.
      rewrite (exec_mono _ _ _ _ _ Hd _ _ _ E2) by (intros ->; inversion H; subst; done).
      destruct r2; auto. destruct (get_post _ _); auto. by eapply run_handlers_mono. }
    destruct skip.
    - intros H Hr. destruct (authorized SO en VDeliver (mname m) us w) as [[u|e| |] w2]; auto.
    - destruct (run_admission_chain O mname SO en d1 us m w) as [r1 w1] eqn:E1. intros H Hr.
      rewrite (Ha _ _ _ E1) by (intros ->; inversion H; subst; done).
      destruct r1; auto.
      destruct (authorized SO en VDeliver (mname m) us w1) as [[u|e| |] w2]; auto.
  Qed.

  Lemma deliver_mono en f : forall f' skip us m w r w',
    f <= f' -> deliver O mname SO en f skip us m w = (r, w') -> r <> OutOfFuel ->
    deliver O mname SO en f' skip us m w = (r, w').
  Proof.
    induction f as [|f IH]; intros f' skip us m w r w' Hle; cbn [deliver].
    - intros H Hr. inversion H; subst. done.
    - destruct f' as [|f']; [lia|]. cbn [deliver]. apply deliver_body_mono.
      intros us' m' w1 r1 w1'. apply IH. lia.
  Qed.

  (** *** Stages *)
  Lemma run_handlers_seq en dlv conv hs us m w :
    run_handlers O SO en dlv conv hs us m w =
    seq (map (fun h => reporting conv (exec O SO en dlv (h_self h) (h_run h us m))) hs) w.
  Proof.
    revert w. induction hs as [|h hs IH]; intros w; cbn [run_handlers map seq]; [done|].
    unfold run_handler, reporting at 1. destruct (exec _ _ _ _ _ _ _) as [[u|e| |] w1]; auto.
  Qed.

  Lemma reporting_id {X} (s : X -> res unit * X) x : reporting (fun e => e) s x = s x.
  Proof. unfold reporting. by destruct (s x) as [[]]. Qed.

  Lemma seq_ext {X} (l l' : list (X -> res unit * X)) x :
    Forall2 (fun f g => forall x, f x = g x) l l' -> seq l x = seq l' x.
  Proof.
    intros H. revert x. induction H as [|s s' l l' Hs _ IH]; intros x; cbn [seq]; [done|].
    rewrite Hs. destruct (s' x) as [[]]; auto.
  Qed.

  Lemma run_handlers_seq_id en dlv hs us m w :
    run_handlers O SO en dlv (fun e => e) hs us m w =
    seq (map (fun h => exec O SO en dlv (h_self h) (h_run h us m)) hs) w.
  Proof.
    rewrite run_handlers_seq. apply seq_ext.
    induction hs; cbn; constructor; [|done]. intros x. apply reporting_id.
  Qed.

  (** *** Store answers *)
  Lemma write_answer x us w :
    store_write SO x us w =
    (match (apply_write SO x (w_store w)).1 with
     | Fail e => if errors_is e OrmNotFound then Fail (EWrap (ESent RtNotFound)) else Panic
     | r => r
     end,
     {| w_store := (apply_write SO x (w_store w)).2; w_trace := w_trace w ++ [EvWrite x us] |}).
  Proof. unfold store_write. destruct (apply_write SO x (w_store w)) as [[] s]; done. Qed.

  (** *** Identity of module clients *)
  Lemma client_users_has self opts n : wf_users self ->
    users_has1 (client_users self opts) n = true
    <-> users_has1 self n = true
        \/ match last opts with Some (DeliverImpersonating l) => n ∈ l | None => False end.
  Proof.
    intros Hwf. unfold client_users.
    assert (wf_groups [Some self; impersonated opts]
            /\ impersonated opts = match last opts with
                                   | Some (DeliverImpersonating l) => Some (users_from_string l)
                                   | None => None
                                   end) as [Hg E].
    { assert (impersonated opts = match last opts with
                                   | Some (DeliverImpersonating l) => Some (users_from_string l)
                                   | None => None
                                   end) as E.
      { unfold impersonated. induction opts as [|o opts _] using rev_ind; [done|].
        rewrite fold_left_app, last_snoc. by destruct o. }
      split; [|done]. repeat constructor; [done|]. rewrite E. destruct (last opts) as [[l]|]; [|done].
      apply from_string_wf. }
    rewrite union_has by (done || apply users_list_fair). rewrite E.
    split.
    - intros (g & Hin & Hn). apply elem_of_cons in Hin as [Hin|Hin]; [left; congruence|].
      right. apply elem_of_list_singleton in Hin. destruct (last opts) as [[l]|]; [|done].
      injection Hin as ->. by apply from_string_has in Hn.
    - intros [H|H]; [exists self; split; [left|done]|]. destruct (last opts) as [[l]|]; [|done].
      exists (users_from_string l). split; [right; left|]. by apply from_string_has.
  Qed.

  Lemma client_users_wf self opts : wf_users self -> wf_users (client_users self opts).
  Proof.
    intros Hwf. unfold client_users. apply union_wf; [|apply users_list_fair].
    repeat constructor; [done|]. unfold impersonated.
    induction opts as [|o opts _] using rev_ind; [done|].
    rewrite fold_left_app. destruct o. apply from_string_wf.
  Qed.
End Runtime.
