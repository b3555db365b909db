(** Histories of consensus calls. *)
From Coq Require Import NArith ZArith List Bool String Lia.
From stdpp Require Import base list gmap relations.
From Verif.Model Require Import Bytes KindEncoder Desc Schema Indexes Orm Users Prog Router Runtime
  Services Module Builder Universe Coin CoreModules Rbac Bank Authn Distribution TestApp Abci.
From Verif.Spec Require Import UserSpec StoreSpec RuntimeSpec RbacSpec.
From Verif.Proofs Require Import BytesFacts KindEncoderFacts RegistryFacts OrmFacts UserFacts RuntimeFacts
  BuilderFacts SimFacts AppFacts AppSim RbacFacts MapExec ChainInv ChainWp ChainRun.

Notation at_stage := (ty_stage, singleton_id).
Notation at_begin := (ty_begin_block, singleton_id).
Notation at_end := (ty_end_block, singleton_id).
Notation at_height := (ty_current_block, singleton_id).
Notation at_updates := (ty_updates, singleton_id).

(** Admission and fee. *)
Inductive paid (bits : N) (verify : bytes -> bytes -> bytes -> bool) (t : tx) (S : amap) : res unit -> amap -> Prop :=
| paid_refused e : ~ admitted bits verify S t -> paid bits verify t S (Fail e) S
| paid_no_fee e S2 : admitted bits verify S t ->
    sent bits (bump (users_has1 (tx_users t)) S) (tx_payer t) fee_collector (tx_fee t) (Fail e) S2 ->
    paid bits verify t S (Fail (bad_request e)) S2
| paid_fee S2 : admitted bits verify S t ->
    sent bits (bump (users_has1 (tx_users t)) S) (tx_payer t) fee_collector (tx_fee t) (Ok tt) S2 ->
    paid bits verify t S (Ok tt) S2.
Lemma paid_inv bits verify t S r S' : inv S -> paid bits verify t S r S' -> inv S'.
Proof. intros HI []; [done|..]; (eapply sent_inv; [|done]; by apply bump_inv). Qed.

(** The calls after the first one. *)
Inductive call_ran (bits : N) (verify : bytes -> bytes -> bytes -> bool) (decode : bytes -> res tx)
    (S : amap) : abci_call -> res unit -> amap -> Prop :=
| ran_begin h rest :
    call_ran bits verify decode S (CallBeginBlock h rest) (Ok tt)
      (<[at_height := OCurrentBlock (Z.to_N (h mod 2 ^ 64))]>
       (<[at_begin := OBeginBlock (Some {| bb_height := Some h; bb_rest := rest |})]>
        (<[at_stage := OStage StBeginBlock]> S)))
| ran_check raw r :
    (r = Ok tt -> exists t, decode raw = Ok t /\ admitted bits verify S t) ->
    call_ran bits verify decode S (CallCheckTx raw) r S
| ran_undecoded raw e : decode raw = Fail e -> call_ran bits verify decode S (CallDeliverTx raw) (Fail e) S
| ran_tx raw t r S' : decode raw = Ok t -> tx_ran bits verify t S r S' ->
    call_ran bits verify decode S (CallDeliverTx raw) r S'
| ran_end h :
    call_ran bits verify decode S (CallEndBlock h) (Ok tt)
      (<[at_end := OEndBlock (Some h)]> (<[at_stage := OStage StEndBlock]> S))
| ran_commit : call_ran bits verify decode S CallCommit (Ok tt) S.

Inductive history (bits : N) (verify : bytes -> bytes -> bytes -> bool) (decode : bytes -> res tx)
  : list abci_call -> amap -> amap -> Prop :=
| hist_nil S : history bits verify decode [] S S
| hist_cons c cs S r S' S'' :
    call_ran bits verify decode S c r S' -> history bits verify decode cs S' S'' ->
    history bits verify decode (c :: cs) S S''.

Lemma call_ran_inv bits verify decode S c r S' : inv S -> call_ran bits verify decode S c r S' -> inv S'.
Proof.
  intros HI []; try done.
  - apply (inv_insert _ (OCurrentBlock _)); [|done|done].
    apply (inv_insert _ (OBeginBlock _)); [|done|done]. by apply (inv_insert _ (OStage StBeginBlock)).
  - by eapply tx_ran_inv.
  - apply (inv_insert _ (OEndBlock _)); [|done|done]. by apply (inv_insert _ (OStage StEndBlock)).
Qed.
Lemma history_inv bits verify decode cs S S' : inv S -> history bits verify decode cs S S' -> inv S'.
Proof. intros HI H. induction H; [done|]. apply IHhistory. by eapply call_ran_inv. Qed.

Section Hist.
  Context (C : codec) (bits : N) (verify : bytes -> bytes -> bytes -> bool).
  Context (app : application object msg tx) (HA : test_like bits verify app).
  Context (enum : list (event object msg) -> users -> list user) (HE : forall tr, fair_order (enum tr)).
  Context (fuel : nat) (decode : bytes -> res tx).
  (** Users are filed under their names and are no modules. *)
  Context (HD : forall raw t, decode raw = Ok t -> wf_users (tx_users t) /\ ordinary (tx_users t)).
  Notation O := (app_ops C).
  Notation MAP := (map_ops O (ap_registry app)).
  Notation en := (env_of app enum true).
  Notation dlv := (deliver O msg_name MAP en fuel false).
  Notation wp := (wp C app enum true).
  Notation wpd := (wpd C app enum true).
  Notation wph := (wph C app enum true).
  Notation wpt := (wpt C app enum true).
  Notation step := (abci_step O MAP app enum fuel decode tx_users tx_msgs).
  Notation world := (world object msg amap).
  Implicit Types (S : amap) (f : nat) (us self : users) (m : msg) (Q : res unit -> amap -> Prop)
    (skip : bool) (t : tx) (w : world).

  Local Ltac known := apply (bool_decide_unpack _); vm_compute; exact I.
  Local Ltac perm := intros _; apply module_can; [done|vm_compute; reflexivity].
  Local Lemma self_wf n : wf_users (users_from_string [n]).
  Proof. apply from_string_wf. Qed.
  Local Ltac sing := unfold singletons; set_solver.

  Lemma wp_put f n o (p : prog object msg unit) S Q : inv S -> can n VUpdate (ty_of o) = true -> harmless S o ->
    key_of o = singleton_id -> is_Some (S !! (ty_of o, singleton_id)) ->
    (inv (<[(ty_of o, singleton_id) := o]> S) -> wp f (users_from_string [n]) p (<[(ty_of o, singleton_id) := o]> S) Q) ->
    wp f (users_from_string [n]) (update_ o p) S Q.
  Proof.
    intros HI Hc Hh Hk Hs H. eapply (wp_update C bits verify app HA enum HE true); [apply HI|apply self_wf| |..]; try rewrite Hk.
    - intros _. by apply module_can.
    - intros _ _. apply H. rewrite <- Hk. apply inv_insert; [done| |done]. by rewrite Hk.
    - intros _ Hn. rewrite Hn in Hs. by destruct Hs.
  Qed.

  Lemma wpd_internal f m h n S Q : inv S ->
    exec_of bits m = Some h -> admission_of m = [] -> post_of m = [] -> can n VDeliver (msg_name m) = true ->
    wp f (h_self h) (h_run h (users_from_string [n]) m) S Q ->
    wpd (Datatypes.S f) false (users_from_string [n]) m S Q.
  Proof.
    intros HI Hh Ha Hp Hc H. eapply (wpd_route C bits verify app HA enum HE true); [apply HI|apply self_wf|done|..].
    - intros _. eapply wp_mono; [apply H|]. intros r S' HQ. rewrite Hp. destruct r as [[]| | |]; try done.
      by apply wph_nil.
    - intros [_ HR]. exfalso. apply HR. by apply module_can.
    - intros _. rewrite Ha. by apply wph_nil.
  Qed.

  Lemma insert_some S k o k' : is_Some (S !! k') -> is_Some (<[k := o]> S !! k').
  Proof. intros. apply lookup_insert_is_Some. destruct (decide (k = k')); auto. Qed.

  Lemma wpd_begin f S h rest Q : inv S ->
    Q (Ok tt) (<[at_height := OCurrentBlock (Z.to_N (h mod 2 ^ 64))]>
       (<[at_begin := OBeginBlock (Some {| bb_height := Some h; bb_rest := rest |})]>
        (<[at_stage := OStage StBeginBlock]> S))) ->
    wpd f false abci_users (MsgSetBeginBlockState (Some {| bb_height := Some h; bb_rest := rest |})) S Q.
  Proof.
    intros HI HQ. destruct f as [|f]; [apply wpd_0|]. eapply wpd_internal; [done|done|done|done|vm_compute; reflexivity|].
    cbn [h_self h_run set_begin_block].
    apply wp_put; [done|vm_compute; reflexivity|done|done|apply (single S (OStage StUnknown)); [done|sing]|]. intros HI1.
    apply wp_put; [done|vm_compute; reflexivity|done|done|apply (single _ (OBeginBlock None)); [done|sing]|]. intros HI2.
    apply wp_put; [done|vm_compute; reflexivity|done|done|apply (single _ (OCurrentBlock 0)); [done|sing]|]. intros HI3.
    by apply wp_ret.
  Qed.
  Lemma wpd_end f S h Q : inv S ->
    Q (Ok tt) (<[at_end := OEndBlock (Some h)]> (<[at_stage := OStage StEndBlock]> S)) ->
    wpd f false abci_users (MsgSetEndBlockState (Some h)) S Q.
  Proof.
    intros HI HQ. destruct f as [|f]; [apply wpd_0|]. eapply wpd_internal; [done|done|done|done|vm_compute; reflexivity|].
    cbn [h_self h_run set_end_block].
    apply wp_put; [done|vm_compute; reflexivity|done|done|apply (single S (OStage StUnknown)); [done|sing]|]. intros HI1.
    apply wp_put; [done|vm_compute; reflexivity|done|done|apply (single _ (OEndBlock None)); [done|sing]|]. intros HI2.
    by apply wp_ret.
  Qed.

  (** Admission controllers read only. *)
  Lemma wph_admission f conv us m S : inv S ->
    wph f conv (admission_of m) us m S (fun r S' => S' = S).
  Proof.
    intros HI. destruct m; cbn [admission_of]; try (by apply wph_nil); apply wph_cons; cbn [h_self h_run].
    - cbn [create_account_admission]. destruct a as [a|]; [|by apply wp_fail].
      destruct (bytes_eqb _ _); [by apply wp_fail|]. apply wp_ret. by apply wph_nil.
    - cbn [create_role_admission]. destruct r as [r|]; [|by apply wp_fail].
      destruct (bytes_eqb _ _); [by apply wp_fail|].
      apply (wp_get_ C bits verify app HA enum); [known|..].
      + intros o _ _. by apply wp_fail.
      + intros _ _. replace (errors_is missing RtNotFound) with true by reflexivity.
        apply (wp_get_ C bits verify app HA enum); [known|..]; [|intros _ _; by apply wp_fail].
        intros o _ Ho. rewrite (iv_modules S HI) in Ho. injection Ho as <-.
        destruct (verify_objects _ _); cbn [negb]; [|by apply wp_fail].
        destruct (verify_transitions _ _); cbn [negb]; [|by apply wp_fail].
        apply wp_ret. by apply wph_nil.
    - cbn [bind_admission]. apply (wp_get_ C bits verify app HA enum); [known|..]; intros; [apply wp_ret; by apply wph_nil|by apply wp_fail].
  Qed.
  Lemma admission_same us m w : inv (w_store w) ->
    out (run_admission_chain O msg_name MAP en dlv us m w) (fun _ S' => S' = w_store w).
  Proof.
    intros HI. unfold run_admission_chain. cbn [en_router env_of].
    destruct (tl_routes _ _ _ HA m) as (_ & -> & _ & _).
    destruct (exec_of bits m); [|right; done]. by apply wph_admission.
  Qed.
  Lemma admissions_same us (l : list msg) : forall w, inv (w_store w) ->
    out (each_msg (run_admission_chain O msg_name MAP en dlv us) l w) (fun _ S' => S' = w_store w).
  Proof.
    induction l as [|m l IH]; intros w HI; cbn [each_msg]; [right; done|].
    pose proof (admission_same us m w HI) as H.
    destruct (run_admission_chain _ _ _ _ _ _ _ _) as [r w1]. destruct H as [H|H]; cbn [fst snd] in *.
    - left. by destruct r.
    - destruct r; cbn [then_do]; [|right; done..]. rewrite <- H. apply IH. by rewrite H.
  Qed.

  Lemma messages_ran us (l : list msg) : wf_users us -> ordinary us -> forall w, inv (w_store w) ->
    out (each_msg (deliver O msg_name MAP en fuel true us) l w)
      (fun r S' => msgs_ran bits us l (w_store w) r S').
  Proof.
    intros HU HO. induction l as [|m l IH]; intros w HI; cbn [each_msg]; [right; constructor|].
    pose proof (wpd_ordinary C bits verify app HA enum HE fuel us m (w_store w) _ HI HU HO
      (fun r S' H => H) w eq_refl) as H.
    destruct (deliver _ _ _ _ _ _ _ _ _) as [r w1]. destruct H as [H|H]; cbn [fst snd] in *.
    - left. by destruct r.
    - destruct (ran_res _ _ _ _ _ _ H) as [->|[e ->]]; cbn [then_do].
      + assert (inv (w_store w1)) as HI1 by (by eapply ran_inv).
        destruct (IH w1 HI1) as [HH|HH]; [by left|right]. by eapply msgs_next.
      + right. by apply msgs_stop.
  Qed.

  Lemma pay_ran t w : inv (w_store w) -> wf_users (tx_users t) ->
    out (then_do (run_tx_admission_chain O MAP en dlv t w) (run_tx_post_auth_chain O MAP en dlv t))
      (fun r S' => paid bits verify t (w_store w) r S').
  Proof.
    intros HI HU. destruct (app_tx_handlers bits verify app HA) as [E1 E2].
    unfold run_tx_admission_chain, run_tx_post_auth_chain. cbn [en_router env_of]. rewrite E1, E2.
    pose proof (wpt_admission C bits verify app HA enum HE fuel t (w_store w) (iv_wt _ HI) HU w eq_refl) as H.
    destruct (run_tx_handlers _ _ _ _ _ _ _) as [r w1]. destruct H as [H|[Es H]]; cbn [fst snd] in *.
    { left. by destruct r. }
    destruct r as [[]|e| |]; [|right; cbn [then_do fst snd]; rewrite Es; by constructor|by left|by left].
    cbn [then_do].
    pose proof (wpt_post C bits verify app HA enum HE fuel t (w_store w1)
      (fun r S' => exists r0, sent bits (bump (users_has1 (tx_users t)) (w_store w1)) (tx_payer t) fee_collector (tx_fee t) r0 S'
                    /\ r = match r0 with Fail e => Fail (bad_request e) | _ => r0 end)) as HP.
    rewrite Es in HP. specialize (HP HI HU H). feed specialize HP; [by eauto|]. specialize (HP w1 Es).
    destruct (run_tx_handlers _ _ _ _ _ _ _) as [r w2]. destruct HP as [HP|(r0 & HP & Er)]; cbn [fst snd] in *; try subst r.
    { left. by destruct r. }
    right. cbn [fst snd]. destruct (sent_res _ _ _ _ _ _ _ HP) as [->|[e ->]]; by econstructor.
  Qed.
  Lemma deliver_tx_ran t w : inv (w_store w) -> wf_users (tx_users t) -> ordinary (tx_users t) ->
    out (then_do (run_tx_admission_chain O MAP en dlv t w) (fun w =>
         then_do (run_tx_post_auth_chain O MAP en dlv t w)
           (each_msg (deliver O msg_name MAP en fuel true (tx_users t)) (tx_msgs t))))
      (fun r S' => tx_ran bits verify t (w_store w) r S').
  Proof.
    intros HI HU HO. pose proof (pay_ran t w HI HU) as H.
    destruct (run_tx_admission_chain _ _ _ _ _ _) as [[[]|e| |] w1]; cbn [then_do] in *;
      [|destruct H as [H|H]; [done|right; cbn [fst snd] in *]|by left|by left].
    2:{ generalize dependent (w_store w1). intros S1 H.
        inversion H; subst; [by constructor|by eapply tx_no_fee]. }
    destruct (run_tx_post_auth_chain _ _ _ _ _ _) as [r w2].
    destruct H as [H|H]; cbn [fst snd] in *; [left; by destruct r|].
    inversion H as [e Hn Er Es|e S2 Hd Hs|S2 Hd Hs]; subst; cbn [then_do].
    - right. cbn [fst snd]. rewrite <- Es. by constructor.
    - right. by eapply tx_no_fee.
    - assert (inv (w_store w2)) as HI2 by (eapply sent_inv; [|done]; by apply bump_inv).
      destruct (messages_ran (tx_users t) (tx_msgs t) HU HO w2 HI2) as [HM|HM]; [by left|right].
      by eapply tx_messages.
  Qed.

  Lemma check_tx_ran t w : inv (w_store w) -> wf_users (tx_users t) ->
    out (then_do (run_tx_admission_chain O MAP en dlv t w)
           (each_msg (run_admission_chain O msg_name MAP en dlv (tx_users t)) (tx_msgs t)))
      (fun r S' => S' = w_store w /\ (r = Ok tt -> admitted bits verify (w_store w) t)).
  Proof.
    intros HI HU. destruct (app_tx_handlers bits verify app HA) as [E1 E2].
    unfold run_tx_admission_chain. cbn [en_router env_of]. rewrite E1.
    pose proof (wpt_admission C bits verify app HA enum HE fuel t (w_store w) (iv_wt _ HI) HU w eq_refl) as H.
    destruct (run_tx_handlers _ _ _ _ _ _ _) as [r w1]. destruct H as [H|[Es H]]; cbn [fst snd] in *.
    { left. by destruct r. }
    destruct r as [[]|e| |]; [|right; done|by left|by left].
    cbn [then_do]. rewrite <- Es in HI.
    destruct (admissions_same (tx_users t) (tx_msgs t) w1 HI) as [HM|HM]; [by left|right]. rewrite HM, Es. done.
  Qed.

  Lemma step_ran c y : rt_enabled y = true -> rt_initialized y = true -> inv (w_store (rt_world y)) ->
    dead (fst (step c y))
    \/ call_ran bits verify decode (w_store (rt_world y)) c (fst (step c y)) (w_store (rt_world (snd (step c y))))
       /\ rt_enabled (snd (step c y)) = true /\ rt_initialized (snd (step c y)) = true.
  Proof.
    intros Hen Hin HI. destruct c as [id s|h rest|raw|raw|h|]; cbn [abci_step].
    - left. unfold init_chain. destruct s as [[d|]|].
      + unfold import. rewrite (tl_modules _ _ _ HA). cbn. exact I.
      + exact I.
      + unfold init_genesis. rewrite Hin. exact I.
    - unfold begin_block, rt_deliver. rewrite Hen.
      pose proof (wpd_begin fuel (w_store (rt_world y)) h rest
        (fun r S' => r = Ok tt /\ call_ran bits verify decode (w_store (rt_world y)) (CallBeginBlock h rest) r S') HI
        (conj eq_refl (ran_begin _ _ _ _ h rest)) (rt_world y) eq_refl) as H.
      destruct (deliver _ _ _ _ _ _ _ _ _) as [r w1]. destruct H as [H|[Hr H]]; cbn [fst snd] in *.
      { left. by destruct r. }
      subst r. cbn [or_panic fst snd set_world rt_world rt_enabled rt_initialized]. right.
      split; [exact H|done].
    - unfold check_tx, with_tx. destruct (decode raw) as [t|e| |] eqn:Ed; [|right; split; [by constructor|done]|by left|by left].
      destruct (HD _ _ Ed) as [HU HO]. unfold at_world. rewrite Hen.
      pose proof (check_tx_ran t (rt_world y) HI HU) as H.
      destruct (then_do _ _) as [r w1]. destruct H as [H|[Es H]]; cbn [fst snd] in *; [by left|right].
      cbn [set_world rt_world rt_enabled rt_initialized]. split; [|done]. rewrite Es. constructor. eauto.
    - unfold deliver_tx, with_tx. destruct (decode raw) as [t|e| |] eqn:Ed; [|right; split; [by constructor|done]|by left|by left].
      destruct (HD _ _ Ed) as [HU HO]. unfold at_world. rewrite Hen.
      pose proof (deliver_tx_ran t (rt_world y) HI HU HO) as H.
      destruct (then_do _ _) as [r w1]. destruct H as [H|H]; cbn [fst snd] in *; [by left|right].
      cbn [set_world rt_world rt_enabled rt_initialized]. split; [|done]. by econstructor.
    - unfold end_block, rt_deliver. rewrite Hen.
      pose proof (wpd_end fuel (w_store (rt_world y)) h
        (fun r S' => r = Ok tt /\ call_ran bits verify decode (w_store (rt_world y)) (CallEndBlock h) r S') HI
        (conj eq_refl (ran_end _ _ _ _ h)) (rt_world y) eq_refl) as H.
      destruct (deliver _ _ _ _ _ _ _ _ _) as [r w1]. destruct H as [H|[Hr H]]; cbn [fst snd] in *.
      { left. by destruct r. }
      subst r. cbn [or_panic fst snd set_world rt_world rt_enabled rt_initialized].
      rewrite (map_rt_get C (ap_registry app) (tl_schema _ _ _ HA)) by known.
      cbn [decide]. assert (inv (w_store w1)) as HI1.
      { by eapply call_ran_inv. }
      destruct (single _ (OUpdates []) HI1) as [o Ho]; [sing|]. cbn [ty_of] in Ho.
      destruct (decide (singleton_id = [])); [done|]. rewrite Ho.
      destruct (wt_updates _ (iv_wt _ HI1) _ _ Ho) as (_ & l & ->). right.
      cbn [fst snd set_world rt_world rt_enabled rt_initialized]. split; [exact H|done].
    - right. split; [constructor|done].
  Qed.

  Lemma run_history cs : forall y y', rt_enabled y = true -> rt_initialized y = true -> inv (w_store (rt_world y)) ->
    abci_run O MAP app enum fuel decode tx_users tx_msgs cs y = Some y' ->
    history bits verify decode cs (w_store (rt_world y)) (w_store (rt_world y'))
    /\ rt_enabled y' = true /\ rt_initialized y' = true.
  Proof.
    induction cs as [|c cs IH]; intros y y' H1 H2 HI; cbn [abci_run].
    - intros [= <-]. split; [constructor|done].
    - pose proof (step_ran c y H1 H2 HI) as H. destruct (step c y) as [r z]. cbn [fst snd] in *.
      destruct H as [H|(H & E1 & E2)]; [by destruct r|].
      assert (inv (w_store (rt_world z))) as HI1 by (by eapply call_ran_inv).
      assert (abci_run O MAP app enum fuel decode tx_users tx_msgs cs z = Some y' ->
              history bits verify decode (c :: cs) (w_store (rt_world y)) (w_store (rt_world y'))
              /\ rt_enabled y' = true /\ rt_initialized y' = true) as HH.
      { intros Hr. destruct (IH z y' E1 E2 HI1 Hr) as [HH HR]. split; [by econstructor|done]. }
      destruct r; done.
  Qed.
End Hist.
