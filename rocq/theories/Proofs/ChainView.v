(** The running node and the abstract histories. *)
From Coq Require Import NArith ZArith List Bool String Lia.
From stdpp Require Import base list gmap relations.
From Verif.Model Require Import Bytes KindEncoder Desc Schema Indexes Orm Users Prog Router Runtime
  Services Module Builder Universe Coin CoreModules Rbac Bank Authn Distribution TestApp Abci.
From Verif.Spec Require Import UserSpec StoreSpec RuntimeSpec RbacSpec ChainSpec.
From Verif.Proofs Require Import BytesFacts KindEncoderFacts RegistryFacts OrmFacts UserFacts RuntimeFacts
  BuilderFacts SimFacts AppFacts AppSim RbacFacts MapExec ChainInv ChainWp ChainRun ChainHist ReadOnlyFacts.

Lemma modules_of_app_eq : modules_of_app = module_names.
Proof. vm_compute. reflexivity. Qed.

(** ** Proper transactions *)
Lemma proper_users t u : proper t -> is_Some (tx_users t !! u) <-> signs t u.
Proof.
  intros [_ -> _ _ _]. rewrite from_string_lookup. unfold signs.
  destruct (decide _); split; intros; [done|eauto|by destruct H|done].
Qed.
Lemma proper_wf t : proper t -> wf_users (tx_users t).
Proof. intros [_ -> _ _ _]. apply from_string_wf. Qed.
Lemma proper_ordinary t : proper t -> ordinary (tx_users t).
Proof.
  intros HP u Hu. apply (proper_users t u HP) in Hu. rewrite <- modules_of_app_eq.
  destruct HP as [_ _ _ HF _]. rewrite Forall_forall in HF. apply elem_of_list_fmap in Hu as (s & -> & Hs). by apply HF.
Qed.
Lemma proper_nonempty t : proper t -> tx_users t <> ∅.
Proof.
  intros HP E. pose proof (pr_signed t HP) as Hs. destruct (tx_signers t) as [|s l] eqn:El; [done|].
  assert (is_Some (tx_users t !! sg_address s)) as [? H].
  { apply (proper_users t _ HP). unfold signs. rewrite El. left. }
  rewrite E, lookup_empty in H. done.
Qed.

(** ** Views *)
Definition same_view (v v' : view) : Prop :=
  forall ty id o, ty ∈ all_types -> v ty id o <-> v' ty id o.
Lemma same_view_sym v v' : same_view v v' -> same_view v' v.
Proof. intros H ty id o Ht. by rewrite (H ty id o Ht). Qed.
Local Ltac known := apply (bool_decide_unpack _); vm_compute; exact I.

Lemma admissible_impl bits verify v v' t : same_view v v' -> admissible bits verify v t -> admissible bits verify v' t.
Proof.
  intros H [H1 H2 H3 H4 H5 H6]. split.
  - intros a Ha. destruct (H1 a Ha) as [acc Hx]. exists acc. by apply H; [known|].
  - destruct H2 as (n & Hn & H2). exists n. split; [by apply H; [known|]|done].
  - destruct H3 as (p & Hp & H3). exists p. split; [by apply H; [known|]|done].
  - destruct H4 as (p & Hp & H4). exists p. split; [by apply H; [known|]|done].
  - destruct H5 as (c & Hc & H5). exists c. split; [by apply H; [known|]|].
    intros s Hs. destruct (H5 s Hs) as (acc & Ha & HH). exists acc. split; [by apply H; [known|]|done].
  - destruct H6 as (a & c & r & Hb & H6). exists a, c, r. split; [by apply H; [known|]|done].
Qed.
Lemma admissible_view bits verify v v' t : same_view v v' -> admissible bits verify v t <-> admissible bits verify v' t.
Proof. intros H. split; apply admissible_impl; [done|by apply same_view_sym]. Qed.

Lemma admissible_map bits verify S t : wt S -> proper t ->
  admissible bits verify (map_stored S) t <-> admitted bits verify S t.
Proof.
  intros HW HP. split.
  - intros [H1 H2 H3 H4 H5 H6]. unfold map_stored in *. split.
    + intros u Hu. apply (proper_users t u HP) in Hu. destruct (H1 u Hu) as [acc Ha]. eauto.
    + done.
    + destruct H3 as (p & Hp & H3). exists p. split; done.
    + done.
    + destruct H5 as (c & Hc & H5). exists c. split; [done|]. apply Forall_forall. intros s Hs.
      destruct (H5 s Hs) as (acc & A1 & A2 & A3 & A4). exists acc. auto.
    + done.
  - intros [H1 H2 H3 H4 H5 H6]. unfold map_stored. split.
    + intros u Hu. apply (proper_users t u HP) in Hu. destruct (H1 u Hu) as [o Ho].
      destruct (wt_account S HW _ _ Ho) as (a & -> & _). eauto.
    + done.
    + destruct H3 as (p & Hp & H3). exists p. split; done.
    + done.
    + destruct H5 as (c & Hc & H5). exists c. split; [done|]. rewrite Forall_forall in H5. intros s Hs.
      destruct (H5 s Hs) as (acc & A1 & A2 & A3 & A4). exists acc. auto.
    + done.
Qed.

(** ** Genesis on the map *)
Section Start.
  Context (C : codec) (bits : N) (verify : bytes -> bytes -> bytes -> bool).
  Context (enum : list (event object msg) -> users -> list user) (fuel : nat) (decode : bytes -> res tx).
  Notation app := (test_app bits verify).
  Notation O := (app_ops C).
  Notation MAP := (map_ops O (ap_registry app)).
  Notation mrun := (abci_run O MAP app enum fuel decode tx_users tx_msgs).

  Lemma genesis_run id cs y : mrun (CallInitChain id None :: cs) (rt_start ∅) = Some y ->
    exists y0, mrun cs y0 = Some y /\ rt_enabled y0 = true /\ rt_initialized y0 = true
               /\ w_store (rt_world y0) = genesis_store id.
  Proof.
    cbn [abci_run abci_step]. pose proof (genesis_outcome C bits verify enum fuel id) as H.
    destruct (init_chain O MAP app enum fuel id None (rt_start ∅)) as [r y0]. cbn [fst snd] in H.
    destruct fuel as [|[|f]]; [subst r; discriminate|subst r; discriminate|].
    destruct H as (-> & H1 & H2 & H3). intros Hr. exists y0. split; [done|]. split; [done|]. split; [done|].
    rewrite <- (list_to_map_to_list (w_store (rt_world y0))), H3. apply list_to_map_to_list.
  Qed.
End Start.

(** ** The node *)
Section Node.
  Context (C : codec) (bits : N) (verify : bytes -> bytes -> bytes -> bool).
  Context (enum : list (event object msg) -> users -> list user) (fuel : nat) (decode : bytes -> res tx).
  Context (HS : sound C enum decode).
  Notation app := (test_app bits verify).
  Notation O := (app_ops C).
  Notation R := (ap_registry app).
  Notation MAP := (map_ops O R).
  Notation ORM := (orm_ops O R).
  Notation call := (call C bits verify enum fuel decode).
  Notation calls := (calls C bits verify enum fuel decode).
  Notation running := (running C bits verify enum fuel decode).
  Notation gets := (gets C bits verify).
  Notation pay := (pay C bits verify enum fuel).
  Notation send := (send C bits verify enum fuel).
  Notation reachable := (reachable C bits verify enum fuel decode).
  Notation sim := (simrt C (app_registry bits verify)).
  Implicit Types (S : amap) (x : node).

  (** The node stores [S]. *)
  Definition shown x S : Prop := repr O R S (w_store (rt_world x)).

  Lemma reads_map x S : shown x S -> same_view (gets x) (map_stored S).
  Proof.
    intros HR ty id o Ht. unfold ChainSpec.gets, map_stored.
    pose proof (test_app_like bits verify) as HA.
    destruct (orm_get_map C R (tl_registry _ _ _ HA) (tl_schema _ _ _ HA) S _ ty id (so_codec _ _ _ HS) HR Ht) as [H _].
    unfold the_app. generalize dependent (orm_get O R ty id (w_store (rt_world x))). intros g H.
    pose proof (repr_wt C R (tl_schema _ _ _ HA) S _ HR) as HW.
    split.
    - intros ->. by destruct H.
    - intros Ho. destruct g as [o'|e| |]; [destruct H; congruence|..];
        destruct H as [->|H]; try congruence; by destruct (HW _ _ _ Ho) as (_ & _ & ?).
  Qed.
  Lemma shown_wt x S : shown x S -> wt S.
  Proof. intros HR. exact (repr_wt C R (tl_schema _ _ _ (test_app_like bits verify)) S _ HR). Qed.
  Lemma reads_iff x S ty id o : shown x S -> ty ∈ all_types -> gets x ty id o <-> S !! (ty, id) = Some o.
  Proof. intros H Ht. by apply (reads_map x S H ty id o Ht). Qed.

  (** The node runs after genesis and stores [S]. *)
  Lemma gets_known x ty id o : gets x ty id o -> ty ∈ all_types.
  Proof.
    unfold ChainSpec.gets, the_app, orm_get, registry_get. intros H.
    destruct (rg_schemas R !! ty) eqn:E; [|discriminate H]. exact (schema_known bits verify ty s E).
  Qed.
  Lemma gets_iff x S x' S' ty ty' k k' o : shown x S -> shown x' S' -> ty = ty' -> k = k' ->
    (ty ∈ all_types -> S' !! (ty, k) = S !! (ty', k')) -> gets x' ty k o <-> gets x ty' k' o.
  Proof.
    intros Hx Hx' -> -> H. split; intros Hg; pose proof (gets_known _ _ _ _ Hg) as Ht; specialize (H Ht).
    - apply (reads_iff x S _ _ _ Hx Ht). apply (reads_iff x' S' _ _ _ Hx' Ht) in Hg. congruence.
    - apply (reads_iff x' S' _ _ _ Hx' Ht). apply (reads_iff x S _ _ _ Hx Ht) in Hg. congruence.
  Qed.

  Record tracked x S : Prop := {
    tk_shown : shown x S;
    tk_inv : inv S;
    tk_sim : exists y, sim x y /\ w_store (rt_world y) = S /\ rt_enabled y = true /\ rt_initialized y = true
  }.
  Lemma tracked_intro x y : sim x y -> inv (w_store (rt_world y)) -> rt_enabled y = true -> rt_initialized y = true ->
    tracked x (w_store (rt_world y)).
  Proof. intros Hs HI H1 H2. split; [exact (proj1 (sr_world _ _ _ _ Hs))|done|]. exists y. auto. Qed.

  Lemma decoder_users raw t : decode raw = Ok t -> wf_users (tx_users t) /\ ordinary (tx_users t).
  Proof. intros H. apply (so_decoder _ _ _ HS) in H. split; [by apply proper_wf|by apply proper_ordinary]. Qed.

  Lemma call_tracked x S c r x' : tracked x S -> call c x = (r, x') -> alive r ->
    exists S', tracked x' S' /\ call_ran bits verify decode S c r S'.
  Proof.
    intros [_ HI (y & Hs & <- & He & Hin)] Hc Ha.
    pose proof (test_app_step_sim C bits verify enum fuel decode c x y (so_codec _ _ _ HS) Hs) as H.
    unfold ChainSpec.call, bytes_store, the_app in Hc. unfold app_registry in H. rewrite Hc in H.
    pose proof (step_ran C bits verify app (test_app_like bits verify) enum (so_order _ _ _ HS) fuel decode
                  decoder_users c y He Hin HI) as Hr.
    destruct (abci_step O MAP _ _ _ _ _ _ c y) as [r' y'].
    destruct H as [H|[H1 H2]]; cbn [fst snd] in *; [by destruct r|]. subst r'.
    destruct Hr as [Hr|(Hr & H3 & H4)]; [by destruct r|].
    exists (w_store (rt_world y')). split; [|done]. apply tracked_intro; [done|by eapply call_ran_inv|done|done].
  Qed.

  Lemma calls_tracked cs : forall x S x', tracked x S -> calls cs x = Some x' ->
    exists S', tracked x' S' /\ history bits verify decode cs S S'.
  Proof.
    unfold ChainSpec.calls. induction cs as [|c cs IH]; intros x S x' HT; cbn [abci_run].
    - intros [= <-]. exists S. split; [done|constructor].
    - destruct (abci_step _ _ _ _ _ _ _ _ c x) as [r x1] eqn:Ec.
      intros Hr. assert (alive r) as Ha by (by destruct r).
      destruct (call_tracked x S c r x1 HT Ec Ha) as (S1 & HT1 & Hc).
      destruct (IH x1 S1 x' HT1) as (S' & HT' & Hh); [by destruct r|].
      exists S'. split; [done|]. by econstructor.
  Qed.

  Lemma running_tracked id cs x : running id cs x ->
    exists S, tracked x S /\ history bits verify decode cs (genesis_store id) S.
  Proof.
    unfold ChainSpec.running, ChainSpec.calls. intros H.
    apply (test_app_run_sim C bits verify enum fuel decode _ _ _ _ (so_codec _ _ _ HS) (rt_start_sim C _)) in H.
    destruct H as (y & Hr & Hs). unfold app_registry in Hr.
    destruct (genesis_run C bits verify enum fuel decode id cs y Hr) as (y0 & Hr0 & H1 & H2 & H3). clear Hr.
    pose proof (run_history C bits verify app (test_app_like bits verify) enum (so_order _ _ _ HS) fuel decode
                  decoder_users cs y0 y H1 H2) as H.
    rewrite H3 in H. destruct (H (genesis_inv id) Hr0) as (Hh & H4 & H5).
    exists (w_store (rt_world y)). split; [|done]. apply tracked_intro; [done| |done|done].
    eapply history_inv; [|done]. apply genesis_inv.
  Qed.

  Lemma running_step id cs x c r x' : running id cs x -> call c x = (r, x') -> alive r -> running id (cs ++ [c]) x'.
  Proof.
    unfold ChainSpec.running, ChainSpec.calls, ChainSpec.call. intros H Hc Ha.
    change (CallInitChain id None :: cs ++ [c]) with ((CallInitChain id None :: cs) ++ [c]).
    revert H. generalize (CallInitChain id None :: cs), new_node. intros l. induction l as [|d l IH]; intros z; cbn [abci_run List.app].
    - intros [= ->]. rewrite Hc. by destruct r.
    - destruct (abci_step _ _ _ _ _ _ _ _ d z) as [rd zd]. destruct rd; try done; apply IH.
  Qed.
  Lemma running_calls id cs x cs' x' : running id cs x -> calls cs' x = Some x' -> running id (cs ++ cs') x'.
  Proof.
    unfold ChainSpec.running, ChainSpec.calls. intros H Hc.
    change (CallInitChain id None :: cs ++ cs') with ((CallInitChain id None :: cs) ++ cs').
    revert H. generalize (CallInitChain id None :: cs), new_node. intros l. induction l as [|d l IH]; intros z; cbn [abci_run List.app].
    - intros [= ->]. done.
    - destruct (abci_step _ _ _ _ _ _ _ _ d z) as [rd zd]. destruct rd; try done; apply IH.
  Qed.

  Lemma admissible_tracked x S t : shown x S -> proper t ->
    admissible bits verify (gets x) t <-> admitted bits verify S t.
  Proof.
    intros Hx HP. rewrite (admissible_view _ _ _ _ _ (reads_map x S Hx)). apply admissible_map; [|done].
    by eapply shown_wt.
  Qed.

  (** A message, and the fee. *)
  Lemma send_tracked (us : users) (m : msg) x S (r : res unit) x' : tracked x S -> wf_users us -> ordinary us ->
    send us m x = (r, x') -> alive r ->
    exists S', tracked x' S' /\ ran bits us m S r S'.
  Proof.
    intros [_ HI (y & Hs & <- & He & Hin)] HU HO Hc Ha.
    pose proof (wpd_ordinary C bits verify app (test_app_like bits verify) enum (so_order _ _ _ HS) fuel us m
      _ _ HI HU HO (fun r S' H => H) (rt_world y) eq_refl) as H.
    unfold ChainSpec.send, at_world, bytes_store, the_app in Hc.
    rewrite (sr_enabled _ _ _ _ Hs), He in Hc.
    pose proof (test_app_deliver_sim C bits verify enum fuel true us m _ _ (so_codec _ _ _ HS) (sr_world _ _ _ _ Hs)) as Hd.
    unfold app_registry in Hd.
    destruct (deliver _ _ ORM _ _ _ _ _ _) as [r1 w1]. injection Hc as -> <-.
    destruct (deliver _ _ MAP _ _ _ _ _ _) as [r2 w2].
    destruct Hd as [Hd|[Hd Hw]]; cbn [fst snd] in *; [by destruct r|]. subst r2.
    destruct H as [H|H]; [by destruct r|]. cbn [fst snd] in *.
    exists (w_store w2). split; [|done].
    change (w_store w2) with (w_store (rt_world (set_world y w2))).
    apply tracked_intro; [by apply set_world_sim|by eapply ran_inv|done|done].
  Qed.
  Lemma pay_tracked t x S (r : res unit) x' : tracked x S -> proper t -> pay t x = (r, x') -> alive r ->
    exists S', tracked x' S' /\ paid bits verify t S r S'.
  Proof.
    intros [_ HI (y & Hs & <- & He & Hin)] HP Hc Ha.
    pose proof (pay_ran C bits verify app (test_app_like bits verify) enum (so_order _ _ _ HS) fuel t (rt_world y) HI
      (proper_wf t HP)) as H.
    unfold ChainSpec.pay, at_world, bytes_store, the_app in Hc. cbv zeta in Hc.
    rewrite (sr_enabled _ _ _ _ Hs), He in Hc.
    pose proof (test_app_pay_sim C bits verify enum fuel t _ _ (so_codec _ _ _ HS) (sr_world _ _ _ _ Hs)) as Hd.
    unfold app_registry in Hd.
    match type of Hd with simr _ ?p ?q => destruct p as [r1 w1], q as [r2 w2] end.
    injection Hc as -> <-.
    destruct Hd as [Hd|[Hd Hw]]; cbn [fst snd] in *; [by destruct r|]. subst r2.
    destruct H as [H|H]; [by destruct r|]. cbn [fst snd] in *.
    exists (w_store w2). split; [|done].
    change (w_store w2) with (w_store (rt_world (set_world y w2))).
    apply tracked_intro; [by apply set_world_sim|by eapply paid_inv|done|done].
  Qed.
  (** Any contents of the store. *)
  Lemma written_shown x : written C bits verify x -> exists S, shown x S.
  Proof.
    intros (cs & l & H). unfold the_app in H. change (ap_registry (test_app bits verify)) with (app_registry bits verify) in H.
    destruct (run_refines O (app_registry bits verify) cs ∅ orm_empty (so_codec _ _ _ HS) (app_registry_ok bits verify)
      (repr_empty O (app_registry bits verify))) as [H1 H2].
    { apply Forall_forall. intros c _. destruct c; try exact I; apply app_typed. }
    unfold run_model in H. rewrite H in H2. cbn [snd] in H2.
    destruct (run (spec_call O _) cs ∅) as [l' [S|]]; cbn [snd] in H2; [|done]. by exists S.
  Qed.
  Lemma tracked_shown x S : shown x S -> inv S -> rt_enabled x = true -> rt_initialized x = true -> tracked x S.
  Proof.
    intros Hx HI He Hi.
    set (y := {| rt_initialized := rt_initialized x; rt_enabled := rt_enabled x;
                 rt_world := {| w_store := S; w_trace := w_trace (rt_world x) |}; rt_services := rt_services x |}).
    split; [done..|]. exists y. split; [|done]. by split.
  Qed.
  Lemma tracked_flags x S : tracked x S -> rt_enabled x = true /\ rt_initialized x = true.
  Proof. intros [_ _ (y & [H1 H2 _ _] & _ & H3 & H4)]. split; congruence. Qed.

  Lemma inv_balances S S' : inv S -> wt S' -> (forall ty k, ty ∈ all_types -> ty <> ty_balance -> S' !! (ty, k) = S !! (ty, k)) ->
    inv S'.
  Proof.
    intros [H1 H2 H3 H4 H5 H6 H7 H8] HW H.
    assert (forall ty k, ty = ty_binding \/ ty = ty_role \/ ty = ty_modules \/ ty = ty_auth_params -> S' !! (ty, k) = S !! (ty, k)) as H0.
    { intros ty k E. apply H.
      - destruct E as [->|[->|[->| ->]]]; apply (bool_decide_unpack _); vm_compute; exact I.
      - destruct E as [->|[->|[->| ->]]]; apply (bool_decide_unpack _); vm_compute; exact I. }
    split.
    - done.
    - intros n r Hn. rewrite !H0 by auto. by apply H2.
    - rewrite H0 by auto. done.
    - intros u s ref. rewrite H0 by auto. apply H4.
    - intros k r. rewrite H0 by auto. apply H5.
    - rewrite H0 by auto. done.
    - rewrite H0 by auto. done.
    - apply Forall_forall. intros o Ho. rewrite H.
      + by apply (proj1 (Forall_forall _ _) H8).
      + revert o Ho. apply Forall_forall, (bool_decide_unpack _). vm_compute. exact I.
      + revert o Ho. apply Forall_forall, (bool_decide_unpack _). vm_compute. exact I.
  Qed.

  Lemma reachable_tracked id x : reachable id x -> exists S, tracked x S.
  Proof.
    induction 1 as [cs x H|x t r x' _ [S IH] HP Hp Ha|x t m r x' _ [S IH] HP Hp Ha|x x' _ [S IH] Hw He Hi Hg].
    - apply running_tracked in H as (S & HT & _). eauto.
    - destruct (pay_tracked t x S r x' IH HP Hp Ha) as (S' & HT & _). eauto.
    - destruct (send_tracked (tx_users t) m x S r x' IH (proper_wf t HP) (proper_ordinary t HP) Hp Ha) as (S' & HT & _). eauto.
    - destruct (written_shown x' Hw) as [S' Hx]. exists S'. apply tracked_shown; [done| |done..].
      apply (inv_balances S); [by apply (tk_inv x S)|by eapply shown_wt|].
      intros ty k Ht Hn. apply option_eq. intros o.
      rewrite <- (reads_iff x' S' ty k o Hx Ht), <- (reads_iff x S ty k o (tk_shown _ _ IH) Ht). by apply Hg.
  Qed.
End Node.
