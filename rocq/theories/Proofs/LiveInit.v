(** InitChain of a new node succeeds, unless an object cannot be stored. *)
From Coq Require Import NArith ZArith List Bool String Lia.
From stdpp Require Import base list option gmap.
From Verif.Model Require Import Bytes KindEncoder Desc Schema Orm Users Errors Prog Router Runtime Services Module Builder
  Universe Coin CoreModules Rbac Bank Authn Distribution TestApp Abci Wire Proto Marshal TxDecoder.
From Verif.Spec Require Import UserSpec StoreSpec RuntimeSpec RbacSpec ChainSpec LiveSpec.
From Verif.Proofs Require Import BytesFacts RegistryFacts OrmFacts AppFacts RuntimeFacts DeliverFacts SimFacts AppSim MapExec ChainInv ChainView DecoderFacts
  TotalExec LiveProto ExactSim.

Section Steps.
  Context (C : codec) (bits : N) (verify : bytes -> bytes -> bytes -> bool).
  Context (enum : list (event object msg) -> users -> list user) (fuel : nat) (decode : bytes -> res tx).
  Context (HC : codec_ok (app_ops C)).
  Notation O := (app_ops C).
  Notation R := (app_registry bits verify).

  Lemma test_app_step_exact ok c x y : simrt C R x y ->
    xr (rstuck C ok) (simrt C R)
      (abci_step O (orm_ops O R) (test_app bits verify) enum fuel decode tx_users tx_msgs c x)
      (abci_step O (map_only O R ok) (test_app bits verify) enum fuel decode tx_users tx_msgs c y).
  Proof.
    apply abci_step_exact; [exact HC|apply app_registry_ok|apply app_typed|apply app_schema| | |].
    - apply app_router_no_list.
    - apply tx_chains_no_list.
    - rewrite app_modules_eq. apply genesis_no_list.
  Qed.
  Lemma test_app_genesis_exact ok x y : simrt C R x y ->
    xr (rstuck C ok) (simrt C R)
      (init_genesis O msg_name (orm_ops O R) CreateModuleDescriptors (test_app bits verify) enum fuel x)
      (init_genesis O msg_name (map_only O R ok) CreateModuleDescriptors (test_app bits verify) enum fuel y).
  Proof.
    apply init_genesis_exact; [exact HC|apply app_registry_ok|apply app_typed|apply app_schema| |].
    - apply app_router_no_list.
    - rewrite app_modules_eq. apply genesis_no_list.
  Qed.
  Lemma test_app_deliver_exact ok us m x y : simrt C R x y ->
    xr (rstuck C ok) (simrt C R)
      (rt_deliver O msg_name (orm_ops O R) (test_app bits verify) enum fuel us m x)
      (rt_deliver O msg_name (map_only O R ok) (test_app bits verify) enum fuel us m y).
  Proof.
    apply rt_deliver_exact; [exact HC|apply app_registry_ok|apply app_typed|apply app_schema|].
    apply app_router_no_list.
  Qed.
End Steps.

Lemma exact_succeeds {A} (good : object -> Prop) C ok Y (P : node -> Y -> Prop) (p : res A * node) (q : res A * Y) a :
  (forall o, storable (app_ops C) (schema_of o) o = false /\ ok o = true -> good o) ->
  xr (rstuck C ok) P p q -> fst q = Ok a -> succeeds good p.
Proof.
  intros Hg [[H|[H1 H2]]|[H1 _]] Hq.
  - by rewrite Hq in H.
  - right. split; [by destruct (fst p); cbn; tauto|]. destruct H2 as (tr & o & us & Ht & Hs & Hok).
    exists tr, o, us. split; [by apply Hg|exact Ht].
  - left. exists a. congruence.
Qed.

Lemma init_any C bits verify enum fuel decode id : sound C enum decode -> 2 <= fuel ->
  succeeds (cannot_store C bits verify) (call C bits verify enum fuel decode (CallInitChain id None) new_node).
Proof.
  intros HS Hf.
  pose proof (test_app_step_exact C bits verify enum fuel decode (so_codec _ _ _ HS) (fun _ => true) (CallInitChain id None) _ _
    (rt_start_sim C (app_registry bits verify))) as H.
  pose proof (genesis_outcome C bits verify enum fuel id) as HG.
  destruct fuel as [|[|f]]; [lia..|]. destruct HG as [HG _].
  refine (exact_succeeds _ C _ _ _ _ _ tt _ H HG).
  intros o [Ho _]. apply cannot_store_intro. split; [exact Ho|exact I].
Qed.

(** With protobuf: what is written up to SetInitChain fits, and then the name of
    the chain, if it is UTF-8. *)
Definition fits_always (o : object) : bool :=
  match o with OInitChainInfo (_ :: _) => false | _ => ok_object o && sized o end.
Notation map_fits bits verify := (map_only (app_ops protobuf) (app_registry bits verify) fits_always).
Notation genesis_run bits verify enum fuel := (init_genesis (app_ops protobuf) msg_name (map_fits bits verify)
  CreateModuleDescriptors (test_app bits verify) enum fuel (rt_start ∅)).
Lemma genesis_fits bits verify enum fuel id : 2 <= fuel ->
  fst (genesis_run bits verify enum fuel) = Ok tt
  /\ rt_enabled (snd (genesis_run bits verify enum fuel)) = false
  /\ fst (rt_deliver (app_ops protobuf) msg_name (map_only (app_ops protobuf) (app_registry bits verify) (fun _ => true))
       (test_app bits verify) enum fuel abci_users (MsgSetInitChain (Some id)) (snd (genesis_run bits verify enum fuel))) = Ok tt.
Proof.
  intros Hf. destruct fuel as [|[|f]]; [lia..|].
  split; [vm_compute; reflexivity|]. split; vm_compute; reflexivity.
Qed.

Definition wrote (l : list object) (e : event object msg) : Prop :=
  match e with EvWrite (WUpdate o) _ => o ∈ l | EvWrite _ _ => False | _ => True end.

Section Unguarded.
  Context (C : codec) (bits : N) (verify : bytes -> bytes -> bytes -> bool).
  Context (enum : list (event object msg) -> users -> list user).
  Context {St : Type} (SO : storeops object St).
  Notation O := (app_ops C).
  Notation en := (env_of (test_app bits verify) enum false).
  Notation new_events := (new_events (Obj:=object) (Msg:=msg) (St:=St)).

  Lemma free_update dlv self o l (p : prog object msg unit) w r w' : o ∈ l ->
    (forall w r w', exec O SO en dlv self p w = (r, w') -> new_events w w' (wrote l)) ->
    exec O SO en dlv self (update_ o p) w = (r, w') -> new_events w w' (wrote l).
  Proof.
    intros Ho Hp. unfold update_. cbn [exec]. destruct (rt_update O SO en self o w) as [r1 w1] eqn:E.
    assert (new_events w w1 (wrote l)) as H1.
    { unfold rt_update, authorized in E. cbn [en_enabled env_of negb] in E.
      eapply write_events; [|exact E]. exact Ho. }
    destruct r1 as [u|e| |]; intros H.
    - eapply new_events_trans; [exact H1|]. by eapply Hp.
    - cbn [exec] in H. by injection H as <- <-.
    - by injection H as <- <-.
    - by injection H as <- <-.
  Qed.
  Lemma set_init_events f us id w r w' :
    deliver O msg_name SO en (S f) false us (MsgSetInitChain (Some id)) w = (r, w') ->
    new_events (log (EvDeliver (MsgSetInitChain (Some id)) us) w) w' (wrote [OInitChainInfo id; OStage StInitChain]).
  Proof.
    cbn [deliver]. unfold deliver_body, run_admission_chain, authorized, deliver_authorized.
    cbn [en_enabled env_of negb]. change (en_router en) with (ap_router (test_app bits verify)).
    destruct (app_routes bits verify (MsgSetInitChain (Some id))) as (-> & -> & -> & ->).
    cbn [exec_of admission_of post_of run_handlers]. unfold run_handler. cbn [h_self h_run set_init_chain].
    match goal with |- context [exec ?a ?b ?c ?d ?e ?p ?v] => destruct (exec a b c d e p v) as [r1 w1] eqn:E end.
    assert (new_events (log (EvDeliver (MsgSetInitChain (Some id)) us) w) w1 (wrote [OInitChainInfo id; OStage StInitChain])) as H1.
    { revert E. apply free_update; [set_solver|]. intros ? ? ?. apply free_update; [set_solver|].
      intros ? ? ?. cbn [exec]. intros H. injection H as <- <-. apply new_events_refl. }
    destruct r1; intros H; injection H as <- <-; exact H1.
  Qed.
End Unguarded.

Lemma stuck_last C good (w w' : world object msg orm) l :
  new_events w w' (wrote l) -> ~ stuck C good w -> stuck C good w' ->
  exists o, o ∈ l /\ storable (app_ops C) (schema_of o) o = false
    /\ exists tr us, w_trace w' = tr ++ [EvWrite (WUpdate o) us].
Proof.
  intros (new & Ht & HF) Hw (tr & o & us & H1 & H2 & H3).
  destruct new as [|e new] using rev_ind.
  - exfalso. apply Hw. exists tr, o, us. rewrite app_nil_r in Ht. rewrite <- Ht. auto.
  - rewrite Ht, app_assoc in H1. apply Forall_app in HF as [_ HF]. apply Forall_cons in HF as [He _].
    assert (e = EvWrite (WCreate o) us \/ e = EvWrite (WUpdate o) us) as [->| ->].
    { destruct H1 as [H1|H1]; apply app_inj_tail in H1 as [_ ->]; auto. }
    + done.
    + exists o. split; [exact He|]. split; [exact H2|]. eexists _, us. rewrite Ht, app_assoc. reflexivity.
Qed.

Lemma init_protobuf bits verify enum fuel hash160 id : (forall tr, fair_order (enum tr)) -> 2 <= fuel -> utf8_valid id = true ->
  succeeds oversized (call protobuf bits verify enum fuel (decode_tx hash160) (CallInitChain id None) new_node).
Proof.
  intros HE Hf Hid. pose proof (protobuf_sound hash160 enum HE) as HS. pose proof (so_codec _ _ _ HS) as HC.
  destruct (genesis_fits bits verify enum fuel id Hf) as (G1 & G2 & G3).
  pose proof (test_app_genesis_exact protobuf bits verify enum fuel HC fits_always _ _ (rt_start_sim protobuf (app_registry bits verify))) as X1.
  unfold call, bytes_store, the_app. cbn [abci_step]. unfold init_chain.
  change (ap_registry (test_app bits verify)) with (app_registry bits verify).
  revert X1 G1 G2 G3. change new_node with (rt_start (St:=orm) orm_empty).
  generalize (init_genesis (app_ops protobuf) msg_name (orm_ops (app_ops protobuf) (app_registry bits verify))
    CreateModuleDescriptors (test_app bits verify) enum fuel (rt_start orm_empty)).
  generalize (genesis_run bits verify enum fuel). intros [r1 y1] [s1 x1] X1 G1 G2 G3. cbn [fst snd] in *.
  destruct X1 as [[X1|[X1 X2]]|[X1 X2]]; cbn [fst snd] in *; [by rewrite G1 in X1| |].
  - right. assert (forall f, then_do (Abci.or_panic (s1, x1)) f = (s1, x1)) as Hd by (by destruct s1).
    rewrite Hd. cbn [fst snd]. split; [by destruct s1; cbn; tauto|].
    destruct X2 as (tr & o & us & Ht & Hs & Hok). exists tr, o, us. split; [|exact Ht].
    apply fits_oversized. split; [exact Hs|].
    assert (ok_object o && sized o = true)%bool as Hb.
    { revert Hok. unfold fits_always. destruct o as [| | | | |[|]| | | | | | | | | |]; try done. }
    apply andb_prop in Hb. exact Hb.
  - subst s1 r1. cbn [Abci.or_panic then_do].
    pose proof (test_app_deliver_exact protobuf bits verify enum fuel HC (fun _ => true) abci_users (MsgSetInitChain (Some id)) _ _ X2) as Y.
    pose proof (sr_enabled _ _ _ _ X2) as He. rewrite G2 in He.
    revert Y G3. generalize (rt_deliver (app_ops protobuf) msg_name (map_only (app_ops protobuf) (app_registry bits verify) (fun _ => true))
      (test_app bits verify) enum fuel abci_users (MsgSetInitChain (Some id)) y1). intros [r2 y2] Y G3. cbn [fst snd] in *.
    unfold rt_deliver, at_world in *. rewrite He in *.
    destruct fuel as [|f]; [lia|].
    destruct (deliver _ _ _ _ _ _ _ _ _) as [s2 w2] eqn:Ed.
    pose proof (set_init_events protobuf bits verify enum _ f abci_users id _ _ _ Ed) as Hev.
    clear Ed X2 He. destruct Y as [[Y|[Y1 Y2]]|[Y1 Y2]]; [cbn [fst] in Y; rewrite G3 in Y; destruct Y| |].
    1: cbn [fst snd] in Y1, Y2. 2: cbn [fst] in Y1.
    + right. assert (forall g, then_do (Abci.or_panic (s2, set_world x1 w2)) g = (s2, set_world x1 w2)) as Hd.
      { clear - Y1. by destruct s2. }
      rewrite Hd. cbn [fst snd]. split; [clear - Y1; by destruct s2; cbn; tauto|].
      unfold rstuck in Y2. apply (stuck_last _ _ _ _ _ Hev) in Y2 as (o & Ho & Hs & tr & us & Ht).
      * exists tr, o, us. split; [|by right]. apply fits_oversized. split; [exact Hs|].
        apply elem_of_cons in Ho as [->|Ho]; [split; [exact Hid|reflexivity]|].
        apply elem_of_list_singleton in Ho as ->. split; reflexivity.
      * intros (tr & o & us & [H|H] & _); cbn [w_trace log] in H; apply app_inj_tail in H as [_ H]; discriminate H.
    + left. rewrite Y1, G3. cbn [Abci.or_panic then_do fst]. eauto.
Qed.
