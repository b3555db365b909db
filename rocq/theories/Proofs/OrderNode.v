(** Nodes under two orders of listing users. *)
From Coq Require Import NArith ZArith List Bool String Lia.
From stdpp Require Import base list gmap relations.
From Verif.Model Require Import Bytes KindEncoder Desc Schema Indexes Orm Users Prog Router Runtime
  Services Module Builder Universe Coin CoreModules Rbac Bank Authn Distribution TestApp Abci.
From Verif.Spec Require Import UserSpec StoreSpec RuntimeSpec RbacSpec ChainSpec.
From Verif.Proofs Require Import BytesFacts KindEncoderFacts RegistryFacts OrmFacts UserFacts RuntimeFacts
  BuilderFacts SimFacts AppFacts AppSim RbacFacts MapExec ChainInv ChainWp ChainRun ChainHist ChainView ChainProps
  OrderFacts OrderChain.

(** ** Any calls but transactions *)
Section Calls.
  Context (C : codec) (bits : N) (verify : bytes -> bytes -> bytes -> bool).
  Context (app : application object msg tx) (HA : test_like bits verify app).
  Context (HC : codec_ok (app_ops C)).
  Context (HT : forall o, typed_in (app_ops C) (ap_registry app) o).
  Context (enum1 : list (event object msg) -> users -> list user) (HE1 : forall tr, fair_order (enum1 tr)).
  Context (enum2 : list (event object msg) -> users -> list user) (HE2 : forall tr, fair_order (enum2 tr)).
  Notation O := (app_ops C).
  Notation R := (ap_registry app).
  Notation ORM := (orm_ops O R).
  Notation world := (world object msg orm).
  Notation node := (rt object msg orm).
  Context (fuel : nat).
  Notation alike := (alike C app).
  Notation same := (same C app).
  Notation en1 b := (env_of app enum1 b).
  Notation en2 b := (env_of app enum2 b).

  Record near (x y : node) : Prop := {
    ne_initialized : rt_initialized x = rt_initialized y;
    ne_enabled : rt_enabled x = rt_enabled y;
    ne_store : alike (w_store (rt_world x)) (w_store (rt_world y))
  }.
  Definition nearly {A : Type} (p q : res A * node) : Prop :=
    dead (fst p) /\ dead (fst q) \/ fst p = fst q /\ ~ dead (fst p) /\ near (snd p) (snd q).

  Lemma then_near p q f g : nearly p q -> (forall x y, near x y -> nearly (f x) (g y)) ->
    nearly (then_do p f) (then_do q g).
  Proof.
    destruct p as [r1 a], q as [r2 b]. intros [[D1 D2]|(E & D & H)] Hf; cbn [fst snd] in *.
    - left. split; [by destruct r1|by destruct r2].
    - subst. destruct r2; cbn [then_do]; [by apply Hf|right; cbn; auto|by destruct D..].
  Qed.
  Lemma or_panic_near {A : Type} (p q : res A * node) : nearly p q -> nearly (or_panic p) (or_panic q).
  Proof.
    destruct p as [r1 a], q as [r2 b]. intros [[D1 D2]|(E & D & H)]; cbn [fst snd] in *.
    - left. split; [by destruct r1|by destruct r2].
    - subst. destruct r2; cbn [or_panic]; [right; cbn; auto|left; done|by destruct D..].
  Qed.
  Lemma at_near f g x y : near x y ->
    same (f (rt_enabled x) (rt_world x)) (g (rt_enabled x) (rt_world y)) -> nearly (at_world f x) (at_world g y).
  Proof.
    intros [H1 H2 H3] Hs. unfold at_world. rewrite <- H2.
    destruct (f _ _) as [r1 w], (g _ _) as [r2 v].
    destruct Hs as [[D1 D2]|(E & D & H)]; cbn [fst snd] in *; [left; done|].
    right. cbn [fst snd]. split; [done|]. split; [done|]. by split.
  Qed.
  Lemma rt_deliver_near n m x y : near x y ->
    nearly (rt_deliver O msg_name ORM app enum1 fuel (users_from_string [n]) m x)
           (rt_deliver O msg_name ORM app enum2 fuel (users_from_string [n]) m y).
  Proof.
    intros H. apply (at_near (fun b => deliver O msg_name ORM (en1 b) fuel false (users_from_string [n]) m)
                             (fun b => deliver O msg_name ORM (en2 b) fuel false (users_from_string [n]) m)); [done|].
    apply (deliver_same C bits verify app HA HC HT enum1 HE1 enum2 HE2), H.
  Qed.
  Lemma run_module_near (m : module object msg tx) p x y : unordered p -> near x y ->
    nearly (run_module O msg_name ORM app enum1 fuel m p x) (run_module O msg_name ORM app enum2 fuel m p y).
  Proof.
    intros Hp H. apply (at_near (fun b => exec O ORM (en1 b) (deliver O msg_name ORM (en1 b) fuel false) (module_self m) p)
      (fun b => exec O ORM (en2 b) (deliver O msg_name ORM (en2 b) fuel false) (module_self m) p)); [done|].
    unfold module_self.
    apply (exec_same C bits verify app HA HC HT enum1 HE1 enum2 HE2); [|done|apply H].
    intros. by apply (deliver_same C bits verify app HA HC HT enum1 HE1 enum2 HE2).
  Qed.
  Lemma each_near {A : Type} wrap (f g : A -> node -> res unit * node) l x y :
    Forall (fun a => forall x y, near x y -> nearly (f a x) (g a y)) l -> near x y ->
    nearly (each wrap f l x) (each wrap g l y).
  Proof.
    intros HF. revert x y. induction HF as [|a l Ha _ IH]; intros x y H; cbn [each]; [right; cbn; auto|].
    specialize (Ha x y H). destruct (f a x) as [r1 x1], (g a y) as [r2 y1].
    destruct Ha as [[D1 D2]|(E & D & Hx)]; cbn [fst snd] in *; [left; split; [by destruct r1|by destruct r2]|]. subst.
    destruct r2; [by apply IH|right; cbn; auto|by destruct D..].
  Qed.
  Local Lemma hgen : Forall (fun m => match mo_genesis m with
                   | None => True
                   | Some g => unordered (gn_default g) /\ forall x, unordered (gn_import g x)
                   end) (ap_modules app).
  Proof. rewrite (tl_modules _ _ _ HA). apply genesis_unordered. Qed.

  Lemma init_chain_near id st x y : near x y ->
    nearly (init_chain O ORM app enum1 fuel id st x) (init_chain O ORM app enum2 fuel id st y).
  Proof.
    intros H. unfold init_chain. apply then_near.
    - apply or_panic_near. destruct st as [[d|]|].
      + unfold import. apply each_near; [|done].
        eapply Forall_impl; [apply hgen|]. intros m Hm x1 y1 H1. cbn beta in *.
        destruct (mo_genesis m) as [g|]; [|right; cbn; auto]. apply run_module_near; [apply Hm|done].
      + right. cbn; auto.
      + unfold init_genesis. rewrite (ne_initialized _ _ H). destruct (rt_initialized y); [right; cbn; auto|].
        pose proof (rt_deliver_near runtime_user (CreateModuleDescriptors (map raw (ap_modules app))) x y H) as Hd.
        destruct (rt_deliver _ _ ORM _ enum1 _ _ _ _) as [r1 x1], (rt_deliver _ _ ORM _ enum2 _ _ _ _) as [r2 y1].
        destruct Hd as [[D1 D2]|(E & D & Hx)]; cbn [fst snd] in *; [left; split; [by destruct r1|by destruct r2]|]. subst.
        destruct r2; [|right; cbn; auto|by destruct D..].
        assert (nearly (genesis_modules O msg_name ORM app enum1 fuel (ap_modules app) x1)
                       (genesis_modules O msg_name ORM app enum2 fuel (ap_modules app) y1)) as Hg.
        { unfold genesis_modules. apply each_near; [|done].
          eapply Forall_impl; [apply hgen|]. intros m Hm x2 y2 H1. cbn beta in *.
          destruct (mo_genesis m) as [g|]; [|right; cbn; auto]. apply run_module_near; [apply Hm|done]. }
        destruct (genesis_modules _ _ ORM _ enum1 _ _ _) as [r1 x2], (genesis_modules _ _ ORM _ enum2 _ _ _) as [r2 y2].
        destruct Hg as [[D1 D2]|(E & D1 & Hy)]; cbn [fst snd] in *; [left; split; [by destruct r1|by destruct r2]|]. subst.
        destruct r2; [|right; cbn; auto|by destruct D1..]. destruct Hy as [A1 A2 A3].
        destruct (services_start _) as [l r].
        destruct r; [right|right|left; done|left; done]; (split; [done|]); (split; [cbn; auto|]); by split.
    - intros a b Hab. apply then_near; [by apply or_panic_near, rt_deliver_near|].
      intros a1 b1 [A1 A2 A3]. right. split; [done|]. split; [cbn; auto|]. by split.
  Qed.
  Lemma end_block_near h x y : near x y ->
    nearly (end_block O ORM app enum1 fuel h x) (end_block O ORM app enum2 fuel h y).
  Proof.
    intros H. unfold end_block.
    pose proof (or_panic_near _ _ (rt_deliver_near abci_user (MsgSetEndBlockState (Some h)) x y H)) as Hd.
    change abci_users with (users_from_string [abci_user]).
    destruct (or_panic (rt_deliver _ _ ORM _ enum1 _ _ _ _)) as [r1 x1],
             (or_panic (rt_deliver _ _ ORM _ enum2 _ _ _ _)) as [r2 y1].
    destruct Hd as [[D1 D2]|(E & D & Hx)]; cbn [fst snd] in *; [left; split; [by destruct r1|by destruct r2]|]. subst.
    destruct r2; [|right; cbn; auto|by destruct D..].
    destruct (get_same C bits verify app HA HC ty_updates singleton_id _ _ (ne_store _ _ Hx)) as [[D1 D2]|[-> D1]].
    - left. split; [by destruct (rt_get ORM _ _ (w_store (rt_world x1)))|by destruct (rt_get ORM _ _ (w_store (rt_world y1)))].
    - destruct (rt_get ORM _ _ _) as [o|e| |]; [|left; done..]. destruct o; try (left; done).
      right. split; [done|]. split; [cbn; auto|done].
  Qed.

  Lemma repr_unique S1 S2 st : repr O R S1 st -> repr O R S2 st -> S1 = S2.
  Proof.
    intros H1 H2. apply map_eq. intros [ty id]. apply option_eq. intros o.
    assert (forall S S', repr O R S st -> repr O R S' st -> S !! (ty, id) = Some o -> S' !! (ty, id) = Some o) as H.
    { intros S S' HS HS' Ho. destruct (re_wf _ _ _ _ HS ty id o Ho) as [s [A1 A2 A3 A4 A5 A6]].
      destruct (get_refines O R S st ty id HC (tl_registry _ _ _ HA) HS) as [_ B1].
      destruct (get_refines O R S' st ty id HC (tl_registry _ _ _ HA) HS') as [_ B2].
      rewrite B1 in B2. unfold spec_get in B2. rewrite A1 in B2. clear B1.
      rewrite !decide_False in B2 by exact A5. rewrite Ho in B2. cbn [snd] in B2.
      destruct (S' !! (ty, id)) as [o'|]; cbn [snd] in B2; congruence. }
    split; by apply H.
  Qed.
End Calls.

(** ** The application *)
Section Node.
  Context (C : codec) (bits : N) (verify : bytes -> bytes -> bytes -> bool).
  Context (enum1 enum2 : list (event object msg) -> users -> list user) (fuel : nat) (decode : bytes -> res tx).
  Context (HS1 : sound C enum1 decode) (HS2 : sound C enum2 decode).
  Notation app := (test_app bits verify).
  Notation O := (app_ops C).
  Notation R := (ap_registry app).
  Notation ORM := (orm_ops O R).
  Notation HA := (test_app_like bits verify).
  Notation HC := (so_codec _ _ _ HS1).
  Notation HE1 := (so_order _ _ _ HS1).
  Notation HE2 := (so_order _ _ _ HS2).
  Notation HT := (app_typed C bits verify).
  Notation call1 := (call C bits verify enum1 fuel decode).
  Notation call2 := (call C bits verify enum2 fuel decode).
  Notation running1 := (running C bits verify enum1 fuel decode).
  Notation running2 := (running C bits verify enum2 fuel decode).
  Notation near := (near C app).
  Notation nearly := (nearly C app).
  Notation tracked := (tracked C bits verify).
  Implicit Types (S : amap) (x y : node) (t : tx) (c : abci_call).

  (** Both nodes run after genesis and store the same. *)
  Definition twins x y : Prop := exists S, tracked x S /\ tracked y S.
  Lemma twins_near x y : twins x y -> near x y.
  Proof.
    intros (S & T1 & T2). destruct (tracked_flags _ _ _ _ _ T1) as [F1 F2], (tracked_flags _ _ _ _ _ T2) as [F3 F4].
    split; [congruence|congruence|]. exists S. split; [apply T1|apply T2].
  Qed.
  Lemma near_twins x y S1 S2 : near x y -> tracked x S1 -> tracked y S2 -> twins x y.
  Proof.
    intros [_ _ (S & A1 & A2)] T1 T2.
    pose proof (repr_unique C bits verify app HA HC S1 S _ (tk_shown _ _ _ _ _ T1) A1) as ->.
    pose proof (repr_unique C bits verify app HA HC S2 S _ (tk_shown _ _ _ _ _ T2) A2) as ->.
    by exists S.
  Qed.
  Lemma alive_dead (r : res unit) : ~ dead r -> alive r.
  Proof. by destruct r. Qed.
  Definition twinned (p q : res unit * node) : Prop :=
    dead (fst p) /\ dead (fst q) \/ fst p = fst q /\ ~ dead (fst p) /\ twins (snd p) (snd q).
  Lemma nearly_twinned p q : nearly p q ->
    (alive (fst p) -> exists S, tracked (snd p) S) -> (alive (fst q) -> exists S, tracked (snd q) S) -> twinned p q.
  Proof.
    intros [D|(E & D & H)] H1 H2; [by left|right]. split; [done|]. split; [done|].
    destruct H1 as [S1 H1]; [by apply alive_dead|]. destruct H2 as [S2 H2]; [rewrite <- E; by apply alive_dead|].
    by eapply near_twins.
  Qed.

  Lemma proper_named t : proper t -> named (tx_users t).
  Proof.
    intros HP. split; [by apply proper_wf|]. destruct (tx_users t !! []) eqn:E; [|done]. exfalso.
    assert (is_Some (tx_users t !! [])) as Hs by (by eexists). apply (proper_users t [] HP) in Hs.
    apply elem_of_list_fmap in Hs as (s & Es & Hs). pose proof (pr_named t HP) as HF. rewrite Forall_forall in HF.
    by apply (HF s Hs).
  Qed.

  Lemma pay_twinned t x y : proper t -> twins x y ->
    twinned (pay C bits verify enum1 fuel t x) (pay C bits verify enum2 fuel t y).
  Proof.
    intros HP (S & T1 & T2). apply nearly_twinned.
    2:{ intros Ha. destruct (pay C bits verify enum1 fuel t x) as [r x'] eqn:E. cbn [fst snd] in *.
        destruct (pay_tracked C bits verify enum1 fuel decode HS1 t x S r x' T1 HP E Ha) as (S' & HT & _). eauto. }
    2:{ intros Ha. destruct (pay C bits verify enum2 fuel t y) as [r y'] eqn:E. cbn [fst snd] in *.
        destruct (pay_tracked C bits verify enum2 fuel decode HS2 t y S r y' T2 HP E Ha) as (S' & HT & _). eauto. }
    unfold pay. cbv zeta. unfold bytes_store, the_app.
    apply at_near; [apply twins_near; by exists S|].
    destruct (tracked_flags _ _ _ _ _ T1) as [F _]. rewrite F. clear F.
    pose proof (app_tx_handlers bits verify app HA) as [E1 E2].
    unfold run_tx_admission_chain, run_tx_post_auth_chain. cbn [en_router env_of]. rewrite E1, E2.
    pose proof (tx_handlers_same C app enum1 enum2 fuel (admission_handlers bits verify) t
      (admission_steady C bits verify app HA HC HT enum1 HE1 enum2 HE2 fuel t (proper_named t HP))
      (rt_world x) (rt_world y)) as Hs.
    feed specialize Hs. { exists S. split; [apply T1|apply T2]. }
    (* what admission leaves *)
    destruct T1 as [_ HI (z & Hz & Ez & Hen & _)].
    pose proof (test_app_admission_sim C bits verify enum1 fuel t (rt_world x) (rt_world z) HC (sr_world _ _ _ _ Hz)) as Ha.
    cbv zeta in Ha. unfold app_registry, run_tx_admission_chain in Ha. cbn [en_router env_of] in Ha. rewrite E1 in Ha.
    pose proof (wpt_admission C bits verify app HA enum1 HE1 fuel t S (iv_wt _ HI) (proper_wf t HP) (rt_world z) Ez) as Hw.
    destruct (run_tx_handlers O ORM (env_of app enum1 true) _ (admission_handlers bits verify) t (rt_world x)) as [r1 w1].
    destruct (run_tx_handlers O ORM (env_of app enum2 true) _ (admission_handlers bits verify) t (rt_world y)) as [r2 w2].
    match type of Ha with simr _ _ ?q => destruct q as [r3 w3] end. clear E1 E2.
    destruct Hs as [[D1 D2]|(E & D & Hv)]; cbn [fst snd] in *; [left; split; [by destruct r1|by destruct r2]|].
    subst r2. destruct r1 as [[]|e| |]; cbn [then_do]; [|right; cbn; auto|by destruct D..].
    destruct Ha as [Ha|[Ha [Hr _]]]; cbn [fst snd] in *; [done|]. subst r3.
    destruct Hw as [Hw|[Es Hw]]; cbn [fst snd] in *; [done|]. rewrite Es in Hr. unfold map_rel in Hr.
    destruct Hv as (S' & A1 & A2).
    pose proof (repr_unique C bits verify app HA HC S S' _ Hr A1) as <-.
    apply (post_same C bits verify app HA HC HT enum1 HE1 enum2 HE2 fuel t S); [done|done|done| | |done].
    - by apply proper_named.
    - apply HP.
  Qed.
  Lemma send_twinned t m x y : proper t -> twins x y ->
    twinned (send C bits verify enum1 fuel (tx_users t) m x) (send C bits verify enum2 fuel (tx_users t) m y).
  Proof.
    intros HP (S & T1 & T2). apply nearly_twinned.
    2:{ intros Ha. destruct (send C bits verify enum1 fuel (tx_users t) m x) as [r x'] eqn:E. cbn [fst snd] in *.
        destruct (send_tracked C bits verify enum1 fuel decode HS1 (tx_users t) m x S r x' T1 (proper_wf t HP) (proper_ordinary t HP) E Ha) as (S' & HT & _). eauto. }
    2:{ intros Ha. destruct (send C bits verify enum2 fuel (tx_users t) m y) as [r y'] eqn:E. cbn [fst snd] in *.
        destruct (send_tracked C bits verify enum2 fuel decode HS2 (tx_users t) m y S r y' T2 (proper_wf t HP) (proper_ordinary t HP) E Ha) as (S' & HT & _). eauto. }
    unfold send, bytes_store, the_app. apply at_near; [apply twins_near; by exists S|].
    apply (deliver_tx_same C bits verify app HA HC HT enum1 HE1 enum2 HE2 _ fuel (tx_users t) m S).
    - apply T1.
    - apply T2.
    - apply T1.
    - by apply proper_wf.
    - by apply proper_ordinary.
    - by apply proper_named.
  Qed.
  Lemma sends_twinned t l : proper t -> forall x y, twins x y ->
    twinned (each_msg (send C bits verify enum1 fuel (tx_users t)) l x)
            (each_msg (send C bits verify enum2 fuel (tx_users t)) l y).
  Proof.
    intros HP. induction l as [|m l IH]; intros x y H; cbn [each_msg]; [right; cbn; auto|].
    pose proof (send_twinned t m x y HP H) as Hs.
    destruct (send _ _ _ enum1 _ _ _ _) as [r1 x1], (send _ _ _ enum2 _ _ _ _) as [r2 y1].
    destruct Hs as [[D1 D2]|(E & D & Hx)]; cbn [fst snd] in *; [left; split; [by destruct r1|by destruct r2]|].
    subst r2. destruct r1; cbn [then_do]; [by apply IH|right; cbn; auto|by destruct D..].
  Qed.

  Lemma check_near raw x y : twins x y -> nearly (call1 (CallCheckTx raw) x) (call2 (CallCheckTx raw) y).
  Proof.
    intros H. pose proof (twins_near x y H) as HN. destruct H as (S & T1 & T2). unfold call. cbn [abci_step].
    unfold check_tx, with_tx. destruct (decode raw) as [t|e| |] eqn:Et; [|right; cbn; auto|left; done|left; done].
    pose proof (so_decoder _ _ _ HS1 _ _ Et) as HP. unfold bytes_store, the_app.
    apply at_near; [done|]. destruct (tracked_flags _ _ _ _ _ T1) as [F _]. rewrite F. clear F.
    pose proof (app_tx_handlers bits verify app HA) as [E1 _].
    unfold run_tx_admission_chain. cbn [en_router env_of]. rewrite E1. clear E1.
    pose proof (tx_handlers_same C app enum1 enum2 fuel (admission_handlers bits verify) t
      (admission_steady C bits verify app HA HC HT enum1 HE1 enum2 HE2 fuel t (proper_named t HP))
      (rt_world x) (rt_world y) (ne_store _ _ _ _ HN)) as Hs.
    destruct (run_tx_handlers O ORM (env_of app enum1 true) _ _ t (rt_world x)) as [r1 w1].
    destruct (run_tx_handlers O ORM (env_of app enum2 true) _ _ t (rt_world y)) as [r2 w2].
    destruct Hs as [[D1 D2]|(E & D & Hv)]; cbn [fst snd] in *; [left; split; [by destruct r1|by destruct r2]|].
    subst r2. destruct r1; cbn [then_do]; [|right; cbn; auto|by destruct D..].
    clear -Hv HS1 HS2. revert w1 w2 Hv. induction (tx_msgs t) as [|m l IH]; intros w1 w2 Hv; cbn [each_msg]; [right; cbn; auto|].
    pose proof (admission_same C bits verify app HA HC HT enum1 HE1 enum2 HE2 true
      (deliver O msg_name ORM (env_of app enum1 true) fuel false) (deliver O msg_name ORM (env_of app enum2 true) fuel false)
      (fun n m w1 w2 => deliver_same C bits verify app HA HC HT enum1 HE1 enum2 HE2 true fuel false n m w1 w2)
      (tx_users t) m w1 w2 Hv) as Hs.
    destruct (run_admission_chain O msg_name ORM (env_of app enum1 true) _ _ _ _) as [r1 v1].
    destruct (run_admission_chain O msg_name ORM (env_of app enum2 true) _ _ _ _) as [r2 v2].
    destruct Hs as [[D1 D2]|(E & D & Hw)]; cbn [fst snd] in *; [left; split; [by destruct r1|by destruct r2]|].
    subst r2. destruct r1; cbn [then_do]; [by apply IH|right; cbn; auto|by destruct D..].
  Qed.

  Lemma call_twinned c x y : twins x y -> twinned (call1 c x) (call2 c y).
  Proof.
    intros H. pose proof (twins_near x y H) as HN.
    assert (nearly (call1 c x) (call2 c y) -> twinned (call1 c x) (call2 c y)) as Hup.
    { destruct H as (S & T1 & T2). intros Hn. apply nearly_twinned; [done|..]; intros Ha.
      - destruct (call1 c x) as [r x'] eqn:E. cbn [fst snd] in *.
        destruct (call_tracked C bits verify enum1 fuel decode HS1 x S c r x' T1 E Ha) as (S' & HT' & _). eauto.
      - destruct (call2 c y) as [r y'] eqn:E. cbn [fst snd] in *.
        destruct (call_tracked C bits verify enum2 fuel decode HS2 y S c r y' T2 E Ha) as (S' & HT' & _). eauto. }
    destruct c as [id st|h rest|raw|raw|h|].
    - apply Hup. unfold call. cbn [abci_step]. unfold bytes_store, the_app.
      by apply (init_chain_near C bits verify app HA HC HT enum1 HE1 enum2 HE2).
    - apply Hup. unfold call. cbn [abci_step]. unfold bytes_store, the_app. unfold begin_block.
      change abci_users with (users_from_string [abci_user]).
      apply or_panic_near. by apply (rt_deliver_near C bits verify app HA HC HT enum1 HE1 enum2 HE2).
    - apply Hup. by apply check_near.
    - clear Hup. destruct (decode raw) as [t|e| |] eqn:Et.
      + pose proof (so_decoder _ _ _ HS1 _ _ Et) as HP.
        rewrite (deliver_tx_parts C bits verify enum1 fuel decode raw t x Et).
        rewrite (deliver_tx_parts C bits verify enum2 fuel decode raw t y Et).
        pose proof (pay_twinned t x y HP H) as Hs.
        destruct (pay _ _ _ enum1 _ _ _) as [r1 x1], (pay _ _ _ enum2 _ _ _) as [r2 y1].
        destruct Hs as [[D1 D2]|(E & D & Hx)]; cbn [fst snd] in *; [left; split; [by destruct r1|by destruct r2]|].
        subst r2. destruct r1; cbn [then_do]; [by apply sends_twinned|right; cbn; auto|by destruct D..].
      + unfold call. cbn [abci_step]. unfold deliver_tx, with_tx. rewrite Et. right. cbn; auto.
      + unfold call. cbn [abci_step]. unfold deliver_tx, with_tx. rewrite Et. left. done.
      + unfold call. cbn [abci_step]. unfold deliver_tx, with_tx. rewrite Et. left. done.
    - apply Hup. unfold call. cbn [abci_step]. unfold bytes_store, the_app.
      pose proof (end_block_near C bits verify app HA HC HT enum1 HE1 enum2 HE2 fuel h x y HN) as He.
      destruct (end_block O ORM _ enum1 _ _ _) as [r1 x1], (end_block O ORM _ enum2 _ _ _) as [r2 y1].
      destruct He as [[D1 D2]|(E & D & Hx)]; cbn [fst snd] in *; [left; split; [by destruct r1|by destruct r2]|].
      subst r2. destruct r1; [right; cbn; auto|right; cbn; auto|by destruct D..].
    - apply Hup. right. cbn; auto.
  Qed.

  Lemma calls_twins cs : forall x y x', twins x y -> calls C bits verify enum1 fuel decode cs x = Some x' ->
    exists y', calls C bits verify enum2 fuel decode cs y = Some y' /\ twins x' y'.
  Proof.
    unfold calls. induction cs as [|c cs IH]; intros x y x' H; cbn [abci_run].
    - intros [= <-]. eauto.
    - pose proof (call_twinned c x y H) as Hc. unfold call in Hc.
      destruct (abci_step _ _ _ enum1 _ _ _ _ c x) as [r1 x1], (abci_step _ _ _ enum2 _ _ _ _ c y) as [r2 y1].
      destruct Hc as [[D1 D2]|(E & D & Hx)]; cbn [fst snd] in *; [by destruct r1|].
      subst r2. destruct r1; [by apply IH|by apply IH|discriminate..].
  Qed.
  Lemma running_twins id cs x : running1 id cs x -> exists y, running2 id cs y /\ twins x y.
  Proof.
    intros H. pose proof H as Hr. unfold running, calls in H |- *. cbn [abci_run abci_step] in H |- *.
    unfold bytes_store, the_app in H |- *.
    pose proof (init_chain_near C bits verify app HA HC HT enum1 HE1 enum2 HE2 fuel id None new_node new_node) as Hi.
    feed specialize Hi. { split; [done|done|]. exists ∅. split; apply repr_empty. }
    destruct (init_chain _ _ _ enum1 _ _ _ _) as [r1 x0] eqn:E1, (init_chain _ _ _ enum2 _ _ _ _) as [r2 y0] eqn:E2.
    destruct Hi as [[D1 D2]|(E & D & Hx)]; cbn [fst snd] in *; [by destruct r1|]. subst r2.
    assert (running1 id [] x0) as G1.
    { unfold running, calls. cbn [abci_run abci_step]. unfold bytes_store, the_app. rewrite E1. destruct r1; [done|done|by destruct D..]. }
    assert (running2 id [] y0) as G2.
    { unfold running, calls. cbn [abci_run abci_step]. unfold bytes_store, the_app. rewrite E2. destruct r1; [done|done|by destruct D..]. }
    apply (running_tracked C bits verify enum1 fuel decode HS1) in G1 as (S1 & T1 & _).
    apply (running_tracked C bits verify enum2 fuel decode HS2) in G2 as (S2 & T2 & _).
    pose proof (near_twins x0 y0 S1 S2 Hx T1 T2) as HT0.
    assert (calls C bits verify enum1 fuel decode cs x0 = Some x) as Hc by (destruct r1; [exact H|exact H|discriminate H..]).
    destruct (calls_twins cs x0 y0 x HT0 Hc) as (y & Hy & Hxy). exists y. split; [|done].
    destruct r1; [exact Hy|exact Hy|by destruct D..].
  Qed.
End Node.
