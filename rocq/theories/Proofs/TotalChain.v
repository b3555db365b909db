(** When the node answers consensus calls. *)
From Coq Require Import NArith ZArith List Bool String Lia.
From stdpp Require Import base list gmap relations.
From Verif.Model Require Import Bytes KindEncoder Desc Schema Indexes Orm Users Prog Router Runtime
  Services Module Builder Universe Coin CoreModules Rbac Bank Authn Distribution TestApp Abci.
From Verif.Spec Require Import UserSpec StoreSpec RuntimeSpec RbacSpec ChainSpec.
From Verif.Proofs Require Import BytesFacts KindEncoderFacts RegistryFacts OrmFacts UserFacts RuntimeFacts
  BuilderFacts SimFacts AppFacts AppSim RbacFacts MapExec ChainInv ChainWp ChainRun ChainHist ReadOnlyFacts ChainView
  CoinFacts AdmissionFacts TotalExec TotalRun.

Section Total.
  Context (C : codec) (HC : codec_ok (app_ops C)) (bits : N) (verify : bytes -> bytes -> bytes -> bool).
  Context (app : application object msg tx) (HA : test_like bits verify app).
  Context (enum : list (event object msg) -> users -> list user) (HE : forall tr, fair_order (enum tr)).
  Context (good : object -> Prop) (HK : keeps C bits good) (Hbits : (bits <= 313)%N).
  Notation O := (app_ops C).
  Notation R := (ap_registry app).
  Notation ORM := (orm_ops O R).
  Notation en := (env_of app enum true).
  Notation twp := (twp C app enum good).
  Notation twpd := (twpd C app enum good).
  Notation twph := (twph C app enum good).
  Notation twpt := (twpt C app enum good).
  Notation tout := (tout C app good).
  Notation sane := (sane C).
  Implicit Types (S : amap) (f : nat) (us self : users) (ty id : bytes) (m : msg) (Q : res unit -> amap -> Prop) (addr : bytes) (skip : bool).

  Local Ltac known := apply (bool_decide_unpack _); vm_compute; exact I.
  Local Lemma self_wf n : wf_users (users_from_string [n]).
  Proof. apply from_string_wf. Qed.
  Local Ltac nm := apply named_one; discriminate.
  Local Ltac sing := unfold singletons; set_solver.

  Lemma twp_put f n o (p : prog object msg unit) S Q : sane S -> n <> [] -> can n VUpdate (ty_of o) = true -> harmless S o ->
    key_of o = singleton_id -> is_Some (S !! (ty_of o, singleton_id)) -> good o ->
    (sane (<[(ty_of o, singleton_id) := o]> S) -> twp f (users_from_string [n]) p (<[(ty_of o, singleton_id) := o]> S) Q) ->
    twp f (users_from_string [n]) (update_ o p) S Q.
  Proof.
    intros HS Hn Hc Hh Hk Hs Hg H. pose proof HS as [HI _].
    eapply (twp_update C HC bits verify app HA enum HE);
      [by apply inv_no_blank|apply self_wf|by apply named_one| | | |exact Hg|]; try rewrite Hk.
    - by apply module_can.
    - known.
    - done.
    - intros Hst. apply H. rewrite <- Hk. apply sane_insert; [done| |done|done]. rewrite Hk. known.
  Qed.

  Lemma twpd_internal f m h n S Q : sane S -> n <> [] ->
    exec_of bits m = Some h -> admission_of m = [] -> post_of m = [] -> can n VDeliver (msg_name m) = true ->
    twp f (h_self h) (h_run h (users_from_string [n]) m) S Q ->
    twpd (Datatypes.S f) false (users_from_string [n]) m S Q.
  Proof.
    intros [HI _] Hn Hh Ha Hp Hc H.
    eapply (twpd_route C HC bits verify app HA enum HE); [by apply inv_no_blank|apply self_wf|by apply named_one|done|..].
    - intros _. eapply twp_mono; [apply H|]. intros r S' HQ. rewrite Hp. destruct r as [[]| | |]; try done.
      by apply twph_nil.
    - intros HR. exfalso. apply HR. by apply module_can.
    - intros _. rewrite Ha. by apply twph_nil.
  Qed.

  Lemma twpd_begin f S h rest Q : sane S ->
    good (OStage StBeginBlock) -> good (OBeginBlock (Some {| bb_height := Some h; bb_rest := rest |})) ->
    good (OCurrentBlock (Z.to_N (h mod 2 ^ 64))) -> (forall S', sane S' -> Q (Ok tt) S') ->
    twpd (Datatypes.S f) false abci_users (MsgSetBeginBlockState (Some {| bb_height := Some h; bb_rest := rest |})) S Q.
  Proof.
    intros HS G1 G2 G3 HQ. pose proof HS as [HI _].
    eapply twpd_internal; [done|discriminate|done|done|done|vm_compute; reflexivity|].
    cbn [h_self h_run set_begin_block].
    apply twp_put; [done|discriminate|vm_compute; reflexivity|done|done|apply (single S (OStage StUnknown)); [done|sing]|done|]. intros HS1.
    apply twp_put; [done|discriminate|vm_compute; reflexivity|done|done|apply (single _ (OBeginBlock None)); [apply HS1|sing]|done|]. intros HS2.
    apply twp_put; [done|discriminate|vm_compute; reflexivity|done|done|apply (single _ (OCurrentBlock 0)); [apply HS2|sing]|done|]. intros HS3.
    apply twp_ret. by apply HQ.
  Qed.
  Lemma twpd_end f S h Q : sane S -> good (OStage StEndBlock) -> good (OEndBlock (Some h)) ->
    (forall S', sane S' -> Q (Ok tt) S') ->
    twpd (Datatypes.S f) false abci_users (MsgSetEndBlockState (Some h)) S Q.
  Proof.
    intros HS G1 G2 HQ. pose proof HS as [HI _].
    eapply twpd_internal; [done|discriminate|done|done|done|vm_compute; reflexivity|].
    cbn [h_self h_run set_end_block].
    apply twp_put; [done|discriminate|vm_compute; reflexivity|done|done|apply (single S (OStage StUnknown)); [done|sing]|done|]. intros HS1.
    apply twp_put; [done|discriminate|vm_compute; reflexivity|done|done|apply (single _ (OEndBlock None)); [apply HS1|sing]|done|]. intros HS2.
    apply twp_ret. by apply HQ.
  Qed.

  (** Admission controllers of messages. *)
  Definition askable m : Prop := match m with MsgBindRole id _ => id <> [] | _ => True end.
  Lemma twph_admission f conv us m S : sane S -> askable m ->
    twph f conv (admission_of m) us m S (fun r S' => S' = S).
  Proof.
    intros [HI _] Hm. destruct m; cbn [admission_of]; try (by apply twph_nil); apply twph_cons; cbn [h_self h_run].
    - cbn [create_account_admission]. destruct a as [a|]; [|by apply twp_fail].
      destruct (bytes_eqb _ _); [by apply twp_fail|]. apply twp_ret. by apply twph_nil.
    - cbn [create_role_admission]. destruct r as [r|]; [|by apply twp_fail].
      destruct (bytes_eqb _ _) eqn:E; [by apply twp_fail|].
      apply (twp_get C HC bits verify app HA); [known| |..].
      + intros E2. rewrite E2 in E. vm_compute in E. discriminate.
      + intros o _. by apply twp_fail.
      + intros _. replace (errors_is missing RtNotFound) with true by reflexivity.
        apply (twp_get C HC bits verify app HA); [known|known|..]; [|intros _; by apply twp_fail].
        intros o Ho. rewrite (iv_modules S HI) in Ho. injection Ho as <-.
        destruct (verify_objects _ _); cbn [negb]; [|by apply twp_fail].
        destruct (verify_transitions _ _); cbn [negb]; [|by apply twp_fail].
        apply twp_ret. by apply twph_nil.
    - cbn [bind_admission]. apply (twp_get C HC bits verify app HA); [known|done|..]; intros; [apply twp_ret; by apply twph_nil|by apply twp_fail].
  Qed.
End Total.
