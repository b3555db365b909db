(** When the requests of the application are answered. *)
From Coq Require Import NArith ZArith List Bool String Lia.
From stdpp Require Import base list gmap relations.
From Verif.Model Require Import Bytes KindEncoder Desc Schema Indexes Orm Users Prog Router Runtime
  Services Module Builder Universe Coin CoreModules Rbac Bank Authn Distribution TestApp Abci.
From Verif.Spec Require Import UserSpec StoreSpec RuntimeSpec RbacSpec ChainSpec.
From Verif.Proofs Require Import BytesFacts KindEncoderFacts RegistryFacts OrmFacts UserFacts RuntimeFacts
  BuilderFacts SimFacts AppFacts AppSim RbacFacts MapExec ChainInv ChainWp ChainRun ChainHist ReadOnlyFacts ChainView
  CoinFacts AdmissionFacts TotalExec.

(** ** Coins *)
Lemma safe_add_alive bits a b : (bits <= 313)%N -> alive (safe_add bits a b).
Proof.
  intros Hb. pose proof (parse_coins_alive bits (coins_text a) ltac:(lia)) as Ha.
  pose proof (parse_coins_alive bits (coins_text b) ltac:(lia)) as Hb'.
  change (alive (new_balance bits a)) in Ha. change (alive (new_balance bits b)) in Hb'.
  pose proof (safe_add_parsed bits a b) as H.
  destruct (new_balance bits a) as [i|e| |] eqn:Ei; try done; [|unfold safe_add; by rewrite Ei].
  destruct (new_balance bits b) as [s|e| |] eqn:Es; try done; [|unfold safe_add; by rewrite Ei, Es].
  specialize (H i s eq_refl eq_refl). destruct (safe_add bits a b) as [r|e| |]; try done.
  exfalso. destruct H as [d H]. apply parse_coins_parsed in Ei. apply parse_coins_parsed in Es.
  destruct (parsed_amount_bound bits i d Ei) as [B1 _]. destruct (parsed_amount_bound bits s d Es) as [B2 _].
  assert (2 ^ Z.of_N bits <= 2 ^ 313)%Z by (apply Z.pow_le_mono_r; lia). clear - H B1 B2 H0. lia.
Qed.

(** ** What can be written *)
(** A class of objects that the application stays in. *)
Record keeps (C : codec) (bits : N) (good : object -> Prop) : Prop := {
  kp_stored : forall o, storable (app_ops C) (schema_of o) o = true -> good o;
  kp_next : forall ac, good (OAccount ac) -> good (OAccount (next_sequence ac));
  kp_numbers : forall n, good (OAccountNumber n) -> good (OAccountNumber ((n + 1) mod 2 ^ 64));
  kp_sub : forall x c c2 amt c1, good (OBalance x c2) -> safe_sub bits c amt = Ok c1 -> good (OBalance x c1);
  kp_add : forall x c c2 amt c1, good (OBalance x c2) -> safe_add bits c amt = Ok c1 -> good (OBalance x c1)
}.
(** What is written when an account is opened, and when coins arrive. *)
Definition good_new (good : object -> Prop) (ac : account) : Prop :=
  (forall n, good (OAccountNumber n) -> good (OAccount (numbered ac n))) /\ good (OBinding (ac_address ac) external_role_id).
Definition good_to (good : object -> Prop) (to : bytes) (amt : list coin) : Prop :=
  good (OBalance to amt) /\ good_new good (fresh_account to).

Section Total.
  Context (C : codec) (HC : codec_ok (app_ops C)) (bits : N) (verify : bytes -> bytes -> bytes -> bool).
  Context (app : application object msg tx) (HA : test_like bits verify app).
  Context (enum : list (event object msg) -> users -> list user) (HE : forall tr, fair_order (enum tr)).
  Context (good : object -> Prop) (HK : keeps C bits good) (Hbits : (bits <= 313)%N).
  Notation O := (app_ops C).
  Notation R := (ap_registry app).
  Notation ORM := (orm_ops O R).
  Notation en := (env_of app enum true).
  Notation twp := (twp C app enum good).
  Notation twpd := (twpd C app enum good).
  Notation twph := (twph C app enum good).
  Notation twpt := (twpt C app enum good).
  Implicit Types (S : amap) (f : nat) (us self : users) (ty id : bytes) (m : msg) (Q : res unit -> amap -> Prop) (addr : bytes) (skip : bool).

  Local Ltac known := apply (bool_decide_unpack _); vm_compute; exact I.
  Local Ltac perm := apply module_can; [done|vm_compute; reflexivity].
  Local Lemma self_wf n : wf_users (users_from_string [n]).
  Proof. apply from_string_wf. Qed.
  Local Ltac nm := apply named_one; discriminate.

  (** Every stored object can be stored. *)
  Definition sane S : Prop :=
    inv S /\ forall ty id o, S !! (ty, id) = Some o -> storable O (schema_of o) o = true.
  Lemma sane_good S ty id o : sane S -> S !! (ty, id) = Some o -> good o.
  Proof. intros [_ H] Ho. eapply (kp_stored _ _ _ HK), H, Ho. Qed.
  Lemma sane_short S ty id o : sane S -> S !! (ty, id) = Some o -> (blen id <= 65000)%N.
  Proof.
    intros [HI H] Ho. destruct (iv_wt S HI _ _ _ Ho) as (_ & -> & _). apply H in Ho.
    unfold storable in Ho. rewrite app_pk in Ho. apply andb_true_iff in Ho as [Ho _]. apply andb_true_iff in Ho as [_ Ho].
    apply N.leb_le in Ho. lia.
  Qed.
  Lemma repr_sane S st : repr O R S st -> inv S -> sane S.
  Proof.
    intros HR HI. split; [done|]. intros ty id o H.
    destruct (re_wf _ _ _ _ HR ty id o H) as [s [W1 W2 _ _ _ W6]].
    rewrite <- W2, obj_name_ty, (tl_schema _ _ _ HA) in W1. by injection W1 as <-.
  Qed.
  Lemma sane_insert S o : sane S -> key_of o <> [] -> harmless S o -> storable O (schema_of o) o = true -> sane (<[(ty_of o, key_of o) := o]> S).
  Proof.
    intros [HI HG] Hk Hh Ho. split; [by apply inv_insert|]. intros ty id o'.
    rewrite lookup_insert_Some. intros [[_ <-]|[_ H]]; eauto.
  Qed.
  Lemma sane_number S : sane S -> exists n, S !! at_number = Some (OAccountNumber n) /\ good (OAccountNumber n).
  Proof.
    intros HS. pose proof HS as [HI _]. pose proof (iv_singletons S HI) as HF.
    assert (is_Some (S !! at_number)) as [o Ho].
    { rewrite Forall_forall in HF. apply (HF (OAccountNumber 0)). unfold singletons. set_solver. }
    destruct (wt_number S (iv_wt S HI) _ _ Ho) as (_ & n & ->). exists n. split; [done|]. by eapply sane_good.
  Qed.

  Lemma twpd_bind f addr S Q : sane S -> string_key addr <> [] -> S !! at_binding (string_key addr) = None ->
    good (OBinding addr external_role_id) ->
    (storable O (schema_of (OBinding addr external_role_id)) (OBinding addr external_role_id) = true ->
     Q (Ok tt) (<[at_binding (string_key addr) := OBinding addr external_role_id]> S)) ->
    twpd (Datatypes.S f) false (users_from_string [str "authn"]) (MsgBindRole external_role_id addr) S Q.
  Proof.
    intros [HI HG] Hk Hn Hg HQ.
    eapply (twpd_route C HC bits verify app HA enum HE); [by apply inv_no_blank|apply self_wf|nm|reflexivity|..].
    - intros _. cbn [h_self h_run bind_exec].
      eapply (twp_create C HC bits verify app HA enum HE); [by apply inv_no_blank|apply self_wf|nm|perm|done|done|done|].
      intros Hst. apply twp_ret. cbn [post_of]. apply twph_nil. by apply HQ.
    - intros HR. exfalso. apply HR. perm.
    - intros _. cbn [admission_of]. apply twph_cons. cbn [h_self h_run bind_admission].
      apply (twp_get C HC bits verify app HA); [known|known|..].
      + intros o Ho. apply twp_ret. by apply twph_nil.
      + intros Hx. exfalso. rewrite (iv_external S HI) in Hx. discriminate.
  Qed.

  (** Creating an account. *)
  Lemma twpd_create_account f skip us oa S Q : sane S -> wf_users us -> named us ->
    (granted (map_stored S) VDeliver (tt_name t_create_account) us ->
       exists ac, oa = Some ac /\ string_key (ac_address ac) <> []
         /\ S !! at_account (string_key (ac_address ac)) = None
         /\ S !! at_binding (string_key (ac_address ac)) = None /\ good_new good ac) ->
    (forall ac S', oa = Some ac -> created S ac S' ->
       granted (map_stored S) VDeliver (tt_name t_create_account) us -> sane S' -> Q (Ok tt) S') ->
    (~ granted (map_stored S) VDeliver (tt_name t_create_account) us -> Q (Fail unauthorized) S) ->
    (skip = false -> exists ac, oa = Some ac /\ ac_address ac <> []) ->
    twpd (Datatypes.S (Datatypes.S f)) skip us (MsgCreateAccount oa) S Q.
  Proof.
    intros HS HU HN H0 H1 H2 H3. pose proof HS as [HI HG].
    eapply (twpd_route C HC bits verify app HA enum HE); [by apply inv_no_blank|done|done|reflexivity|..].
    - intros HGr. destruct (H0 HGr) as (ac & -> & Hk & Hna & Hnb & Hga).
      destruct (sane_number S HS) as (n & Hn & Hgn).
      cbn [h_self h_run create_account_exec]. apply (twp_get C HC bits verify app HA); [known|known|..].
      2:{ intros Hx. congruence. }
      intros o Ho. rewrite Hn in Ho. injection Ho as <-.
      change {| ac_address := ac_address ac; ac_pubkey := ac_pubkey ac; ac_number := n; ac_sequence := 0 |} with (numbered ac n).
      pose proof (proj1 Hga n Hgn) as Hg1.
      eapply (twp_create C HC bits verify app HA enum HE); [by apply inv_no_blank|apply self_wf|nm|perm|done|done|done|].
      intros Hst1. cbn [key_of ty_of ac_address numbered].
      pose proof (sane_insert S (OAccount (numbered ac n)) HS Hk I Hst1) as HS1. cbn [key_of ty_of ac_address numbered] in HS1.
      assert (at_number <> at_account (string_key (ac_address ac))) as N1 by tyne.
      pose proof (kp_numbers _ _ _ HK n Hgn) as Hg2.
      pose proof HS1 as [HI1 _].
      eapply (twp_update C HC bits verify app HA enum HE); [by apply inv_no_blank|apply self_wf|nm|perm|discriminate| |done|].
      { cbn [key_of ty_of]. rewrite lookup_insert_ne by done. eauto. }
      intros Hst2. cbn [key_of ty_of].
      pose proof (sane_insert _ (OAccountNumber ((n + 1) mod 2 ^ 64)) HS1 ltac:(done) I Hst2) as HS2. cbn [key_of ty_of] in HS2.
      assert (<[at_number:=OAccountNumber ((n + 1) mod 2 ^ 64)]>
                (<[at_account (string_key (ac_address ac)):=OAccount (numbered ac n)]> S)
                !! at_binding (string_key (ac_address ac)) = None) as Hnb'.
      { rewrite !lookup_insert_ne; [done| |]; tyne. }
      pose proof (proj2 Hga) as Hg3.
      eapply (twp_deliver C app enum good); [apply self_wf|].
      apply twpd_bind; [done..|]. intros Hst3. apply twp_ret. cbn [post_of]. apply twph_nil.
      eapply H1; [done| |done|].
      + by constructor.
      + apply (sane_insert _ (OBinding (ac_address ac) external_role_id) HS2); [done| |done].
        cbn [harmless key_of]. auto.
    - intros HR. by apply H2.
    - intros ->. destruct (H3 eq_refl) as (ac & -> & Hne). cbn [admission_of]. apply twph_cons. cbn [h_self h_run create_account_admission].
      destruct (bytes_eqb (ac_address ac) []) eqn:E; [by apply bool_decide_eq_true in E|]. apply twp_ret. by apply twph_nil.
  Qed.

  (** The bank sets a balance. *)
  Lemma twpd_set_balance f addr c S Q : sane S -> addr <> [] ->
    (is_Some (S !! at_balance addr) -> is_Some (S !! at_balance (string_key addr)) -> good (OBalance addr c)
       /\ (sane (put_balance addr c S) -> Q (Ok tt) (put_balance addr c S))) ->
    (is_Some (S !! at_balance addr) -> S !! at_balance (string_key addr) = None -> string_key addr <> [] /\ Q (Fail missing) S) ->
    (S !! at_balance addr = None -> S !! at_balance (string_key addr) = None /\ string_key addr <> []
       /\ good (OBalance addr c) /\ (sane (put_balance addr c S) -> Q (Ok tt) (put_balance addr c S))) ->
    twpd (Datatypes.S f) false (users_from_string [str "bank"]) (MsgSetBalance addr c) S Q.
  Proof.
    intros HS Ha H1 H2 H3. pose proof HS as [HI HG].
    eapply (twpd_route C HC bits verify app HA enum HE); [by apply inv_no_blank|apply self_wf|nm|reflexivity|..].
    - intros _. cbn [h_self h_run set_balance_exec]. apply (twp_get C HC bits verify app HA); [known|done|..].
      + intros o Ho. destruct (S !! at_balance (string_key addr)) as [o'|] eqn:E.
        * destruct (H1 ltac:(eauto) ltac:(eauto)) as [Hg HQ].
          assert (string_key addr <> []) as Hk by (by destruct (iv_wt S HI _ _ _ E) as (_ & _ & ?)).
          eapply (twp_update C HC bits verify app HA enum HE); [by apply inv_no_blank|apply self_wf|nm|perm|done|eauto|done|].
          intros Hst. apply twp_ret. cbn [post_of]. apply twph_nil. apply HQ. by apply (sane_insert S (OBalance addr c)).
        * destruct (H2 ltac:(eauto) eq_refl) as [Hk HQ].
          eapply (twp_update_missing C HC bits verify app HA enum HE); [by apply inv_no_blank|apply self_wf|nm|perm|done|done|done].
      + intros Hn. replace (errors_is missing RtNotFound) with true by reflexivity.
        destruct (H3 Hn) as (E & Hk & Hg & HQ).
        eapply (twp_create C HC bits verify app HA enum HE); [by apply inv_no_blank|apply self_wf|nm|perm|done|done|done|].
        intros Hst. apply twp_ret. cbn [post_of]. apply twph_nil. apply HQ. by apply (sane_insert S (OBalance addr c)).
    - intros HR. exfalso. apply HR. perm.
    - intros _. cbn [admission_of]. by apply twph_nil.
  Qed.

  (** The sender has the coins. *)
  Definition affords S (from : bytes) (amt : list coin) : Prop :=
    exists x c c1, S !! at_balance from = Some (OBalance x c) /\ safe_sub bits c amt = Ok c1
      /\ is_Some (S !! at_balance (string_key from)).
  (** Coins can be sent there. *)
  Definition receives S (to : bytes) : Prop :=
    to <> [] /\ (blen to < 128)%N
    /\ (S !! at_balance to = None -> S !! at_account to = None -> S !! at_binding to = None).

  Lemma balance_owner S (k : bytes) o : wt S -> S !! at_balance (string_key k) = Some o -> exists c, o = OBalance k c.
  Proof.
    intros HW H. destruct (wt_balance S HW _ _ H) as (y & d & -> & E). destruct (HW _ _ _ H) as (_ & _ & Hn).
    apply string_key_inj in E; [|done]. subst y. eauto.
  Qed.

  Lemma twp_send f us from to amt S Q : sane S -> from <> [] ->
    (affords S from amt -> receives S to /\ good_to good to amt) ->
    (forall r S', sent bits S from to amt r S' -> sane S' -> Q r S') ->
    twp (Datatypes.S (Datatypes.S f)) (users_from_string [str "bank"]) (send_coins_exec bits us (MsgSendCoins from to amt)) S Q.
  Proof.
    intros HS Hfrom Hto HQ. pose proof HS as [HI HG].
    cbn [send_coins_exec]. apply (twp_get C HC bits verify app HA); [known|done|..].
    2:{ intros Hn. apply twp_fail. apply HQ; [by constructor|done]. }
    intros o Ho. destruct (wt_balance S (iv_wt S HI) _ _ Ho) as (x & c & -> & Ex).
    apply twp_lift; [apply safe_sub_alive; lia|..].
    2:{ intros e He. apply HQ; [by eapply sent_refused|done]. }
    intros c1 Hc1. eapply (twp_deliver C app enum good); [apply self_wf|].
    apply twpd_set_balance; [done|done|..].
    3:{ intros Hn. congruence. }
    2:{ intros _ Hn. split.
        - intros E. destruct (string_key_nil _ E) as [?|E']; [done|].
          pose proof (sane_short S _ _ _ HS Ho) as Hl. clear - E' Hl. lia.
        - apply HQ; [by eapply sent_lost_sender|done]. }
    intros _ Hs2. split.
    { destruct Hs2 as [o2 Ho2]. destruct (balance_owner S from o2 (iv_wt S HI) Ho2) as [c2 ->].
      eapply (kp_sub _ _ _ HK); [|exact Hc1]. by eapply sane_good. }
    intros HS1.
    assert (string_key from <> []) as Hk by (destruct Hs2 as [o2 Ho2]; by destruct (iv_wt S HI _ _ _ Ho2) as (_ & _ & ?)).
    destruct Hto as [(Ht1 & Ht2 & Ht3) Hgt]; [exists x, c, c1; auto|].
    pose proof (string_key_small to Ht2) as Et.
    assert (S !! at_balance to = None <-> put_balance from c1 S !! at_balance to = None) as Hn1.
    { destruct (decide (string_key from = to)) as [E|E].
      - rewrite E, lookup_insert. rewrite E in Hs2. destruct Hs2 as [? ->]. split; discriminate.
      - rewrite lookup_insert_ne; [done|]. congruence. }
    assert (forall ty k, ty <> ty_balance -> put_balance from c1 S !! (ty, k) = S !! (ty, k)) as Hfr1.
    { intros ty k Hty. apply lookup_insert_ne. congruence. }
    remember (put_balance from c1 S) as S1 eqn:ES1. pose proof HS1 as [HI1 HG1].
    apply (twp_get C HC bits verify app HA); [known|done|..].
    - intros o' Ho'. destruct (wt_balance S1 (iv_wt S1 HI1) _ _ Ho') as (y & d & -> & Ey).
      apply twp_lift; [by apply safe_add_alive|..].
      2:{ intros e He. apply HQ; [|done]. eapply (sent_unreadable bits S from to amt x c c1 S1); eauto. }
      intros d1 Hd1. eapply (twp_deliver C app enum good); [apply self_wf|].
      apply twpd_set_balance; [done|done|..].
      + intros _ Hs3. split.
        * rewrite <- Et in Ho'. destruct (balance_owner S1 to _ (iv_wt S1 HI1) Ho') as [d' [= -> ->]].
          eapply (kp_add _ _ _ HK); [|exact Hd1]. by eapply sane_good.
        * intros HS2. apply twp_ret. apply HQ; [|done]. eapply (sent_old bits S from to amt x c c1 S1); eauto.
          by rewrite Et.
      + intros _ Hn. rewrite Et in Hn. congruence.
      + intros Hn. congruence.
    - intros Hno. replace (errors_is missing RtNotFound) with true by reflexivity.
      eapply (twp_deliver C app enum good); [apply self_wf|].
      apply twpd_set_balance; [done|done|..].
      1:{ intros [? ?] _. congruence. }
      1:{ intros [? ?] _. congruence. }
      intros _. rewrite Et. split; [done|]. split; [done|]. split; [exact (proj1 Hgt)|]. intros HS2.
      assert (forall ty k, ty <> ty_balance -> <[at_balance to := OBalance to amt]> S1 !! (ty, k) = S !! (ty, k)) as Hfr2.
      { intros ty k Hty. rewrite lookup_insert_ne by congruence. auto. }
      assert (put_balance to amt S1 = <[at_balance to := OBalance to amt]> S1) as Ep by (by rewrite Et).
      remember (<[at_balance to := OBalance to amt]> S1) as S2 eqn:ES2. pose proof HS2 as [HI2 HG2].
      unfold create_account_if_not_exist. apply (twp_get C HC bits verify app HA); [known|done|..].
      + intros o' Ho'. apply twp_ret. apply HQ; [|done]. eapply (sent_new bits S from to amt x c c1 S1 S2); eauto; by rewrite Et.
      + intros Hna. replace (errors_is missing RtNotFound) with true by reflexivity.
        assert (ty_account <> ty_balance) as N1 by known.
        assert (ty_binding <> ty_balance) as N2 by known.
        eapply (twp_deliver C app enum good); [apply self_wf|].
        apply twpd_create_account; [done|apply self_wf|nm|..].
        * intros _. exists (fresh_account to). cbn [fresh_account ac_address]. rewrite Et. split; [done|]. split; [done|].
          split; [done|]. split; [|exact (proj2 Hgt)].
          rewrite Hfr2 by done. apply Ht3; [by apply Hn1|]. by rewrite <- (Hfr2 ty_account to N1).
        * intros ac S3 [= <-] Hcr _ HS3. apply twp_ret. apply HQ; [|done].
          eapply (sent_created bits S from to amt x c c1 S1 S2 S3); eauto; by rewrite Et.
        * intros HR. exfalso. apply HR. perm.
        * intros _. exists (fresh_account to). done.
  Qed.

  Lemma twpd_send f skip us from to amt S Q : sane S -> wf_users us -> named us ->
    (granted (map_stored S) VDeliver (tt_name t_send_coins) us ->
       from <> [] /\ (affords S from amt -> receives S to /\ good_to good to amt)) ->
    (forall r S', sent bits S from to amt r S' ->
       granted (map_stored S) VDeliver (tt_name t_send_coins) us -> sane S' -> Q r S') ->
    (~ granted (map_stored S) VDeliver (tt_name t_send_coins) us -> Q (Fail unauthorized) S) ->
    twpd (Datatypes.S (Datatypes.S (Datatypes.S f))) skip us (MsgSendCoins from to amt) S Q.
  Proof.
    intros HS HU HN H0 H1 H2. pose proof HS as [HI _].
    eapply (twpd_route C HC bits verify app HA enum HE); [by apply inv_no_blank|done|done|reflexivity|..].
    - intros HG. destruct (H0 HG) as [Hf Ht]. cbn [h_self h_run]. apply twp_send; [done..|]. intros r S' Hs HS'.
      destruct r; try (by apply H1). cbn [post_of]. apply twph_nil. destruct a. by apply H1.
    - done.
    - intros _. cbn [admission_of]. by apply twph_nil.
  Qed.

  (** A message that the users may not deliver. *)
  Lemma twpd_refused f us m S Q : sane S -> wf_users us -> named us ->
    ~ granted (map_stored S) VDeliver (msg_name m) us -> Q (Fail unauthorized) S ->
    twpd (Datatypes.S f) true us m S Q.
  Proof.
    intros [HI _] HU HN HG HQ w HR. cbn [deliver]. unfold deliver_body.
    destruct (authorized ORM en VDeliver (msg_name m) us w) as [r w2] eqn:EA.
    apply (tauthorized C HC bits verify app HA enum HE _ _ _ S) in EA as [ES HS]; [|done|done|done|by apply inv_no_blank].
    destruct HS as [[-> HS]|[-> HS]]; [done|].
    right. cbn [fst snd]. split; [done|]. rewrite ES. eauto.
  Qed.

  (** The messages of ordinary users that do not stop the node. *)
  Definition safe_msg S m : Prop :=
    match m with
    | MsgCreateAccount oa => exists ac, oa = Some ac /\ string_key (ac_address ac) <> []
         /\ S !! at_account (string_key (ac_address ac)) = None
         /\ S !! at_binding (string_key (ac_address ac)) = None
    | MsgSendCoins from to amt => from <> [] /\ (affords S from amt -> receives S to)
    | _ => True
    end.
  Definition good_msg m : Prop :=
    match m with
    | MsgCreateAccount (Some ac) => good_new good ac
    | MsgSendCoins _ to amt => good_to good to amt
    | _ => True
    end.
  Lemma twpd_ordinary f us m S Q : sane S -> wf_users us -> named us -> ordinary us -> good_msg m ->
    (granted (map_stored S) VDeliver (msg_name m) us -> safe_msg S m) ->
    (forall r S', ran bits us m S r S' -> sane S' -> Q r S') ->
    twpd (Datatypes.S (Datatypes.S (Datatypes.S f))) true us m S Q.
  Proof.
    intros HS HU HN HO Hg H0 HQ. pose proof HS as [HI _].
    assert (external m \/ ~ external m) as [Hx|Hx] by (destruct m; cbn; auto).
    - destruct m; try done.
      + apply twpd_create_account; [done..| | | |done].
        * intros HG. destruct (H0 HG) as (ac & -> & H1 & H2 & H3). exists ac. auto.
        * intros ac S' -> Hc HG HS'. apply HQ; [|done]. by eapply ran_created.
        * intros HG. apply HQ; [|done]. by apply ran_refused.
      + apply twpd_send; [done..| | |].
        * intros HG. destruct (H0 HG) as [H1 H2]. split; [done|]. intros Ha. split; [by apply H2|done].
        * intros r S' Hs HG HS'. apply HQ; [|done]. by eapply ran_sent.
        * intros HG. apply HQ; [|done]. by apply ran_refused.
    - assert (~ granted (map_stored S) VDeliver (msg_name m) us) as HG.
      { intros HG. apply ordinary_grants in HG as [_ HG]; [|done..]. by apply external_names in HG. }
      apply twpd_refused; [done..|]. apply HQ; [|done]. by apply ran_refused.
  Qed.

  (** ** The fee *)
  Lemma twp_set_keys f self (l : list signer) S Q : wt S -> Forall (fun s => sg_address s <> []) l ->
    Forall (fun s => exists ac, S !! at_account (sg_address s) = Some (OAccount ac) /\ ac_pubkey ac <> None) l ->
    Q (Ok tt) S -> twp f self (set_keys l) S Q.
  Proof.
    intros HW HN HF HQ. induction HF as [|s l (ac & Ha & Hk) _ IH]; cbn [set_keys].
    - by apply twp_ret.
    - apply Forall_cons in HN as [Hs HN]. apply (twp_get C HC bits verify app HA); [known|done|..].
      + intros o Ho. rewrite Ha in Ho. injection Ho as <-. destruct (ac_pubkey ac); [by apply IH|congruence].
      + intros Hn. congruence.
  Qed.
  Lemma twp_increase f (l : list user) : forall S Q, sane S -> NoDup (map u_name l) ->
    Forall (fun u => u_name u <> []) l ->
    Forall (fun u => is_Some (S !! at_account (u_name u))) l ->
    (sane (bump (fun n => bool_decide (n ∈ map u_name l)) S) ->
     Q (Ok tt) (bump (fun n => bool_decide (n ∈ map u_name l)) S)) ->
    twp f (users_from_string [str "authn"]) (increase_sequences l) S Q.
  Proof.
    induction l as [|u l IH]; intros S Q HS HN HE' HF HQ; cbn [increase_sequences].
    - apply twp_ret.
      assert (bump (fun n => bool_decide (n ∈ map u_name [])) S = S) as E.
      { apply map_eq. intros k. rewrite bump_lookup. cbn. by destruct (S !! k) as [[]|]. }
      rewrite E in HQ. by apply HQ.
    - pose proof HS as [HI _].
      apply NoDup_cons in HN as [Hu HN]. apply Forall_cons in HE' as [Hue HE'].
      apply Forall_cons in HF as [[o Ho] HF].
      destruct (wt_account S (iv_wt S HI) _ _ Ho) as (ac & -> & Ek).
      apply (twp_get C HC bits verify app HA); [known|done|..]; [|congruence].
      intros o Ho'. rewrite Ho in Ho'. injection Ho' as <-.
      pose proof (kp_next _ _ _ HK ac (sane_good _ _ _ _ HS Ho)) as Hg.
      eapply (twp_update C HC bits verify app HA enum HE); [by apply inv_no_blank|apply self_wf|nm|perm| | |exact Hg|];
        cbn [key_of ty_of next_sequence ac_address].
      1:{ by rewrite <- Ek. }
      1:{ rewrite <- Ek. eauto. }
      intros Hst. pose proof (sane_insert S (OAccount (next_sequence ac)) HS) as HS1.
      cbn [key_of ty_of next_sequence ac_address] in HS1. rewrite <- Ek in *.
      specialize (HS1 Hue I Hst). apply IH; [done|done|done|..].
      + eapply Forall_impl; [exact HF|]. intros u' [o' Ho']. apply lookup_insert_is_Some.
        destruct (decide (at_account (u_name u) = at_account (u_name u'))); eauto.
      + replace (bump (fun n => bool_decide (n ∈ map u_name l)) _) with
          (bump (fun n => bool_decide (n ∈ map u_name (u :: l))) S); [done|].
        apply map_eq. intros k. rewrite !bump_lookup. cbn [map].
        destruct (decide (k = at_account (u_name u))) as [->|Hne'].
        * rewrite lookup_insert, Ho. cbn [snd]. rewrite bool_decide_eq_true_2 by set_solver.
          by rewrite bool_decide_eq_false_2.
        * rewrite lookup_insert_ne by done. destruct (S !! k) as [[]|] eqn:E; try done.
          destruct k as [ty k]. destruct (iv_wt S HI _ _ _ E) as (-> & E2 & _). cbn [snd].
          rewrite (bool_decide_ext (k ∈ u_name u :: map u_name l) (k ∈ map u_name l)); [done|].
          rewrite elem_of_cons. split; [|auto]. intros [->|?]; done.
  Qed.

  (** Every binding is a module's or an account's. *)
  Definition housed S : Prop := forall k o, S !! at_binding k = Some o ->
    k ∈ module_names \/ is_Some (S !! at_account k).
  Lemma bump_housed p S : wt S -> housed S -> housed (bump p S).
  Proof.
    intros HW H k o. rewrite bump_other by (done || known). intros Ho. destruct (H k o Ho) as [?|[o' Ho']]; [by left|right].
    rewrite bump_lookup, Ho'. destruct o'; eauto.
  Qed.
  Lemma housed_receives S to : housed S -> to <> [] -> (blen to < 128)%N -> to ∉ module_names -> receives S to.
  Proof.
    intros H H1 H2 H3. split; [done|]. split; [done|]. intros _ Hn.
    destruct (S !! at_binding to) as [o|] eqn:E; [|done]. destruct (H to o E) as [?|[? ?]]; [done|congruence].
  Qed.

  Lemma twpt_post f t S Q : sane S -> housed S -> proper t -> admitted bits verify S t ->
    good_to good fee_collector (tx_fee t) ->
    (forall r S', sent bits (bump (users_has1 (tx_users t)) S) (tx_payer t) fee_collector (tx_fee t) r S' -> sane S' ->
       Q (match r with Fail e => Fail (bad_request e) | _ => r end) S') ->
    twpt (Datatypes.S (Datatypes.S (Datatypes.S f))) post_handlers t S Q.
  Proof.
    intros HS HH HP HAd Hg HQ. pose proof HS as [HI _]. pose proof (proper_wf t HP) as HU. unfold post_handlers.
    apply twpt_cons. apply twp_ret.
    apply twpt_cons. cbn [th_run th_self]. unfold set_pub_keys. apply twp_set_keys; [apply HI|apply HP|..].
    { destruct (ad_signatures _ _ _ _ HAd) as (chain & _ & HF). eapply Forall_impl; [exact HF|].
      intros s (ac & Ha & Hk & _). eauto. }
    apply twpt_cons. cbn [th_run th_self]. unfold increase_sequence. apply (twp_enum C app enum HE good). intros l Hl.
    assert (forall u, u ∈ l -> is_Some (tx_users t !! u_name u)) as Hin.
    { intros u Hu. apply has1_spec. apply (list_members _ l _ HU Hl). apply elem_of_list_fmap. eauto. }
    apply twp_increase; [done|by eapply list_names_nodup|..].
    { rewrite Forall_forall. intros u Hu. apply Hin, (proper_users t _ HP) in Hu.
      apply elem_of_list_fmap in Hu as (s & -> & Hs). by apply (proj1 (Forall_forall _ _) (pr_named t HP)). }
    { rewrite Forall_forall. intros u Hu. by apply (ad_accounts _ _ _ _ HAd), Hin. }
    rewrite (bump_ext _ (users_has1 (tx_users t))).
    2:{ intros n. apply eq_true_iff_eq. rewrite bool_decide_eq_true. apply (list_members _ l _ HU Hl). }
    intros HS1. pose proof HS1 as [HI1 _].
    apply twpt_cons. cbn [th_run th_self fee_deduction]. eapply (twp_deliver C app enum good); [apply self_wf|].
    apply twpd_send; [done|apply self_wf|nm|..].
    - intros _. split; [apply HP|]. intros _. split; [|done]. apply housed_receives; [|known|reflexivity|known].
      apply bump_housed; [apply HI|done].
    - intros r S' Hs _ HS'. specialize (HQ r S' Hs HS'). destruct r as [[]|e| |]; try done.
      apply twp_ret. by apply twpt_nil.
    - intros HG. exfalso. apply HG. perm.
  Qed.
End Total.
