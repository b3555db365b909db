(** What the requests of the application do to its state. *)
From Coq Require Import NArith ZArith List Bool String Lia.
From stdpp Require Import base list gmap relations.
From Verif.Model Require Import Bytes KindEncoder Desc Schema Indexes Orm Users Prog Router Runtime
  Services Module Builder Universe Coin CoreModules Rbac Bank Authn Distribution TestApp Abci.
From Verif.Spec Require Import UserSpec StoreSpec RuntimeSpec RbacSpec.
From Verif.Proofs Require Import BytesFacts KindEncoderFacts RegistryFacts OrmFacts UserFacts RuntimeFacts
  BuilderFacts SimFacts AppFacts AppSim RbacFacts MapExec ChainInv.

Notation unauthorized := (EWrap (ESent RtUnauthorized)).
Notation at_balance k := (ty_balance, k).
Notation at_account k := (ty_account, k).
Notation at_binding k := (ty_binding, k).
Notation at_number := (ty_account_number, singleton_id).

(** Different types. *)
Ltac tyne :=
  let E := fresh in intros E; apply (f_equal fst) in E; cbn [fst] in E; revert E;
  apply (bool_decide_unpack _); vm_compute; exact I.

(** A new account. *)
Definition numbered (a : account) (n : N) : account :=
  {| ac_address := ac_address a; ac_pubkey := ac_pubkey a; ac_number := n; ac_sequence := 0 |}.
Inductive created (S : amap) (a : account) : amap -> Prop :=
| created_intro n :
    S !! at_number = Some (OAccountNumber n) ->
    string_key (ac_address a) <> [] ->
    S !! at_account (string_key (ac_address a)) = None ->
    S !! at_binding (string_key (ac_address a)) = None ->
    created S a
      (<[at_binding (string_key (ac_address a)) := OBinding (ac_address a) external_role_id]>
       (<[at_number := OAccountNumber ((n + 1) mod 2 ^ 64)]>
        (<[at_account (string_key (ac_address a)) := OAccount (numbered a n)]> S))).
Definition fresh_account (a : bytes) : account :=
  {| ac_address := a; ac_pubkey := None; ac_number := 0; ac_sequence := 0 |}.

(** A transfer. *)
Notation put_balance a c S := (<[at_balance (string_key a) := OBalance a c]> S).
Inductive sent (bits : N) (S : amap) (from to : bytes) (amt : list coin) : res unit -> amap -> Prop :=
| sent_no_balance : from <> [] -> S !! at_balance from = None -> sent bits S from to amt (Fail missing) S
| sent_refused x c e :
    S !! at_balance from = Some (OBalance x c) -> safe_sub bits c amt = Fail e -> sent bits S from to amt (Fail e) S
| sent_lost_sender x c c1 :
    S !! at_balance from = Some (OBalance x c) -> safe_sub bits c amt = Ok c1 ->
    S !! at_balance (string_key from) = None -> sent bits S from to amt (Fail missing) S
| sent_unreadable x c c1 S1 y d e :
    S !! at_balance from = Some (OBalance x c) -> safe_sub bits c amt = Ok c1 ->
    is_Some (S !! at_balance (string_key from)) -> string_key from <> [] -> S1 = put_balance from c1 S ->
    S1 !! at_balance to = Some (OBalance y d) -> safe_add bits d amt = Fail e ->
    sent bits S from to amt (Fail e) S1
| sent_lost_receiver x c c1 S1 y d d1 :
    S !! at_balance from = Some (OBalance x c) -> safe_sub bits c amt = Ok c1 ->
    is_Some (S !! at_balance (string_key from)) -> string_key from <> [] -> S1 = put_balance from c1 S ->
    S1 !! at_balance to = Some (OBalance y d) -> safe_add bits d amt = Ok d1 ->
    S1 !! at_balance (string_key to) = None ->
    sent bits S from to amt (Fail missing) S1
| sent_old x c c1 S1 y d d1 :
    S !! at_balance from = Some (OBalance x c) -> safe_sub bits c amt = Ok c1 ->
    is_Some (S !! at_balance (string_key from)) -> string_key from <> [] -> S1 = put_balance from c1 S ->
    S1 !! at_balance to = Some (OBalance y d) -> safe_add bits d amt = Ok d1 ->
    is_Some (S1 !! at_balance (string_key to)) -> string_key to <> [] ->
    sent bits S from to amt (Ok tt) (put_balance to d1 S1)
| sent_new x c c1 S1 S2 :
    S !! at_balance from = Some (OBalance x c) -> safe_sub bits c amt = Ok c1 ->
    is_Some (S !! at_balance (string_key from)) -> string_key from <> [] -> S1 = put_balance from c1 S ->
    to <> [] -> S1 !! at_balance to = None -> string_key to <> [] -> S1 !! at_balance (string_key to) = None ->
    S2 = put_balance to amt S1 -> is_Some (S2 !! at_account to) ->
    sent bits S from to amt (Ok tt) S2
| sent_created x c c1 S1 S2 S3 :
    S !! at_balance from = Some (OBalance x c) -> safe_sub bits c amt = Ok c1 ->
    is_Some (S !! at_balance (string_key from)) -> string_key from <> [] -> S1 = put_balance from c1 S ->
    to <> [] -> S1 !! at_balance to = None -> string_key to <> [] -> S1 !! at_balance (string_key to) = None ->
    S2 = put_balance to amt S1 -> S2 !! at_account to = None ->
    created S2 (fresh_account to) S3 ->
    sent bits S from to amt (Ok tt) S3.

Lemma created_inv S a S' : inv S -> created S a S' -> inv S'.
Proof.
  intros HI [n H1 H2 H3 H4].
  apply (inv_insert _ (OBinding (ac_address a) external_role_id)); [|done|].
  - apply (inv_insert _ (OAccountNumber ((n + 1) mod 2 ^ 64))); [|done|done].
    apply (inv_insert _ (OAccount (numbered a n))); done.
  - cbn [harmless key_of]. split; [done|].
    rewrite !lookup_insert_ne; [done|..].
    + tyne.
    + tyne.
Qed.
Lemma put_balance_inv S a c : inv S -> string_key a <> [] -> inv (put_balance a c S).
Proof. intros. by apply (inv_insert S (OBalance a c)). Qed.

Section Chain.
  Context (C : codec) (bits : N) (verify : bytes -> bytes -> bytes -> bool).
  Context (app : application object msg tx) (HA : test_like bits verify app).
  Context (enum : list (event object msg) -> users -> list user) (HE : forall tr, fair_order (enum tr)).
  Notation O := (app_ops C).
  Notation MAP := (map_ops O (ap_registry app)).
  Notation en := (env_of app enum true).
  Notation wp := (wp C app enum true).
  Notation wpd := (wpd C app enum true).
  Notation wph := (wph C app enum true).
  Notation wpt := (wpt C app enum true).
  Implicit Types (S : amap) (f : nat) (us self : users) (ty id : bytes) (m : msg) (Q : res unit -> amap -> Prop) (addr : bytes) (skip : bool).

  Local Ltac known := apply (bool_decide_unpack _); vm_compute; exact I.
  Local Ltac perm := intros _; apply module_can; [done|vm_compute; reflexivity].
  Local Lemma self_wf n : wf_users (users_from_string [n]).
  Proof. apply from_string_wf. Qed.

  Lemma wpd_0 skip us m S Q : wpd 0 skip us m S Q.
  Proof. intros w E. left. done. Qed.

  Lemma wp_get_ {A : Type} f self ty id (ok : object -> prog object msg A) (bad : goerr -> prog object msg A) S
      (P : res A -> amap -> Prop) :
    ty ∈ all_types ->
    (forall o, id <> [] -> S !! (ty, id) = Some o -> wp f self (ok o) S P) ->
    (id <> [] -> S !! (ty, id) = None -> wp f self (bad missing) S P) ->
    wp f self (get_ ty id ok bad) S P.
  Proof. apply (wp_get C bits verify app HA). Qed.

  (** Binding a new account. *)
  Lemma wpd_bind f addr S Q : inv S ->
    (string_key addr <> [] -> S !! at_binding (string_key addr) = None ->
     Q (Ok tt) (<[at_binding (string_key addr) := OBinding addr external_role_id]> S)) ->
    wpd f false (users_from_string [str "authn"]) (MsgBindRole external_role_id addr) S Q.
  Proof.
    intros HI HQ. destruct f as [|f]; [apply wpd_0|].
    eapply (wpd_route C bits verify app HA enum HE true); [apply HI|apply self_wf|reflexivity|..].
    - intros _. cbn [h_self h_run bind_exec]. eapply (wp_create C bits verify app HA enum HE true); [apply HI|apply self_wf|perm|].
      intros Hk Hn. apply wp_ret. cbn [post_of]. apply wph_nil. apply HQ; done.
    - intros [_ HR]. exfalso. apply HR. apply module_can; [done|vm_compute; reflexivity].
    - intros _. cbn [admission_of]. apply wph_cons. cbn [h_self h_run bind_admission].
      apply wp_get_; [known|..].
      + intros o _ Ho. apply wp_ret. by apply wph_nil.
      + intros _ Hn. exfalso. rewrite (iv_external S HI) in Hn. discriminate.
  Qed.

  (** Creating an account, as asked for by [us]. *)
  Lemma wpd_create_account f skip us oa S Q : inv S -> wf_users us ->
    (forall a S', oa = Some a -> created S a S' ->
       granted (map_stored S) VDeliver (tt_name t_create_account) us -> Q (Ok tt) S') ->
    (~ granted (map_stored S) VDeliver (tt_name t_create_account) us -> Q (Fail unauthorized) S) ->
    (skip = false -> (oa = None \/ exists a, oa = Some a /\ ac_address a = []) -> Q (Fail (bad_request EAnon)) S) ->
    wpd f skip us (MsgCreateAccount oa) S Q.
  Proof.
    intros HI HU H1 H2 H3. destruct f as [|f]; [apply wpd_0|].
    eapply (wpd_route C bits verify app HA enum HE true); [apply HI|done|reflexivity|..].
    - intros HG. cbn [h_self h_run create_account_exec]. apply wp_get_; [known|..].
      2:{ intros _ Hn. exfalso. pose proof (iv_singletons S HI) as HF.
          assert (is_Some (S !! at_number)) as [? E]; [|congruence].
          rewrite Forall_forall in HF. apply (HF (OAccountNumber 0)). unfold singletons. set_solver. }
      intros o _ Ho. destruct (wt_number S (iv_wt S HI) _ _ Ho) as (_ & n & ->).
      destruct oa as [a|]; [|apply wp_panic].
      eapply (wp_create C bits verify app HA enum HE true); [apply HI|apply self_wf|perm|].
      cbn [key_of ty_of ac_address]. intros Hk Hn.
      pose proof (inv_insert S (OAccount (numbered a n)) HI Hk I) as HI1. cbn [key_of ty_of] in HI1.
      change {| ac_address := ac_address a; ac_pubkey := ac_pubkey a; ac_number := n; ac_sequence := 0 |} with (numbered a n).
      assert (at_number <> at_account (string_key (ac_address a))) as N1.
      { tyne. }
      eapply (wp_update C bits verify app HA enum HE true); [apply HI1|apply self_wf|perm|..].
      2:{ cbn [key_of ty_of]. intros _ Hx. exfalso. rewrite lookup_insert_ne in Hx by done. congruence. }
      cbn [key_of ty_of]. intros _ _.
      pose proof (inv_insert _ (OAccountNumber ((n + 1) mod 2 ^ 64)) HI1 ltac:(done) I) as HI2. cbn [key_of ty_of] in HI2.
      eapply (wp_deliver C app enum true); [apply self_wf|].
      apply wpd_bind; [done|]. intros Hb Hnb. apply wp_ret. cbn [post_of]. apply wph_nil.
      eapply H1; [done| |by apply HG]. constructor; [done..|].
      rewrite !lookup_insert_ne in Hnb; [done|..].
      + tyne.
      + tyne.
    - intros [_ HR]. by apply H2.
    - intros ->. cbn [admission_of]. apply wph_cons. cbn [h_self h_run create_account_admission].
      destruct oa as [a|].
      + destruct (bytes_eqb (ac_address a) []) eqn:Ea.
        * apply wp_fail. split; [done|]. apply H3; [done|]. right. apply bool_decide_eq_true in Ea. eauto.
        * apply wp_ret. by apply wph_nil.
      + apply wp_fail. split; [done|]. apply H3; auto.
  Qed.

  (** The bank sets a balance. *)
  Lemma wpd_set_balance f addr c S Q : inv S ->
    (string_key addr <> [] -> (is_Some (S !! at_balance addr) <-> is_Some (S !! at_balance (string_key addr))) ->
       Q (Ok tt) (put_balance addr c S)) ->
    (is_Some (S !! at_balance addr) -> S !! at_balance (string_key addr) = None -> Q (Fail missing) S) ->
    wpd f false (users_from_string [str "bank"]) (MsgSetBalance addr c) S Q.
  Proof.
    intros HI H1 H2. destruct f as [|f]; [apply wpd_0|].
    eapply (wpd_route C bits verify app HA enum HE true); [apply HI|apply self_wf|reflexivity|..].
    - intros _. cbn [h_self h_run set_balance_exec]. apply wp_get_; [known|..].
      + intros o Hne Ho. eapply (wp_update C bits verify app HA enum HE true); [apply HI|apply self_wf|perm|..];
          cbn [key_of ty_of]; intros Hk Hx.
        * apply wp_ret. cbn [post_of]. apply wph_nil. apply H1; [done|]. split; eauto.
        * apply H2; eauto.
      + intros Hne Hn. replace (errors_is missing RtNotFound) with true by reflexivity.
        eapply (wp_create C bits verify app HA enum HE true); [apply HI|apply self_wf|perm|].
        cbn [key_of ty_of]. intros Hk Hx. apply wp_ret. cbn [post_of]. apply wph_nil. apply H1; [done|].
        rewrite Hn, Hx. split; intros [? ?]; done.
    - intros [_ HR]. exfalso. apply HR. apply module_can; [done|vm_compute; reflexivity].
    - intros _. cbn [admission_of]. by apply wph_nil.
  Qed.

  (** A transfer. *)
  Lemma wp_send f us from to amt S Q : inv S ->
    (forall r S', sent bits S from to amt r S' -> Q r S') ->
    wp f (users_from_string [str "bank"]) (send_coins_exec bits us (MsgSendCoins from to amt)) S Q.
  Proof.
    intros HI HQ. cbn [send_coins_exec]. apply wp_get_; [known|..].
    2:{ intros Hne Hn. apply wp_fail. apply HQ. by constructor. }
    intros o Hne Ho. destruct (wt_balance S (iv_wt S HI) _ _ Ho) as (x & c & -> & Ex).
    apply wp_lift.
    2:{ intros e He. apply HQ. by eapply sent_refused. }
    intros c1 Hc1. eapply (wp_deliver C app enum true); [apply self_wf|].
    apply wpd_set_balance; [done|..].
    2:{ intros _ Hn. apply HQ. by eapply sent_lost_sender. }
    intros Hk Hiff. assert (is_Some (S !! at_balance (string_key from))) as Hs by (apply Hiff; eauto).
    pose proof (put_balance_inv S from c1 HI Hk) as HI1.
    remember (put_balance from c1 S) as S1 eqn:ES1.
    apply wp_get_; [known|..].
    - intros o' Hto Ho'. destruct (wt_balance S1 (iv_wt S1 HI1) _ _ Ho') as (y & d & -> & Ey).
      apply wp_lift.
      2:{ intros e He. apply HQ. eapply (sent_unreadable bits S from to amt x c c1 S1); eauto. }
      intros d1 Hd1. eapply (wp_deliver C app enum true); [apply self_wf|].
      apply wpd_set_balance; [done|..].
      + intros Hk2 Hiff2. apply wp_ret. apply HQ. eapply (sent_old bits S from to amt x c c1 S1); eauto.
        apply Hiff2; eauto.
      + intros _ Hn. apply HQ. eapply (sent_lost_receiver bits S from to amt x c c1 S1); eauto.
    - intros Hto Hno. replace (errors_is missing RtNotFound) with true by reflexivity.
      eapply (wp_deliver C app enum true); [apply self_wf|].
      apply wpd_set_balance; [done|..].
      2:{ intros [? ?] _. congruence. }
      intros Hk2 Hiff2.
      assert (S1 !! at_balance (string_key to) = None) as Hno2.
      { destruct (S1 !! at_balance (string_key to)) eqn:E; [|done]. destruct (proj2 Hiff2); [eauto|congruence]. }
      pose proof (put_balance_inv S1 to amt HI1 Hk2) as HI2.
      remember (put_balance to amt S1) as S2 eqn:ES2.
      unfold create_account_if_not_exist. apply wp_get_; [known|..].
      + intros o' _ Ho'. apply wp_ret. apply HQ. eapply (sent_new bits S from to amt x c c1 S1 S2); eauto.
      + intros _ Hna. replace (errors_is missing RtNotFound) with true by reflexivity.
        eapply (wp_deliver C app enum true); [apply self_wf|].
        apply wpd_create_account; [done|apply self_wf|..].
        * intros a S3 [= <-] Hcr _. apply wp_ret. apply HQ. eapply (sent_created bits S from to amt x c c1 S1 S2 S3); eauto.
        * intros HR. exfalso. apply HR. apply module_can; [done|vm_compute; reflexivity].
        * intros _ [?|(a & [= <-] & E)]; [done|]. cbn in E. congruence.
  Qed.

  Lemma wpd_send f skip us from to amt S Q : inv S -> wf_users us ->
    (forall r S', sent bits S from to amt r S' ->
       granted (map_stored S) VDeliver (tt_name t_send_coins) us -> Q r S') ->
    (~ granted (map_stored S) VDeliver (tt_name t_send_coins) us -> Q (Fail unauthorized) S) ->
    wpd f skip us (MsgSendCoins from to amt) S Q.
  Proof.
    intros HI HU H1 H2. destruct f as [|f]; [apply wpd_0|].
    eapply (wpd_route C bits verify app HA enum HE true); [apply HI|done|reflexivity|..].
    - intros HG. cbn [h_self h_run]. apply wp_send; [done|]. intros r S' Hs.
      destruct r; try (by apply H1; [|apply HG]).
      cbn [post_of]. apply wph_nil. destruct a. apply H1; [done|apply HG; done].
    - intros [_ HR]. by apply H2.
    - intros _. cbn [admission_of]. by apply wph_nil.
  Qed.

  (** A message that the users may not deliver. *)
  Lemma wpd_refused f us m S Q : wt S -> wf_users us ->
    ~ granted (map_stored S) VDeliver (msg_name m) us -> Q (Fail unauthorized) S ->
    wpd f true us m S Q.
  Proof.
    intros HW HU HG HQ. destruct f as [|f]; [apply wpd_0|]. intros w E. cbn [deliver]. unfold deliver_body.
    destruct (authorized MAP en VDeliver (msg_name m) us w) as [r w2] eqn:EA.
    apply (authorized_out C bits verify app HA enum HE true) in EA as [ES HR]; [|by rewrite E|done]. rewrite E in *.
    destruct HR as [HR|[[-> HR]|[-> HR]]].
    - destruct r; try done; by left.
    - exfalso. apply HG. by apply HR.
    - right. cbn [fst snd]. by rewrite ES.
  Qed.

  (** The messages of ordinary users. *)
  Inductive ran (us : users) (m : msg) (S : amap) : res unit -> amap -> Prop :=
  | ran_refused : ~ granted (map_stored S) VDeliver (msg_name m) us -> ran us m S (Fail unauthorized) S
  | ran_created a S' : m = MsgCreateAccount (Some a) -> granted (map_stored S) VDeliver (msg_name m) us ->
      created S a S' -> ran us m S (Ok tt) S'
  | ran_sent from to amt r S' : m = MsgSendCoins from to amt -> granted (map_stored S) VDeliver (msg_name m) us ->
      sent bits S from to amt r S' -> ran us m S r S'.

  Lemma wpd_ordinary f us m S Q : inv S -> wf_users us -> ordinary us ->
    (forall r S', ran us m S r S' -> Q r S') -> wpd f true us m S Q.
  Proof.
    intros HI HU HO HQ.
    assert (external m \/ ~ external m) as [Hx|Hx] by (destruct m; cbn; auto).
    - destruct m; try done.
      + apply wpd_create_account; [done..| | |].
        * intros ac S' -> Hc Hg. apply HQ. by eapply ran_created.
        * intros Hg. apply HQ. by apply ran_refused.
        * done.
      + apply wpd_send; [done..| |].
        * intros r S' Hs Hg. apply HQ. by eapply ran_sent.
        * intros Hg. apply HQ. by apply ran_refused.
    - assert (~ granted (map_stored S) VDeliver (msg_name m) us) as Hg.
      { intros HG. apply ordinary_grants in HG as [_ HG]; [|done..]. by apply external_names in HG. }
      apply wpd_refused; [apply HI|done..|]. apply HQ. by apply ran_refused.
  Qed.
End Chain.
