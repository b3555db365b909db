(** Transactions and blocks: what the calls of the consensus engine do. *)
From Coq Require Import NArith ZArith List Bool String Lia.
From stdpp Require Import base list gmap relations.
From Verif.Model Require Import Bytes KindEncoder Desc Schema Indexes Orm Users Prog Router Runtime
  Services Module Builder Universe Coin CoreModules Rbac Bank Authn Distribution TestApp Abci.
From Verif.Spec Require Import UserSpec StoreSpec RuntimeSpec RbacSpec.
From Verif.Proofs Require Import BytesFacts KindEncoderFacts RegistryFacts OrmFacts UserFacts RuntimeFacts
  BuilderFacts SimFacts AppFacts AppSim RbacFacts MapExec ChainInv ChainWp.

(** ** Admission *)
(** The signature of a signer is accepted. *)
Definition signer_ok (verify : bytes -> bytes -> bytes -> bool) (S : amap) (t : tx) (chain : bytes) (s : signer) : Prop :=
  exists a, S !! at_account (sg_address s) = Some (OAccount a) /\ ac_pubkey a <> None
    /\ ac_sequence a = sg_sequence s
    /\ verify (sg_key s) (direct_sign_bytes (tx_body_bytes t) (tx_auth_bytes t) chain (ac_number a)) (sg_signature s) = true.
Record admitted (bits : N) (verify : bytes -> bytes -> bytes -> bool) (S : amap) (t : tx) : Prop := {
  ad_accounts : forall u, is_Some (tx_users t !! u) -> is_Some (S !! at_account u);
  ad_timeout : exists n, S !! (ty_current_block, singleton_id) = Some (OCurrentBlock n)
                 /\ (tx_timeout t = 0 \/ n <= tx_timeout t)%N;
  ad_memo : exists p, S !! (ty_auth_params, singleton_id) = Some (OAuthParams p)
              /\ (blen (tx_memo t) <= pr_max_memo p)%N;
  ad_signers : exists p, S !! (ty_auth_params, singleton_id) = Some (OAuthParams p)
                 /\ (N.of_nat (length (tx_signers t)) <= pr_sig_limit p)%N;
  ad_signatures : exists chain, S !! (ty_init_chain_info, singleton_id) = Some (OInitChainInfo chain)
                    /\ Forall (signer_ok verify S t chain) (tx_signers t);
  ad_fee : exists x c r, S !! at_balance (tx_payer t) = Some (OBalance x c) /\ safe_sub bits c (tx_fee t) = Ok r
}.

(** ** Sequence numbers *)
(** The accounts at the keys [p] have used one sequence number. *)
Definition bump (p : bytes -> bool) (S : amap) : amap :=
  map_imap (fun k o => Some match o with
                            | OAccount a => OAccount (if p (snd k) then next_sequence a else a)
                            | _ => o
                            end) S.
Lemma bump_lookup p S k : bump p S !! k =
  match S !! k with
  | Some (OAccount a) => Some (OAccount (if p (snd k) then next_sequence a else a))
  | x => x
  end.
Proof. unfold bump. rewrite map_lookup_imap. destruct (S !! k) as [[]|]; done. Qed.
Lemma bump_other p S ty k : ty <> ty_account -> wt S -> bump p S !! (ty, k) = S !! (ty, k).
Proof.
  intros Ht HW. rewrite bump_lookup. destruct (S !! (ty, k)) as [[]|] eqn:E; try done.
  destruct (HW _ _ _ E) as [-> _]. done.
Qed.
Lemma bump_wt p S : wt S -> wt (bump p S).
Proof.
  intros HW ty k o. rewrite bump_lookup. destruct (S !! (ty, k)) as [o'|] eqn:E; [|done].
  destruct (HW _ _ _ E) as (H1 & H2 & H3). destruct o'; intros [= <-]; auto.
  destruct (p _); auto.
Qed.
Lemma bump_inv p S : inv S -> inv (bump p S).
Proof.
  intros [H1 H2 H3 H4 H5 H6 H7 H8]. split.
  - by apply bump_wt.
  - intros n r Hn. rewrite !bump_lookup. destruct (H2 n r Hn) as [-> ->]. done.
  - by rewrite bump_lookup, H3.
  - intros u s ref. rewrite bump_lookup. destruct (S !! at_binding u) as [[]|] eqn:E; try discriminate.
    intros [= <- <-]. eauto.
  - intros k r. rewrite bump_lookup. destruct (S !! (ty_role, k)) as [[]|] eqn:E; try discriminate.
    intros [= <-]. eauto.
  - by rewrite bump_lookup, H6.
  - by rewrite bump_lookup, H7.
  - eapply Forall_impl; [exact H8|]. intros o [o' Ho]. rewrite bump_lookup, Ho. destruct o'; eauto.
Qed.
Lemma bump_ext p q S : (forall n, p n = q n) -> bump p S = bump q S.
Proof. intros H. apply map_eq. intros k. rewrite !bump_lookup. by rewrite H. Qed.

Section Run.
  Context (C : codec) (bits : N) (verify : bytes -> bytes -> bytes -> bool).
  Context (app : application object msg tx) (HA : test_like bits verify app).
  Context (enum : list (event object msg) -> users -> list user) (HE : forall tr, fair_order (enum tr)).
  Notation O := (app_ops C).
  Notation MAP := (map_ops O (ap_registry app)).
  Notation en := (env_of app enum true).
  Notation wp := (wp C app enum true).
  Notation wpd := (wpd C app enum true).
  Notation wph := (wph C app enum true).
  Notation wpt := (wpt C app enum true).
  Notation wp_get_ := (wp_get_ C bits verify app HA enum).
  Implicit Types (S : amap) (f : nat) (us self : users) (m : msg) (Q : res unit -> amap -> Prop) (addr ty id : bytes)
    (skip : bool) (t : tx) (s : signer) (u : user).

  Local Ltac known := apply (bool_decide_unpack _); vm_compute; exact I.
  Local Ltac perm := intros _; apply module_can; [done|vm_compute; reflexivity].
  Local Lemma self_wf n : wf_users (users_from_string [n]).
  Proof. apply from_string_wf. Qed.

  Lemma single S o : inv S -> o ∈ singletons -> is_Some (S !! (ty_of o, singleton_id)).
  Proof. intros HI Ho. pose proof (iv_singletons S HI) as HF. rewrite Forall_forall in HF. by apply HF. Qed.
  Local Ltac sing := unfold singletons; set_solver.

  (** The outcome of a check. *)
  Notation check S P := (fun r S' => S' = S /\ match r with Ok _ => P | _ => ~ P end).

  Lemma wp_accounts_exist f self l S :
    wp f self (accounts_exist l) S (check S (Forall (fun u => is_Some (S !! at_account (u_name u))) l)).
  Proof.
    induction l as [|u l IH]; cbn [accounts_exist].
    - apply wp_ret. auto.
    - apply wp_get_; [known|..].
      + intros o _ Ho. eapply wp_mono; [apply IH|]. intros r S' [-> H]. split; [done|].
        destruct r; rewrite Forall_cons; [split; eauto|tauto..].
      + intros _ Hn. apply wp_fail. split; [done|]. rewrite Forall_cons. intros [[? ?] _]. congruence.
  Qed.
  Lemma wp_account_exists f self t S : wf_users (tx_users t) ->
    wp f self (account_exists t) S (check S (forall u : bytes, is_Some (tx_users t !! u) -> is_Some (S !! at_account u))).
  Proof.
    intros HU. unfold account_exists. apply (wp_enum C app enum HE). intros l Hl.
    eapply wp_mono; [apply wp_accounts_exist|]. intros r S' [-> H]. split; [done|].
    assert (Forall (fun u => is_Some (S !! at_account (u_name u))) l
            <-> forall n : bytes, is_Some (tx_users t !! n) -> is_Some (S !! at_account n)) as Hi.
    { rewrite Forall_forall. split.
      - intros HF n Hn. apply has1_spec, (list_members _ l n HU Hl) in Hn.
        apply elem_of_list_fmap in Hn as (u & -> & Hu). by apply HF.
      - intros HF u Hu. apply HF. apply has1_spec, (list_members _ l _ HU Hl). apply elem_of_list_fmap. eauto. }
    destruct r; rewrite <- Hi; done.
  Qed.
  Lemma wp_timeout f self t S : wt S ->
    wp f self (timeout_block t) S
      (check S (exists n, S !! (ty_current_block, singleton_id) = Some (OCurrentBlock n)
                 /\ (tx_timeout t = 0 \/ n <= tx_timeout t)%N)).
  Proof.
    intros HW. unfold timeout_block. apply wp_get_; [known|..].
    - intros o _ Ho. destruct (wt_current_block S HW _ _ Ho) as (_ & n & ->).
      destruct (negb (tx_timeout t =? 0) && (tx_timeout t <? n))%N eqn:E.
      + apply wp_fail. split; [done|]. intros (n' & E' & H). rewrite Ho in E'. injection E' as <-. lia.
      + apply wp_ret. split; [done|]. exists n. split; [done|]. lia.
    - intros _ Hn. apply wp_fail. split; [done|]. intros (n' & E' & H). congruence.
  Qed.
  Lemma wp_params f self k S Q : wt S ->
    (forall p, S !! (ty_auth_params, singleton_id) = Some (OAuthParams p) -> wp f self (k p) S Q) ->
    (S !! (ty_auth_params, singleton_id) = None -> Q (Fail missing) S) ->
    wp f self (with_params k) S Q.
  Proof.
    intros HW H H'. unfold with_params. apply wp_get_; [known|..].
    - intros o _ Ho. destruct (wt_params S HW _ _ Ho) as (_ & p & ->). by apply H.
    - intros _ Hn. apply wp_fail. by apply H'.
  Qed.
  Lemma wp_memo f self t S : wt S ->
    wp f self (validate_memo t) S
      (check S (exists p, S !! (ty_auth_params, singleton_id) = Some (OAuthParams p)
                  /\ (blen (tx_memo t) <= pr_max_memo p)%N)).
  Proof.
    intros HW. apply wp_params; [done|..].
    - intros p Hp. destruct (pr_max_memo p <? blen (tx_memo t))%N eqn:E; [apply wp_fail|apply wp_ret]; (split; [done|]).
      + intros (p' & Hp' & H). rewrite Hp in Hp'. injection Hp' as <-. lia.
      + exists p. split; [done|]. lia.
    - intros Hn. split; [done|]. intros (p' & Hp' & H). congruence.
  Qed.
  Lemma wp_count_sigs f self limit (l : list signer) S : forall n,
    (n <= limit)%N -> wp f self (count_sigs limit n l) S (check S (n + N.of_nat (length l) <= limit)%N).
  Proof.
    induction l as [|s l IH]; intros n Hn; cbn [count_sigs length].
    - apply wp_ret. split; [done|]. lia.
    - destruct (limit <? n + 1)%N eqn:E.
      + apply wp_fail. split; [done|]. lia.
      + eapply wp_mono; [apply IH; lia|]. intros r S' [-> H]. split; [done|]. destruct r; lia.
  Qed.
  Lemma wp_sig_count f self t S : wt S ->
    wp f self (sig_count t) S
      (check S (exists p, S !! (ty_auth_params, singleton_id) = Some (OAuthParams p)
                  /\ (N.of_nat (length (tx_signers t)) <= pr_sig_limit p)%N)).
  Proof.
    intros HW. apply wp_params; [done|..].
    - intros p Hp. eapply wp_mono; [apply wp_count_sigs; lia|]. intros r S' [-> H]. split; [done|].
      destruct r; [exists p; split; [done|lia]|..]; intros (p' & Hp' & H'); rewrite Hp in Hp'; injection Hp' as <-; lia.
    - intros Hn. split; [done|]. intros (p' & Hp' & H). congruence.
  Qed.
  Lemma wp_verify_signers f self t chain (l : list signer) S : wt S ->
    wp f self (verify_signers verify t chain l) S (check S (Forall (signer_ok verify S t chain) l)).
  Proof.
    intros HW. induction l as [|s l IH]; cbn [verify_signers].
    - apply wp_ret. auto.
    - apply wp_get_; [known|..].
      + intros o _ Ho. destruct (wt_account S HW _ _ Ho) as (a & -> & _).
        assert (forall P : Prop, (signer_ok verify S t chain s -> P) <->
          (ac_pubkey a <> None -> ac_sequence a = sg_sequence s ->
           verify (sg_key s) (direct_sign_bytes (tx_body_bytes t) (tx_auth_bytes t) chain (ac_number a)) (sg_signature s) = true -> P)) as HS.
        { intros P. split.
          - intros H H1 H2 H3. apply H. exists a. auto.
          - intros H (a' & Ha & H1 & H2 & H3). rewrite Ho in Ha. injection Ha as <-. auto. }
        destruct (ac_pubkey a) eqn:Ek.
        2:{ apply wp_fail. split; [done|]. rewrite Forall_cons. intros [H _]. revert H. apply HS. congruence. }
        destruct (ac_sequence a =? sg_sequence s)%N eqn:Es; cbn [negb].
        2:{ apply wp_fail. split; [done|]. rewrite Forall_cons. intros [H _]. revert H. apply HS. lia. }
        destruct (verify _ _ _) eqn:Ev.
        2:{ apply wp_fail. split; [done|]. rewrite Forall_cons. intros [H _]. revert H. apply HS. congruence. }
        eapply wp_mono; [apply IH|]. intros r S' [-> H]. split; [done|].
        assert (signer_ok verify S t chain s) as Hok.
        { exists a. split; [done|]. split; [congruence|]. split; [lia|done]. }
        destruct r; rewrite Forall_cons; tauto.
      + intros _ Hn. apply wp_fail. split; [done|]. rewrite Forall_cons. intros [(a & Ha & _) _]. congruence.
  Qed.
  Lemma wp_sig_verifier f self t S : wt S ->
    wp f self (sig_verifier verify t) S
      (check S (exists chain, S !! (ty_init_chain_info, singleton_id) = Some (OInitChainInfo chain)
                    /\ Forall (signer_ok verify S t chain) (tx_signers t))).
  Proof.
    intros HW. unfold sig_verifier. apply wp_get_; [known|..].
    - intros o _ Ho. destruct (wt_init_chain S HW _ _ Ho) as (_ & chain & ->).
      eapply wp_mono; [apply wp_verify_signers; apply HW|]. intros r S' [-> H]. split; [done|].
      assert (Forall (signer_ok verify S t chain) (tx_signers t) <->
        exists c, S !! (ty_init_chain_info, singleton_id) = Some (OInitChainInfo c)
                    /\ Forall (signer_ok verify S t c) (tx_signers t)) as Hi.
      { split; [eauto|]. intros (c & E & HF). rewrite Ho in E. by injection E as <-. }
      destruct r; rewrite <- Hi; done.
    - intros _ Hn. apply wp_fail. split; [done|]. intros (c & E & _). congruence.
  Qed.
  Lemma wp_fee_checker f self t S : wt S ->
    wp f self (fee_checker bits t) S
      (check S (exists x c r, S !! at_balance (tx_payer t) = Some (OBalance x c) /\ safe_sub bits c (tx_fee t) = Ok r)).
  Proof.
    intros HW. unfold fee_checker. apply wp_get_; [known|..].
    - intros o _ Ho. destruct (wt_balance S HW _ _ Ho) as (x & c & -> & _). apply wp_lift.
      + intros r Hr. apply wp_ret. split; [done|]. eauto.
      + intros e He. split; [done|]. intros (x' & c' & r & E & Hr). rewrite Ho in E. injection E as <- <-. congruence.
    - intros _ Hn. apply wp_fail. split; [done|]. intros (x' & c' & r & E & Hr). congruence.
  Qed.

  Notation by_mod n h := {| th_self := users_from_string [n]; th_run := h |}.
  Definition admission_handlers : list (tx_handler object msg tx) :=
    [by_mod (str "authn") mempool_fee; by_mod (str "authn") account_exists; by_mod (str "authn") timeout_block;
     by_mod (str "authn") validate_memo; by_mod (str "authn") sig_count; by_mod (str "authn") (sig_verifier verify);
     by_mod (str "distribution") (fee_checker bits)].
  Definition post_handlers : list (tx_handler object msg tx) :=
    [by_mod (str "authn") consume_gas; by_mod (str "authn") set_pub_keys; by_mod (str "authn") increase_sequence;
     by_mod (str "distribution") fee_deduction].
  Lemma app_tx_handlers :
    ro_auth_admission (ap_router app) = admission_handlers /\ ro_post_auth (ap_router app) = post_handlers.
  Proof. rewrite (tl_admission _ _ _ HA), (tl_post_auth _ _ _ HA). split; reflexivity. Qed.

  Lemma wpt_check f h hs t S (P : Prop) Q :
    wp f (th_self h) (th_run h t) S (check S P) ->
    (P -> wpt f hs t S Q) -> (~ P -> forall e, Q (Fail e) S) -> wpt f (h :: hs) t S Q.
  Proof.
    intros H1 H2 H3. apply wpt_cons. eapply wp_mono; [apply H1|].
    intros r S' [-> H]. destruct r; auto.
  Qed.

  Lemma wpt_admission f t S : wt S -> wf_users (tx_users t) ->
    wpt f admission_handlers t S (check S (admitted bits verify S t)).
  Proof.
    intros HW HU. unfold admission_handlers.
    apply wpt_cons. apply wp_ret.
    eapply wpt_check; [by apply wp_account_exists| |by intros H e; split; [done|intros []; tauto]]. intros H1.
    eapply wpt_check; [by apply wp_timeout| |by intros H e; split; [done|intros []; tauto]]. intros H2.
    eapply wpt_check; [by apply wp_memo| |by intros H e; split; [done|intros []; tauto]]. intros H3.
    eapply wpt_check; [by apply wp_sig_count| |by intros H e; split; [done|intros []; tauto]]. intros H4.
    eapply wpt_check; [by apply wp_sig_verifier| |by intros H e; split; [done|intros []; tauto]]. intros H5.
    eapply wpt_check; [apply wp_fee_checker, HW| |by intros H e; split; [done|intros []; tauto]]. intros H6.
    apply wpt_nil. split; [done|]. by split.
  Qed.

  (** ** After authentication *)
  Lemma wp_set_keys f self (l : list signer) S Q : wt S ->
    Forall (fun s => exists a, S !! at_account (sg_address s) = Some (OAccount a) /\ ac_pubkey a <> None) l ->
    Q (Ok tt) S -> wp f self (set_keys l) S Q.
  Proof.
    intros HW HF HQ. induction HF as [|s l (a & Ha & Hk) _ IH]; cbn [set_keys].
    - by apply wp_ret.
    - apply wp_get_; [known|..].
      + intros o _ Ho. rewrite Ha in Ho. injection Ho as <-. destruct (ac_pubkey a); [done|congruence].
      + intros _ Hn. congruence.
  Qed.

  Lemma wp_increase f (l : list user) : forall S Q, inv S -> NoDup (map u_name l) ->
    Forall (fun u => is_Some (S !! at_account (u_name u))) l ->
    Q (Ok tt) (bump (fun n => bool_decide (n ∈ map u_name l)) S) ->
    wp f (users_from_string [str "authn"]) (increase_sequences l) S Q.
  Proof.
    induction l as [|u l IH]; intros S Q HI HN HF HQ; cbn [increase_sequences].
    - apply wp_ret. replace S with (bump (fun n => bool_decide (n ∈ map u_name [])) S); [done|].
      apply map_eq. intros k. rewrite bump_lookup. cbn. by destruct (S !! k) as [[]|].
    - apply NoDup_cons in HN as [Hu HN]. apply Forall_cons in HF as [[o Ho] HF].
      destruct (wt_account S (iv_wt S HI) _ _ Ho) as (a & -> & Ek).
      apply wp_get_; [known|..]; [|congruence].
      intros o Hne Ho'. rewrite Ho in Ho'. injection Ho' as <-.
      eapply (wp_update C bits verify app HA enum HE true); [apply HI|apply self_wf|perm|..]; cbn [key_of ty_of next_sequence ac_address].
      2:{ rewrite <- Ek. congruence. }
      intros Hk _. pose proof (inv_insert S (OAccount (next_sequence a)) HI Hk I) as HI1. cbn [key_of ty_of next_sequence ac_address] in HI1.
      rewrite <- Ek in *. apply IH; [done|done|..].
      + eapply Forall_impl; [exact HF|]. intros u' [o' Ho']. apply lookup_insert_is_Some.
        destruct (decide (at_account (u_name u) = at_account (u_name u'))); eauto.
      + replace (bump (fun n => bool_decide (n ∈ map u_name l)) _) with
          (bump (fun n => bool_decide (n ∈ map u_name (u :: l))) S); [done|].
        apply map_eq. intros k. rewrite !bump_lookup. cbn [map].
        destruct (decide (k = at_account (u_name u))) as [->|Hne'].
        * rewrite lookup_insert, Ho. cbn [snd]. rewrite bool_decide_eq_true_2 by set_solver.
          by rewrite bool_decide_eq_false_2.
        * rewrite lookup_insert_ne by done. destruct (S !! k) as [[]|] eqn:E; try done.
          destruct k as [ty k]. destruct (iv_wt S HI _ _ _ E) as (-> & E2 & _). cbn [snd].
          rewrite (bool_decide_ext (k ∈ u_name u :: map u_name l) (k ∈ map u_name l)); [done|].
          rewrite elem_of_cons. split; [|auto]. intros [->|?]; done.
  Qed.

  (** The chain after authentication, for an admitted transaction. *)
  Lemma wpt_post f t S Q : inv S -> wf_users (tx_users t) -> admitted bits verify S t ->
    (forall r S', sent bits (bump (users_has1 (tx_users t)) S) (tx_payer t) fee_collector (tx_fee t) r S' ->
       Q (match r with Fail e => Fail (bad_request e) | _ => r end) S') ->
    wpt f post_handlers t S Q.
  Proof.
    intros HI HU HAd HQ. unfold post_handlers.
    apply wpt_cons. apply wp_ret.
    apply wpt_cons. cbn [th_run th_self]. unfold set_pub_keys. apply wp_set_keys; [apply HI|..].
    { destruct (ad_signatures _ _ _ _ HAd) as (chain & _ & HF). eapply Forall_impl; [exact HF|].
      intros s (a & Ha & Hk & _). eauto. }
    apply wpt_cons. cbn [th_run th_self]. unfold increase_sequence. apply (wp_enum C app enum HE). intros l Hl.
    apply wp_increase; [done|by eapply list_names_nodup|..].
    { rewrite Forall_forall. intros u Hu. apply (ad_accounts _ _ _ _ HAd). apply has1_spec.
      apply (list_members _ l _ HU Hl). apply elem_of_list_fmap. eauto. }
    rewrite (bump_ext _ (users_has1 (tx_users t))).
    2:{ intros n. apply eq_true_iff_eq. rewrite bool_decide_eq_true. apply (list_members _ l _ HU Hl). }
    pose proof (bump_inv (users_has1 (tx_users t)) S HI) as HI1.
    apply wpt_cons. cbn [th_run th_self fee_deduction]. eapply (wp_deliver C app enum true); [apply self_wf|].
    apply (wpd_send C bits verify app HA enum HE); [done|apply self_wf|..].
    - intros r S' Hs _. specialize (HQ r S' Hs). destruct r as [[]|e| |]; try done.
      apply wp_ret. by apply wpt_nil.
    - intros Hg. exfalso. apply Hg. apply module_can; [done|vm_compute; reflexivity].
  Qed.

  (** ** Messages *)
  Inductive msgs_ran (us : users) : list msg -> amap -> res unit -> amap -> Prop :=
  | msgs_done S : msgs_ran us [] S (Ok tt) S
  | msgs_next m l S S' r S'' : ran bits us m S (Ok tt) S' -> msgs_ran us l S' r S'' -> msgs_ran us (m :: l) S r S''
  | msgs_stop m l S e S' : ran bits us m S (Fail e) S' -> msgs_ran us (m :: l) S (Fail e) S'.

  Inductive tx_ran (t : tx) (S : amap) : res unit -> amap -> Prop :=
  | tx_refused e : ~ admitted bits verify S t -> tx_ran t S (Fail e) S
  | tx_no_fee e S2 : admitted bits verify S t ->
      sent bits (bump (users_has1 (tx_users t)) S) (tx_payer t) fee_collector (tx_fee t) (Fail e) S2 ->
      tx_ran t S (Fail (bad_request e)) S2
  | tx_messages S2 r S3 : admitted bits verify S t ->
      sent bits (bump (users_has1 (tx_users t)) S) (tx_payer t) fee_collector (tx_fee t) (Ok tt) S2 ->
      msgs_ran (tx_users t) (tx_msgs t) S2 r S3 -> tx_ran t S r S3.
End Run.

Lemma sent_inv bits S from to amt r S' : inv S -> sent bits S from to amt r S' -> inv S'.
Proof.
  intros HI H. destruct H; subst; repeat (eapply created_inv; [|eassumption] || apply put_balance_inv); done.
Qed.
Lemma ran_inv bits us m S r S' : inv S -> ran bits us m S r S' -> inv S'.
Proof.
  intros HI []; [done|by eapply created_inv|by eapply sent_inv].
Qed.
Lemma msgs_ran_inv bits us l S r S' : inv S -> msgs_ran bits us l S r S' -> inv S'.
Proof. intros HI H. induction H; [done| |by eapply ran_inv]. apply IHmsgs_ran. by eapply ran_inv. Qed.
Lemma tx_ran_inv bits verify t S r S' : inv S -> tx_ran bits verify t S r S' -> inv S'.
Proof.
  intros HI []; [done|eapply sent_inv; [|done]; by apply bump_inv|].
  eapply msgs_ran_inv; [|done]. eapply sent_inv; [|done]. by apply bump_inv.
Qed.
Lemma sent_res bits S from to amt r S' : sent bits S from to amt r S' -> r = Ok tt \/ exists e, r = Fail e.
Proof. intros []; eauto. Qed.
Lemma ran_res bits us m S r S' : ran bits us m S r S' -> r = Ok tt \/ exists e, r = Fail e.
Proof. intros []; eauto. by eapply sent_res. Qed.

