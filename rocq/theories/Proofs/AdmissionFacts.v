(** Admission of transactions always comes to a verdict: with named users and a
    payer it does not abort. *)
From Coq Require Import NArith ZArith List Bool String Lia.
From stdpp Require Import base list gmap.
From Verif.Model Require Import Bytes KindEncoder Desc Schema Indexes Orm Users Prog Router Runtime
  Services Module Builder Universe Strings Coin CoreModules Rbac Bank Authn Distribution TestApp Abci.
From Verif.Spec Require Import UserSpec StoreSpec RuntimeSpec CoinSpec RbacSpec ChainSpec.
From Verif.Proofs Require Import OrmFacts UserFacts CoinFacts SimFacts AppFacts AppSim RbacFacts MapExec
  ChainInv ChainWp ChainRun ChainHist ReadOnlyFacts ChainView.

(** ** Coins *)
Lemma parse_coins_alive bits s : (bits <= 314)%N -> alive (parse_coins bits s).
Proof.
  intros Hb. unfold parse_coins. destruct (parse_dec_coins bits s) as [l|] eqn:E; [|exact I].
  apply parse_dec_coins_sound in E as [_ Hl].
  assert (forallb (fun c => int_fits (snd c)) (map (fun c => (fst c, Z.of_N (snd c / 10 ^ 18))) l) = true) as ->; [|exact I].
  apply forallb_forall. intros x Hx. apply in_map_iff in Hx as (y & <- & Hy). cbn [snd].
  destruct (proj1 (List.Forall_forall _ _) Hl y Hy) as [_ Hn].
  assert (2 ^ bits <= 2 ^ 314)%N by (apply N.pow_le_mono_r; lia).
  unfold int_fits. assert (snd y / 10 ^ 18 < 2 ^ 255)%N.
  { apply N.div_lt_upper_bound; [done|]. eapply N.lt_le_trans; [exact Hn|]. etrans; [exact H|]. vm_compute. discriminate. }
  apply Z.ltb_lt. rewrite Z.abs_eq by lia. change (2 ^ 255)%Z with (Z.of_N (2 ^ 255)). lia.
Qed.
Lemma safe_sub_alive bits a b : (bits <= 314)%N -> alive (safe_sub bits a b).
Proof.
  intros Hb. pose proof (parse_coins_alive bits (coins_text a) Hb) as Ha.
  pose proof (parse_coins_alive bits (coins_text b) Hb) as Hb'.
  change (alive (new_balance bits a)) in Ha. change (alive (new_balance bits b)) in Hb'.
  pose proof (safe_sub_parsed bits a b) as H.
  destruct (new_balance bits a) as [i|e| |] eqn:Ei; try done; [|unfold safe_sub; by rewrite Ei].
  destruct (new_balance bits b) as [s|e| |] eqn:Es; try done; [|unfold safe_sub; by rewrite Ei, Es].
  specialize (H i s eq_refl eq_refl). by destruct (safe_sub bits a b).
Qed.

(** ** Programs that cannot abort *)
Inductive settles {A} (g : bytes -> bytes -> res object) : prog object msg A -> Prop :=
| se_ret a : settles g (PRet a)
| se_fail e : settles g (PFail e)
| se_get ty id k : alive (g ty id) ->
    (forall o, g ty id = Ok o -> settles g (k (inl o))) ->
    (forall e, g ty id = Fail e -> settles g (k (inr e))) ->
    settles g (PGet ty id [] k)
| se_enum us k : (forall l, (forall u, u ∈ l -> exists n, us !! n = Some u) -> settles g (k l)) -> settles g (PEnum us k).

(** Reading gives an object of the type asked for, or an error. *)
Definition reads_well (g : bytes -> bytes -> res object) : Prop := forall ty id, ty ∈ all_types -> id <> [] ->
  match g ty id with Ok o => ty_of o = ty | Fail _ => True | _ => False end.

Lemma settles_get {A} g ty id (f : object -> prog object msg A) h : reads_well g -> ty ∈ all_types -> id <> [] ->
  (forall o, ty_of o = ty -> settles g (f o)) -> (forall e, settles g (h e)) -> settles g (get_ ty id f h).
Proof.
  intros HG Ht Hi Hf Hh. specialize (HG ty id Ht Hi). unfold get_. apply se_get.
  - by destruct (g ty id).
  - intros o E. apply Hf. by rewrite E in HG.
  - intros e _. apply Hh.
Qed.

Section Settle.
  Context {St Tx : Type} (O : objops object) (SO : storeops object St) (en : env object msg Tx).
  Context (dlv : users -> msg -> world object msg St -> res unit * world object msg St).
  Context (HE : forall tr, fair_order (en_enum en tr)).
  Lemma settles_exec {A} (s : St) self (p : prog object msg A) : settles (fun ty id => rt_get SO ty id s) p ->
    forall w, w_store w = s -> alive (fst (exec O SO en dlv self p w)) /\ w_store (snd (exec O SO en dlv self p w)) = s.
  Proof.
    intros Hp. induction Hp as [a|e|ty id k Ha _ IH1 _ IH2|us k _ IH]; intros w Hw; cbn [exec]; [by split..| |].
    - change (get_height []) with 0%N. cbn [N.eqb negb]. rewrite Hw.
      destruct (rt_get SO ty id s); try done; [by apply IH1|by apply IH2].
    - apply IH; [|done]. intros u Hu. rewrite (HE (w_trace w) us) in Hu.
      apply elem_of_list_fmap in Hu as ([n u'] & -> & Hu). apply elem_of_map_to_list in Hu. eauto.
  Qed.
  Lemma settles_tx (s : St) hs (t : Tx) :
    Forall (fun h => settles (fun ty id => rt_get SO ty id s) (th_run h t)) hs -> forall w, w_store w = s ->
    alive (fst (run_tx_handlers O SO en dlv hs t w)) /\ w_store (snd (run_tx_handlers O SO en dlv hs t w)) = s.
  Proof.
    induction 1 as [|h hs Hh _ IH]; intros w Hw; cbn [run_tx_handlers]; [done|].
    destruct (settles_exec s (th_self h) _ Hh w Hw) as [H1 H2].
    destruct (exec _ _ _ _ _ _ w) as [r w1]. cbn [fst snd] in *. destruct r; try done; [by apply IH].
  Qed.
End Settle.

Local Ltac tin := apply (bool_decide_unpack _); vm_compute; exact I.
Local Ltac tshape H o := destruct o; try (apply (f_equal ty_index) in H; vm_compute in H; discriminate H).

Lemma known_types : ty_account ∈ all_types /\ ty_current_block ∈ all_types /\ ty_auth_params ∈ all_types
  /\ ty_init_chain_info ∈ all_types /\ ty_balance ∈ all_types.
Proof. split_and!; tin. Qed.

Section Checks.
  Context (g : bytes -> bytes -> res object) (HG : reads_well g).
  Lemma settles_accounts l : Forall (fun u => u_name u <> []) l -> settles g (accounts_exist l).
  Proof.
    induction 1 as [|u l Hu _ IH]; cbn [accounts_exist]; [constructor|].
    apply settles_get; [done|apply known_types|done|by intros|constructor].
  Qed.
  Lemma settles_count limit l : forall n, settles g (count_sigs limit n l).
  Proof. induction l; intros n; cbn [count_sigs]; [constructor|]. destruct (_ <? _)%N; [constructor|done]. Qed.
  Lemma settles_signers verify t chain l : Forall (fun s => sg_address s <> []) l ->
    settles g (verify_signers verify t chain l).
  Proof.
    induction 1 as [|s l Hs _ IH]; cbn [verify_signers]; [constructor|].
    apply settles_get; [done|apply known_types|done| |constructor].
    intros o Ho. tshape Ho o. destruct (ac_pubkey _); [|constructor]. destruct (negb _); [constructor|].
    destruct (verify _ _ _); [done|constructor].
  Qed.
  Lemma singleton_named : singleton_id <> [].
  Proof. discriminate. Qed.
  Lemma settles_admission bits verify t : (bits <= 314)%N -> proper t ->
    Forall (fun h => settles g (th_run h t)) (admission_handlers bits verify).
  Proof.
    intros Hb HP. pose proof singleton_named as Hn.
    unfold admission_handlers. repeat (apply Forall_cons; split); [..|by apply Forall_nil]; cbn [th_run].
    - constructor.
    - constructor. intros l Hl. apply settles_accounts. apply Forall_forall. intros u Hu.
      destruct (Hl u Hu) as [n Hu']. pose proof (proper_wf t HP n u Hu') as Hun.
      assert (signs t n) as Hs by (apply (proper_users t n HP); eauto).
      apply elem_of_list_fmap in Hs as (s & -> & Hs). rewrite Hun.
      by apply (proj1 (Forall_forall _ _) (pr_named t HP)).
    - unfold timeout_block. apply settles_get; [done|apply known_types|done| |constructor].
      intros o Ho. tshape Ho o. destruct (_ && _); constructor.
    - unfold validate_memo, with_params. apply settles_get; [done|apply known_types|done| |constructor].
      intros o Ho. tshape Ho o. destruct (_ <? _)%N; constructor.
    - unfold sig_count, with_params. apply settles_get; [done|apply known_types|done| |constructor].
      intros o Ho. tshape Ho o. apply settles_count.
    - unfold sig_verifier. apply settles_get; [done|apply known_types|done| |constructor].
      intros o Ho. tshape Ho o. apply settles_signers, HP.
    - unfold fee_checker. apply settles_get; [done|apply known_types|apply HP| |constructor].
      intros o Ho. tshape Ho o. unfold lift. pose proof (safe_sub_alive bits coins (tx_fee t) Hb).
      destruct (safe_sub _ _ _); try done; constructor.
  Qed.
End Checks.

Section Exact.
  Context (C : codec) (bits : N) (verify : bytes -> bytes -> bytes -> bool).
  Context (enum : list (event object msg) -> users -> list user) (fuel : nat) (decode : bytes -> res tx).
  Context (HS : sound C enum decode).
  Notation app := (test_app bits verify).
  Notation O := (app_ops C).
  Notation R := (ap_registry app).
  Notation MAP := (map_ops O R).
  Notation ORM := (orm_ops O R).
  Notation gets := (gets C bits verify).
  Notation shown := (shown C bits verify).
  Notation admission := (admission C bits verify enum fuel).
  Implicit Types (S : amap) (x : node) (t : tx).

  Lemma repr_reads S st : repr O R S st -> reads_well (fun ty id => rt_get ORM ty id st).
  Proof.
    intros HP ty id Ht Hi. pose proof (test_app_like bits verify) as HA.
    destruct (orm_get_map C R (tl_registry _ _ _ HA) (tl_schema _ _ _ HA) S st ty id (so_codec _ _ _ HS) HP Ht) as [_ H].
    destruct (rt_get ORM ty id st); try done. destruct H as [_ H].
    by destruct (repr_wt C R (tl_schema _ _ _ HA) S st HP ty id a H) as (? & _).
  Qed.

  Lemma admission_exact t x S : (bits <= 314)%N -> shown x S -> rt_enabled x = true -> proper t ->
    unchanged x (snd (admission t x))
    /\ (fst (admission t x) = Ok tt /\ admissible bits verify (gets x) t
        \/ (exists e, fst (admission t x) = Fail e) /\ ~ admissible bits verify (gets x) t).
  Proof.
    intros Hb Hx He HP.
    assert (alive (fst (admission t x)) /\ unchanged x (snd (admission t x))) as [Ha Hu].
    { unfold ChainSpec.admission, at_world, bytes_store, the_app. cbv zeta.
      unfold run_tx_admission_chain. cbn [en_router env_of].
      destruct (app_tx_handlers bits verify app (test_app_like bits verify)) as [E1 _]. rewrite E1.
      pose proof (settles_tx O ORM (env_of app enum (rt_enabled x))
        (deliver O msg_name ORM (env_of app enum (rt_enabled x)) fuel false) (so_order _ _ _ HS)
        (w_store (rt_world x)) _ t
        (settles_admission _ (repr_reads S _ Hx) bits verify t Hb HP) (rt_world x) eq_refl) as [H1 H2].
      destruct (run_tx_handlers _ _ _ _ _ _ _) as [r w]. split; [exact H1|exact H2]. }
    clear Hb.
    split; [exact Hu|]. rewrite (admissible_tracked C bits verify enum decode HS x S t Hx HP).
    revert Ha. clear Hu. unfold ChainSpec.admission, at_world, bytes_store, the_app. cbv zeta. rewrite He.
    set (w2 := {| w_store := S; w_trace := w_trace (rt_world x) |}).
    assert (simw (Msg:=msg) (map_rel O (app_registry bits verify)) (rt_world x) w2) as Hw by (split; [exact Hx|reflexivity]).
    pose proof (test_app_admission_sim C bits verify enum fuel t _ _ (so_codec _ _ _ HS) Hw) as Hd.
    unfold app_registry in Hd. cbv zeta in Hd.
    pose proof (wpt_admission C bits verify app (test_app_like bits verify) enum (so_order _ _ _ HS) fuel t S
      (shown_wt C bits verify x S Hx) (proper_wf t HP) w2 eq_refl) as H.
    destruct (app_tx_handlers bits verify app (test_app_like bits verify)) as [E1 _].
    unfold run_tx_admission_chain in *. cbn [en_router env_of] in *. rewrite E1 in *.
    destruct (run_tx_handlers _ ORM _ _ _ _ _) as [r w1]. cbn [fst snd] in *. intros Ha.
    destruct (run_tx_handlers _ MAP _ _ _ _ _) as [r2 w3].
    unfold simr in Hd. cbn [fst snd] in Hd.
    assert (dead r \/ r = r2) as Hr by (destruct Hd as [Hd|[Hd _]]; [left; exact Hd|right; exact Hd]).
    assert (dead r2 \/ match r2 with Ok _ => admitted bits verify S t | _ => ~ admitted bits verify S t end) as H'.
    { destruct H as [H|[_ H]]; [left; exact H|right; exact H]. }
    clear - Hr H' Ha. destruct Hr as [Hr| <-]; [by destruct r|]. destruct H' as [H|H]; [by destruct r|].
    destruct r as [[]|e| |]; try done; [by left|right; eauto].
  Qed.
End Exact.
