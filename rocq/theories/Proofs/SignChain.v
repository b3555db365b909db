(** Signed transfers on the running chain. *)
From Coq Require Import NArith ZArith List Bool String Lia.
From stdpp Require Import base list gmap relations.
From Verif.Model Require Import Bytes KindEncoder Desc Schema Indexes Orm Users Prog Router Runtime
  Services Module Builder Universe Coin CoreModules Rbac Bank Authn Distribution TestApp Abci Proto Marshal TxDecoder Sign.
From Verif.Spec Require Import TextSpec UserSpec StoreSpec RuntimeSpec RbacSpec CoinSpec ChainSpec LiveSpec TxSpec LedgerSpec SignSpec.
From Verif.Proofs Require Import BytesFacts KindEncoderFacts RegistryFacts OrmFacts UserFacts RuntimeFacts
  BuilderFacts SimFacts AppFacts AppSim RbacFacts MapExec ChainInv ChainWp ChainRun ChainHist ReadOnlyFacts ChainView
  ChainFacts CoinFacts AdmissionFacts TotalExec TotalRun TotalChain TotalNode LiveFacts LiveProps DecoderFacts SupplyFacts ChainProps WrittenFacts LedgerFacts SignFacts.

Local Ltac known := apply (bool_decide_unpack _); vm_compute; exact I.

(** ** The name of the chain and the account of genesis stay *)
Notation at_info := (ty_init_chain_info, singleton_id).
Definition founder (s : N) : object :=
  OAccount {| ac_address := genesis_address; ac_pubkey := Some genesis_key; ac_number := 0; ac_sequence := s |}.
Record founded (id : bytes) (S : amap) : Prop := {
  fd_name : S !! at_info = Some (OInitChainInfo id);
  fd_account : exists s, S !! at_account genesis_address = Some (founder s)
}.
Lemma genesis_founded id : founded id (genesis_store id).
Proof. split; [vm_compute; reflexivity|]. exists 0%N. vm_compute. reflexivity. Qed.
Lemma founded_frame id S S' : S' !! at_info = S !! at_info ->
  (forall k, S' !! at_account k = S !! at_account k) -> founded id S -> founded id S'.
Proof. intros E1 E2 [H1 H2]. split; [by rewrite E1|by rewrite E2]. Qed.
Lemma change_founded id S S' : change S S' -> founded id S -> founded id S'.
Proof.
  intros H [H1 [s H2]]. split; [|exists s; by eapply change_account_keeps].
  destruct H as [a c H|a S1 [n G1 G2 G3 G4]].
  - rewrite lookup_insert_ne; [done|tyne].
  - rewrite lookup_insert_ne; [|tyne]. rewrite lookup_insert_ne; [|tyne]. rewrite lookup_insert_ne; [done|tyne].
Qed.
Lemma changes_founded id S S' : rtc change S S' -> founded id S -> founded id S'.
Proof. induction 1; [done|]. intros. by apply IHrtc, (change_founded id x). Qed.
Lemma bump_founded id p S : wt S -> founded id S -> founded id (bump p S).
Proof.
  intros HW [H1 [s H2]]. split; [by rewrite bump_other by (done || known)|].
  rewrite bump_lookup, H2. unfold founder. cbn [snd]. destruct (p genesis_address); eexists; reflexivity.
Qed.
Lemma tx_ran_founded id bits verify t S r S' : wt S -> tx_ran bits verify t S r S' -> founded id S -> founded id S'.
Proof.
  intros HW H HH. destruct (tx_ran_changes _ _ _ _ _ _ H) as [(_ & -> & _)|[_ Hc]]; [done|].
  eapply changes_founded; [done|]. by apply bump_founded.
Qed.
Lemma paid_founded id bits verify t S r S' : wt S -> paid bits verify t S r S' -> founded id S -> founded id S'.
Proof.
  intros HW [] HH; [done|..]; (eapply changes_founded; [by eapply sent_changes|]; by apply bump_founded).
Qed.
Lemma call_ran_founded id bits verify decode S c r S' : wt S -> call_ran bits verify decode S c r S' -> founded id S -> founded id S'.
Proof.
  intros HW [] HH; try done.
  - revert HH. apply founded_frame; intros; rewrite !lookup_insert_ne by tyne; done.
  - by eapply tx_ran_founded.
  - revert HH. apply founded_frame; intros; rewrite !lookup_insert_ne by tyne; done.
Qed.
Lemma history_founded id bits verify decode cs S S' : inv S -> history bits verify decode cs S S' -> founded id S -> founded id S'.
Proof.
  intros HI H. induction H as [|c cs S r S1 S' Hc _ IH]; [done|]. intros HH. apply IH; [by eapply call_ran_inv|].
  eapply call_ran_founded; [apply HI|done|done].
Qed.

Section Node.
  Context (C : codec) (bits : N) (verify : bytes -> bytes -> bytes -> bool).
  Context (enum : list (event object msg) -> users -> list user) (fuel : nat) (decode : bytes -> res tx).
  Context (HS : sound C enum decode).
  Notation call := (call C bits verify enum fuel decode).
  Notation gets := (gets C bits verify).
  Notation reachable := (reachable C bits verify enum fuel decode).
  Notation tracked := (tracked C bits verify).
  Implicit Types (S : amap) (x : node) (t : tx).

  Lemma reachable_founded id x : reachable id x -> exists S, tracked x S /\ founded id S.
  Proof.
    induction 1 as [cs x H|x t r x' _ (S & IH & HH) HP Hp Ha|x t m r x' _ (S & IH & HH) HP Hp Ha|x x' _ (S & IH & HH) Hw He Hi Hg].
    - apply (running_tracked C bits verify enum fuel decode HS) in H as (S & HT & Hh). exists S. split; [done|].
      eapply history_founded; [apply genesis_inv|done|apply genesis_founded].
    - destruct (pay_tracked C bits verify enum fuel decode HS t x S r x' IH HP Hp Ha) as (S' & HT & Hr). exists S'. split; [done|].
      eapply paid_founded; [apply (tk_inv _ _ _ _ _ IH)|done|done].
    - destruct (send_tracked C bits verify enum fuel decode HS (tx_users t) m x S r x' IH (proper_wf t HP) (proper_ordinary t HP) Hp Ha) as (S' & HT & Hr).
      exists S'. split; [done|]. eapply changes_founded; [by eapply ran_changes|done].
    - destruct (written_shown C bits verify enum decode HS x' Hw) as [S' Hx]. exists S'.
      assert (forall ty k, ty ∈ all_types -> ty <> ty_balance -> S' !! (ty, k) = S !! (ty, k)) as E.
      { intros ty k Ht Hn. apply option_eq. intros o.
        rewrite <- (reads_iff C bits verify enum decode HS x' S' ty k o Hx Ht),
          <- (reads_iff C bits verify enum decode HS x S ty k o (tk_shown _ _ _ _ _ IH) Ht). by apply Hg. }
      split.
      + apply tracked_shown; [done| |done..].
        apply (inv_balances S); [exact (tk_inv C bits verify x S IH)|by apply (shown_wt C bits verify x')|done].
      + revert HH. apply founded_frame; intros; rewrite E by known; done.
  Qed.
  Lemma chain_named id x : reachable id x -> gets x ty_init_chain_info singleton_id (OInitChainInfo id).
  Proof.
    intros Hx. destruct (reachable_founded id x Hx) as (S & HT & HF).
    apply (reads_iff C bits verify enum decode HS x S); [apply HT|known|apply HF].
  Qed.
  Lemma founder_stays id x : reachable id x -> exists s, gets x ty_account genesis_address (founder s).
  Proof.
    intros Hx. destruct (reachable_founded id x Hx) as (S & HT & HF). destruct (fd_account _ _ HF) as [s Hs]. exists s.
    apply (reads_iff C bits verify enum decode HS x S); [apply HT|known|exact Hs].
  Qed.
  Lemma params_stay id x : reachable id x -> gets x ty_auth_params singleton_id (OAuthParams initial_params).
  Proof.
    intros Hx. destruct (reachable_founded id x Hx) as (S & HT & HF).
    apply (reads_iff C bits verify enum decode HS x S); [apply HT|known|]. apply (iv_params _ (tk_inv _ _ _ _ _ HT)).
  Qed.
  Lemma height_stays id x : reachable id x -> exists h, gets x ty_current_block singleton_id (OCurrentBlock h).
  Proof.
    intros Hx. destruct (reachable_founded id x Hx) as (S & HT & HF). pose proof (tk_inv _ _ _ _ _ HT) as HI.
    destruct (single S (OCurrentBlock 0) HI) as [o Ho]; [unfold singletons; set_solver|]. cbn [ty_of] in Ho.
    destruct (wt_current_block _ (iv_wt _ HI) _ _ Ho) as (_ & h & ->). exists h.
    apply (reads_iff C bits verify enum decode HS x S); [apply HT|known|exact Ho].
  Qed.

  (** ** Admission of a transfer *)
  Lemma covers_sub c amt : readable bits c -> readable bits amt ->
    (forall d, worth bits amt d <= worth bits c d)%N -> exists r, safe_sub bits c amt = Ok r.
  Proof.
    intros Hc Ha Hw. pose proof (fun e => covered_sub bits c amt e Hc Ha Hw) as Hn.
    destruct Hc as [i Hi], Ha as [s Hs]. pose proof (safe_sub_parsed bits c amt i s Hi Hs) as HP.
    destruct (safe_sub bits c amt) as [r|e| |] eqn:Es; [eauto|destruct (Hn e eq_refl)|destruct HP|destruct HP].
  Qed.
  Lemma normal_worth (l : sdk_coins) F d : coin_set (to_coins l) F -> within bits F ->
    readable bits (to_coins l) /\ worth bits (to_coins l) d = F d.
  Proof. apply worth_set. Qed.
  Lemma normal_positive c F : normal_set c F -> c <> [] -> exists d, (F d <> 0)%N.
  Proof.
    intros ((ns & Hf & _ & HF) & _ & Hp) Hc. destruct Hf as [|y n c ns Hr Hf]; [done|].
    apply Forall_cons in Hp as [(m & Hm & Em) _]. exists (co_denom y). rewrite HF. cbn [map zip zip_with].
    unfold amount_in. cbn [fold_right fst snd]. rewrite decide_True by reflexivity.
    destruct Hr as [_ Hr]. rewrite Em in Hr. apply digits_value_text in Hr as <-.
    rewrite (digits_value_text _ _ (decimal_is_text m)). lia.
  Qed.
  Lemma has_or_not x ty k : (exists o, gets x ty k o) \/ forall o, ~ gets x ty k o.
  Proof.
    unfold ChainSpec.gets. destruct (orm_get _ _ ty k _) as [o| | |]; [left; eauto|right; discriminate..].
  Qed.
  Lemma pays_admissible hash160 (sig : bytes -> bytes -> Prop) id x t key number sequence fee from to amount F :
    reachable id x -> orderly bits (gets x) ->
    pays hash160 sig t key id number sequence fee from to amount ->
    (forall m s, sig m s -> verify key m s = true) ->
    has_account (gets x) (address_of_key hash160 key) number sequence ->
    normal_set fee F -> within bits F -> fee <> [] ->
    (forall d n, balance bits (gets x) (address_of_key hash160 key) d n -> F d <= n)%N ->
    admissible bits verify (gets x) t.
  Proof.
    intros Hx HO [(s & Es & Hs) Em Ef Ep [Eo Et]] Hv (acc & Hacc & Hpk & En & Eq) HF HW Hne Hcov.
    assert (forall a, signs t a <-> a = address_of_key hash160 key) as Hsg.
    { intros a. unfold signs. rewrite Es. cbn [map sg_address]. by rewrite elem_of_list_singleton. }
    split.
    - intros a ->%Hsg. eauto.
    - destruct (height_stays id x Hx) as [h Hh]. exists h. split; [done|]. by left.
    - exists initial_params. split; [by apply (params_stay id)|]. rewrite Eo. cbn [length pr_max_memo initial_params]. lia.
    - exists initial_params. split; [by apply (params_stay id)|]. rewrite Es. cbn [length pr_sig_limit initial_params]. lia.
    - exists id. split; [by apply chain_named|]. intros s0. rewrite Es, elem_of_list_singleton. intros ->.
      exists acc. cbn [sg_address sg_sequence sg_key sg_signature]. split; [done|]. split; [done|]. split; [done|].
      rewrite En. by apply Hv.
    - rewrite Ep, Ef. destruct (worth_set bits fee F [] (proj1 HF) HW) as [Hr _].
      destruct (has_or_not x ty_balance (address_of_key hash160 key)) as [[o Ho]|Hno].
      + destruct (or_each _ _ HO _ _ Ho) as (c & -> & _ & Hc). exists (address_of_key hash160 key), c.
        destruct (covers_sub c fee Hc Hr) as [r Hsub]; [|eauto]. intros d.
        rewrite (proj2 (worth_set bits fee F d (proj1 HF) HW)). apply Hcov. left. eauto.
      + destruct (normal_positive fee F HF Hne) as [d Hd]. pose proof (Hcov d 0%N (or_intror (conj Hno eq_refl))). lia.
  Qed.

  (** ** What it does *)
  Lemma next_account id x t raw x' a number sequence : reachable id x -> decode raw = Ok t -> signs t a ->
    call (CallDeliverTx raw) x = (Ok tt, x') -> has_account (gets x) a number sequence ->
    has_account (gets x') a number ((sequence + 1) mod 2 ^ 64).
  Proof.
    intros Hx Hd Hs Hc (acc & Hacc & Hpk & En & Eq).
    apply (reachable_tracked C bits verify enum fuel decode HS) in Hx as [S HT].
    destruct (call_tracked C bits verify enum fuel decode HS x S _ _ x' HT Hc I) as (S' & HT' & Hcr).
    inversion Hcr as [| |? e He|? t' ? ? Ht Htr| |]; subst. assert (t' = t) as -> by congruence.
    destruct (tx_ran_changes _ _ _ _ _ _ Htr) as [(_ & _ & e & [=])|[_ Hch]].
    apply (reads_iff C bits verify enum decode HS x S) in Hacc; [|apply HT|known].
    exists (next_sequence acc). split; [|by split; [|split]].
    apply (reads_iff C bits verify enum decode HS x' S'); [apply HT'|known|].
    eapply changes_account_keep; [exact Hch|]. rewrite bump_lookup, Hacc. cbn [snd].
    apply (proper_users t a (so_decoder _ _ _ HS _ _ Hd)) in Hs.
    pose proof (has1_spec (tx_users t) a) as Hu. destruct (users_has1 (tx_users t) a); [done|]. apply Hu in Hs. discriminate Hs.
  Qed.
  Lemma stale_refused hash160 (sig : bytes -> bytes -> Prop) id x t raw key chain number sequence fee from to amount :
    (bits <= 314)%N -> reachable id x -> decode raw = Ok t ->
    pays hash160 sig t key chain number sequence fee from to amount ->
    (forall acc, gets x ty_account (address_of_key hash160 key) (OAccount acc) -> ac_sequence acc <> sequence) ->
    exists e x', call (CallDeliverTx raw) x = (Fail e, x') /\ call (CallCheckTx raw) x = (Fail e, x') /\ unchanged x x'.
  Proof.
    intros Hb Hx Hd [(s & Es & _) _ _ _ _] Hseq.
    apply (reachable_tracked C bits verify enum fuel decode HS) in Hx as [S HT].
    apply (inadmissible_refused C bits verify enum fuel decode HS raw t x S Hb (tk_shown _ _ _ _ _ HT) (proj1 (tracked_flags C bits verify x S HT)) Hd).
    intros Ha. destruct (am_signed _ _ _ _ Ha) as (ch & _ & Hsg).
    destruct (Hsg {| sg_address := address_of_key hash160 key; sg_key := key; sg_signature := s; sg_sequence := sequence |}) as (acc & H1 & _ & H2 & _).
    { rewrite Es. apply elem_of_list_here. }
    exact (Hseq acc H1 H2).
  Qed.
End Node.

(** ** An amount of the denomination test *)
Notation of_test n := (fun d : bytes => if decide (str "test" = d) then n else 0%N).
Lemma tests_normal t n : (n <> 0)%N -> t = decimal n ->
  normal_set [{| co_denom := str "test"; co_amount := t |}] (of_test n).
Proof.
  intros Hn ->. split; [|split].
  - exists [n]. split; [|split].
    + constructor; [|constructor]. split; cbn [co_denom co_amount]; [|apply decimal_is_text].
      apply denom_ok_iff. vm_compute. reflexivity.
    + apply NoDup_singleton.
    + intros d. cbn [map zip zip_with co_denom]. unfold amount_in. cbn [fold_right fst snd]. destruct (decide _); [lia|reflexivity].
  - repeat constructor.
  - repeat constructor. by exists n.
Qed.

Section Protobuf.
  Context (bits : N) (verify : bytes -> bytes -> bytes -> bool) (hash160 : bytes -> bytes).
  Context (public_key : bytes -> bytes) (sign_with : bytes -> bytes -> res bytes).
  Context (enum : list (event object msg) -> users -> list user) (fuel : nat) (HE : forall tr, fair_order (enum tr)).
  Notation decode := (decode_tx hash160).
  Notation call := (call protobuf bits verify enum fuel decode).
  Notation gets := (gets protobuf bits verify).
  Notation reachable := (reachable protobuf bits verify enum fuel decode).
  Notation own private := (address_of_key hash160 (public_key private)).
  Notation signed_payment := (signed_payment public_key sign_with).
  Notation sign := (sign public_key sign_with).
  Local Notation HS := (protobuf_sound hash160 enum HE).

  Lemma payment_admitted id x private number sequence fee gas from to amount raw F :
    reachable id x -> orderly bits (gets x) -> key_pair public_key sign_with verify private ->
    signed_payment private id number sequence fee gas from to amount = Ok raw ->
    writable raw from to sequence gas fee amount ->
    normal_set (to_coins fee) F -> within bits F -> fee <> [] ->
    has_account (gets x) (own private) number sequence ->
    (forall d n, balance bits (gets x) (own private) d n -> F d <= n)%N ->
    exists t, decode raw = Ok t /\ admissible bits verify (gets x) t
      /\ pays hash160 (fun m s => sign_with private m = Ok s) t (public_key private) id number sequence (to_coins fee) from to (to_coins amount).
  Proof.
    intros Hx HO [K1 K2] Hp Hw HF HFw Hne Hacc Hcov.
    destruct (payment_decodes hash160 public_key sign_with private id number sequence fee gas from to amount raw Hp Hw Hne K1) as (t & Hd & Ht).
    exists t. split; [exact Hd|]. split; [|exact Ht].
    refine (pays_admissible protobuf bits verify enum fuel decode HS hash160 _ id x t _ number sequence _ from to _ F Hx HO Ht K2 Hacc HF HFw _ Hcov).
    destruct fee; [done|discriminate].
  Qed.
  Lemma payment_made id x private number sequence fee gas to amount raw F A :
    (bits <= 313)%N -> 3 <= fuel -> reachable id x -> orderly bits (gets x) -> key_pair public_key sign_with verify private ->
    signed_payment private id number sequence fee gas (own private) to amount = Ok raw ->
    writable raw (own private) to sequence gas fee amount ->
    normal_set (to_coins fee) F -> within bits F -> fee <> [] -> normal_set (to_coins amount) A -> within bits A ->
    has_account (gets x) (own private) number sequence ->
    (forall d n, balance bits (gets x) (own private) d n -> F d + A d <= n)%N ->
    to <> [] -> length to < 128 -> to ∉ modules_of_app ->
    succeeds oversized (call (CallDeliverTx raw) x)
    /\ forall x', call (CallDeliverTx raw) x = (Ok tt, x') ->
         (forall a d n n', balance bits (gets x) a d n -> balance bits (gets x') a d n' ->
            n' + (if decide (a = own private) then F d + A d else 0)
            = n + (if decide (a = fee_collector) then F d else 0) + (if decide (a = to) then A d else 0))%N
         /\ has_account (gets x') (own private) number ((sequence + 1) mod 2 ^ 64).
  Proof.
    intros Hb Hf Hx HO HK Hp Hw HF HFw Hne HA HAw Hacc Hcov Ht1 Ht2 Ht3.
    assert (forall d n, balance bits (gets x) (own private) d n -> F d <= n)%N as HcovF by (intros d n Hbal; specialize (Hcov d n Hbal); lia).
    destruct (payment_admitted id x private number sequence fee gas (own private) to amount raw F Hx HO HK Hp Hw HF HFw Hne Hacc HcovF)
      as (t & Hd & Ha & [(s & Es & Hs) Em Ef Ep [Eo Et]]).
    pose proof (fun d => proj2 (worth_set bits _ F d (proj1 HF) HFw)) as EF.
    pose proof (fun d => proj2 (worth_set bits _ A d (proj1 HA) HAw)) as EA.
    destruct (worth_set bits _ A [] (proj1 HA) HAw) as [HrA _].
    split.
    - refine (payments_protobuf bits verify hash160 enum fuel HE Hb id x raw t Hx HO Hd Ha Hf _). split.
      + rewrite Em. intros m ->%elem_of_list_singleton. exists (own private), to, (to_coins amount).
        split; [reflexivity|]. split; [exact Ht1|]. split; [exact Ht2|]. split; [exact Ht3|]. split; [exact HrA|].
        destruct (am_fee _ _ _ _ Ha) as (a & c & r & Hc & _). rewrite Ep in Hc. exists (OBalance a c). exact Hc.
      + intros a d n Hbal. unfold spent. rewrite Em, Ef, Ep. cbn [fold_right]. rewrite EF, EA.
        destruct (decide (own private = a)) as [<-|Hna]; [specialize (Hcov d n Hbal)|clear]; lia.
    - intros x' Hc. split.
      + destruct (ledger protobuf bits verify enum fuel decode HS id x raw t (Ok tt) x' Hx HO Hd) as [_ [(Hn & _)|(_ & l & Hl & HE')]].
        * rewrite Em. intros f to' amt' Hi. apply elem_of_list_singleton in Hi. injection Hi as -> -> ->. exact Ht2.
        * exact Hc.
        * exact I.
        * destruct (Hn Ha).
        * destruct Hl as [[_ ->]|[Hr _]]; [|destruct (Hr eq_refl)]. intros a d n n' B B'. specialize (HE' a d n n' B B').
          rewrite Em, Ef, Ep in HE'. cbn [given_to taken_from] in HE'. rewrite EF, EA in HE'.
          clear - HE'. destruct (decide (own private = a)), (decide (a = own private)); try congruence;
            destruct (decide (fee_collector = a)), (decide (a = fee_collector)); try congruence;
            destruct (decide (to = a)), (decide (a = to)); try congruence; lia.
      + apply (next_account protobuf bits verify enum fuel decode HS id x t raw x' (own private) number sequence Hx Hd); [|exact Hc|exact Hacc].
        unfold signs. rewrite Es. apply elem_of_list_here.
  Qed.
  Lemma sign_payment key_hex chain from to amount raw : sign key_hex chain from to amount = Ok raw ->
    exists private, hex_decode key_hex = Some private /\ signed_payment private chain 0 0 [(str "test", 50%Z)] 5000 from to amount = Ok raw.
  Proof. unfold Sign.sign. destruct (hex_decode key_hex) as [k|]; [eauto|discriminate]. Qed.
  Lemma sign_once id x key_hex private chain from to amount raw :
    (bits <= 314)%N -> reachable id x -> hex_decode key_hex = Some private -> length (public_key private) = 33%nat ->
    sign key_hex chain from to amount = Ok raw -> writable raw from to 0 5000 [(str "test", 50%Z)] amount ->
    (forall acc, gets x ty_account (own private) (OAccount acc) -> ac_sequence acc <> 0%N) ->
    exists e x', call (CallDeliverTx raw) x = (Fail e, x') /\ call (CallCheckTx raw) x = (Fail e, x') /\ unchanged x x'.
  Proof.
    intros Hb Hx Hh Hk Hs Hw Hacc. apply sign_payment in Hs as (p & Hp & Hs). assert (p = private) as -> by congruence.
    destruct (payment_decodes hash160 public_key sign_with private chain 0 0 _ 5000 from to amount raw Hs Hw ltac:(discriminate) Hk) as (t & Hd & Ht).
    exact (stale_refused protobuf bits verify enum fuel decode HS hash160 _ id x t raw _ chain 0 0 _ from to _ Hb Hx Hd Ht Hacc).
  Qed.
  Lemma genesis_account_stays id x : reachable id x -> exists sequence, has_account (gets x) genesis_address 0 sequence.
  Proof.
    intros Hx. destruct (founder_stays protobuf bits verify enum fuel decode HS id x Hx) as [s Hs]. exists s.
    eexists. split; [exact Hs|]. split; [discriminate|]. split; reflexivity.
  Qed.
  Lemma sign_made id x key_hex private to amount raw A :
    (66 <= bits <= 313)%N -> 3 <= fuel -> reachable id x -> orderly bits (gets x) ->
    hex_decode key_hex = Some private -> key_pair public_key sign_with verify private ->
    sign key_hex id (own private) to amount = Ok raw ->
    writable raw (own private) to 0 5000 [(str "test", 50%Z)] amount ->
    normal_set (to_coins amount) A -> within bits A ->
    has_account (gets x) (own private) 0 0 ->
    (forall d n, balance bits (gets x) (own private) d n -> of_test 50 d + A d <= n)%N ->
    to <> [] -> length to < 128 -> to ∉ modules_of_app ->
    succeeds oversized (call (CallDeliverTx raw) x)
    /\ forall x', call (CallDeliverTx raw) x = (Ok tt, x') ->
         (forall a d n n', balance bits (gets x) a d n -> balance bits (gets x') a d n' ->
            n' + (if decide (a = own private) then of_test 50 d + A d else 0)
            = n + (if decide (a = fee_collector) then of_test 50 d else 0) + (if decide (a = to) then A d else 0))%N
         /\ has_account (gets x') (own private) 0 1.
  Proof.
    intros [Hl Hb] Hf Hx HO Hh HK Hs Hw HA HAw Hacc Hcov H1 H2 H3.
    apply sign_payment in Hs as (p & Hp & Hs). assert (p = private) as -> by congruence.
    assert (normal_set (to_coins [(str "test", 50%Z)]) (of_test 50%N)) as HF by (apply tests_normal; [discriminate|vm_compute; reflexivity]).
    refine (payment_made id x private 0 0 [(str "test", 50%Z)] 5000 to amount raw (of_test 50%N) A Hb Hf Hx HO HK Hs Hw HF _ _ HA HAw Hacc Hcov H1 H2 H3); [|discriminate].
    intros d. assert (2 ^ 66 <= 2 ^ bits)%N as H by (apply N.pow_le_mono_r; [discriminate|exact Hl]).
    destruct (decide _); split; try (eapply N.lt_le_trans; [|exact H]); vm_compute; reflexivity.
  Qed.
End Protobuf.
