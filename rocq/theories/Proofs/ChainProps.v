(** The theorems about the chain, on what can be read from a node. *)
From Coq Require Import NArith ZArith List Bool String Lia Sorted.
From stdpp Require Import base list gmap relations.
From Verif.Model Require Import Bytes KindEncoder Desc Schema Indexes Orm Users Errors Prog Router Runtime
  Services Module Builder Universe Strings Coin CoreModules Rbac Bank Authn Distribution TestApp Abci.
From Verif.Spec Require Import UserSpec StoreSpec RuntimeSpec TextSpec CoinSpec RbacSpec ChainSpec.
From Verif.Proofs Require Import OrmFacts UserFacts RuntimeFacts CoinFacts SimFacts AppFacts AppSim RbacFacts MapExec
  ChainInv ChainWp ChainRun ChainHist ReadOnlyFacts ChainView ChainFacts AdmissionFacts SupplyFacts.

Lemma deliver_refused_exact {St} (O : objops object) (SO : storeops object St) (en : env object msg tx) fuel us m w d :
  en_enabled en = true -> fuel <> 0 ->
  run_read SO (en_enum en (w_trace w)) (en_authorizer en VDeliver (msg_name m) us) (w_store w) = Ok d ->
  d <> (true, None) ->
  deliver O msg_name SO en fuel true us m w
  = (Fail (EWrap (ESent RtUnauthorized)), log (EvCheck VDeliver (msg_name m) us false) w).
Proof.
  intros H1 Hf H2 H3. destruct fuel as [|f]; [done|]. cbn [deliver]. unfold deliver_body.
  by rewrite (authorized_refused SO en _ _ us w d).
Qed.

Section Chain.
  Context (C : codec) (bits : N) (verify : bytes -> bytes -> bytes -> bool).
  Context (enum : list (event object msg) -> users -> list user) (fuel : nat) (decode : bytes -> res tx).
  Context (HS : sound C enum decode).
  Notation app := (test_app bits verify).
  Notation O := (app_ops C).
  Notation R := (ap_registry app).
  Notation ORM := (orm_ops O R).
  Notation call := (call C bits verify enum fuel decode).
  Notation calls := (calls C bits verify enum fuel decode).
  Notation running := (running C bits verify enum fuel decode).
  Notation gets := (gets C bits verify).
  Notation pay := (pay C bits verify enum fuel).
  Notation send := (send C bits verify enum fuel).
  Notation admission := (admission C bits verify enum fuel).
  Notation reachable := (reachable C bits verify enum fuel decode).
  Notation written := (written C bits verify).
  Notation shown := (shown C bits verify).
  Notation tracked := (tracked C bits verify).
  Implicit Types (S : amap) (x : node) (t : tx) (m : msg) (us : users) (k a d from to : bytes) (n : N)
    (c : abci_call) (r : res unit) (o : object) (amt : list coin).

  (** ** Parts of DeliverTx *)
  Lemma set_world_twice x w w' : set_world (Obj:=object) (Msg:=msg) (St:=orm) (set_world x w) w' = set_world x w'.
  Proof. done. Qed.
  Lemma at_world_msgs us l : forall x w,
    at_world (fun b => each_msg (deliver O msg_name ORM (env_of app enum b) fuel true us) l) (set_world x w)
    = each_msg (send us) l (set_world x w).
  Proof.
    induction l as [|m l IH]; intros x w; cbn [each_msg].
    - done.
    - unfold ChainSpec.send at 1, at_world at 2. unfold at_world at 1. cbn [rt_enabled set_world rt_world].
      unfold bytes_store, the_app.
      destruct (deliver O msg_name ORM (env_of app enum (rt_enabled x)) fuel true us m w) as [[[]|e| |] w1];
        cbn [then_do]; try reflexivity.
      specialize (IH x w1). unfold at_world in IH at 1. cbn [rt_enabled set_world rt_world] in IH. exact IH.
  Qed.
  Lemma deliver_tx_parts raw t x : decode raw = Ok t ->
    call (CallDeliverTx raw) x = then_do (pay t x) (each_msg (send (tx_users t)) (tx_msgs t)).
  Proof.
    intros Ht. unfold ChainSpec.call. cbn [abci_step]. unfold deliver_tx, with_tx. rewrite Ht.
    unfold ChainSpec.pay, at_world. cbv zeta. unfold bytes_store, the_app.
    destruct (run_tx_admission_chain O ORM _ _ t (rt_world x)) as [[[]|e| |] w1]; cbn [then_do]; try reflexivity.
    destruct (run_tx_post_auth_chain O ORM _ _ t w1) as [[[]|e| |] w2]; cbn [then_do]; try reflexivity.
    pose proof (at_world_msgs (tx_users t) (tx_msgs t) x w2) as H. unfold at_world in H at 1.
    cbn [rt_enabled set_world rt_world] in H. exact H.
  Qed.
  Lemma pay_admission t x r x' : admission t x = (r, x') -> r <> Ok tt -> pay t x = (r, x').
  Proof.
    unfold ChainSpec.admission, ChainSpec.pay, at_world. cbv zeta.
    destruct (run_tx_admission_chain _ _ _ _ t (rt_world x)) as [[[]|e| |] w1]; cbn [then_do]; intros [= <- <-] H; done.
  Qed.

  (** ** C28 *)
  Lemma external_outsiders m : external m <-> for_outsiders m.
  Proof. destruct m; done. Qed.

  Lemma granted_view (v v' : view) (b : verb) k us : same_view v v' -> granted v b k us -> granted v' b k us.
  Proof.
    intros H. assert (ty_binding ∈ all_types /\ ty_role ∈ all_types) as [T1 T2].
    { split; apply (bool_decide_unpack _); vm_compute; exact I. }
    assert (forall u (ro : role), has_role v u ro -> has_role v' u ro) as HR.
    { intros u ro (s & ref & H1 & H2). exists s, ref. split; [by apply H|by apply H]. }
    intros [G1 (u & ro & G2 & G3 & G4)]. split.
    - intros w Hw. destruct (G1 w Hw) as [rw Hr]. eauto.
    - exists u, ro. eauto.
  Qed.

  (** The authorizer on what a proper transaction asks for. *)
  Lemma users_decided x S t (b : verb) k : tracked x S -> proper t ->
    exists d : bool * option goerr,
      run_read ORM (enum (w_trace (rt_world x))) (ap_authorizer app b k (tx_users t)) (w_store (rt_world x)) = Ok d
      /\ (granted (map_stored S) b k (tx_users t) /\ d = (true, None)
          \/ ~ granted (map_stored S) b k (tx_users t) /\ d <> (true, None)).
  Proof.
    intros HT HP. pose proof (test_app_like bits verify) as HA.
    pose proof (reads_map C bits verify enum decode HS x S (tk_shown _ _ _ _ _ HT)) as HV.
    pose proof (orm_decides C R (tl_registry _ _ _ HA) (tl_schema _ _ _ HA) S (w_store (rt_world x))
      (enum (w_trace (rt_world x))) b k (tx_users t) (so_codec _ _ _ HS) (tk_shown _ _ _ _ _ HT)
      (so_order _ _ _ HS _) (proper_wf t HP)) as H.
    rewrite (tl_authorizer _ _ _ HA).
    change (orm_stored C R (w_store (rt_world x))) with (gets x) in H.
    set (G := granted (gets x) b k (tx_users t)) in *.
    assert (G <-> granted (map_stored S) b k (tx_users t)) as HG.
    { split; apply granted_view; [done|by apply same_view_sym]. }
    destruct (run_read _ _ _ _) as [d|e| |]; try done.
    - exists d. split; [done|]. destruct H as [[H1 H2]|[H1 [e H2]]]; [left|right]; (split; [by rewrite <- HG|]); congruence.
    - exfalso. destruct H as [[Hu|(u & s & Hu & Hb)] _].
      + apply (proper_users t [] HP) in Hu. unfold signs in Hu. apply elem_of_list_fmap in Hu as (s & Hs & Hi).
        pose proof (proj1 (Forall_forall _ _) (pr_named t HP) s Hi) as Hne. congruence.
      + apply (HV ty_binding u) in Hb; [|apply (bool_decide_unpack _); vm_compute; exact I].
        destruct (iv_bindings S (tk_inv _ _ _ _ _ HT) u s [] Hb) as [H|H]; [|vm_compute in H; discriminate H].
        exact (proper_ordinary t HP u Hu H).
  Qed.

  Lemma internal_refused id x t m : reachable id x -> proper t -> ~ for_outsiders m -> fuel <> 0 ->
    exists e x', send (tx_users t) m x = (Fail e, x') /\ errors_is e RtUnauthorized = true /\ unchanged x x'
      /\ w_trace (rt_world x') = w_trace (rt_world x) ++ [EvCheck VDeliver (msg_name m) (tx_users t) false].
  Proof.
    intros Hx HP Hm Hf. apply (reachable_tracked C bits verify enum fuel decode HS) in Hx as [S HT].
    destruct (tracked_flags C bits verify x S HT) as [He _].
    destruct (users_decided x S t VDeliver (msg_name m) HT HP) as (d & Hd & Hg).
    assert (d <> (true, None)) as Hne.
    { destruct Hg as [[Hg _]|[_ Hg]]; [|done]. exfalso. apply Hm, external_outsiders, external_names.
      by apply (ordinary_grants S VDeliver _ (tx_users t) (tk_inv _ _ _ _ _ HT) (proper_ordinary t HP)). }
    clear Hg HT. unfold ChainSpec.send, at_world, bytes_store, the_app. rewrite He.
    rewrite (deliver_refused_exact O ORM (env_of app enum true) fuel (tx_users t) m (rt_world x) d eq_refl Hf Hd Hne).
    eexists _, _. split; [reflexivity|]. split; [reflexivity|]. split; reflexivity.
  Qed.

  Lemma each_msg_app us l l' x : each_msg (send us) (l ++ l') x = then_do (each_msg (send us) l x) (each_msg (send us) l').
  Proof.
    revert x. induction l as [|m l IH]; intros x; cbn [each_msg List.app then_do]; [done|].
    destruct (send us m x) as [[[]|e| |] x1]; cbn [then_do]; [apply IH|reflexivity..].
  Qed.
  Lemma each_reachable id t l : proper t -> forall x r x', reachable id x -> each_msg (send (tx_users t)) l x = (r, x') ->
    alive r -> reachable id x'.
  Proof.
    intros HP. induction l as [|m l IH]; intros x r x' Hx; cbn [each_msg then_do].
    - intros [= <- <-] _. exact Hx.
    - destruct (send (tx_users t) m x) as [rm x1] eqn:E. intros H Ha.
      assert (alive rm) as Hm by (destruct rm; cbn [then_do] in H; [exact I..| |]; injection H as <- _; exact Ha).
      pose proof (re_sent C bits verify enum fuel decode id x t m rm x1 Hx HP E Hm) as H1.
      destruct rm as [[]|e| |]; cbn [then_do] in H.
      + by apply (IH x1 r x').
      + injection H as _ <-. exact H1.
      + destruct Hm. + destruct Hm.
  Qed.
  Lemma reachable_parts id t l x r x' : proper t -> reachable id x ->
    then_do (pay t x) (each_msg (send (tx_users t)) l) = (r, x') -> alive r -> reachable id x'.
  Proof.
    intros HP Hx H Ha. destruct (pay t x) as [rp x1] eqn:E.
    assert (alive rp) as Hp by (destruct rp; cbn [then_do] in H; [exact I..| |]; injection H as <- _; exact Ha).
    pose proof (re_paid C bits verify enum fuel decode id x t rp x1 Hx HP E Hp) as H1.
    destruct rp as [[]|e| |]; cbn [then_do] in H.
    - by apply (each_reachable id t l HP x1 r x').
    - injection H as _ <-. exact H1.
    - destruct Hp. - destruct Hp.
  Qed.
  Lemma internal_message id raw t x pre m post x1 : reachable id x -> decode raw = Ok t ->
    tx_msgs t = pre ++ m :: post -> ~ for_outsiders m -> fuel <> 0 ->
    then_do (pay t x) (each_msg (send (tx_users t)) pre) = (Ok tt, x1) ->
    exists e x2, call (CallDeliverTx raw) x = (Fail e, x2) /\ errors_is e RtUnauthorized = true /\ unchanged x1 x2
      /\ w_trace (rt_world x2) = w_trace (rt_world x1) ++ [EvCheck VDeliver (msg_name m) (tx_users t) false].
  Proof.
    intros Hx Ht Hl Hm Hf H. pose proof (so_decoder _ _ _ HS _ _ Ht) as HP.
    pose proof (reachable_parts id t pre x _ _ HP Hx H I) as H1.
    destruct (internal_refused id x1 t m H1 HP Hm Hf) as (e & x2 & E & H2). exists e, x2. split; [|exact H2].
    rewrite (deliver_tx_parts raw t x Ht), Hl.
    destruct (pay t x) as [[[]|e'| |] xp]; cbn [then_do] in *; try discriminate H.
    rewrite each_msg_app, H. cbn [then_do each_msg]. rewrite E. reflexivity.
  Qed.

  (** ** C29 *)
  Lemma history_roles cs S S' : inv S -> history bits verify decode cs S S' ->
    (forall k, S' !! (ty_role, k) = S !! (ty_role, k))
    /\ forall k, match S !! at_binding k with
                 | Some o => S' !! at_binding k = Some o
                 | None => forall o, S' !! at_binding k = Some o -> exists s, o = OBinding s external_role_id
                 end.
  Proof.
    intros HI H. induction H as [S|c cs S r S1 S' Hc _ IH].
    - split; [done|]. intros k. destruct (S !! at_binding k); [done|]. congruence.
    - destruct (IH (call_ran_inv _ _ _ _ _ _ _ HI Hc)) as [I1 I2]. split.
      + intros k. rewrite I1. by eapply call_roles; [apply HI|].
      + intros k. pose proof (call_bindings bits verify decode S c r S1 k (iv_wt _ HI) Hc) as HB. specialize (I2 k).
        destruct (S !! at_binding k) as [o|].
        * by rewrite HB in I2.
        * intros o Ho. destruct (S1 !! at_binding k) as [o1|]; [|by apply I2]. rewrite I2 in Ho. injection Ho as <-. by apply HB.
  Qed.
  Local Ltac known := apply (bool_decide_unpack _); vm_compute; exact I.
  Lemma roles_immutable id cs x cs' x' : running id cs x -> calls cs' x = Some x' ->
    (forall k o, gets x' ty_role k o <-> gets x ty_role k o)
    /\ (forall k o, gets x ty_binding k o -> gets x' ty_binding k o)
    /\ (forall k o, gets x' ty_binding k o -> gets x ty_binding k o
          \/ (forall o', ~ gets x ty_binding k o') /\ exists s, o = OBinding s external_role_id).
  Proof.
    intros Hr Hc. destruct (running_tracked C bits verify enum fuel decode HS id cs x Hr) as (S & HT & _).
    destruct (calls_tracked C bits verify enum fuel decode HS cs' x S x' HT Hc) as (S' & HT' & Hh).
    destruct (history_roles cs' S S' (tk_inv _ _ _ _ _ HT) Hh) as [H1 H2].
    pose proof (fun ty k o => reads_iff C bits verify enum decode HS x S ty k o (tk_shown _ _ _ _ _ HT)) as G.
    pose proof (fun ty k o => reads_iff C bits verify enum decode HS x' S' ty k o (tk_shown _ _ _ _ _ HT')) as G'.
    assert (ty_role ∈ all_types /\ ty_binding ∈ all_types) as [K1 K2] by (split; known).
    split; [|split].
    - intros k o. rewrite G, G', H1 by done. done.
    - intros k o. rewrite G, G' by done. intros Ho. specialize (H2 k). by rewrite Ho in H2.
    - intros k o. rewrite G, G' by done. intros Ho. specialize (H2 k).
      destruct (S !! at_binding k) as [o1|] eqn:E.
      + left. congruence.
      + right. split; [|by apply H2]. intros o'. rewrite G, E by done. done.
  Qed.

  (** ** Balances *)
  Definition agree (v : view) S : Prop := forall ty k o, v ty k o <-> ty ∈ all_types /\ S !! (ty, k) = Some o.
  Lemma shown_agree x S : shown x S -> agree (gets x) S.
  Proof.
    intros Hx ty k o. split.
    - intros H. pose proof (gets_known C bits verify x ty k o H) as Ht. split; [exact Ht|].
      by apply (reads_iff C bits verify enum decode HS x S ty k o Hx Ht).
    - intros [Ht H]. by apply (reads_iff C bits verify enum decode HS x S ty k o Hx Ht).
  Qed.
  Lemma balance_known : ty_balance ∈ all_types. Proof. known. Qed.
  Lemma balance_reads v S k o : agree v S -> v ty_balance k o <-> S !! at_balance k = Some o.
  Proof. intros H. rewrite (H ty_balance k o). split; [by intros []|]. split; [apply balance_known|done]. Qed.
  Lemma supply_total v S d n : agree v S -> supply bits v d n <-> n = total bits S d.
  Proof.
    intros Hx. split.
    - intros (l & H1 & H2 & ->). change (fold_right _ 0%N l) with (sum bits d l). apply sum_perm.
      apply NoDup_Permutation; [done|apply NoDup_map_to_list|]. intros [k o].
      rewrite H1, (balance_reads v S k o Hx), <- bals_lookup. symmetry. apply elem_of_map_to_list.
    - intros ->. exists (map_to_list (bals S)). split; [|split; [apply NoDup_map_to_list|reflexivity]].
      intros k o. rewrite elem_of_map_to_list, bals_lookup. symmetry. by apply balance_reads.
  Qed.
  Lemma orderly_solvent v S : agree v S -> orderly bits v <-> solvent bits S.
  Proof.
    intros Hx. split; intros [H1 H2]; split.
    - intros k o Ho. apply (balance_reads v S k o Hx) in Ho. destruct (H1 k o Ho) as (c & -> & Hk & Hr).
      exists c. split; [done|]. split; [unfold blen; lia|done].
    - intros d. apply (H2 d). apply (supply_total v S d _ Hx). reflexivity.
    - intros k o Ho. apply (balance_reads v S k o Hx) in Ho. destruct (H1 k o Ho) as (c & -> & Hk & Hr).
      exists c. split; [done|]. split; [unfold blen in Hk; lia|done].
    - intros d n Hn. apply (supply_total v S d n Hx) in Hn as ->. apply H2.
  Qed.
  Lemma moved_transferred v S v' S' from to amt : agree v S -> agree v' S' -> moved bits S S' from to amt ->
    transferred bits v v' from to amt.
  Proof.
    intros Hx Hx' [M1 M2 M3 M4].
    pose proof (fun k o => balance_reads v S k o Hx) as G. pose proof (fun k o => balance_reads v' S' k o Hx') as G'.
    assert (forall ty k, S' !! (ty, k) = S !! (ty, k) -> forall o, v' ty k o <-> v ty k o) as HG.
    { intros ty k E o. by rewrite (Hx ty k o), (Hx' ty k o), E. }
    split.
    - destruct M1 as (c & H1 & H2 & H3 & H4 & c' & H5 & H6). exists c. split; [by apply G|].
      do 3 (split; [done|]). exists c'. split; [by apply G'|done].
    - intros Hne. destruct (M2 Hne) as [(c & H1 & H2 & c' & H3 & H4)|[H1 H2]].
      + left. exists c. split; [by apply G|]. split; [done|]. exists c'. split; [by apply G'|done].
      + right. split; [|by apply G']. intros o Ho. apply G in Ho. congruence.
    - intros a o Ha Hb. rewrite G, G'. by rewrite M3.
    - destruct M4 as [M4|(n & N1 & N2 & N3 & N4 & N5 & N6 & N7)].
      + left. intros ty k o Hty. apply HG, M4. intros ->. apply Hty. by apply elem_of_list_singleton.
      + assert (ty_account_number ∈ all_types /\ ty_account ∈ all_types /\ ty_binding ∈ all_types) as (K1 & K2 & K3)
          by (split_and!; known).
        right. split; [intros o Ho; apply Hx in Ho as [_ Ho]; congruence|]. split.
        * exists n. split; [by apply Hx|]. split; by apply Hx'.
        * split; [intros o Ho; apply Hx in Ho as [_ Ho]; congruence|by apply Hx'].
        * intros ty k o T1 T2 T3. by apply HG, N7.
  Qed.

  (** ** C31 to C33 *)
  Lemma proper_acts t : proper t -> wf_users (tx_users t) /\ ordinary (tx_users t).
  Proof. intros HP. split; [by apply proper_wf|by apply proper_ordinary]. Qed.

  Lemma send_supply id x t from to amt r x' : reachable id x -> orderly bits (gets x) -> proper t ->
    length to < 128 -> send (tx_users t) (MsgSendCoins from to amt) x = (r, x') -> alive r ->
    orderly bits (gets x') /\ forall d n, supply bits (gets x') d n <-> supply bits (gets x) d n.
  Proof.
    intros Hx HO HP Hl H Ha. apply (reachable_tracked C bits verify enum fuel decode HS) in Hx as [S HT].
    destruct (send_tracked C bits verify enum fuel decode HS (tx_users t) _ x S r x' HT (proper_wf t HP) (proper_ordinary t HP) H Ha)
      as (S' & HT' & Hr).
    pose proof (shown_agree x S (tk_shown _ _ _ _ _ HT)) as A. pose proof (shown_agree x' S' (tk_shown _ _ _ _ _ HT')) as A'.
    apply (orderly_solvent _ S A) in HO.
    destruct (ran_total bits (tx_users t) (MsgSendCoins from to amt) S r S' (iv_wt _ (tk_inv _ _ _ _ _ HT)) HO) as [E V]; [|exact Hr|].
    { cbn [to_short]. unfold blen. lia. }
    split; [by apply (orderly_solvent _ S' A')|].
    intros d n. rewrite (supply_total _ S d n A), (supply_total _ S' d n A'). by rewrite E.
  Qed.
  Lemma pay_supply id x t r x' : reachable id x -> orderly bits (gets x) -> proper t ->
    pay t x = (r, x') -> alive r ->
    orderly bits (gets x') /\ forall d n, supply bits (gets x') d n <-> supply bits (gets x) d n.
  Proof.
    intros Hx HO HP H Ha. apply (reachable_tracked C bits verify enum fuel decode HS) in Hx as [S HT].
    destruct (pay_tracked C bits verify enum fuel decode HS t x S r x' HT HP H Ha) as (S' & HT' & Hr).
    pose proof (shown_agree x S (tk_shown _ _ _ _ _ HT)) as A. pose proof (shown_agree x' S' (tk_shown _ _ _ _ _ HT')) as A'.
    apply (orderly_solvent _ S A) in HO.
    destruct (paid_total bits verify t S r S' (tk_inv _ _ _ _ _ HT) HO Hr) as [E V].
    split; [by apply (orderly_solvent _ S' A')|].
    intros d n. rewrite (supply_total _ S d n A), (supply_total _ S' d n A'). by rewrite E.
  Qed.
  Lemma running_supply id cs x : (93 <= bits)%N -> running id cs x ->
    (forall raw t from to amt, CallDeliverTx raw ∈ cs -> decode raw = Ok t -> MsgSendCoins from to amt ∈ tx_msgs t ->
       length to < 128) ->
    orderly bits (gets x)
    /\ forall d n, supply bits (gets x) d n <-> n = if decide (d = str "test") then 5000000000%N else 0%N.
  Proof.
    intros Hb Hr Hl. destruct (running_tracked C bits verify enum fuel decode HS id cs x Hr) as (S & HT & Hh).
    destruct (genesis_solvent bits id Hb) as [E V].
    pose proof (shown_agree x S (tk_shown _ _ _ _ _ HT)) as A.
    destruct (history_total bits verify decode cs _ S (genesis_inv id) V) as [E' V']; [|exact Hh|].
    { intros raw t Hi Ht. apply Forall_forall. intros m Hm. destruct m as [| | | | | | | | | | | |from to amt|]; try exact I.
      specialize (Hl raw t from to amt Hi Ht Hm). cbn [to_short]. unfold blen. lia. }
    split; [by apply (orderly_solvent _ S A)|].
    intros d n. rewrite (supply_total _ S d n A), E', E. done.
  Qed.
  Lemma supply_unique x d : written x -> exists n, forall n', supply bits (gets x) d n' <-> n' = n.
  Proof.
    intros Hw. destruct (written_shown C bits verify enum decode HS x Hw) as [S Hx].
    exists (total bits S d). intros n'. by apply supply_total, shown_agree.
  Qed.

  (** Any sender, any receiver. *)
  Lemma send_affordable id x t from to amt x' : reachable id x -> proper t ->
    send (tx_users t) (MsgSendCoins from to amt) x = (Ok tt, x') ->
    exists a (c : list coin), gets x ty_balance from (OBalance a c) /\ readable bits c /\ readable bits amt
      /\ forall d, (worth bits amt d <= worth bits c d)%N.
  Proof.
    intros Hx HP H. apply (reachable_tracked C bits verify enum fuel decode HS) in Hx as [S HT].
    destruct (send_tracked C bits verify enum fuel decode HS (tx_users t) _ x S (Ok tt) x' HT (proper_wf t HP) (proper_ordinary t HP) H I)
      as (S' & HT' & Hr).
    pose proof (shown_agree x S (tk_shown _ _ _ _ _ HT)) as A.
    assert (exists y (c c1 : list coin), S !! at_balance from = Some (OBalance y c) /\ safe_sub bits c amt = Ok c1) as (y & c & c1 & E1 & E2).
    { inversion Hr as [|? ? E|from' to' amt' r' S1 E _ Hs]; subst; [discriminate E|]. injection E as <- <- <-.
      inversion Hs; subst; eauto. }
    exists y, c. split; [by apply (balance_reads _ S _ _ A)|]. apply sub_worth in E2 as (F1 & F2 & _ & F3 & _). split; [exact F1|]. split; [exact F2|exact F3].
  Qed.
  Lemma send_overspent id x t from to amt r x' : reachable id x -> proper t ->
    (forall a (c : list coin), gets x ty_balance from (OBalance a c) -> ~ readable bits c \/ exists d, (worth bits c d < worth bits amt d)%N) ->
    send (tx_users t) (MsgSendCoins from to amt) x = (r, x') -> alive r ->
    (exists e, r = Fail e) /\ forall ty k o, gets x' ty k o <-> gets x ty k o.
  Proof.
    intros Hx HP HO H Ha. apply (reachable_tracked C bits verify enum fuel decode HS) in Hx as [S HT].
    destruct (send_tracked C bits verify enum fuel decode HS (tx_users t) _ x S r x' HT (proper_wf t HP) (proper_ordinary t HP) H Ha)
      as (S' & HT' & Hr).
    pose proof (shown_agree x S (tk_shown _ _ _ _ _ HT)) as A. pose proof (shown_agree x' S' (tk_shown _ _ _ _ _ HT')) as A'.
    assert ((exists e, r = Fail e) /\ S' = S) as [E ->].
    { assert (forall y (c c1 : list coin), S !! at_balance from = Some (OBalance y c) -> safe_sub bits c amt <> Ok c1) as HN.
      { intros y c c1 E1 E2. apply (balance_reads _ S _ _ A) in E1. apply sub_worth in E2 as (F1 & F2 & _ & F3 & _).
        destruct (HO y c E1) as [Hn|[d Hd]]; [exact (Hn F1)|]. specialize (F3 d). clear - F3 Hd. lia. }
      inversion Hr as [|? ? E|from' to' amt' r' S1 E _ Hs]; subst; [eauto|discriminate E|]. injection E as <- <- <-.
      inversion Hs; subst; eauto; exfalso; eapply HN; eassumption. }
    split; [exact E|]. intros ty k o. by rewrite (A ty k o), (A' ty k o).
  Qed.
  Lemma send_transferred id x t from to amt x' : reachable id x -> proper t -> length from < 128 -> length to < 128 ->
    send (tx_users t) (MsgSendCoins from to amt) x = (Ok tt, x') ->
    transferred bits (gets x) (gets x') from to amt.
  Proof.
    intros Hx HP Hf Hl H. apply (reachable_tracked C bits verify enum fuel decode HS) in Hx as [S HT].
    destruct (send_tracked C bits verify enum fuel decode HS (tx_users t) _ x S (Ok tt) x' HT (proper_wf t HP) (proper_ordinary t HP) H I)
      as (S' & HT' & Hr).
    apply (moved_transferred _ S _ S'); [by apply shown_agree, (tk_shown _ _ _ _ _ HT)|by apply shown_agree, (tk_shown _ _ _ _ _ HT')|].
    inversion Hr as [|? ? E|from' to' amt' r' S1 E _ Hs]; subst; [discriminate E|]. injection E as <- <- <-.
    apply sent_moved; [apply (iv_wt _ (tk_inv _ _ _ _ _ HT))|unfold blen; lia..|exact Hs].
  Qed.
  Lemma send_failed id x t from to amt e x' : reachable id x -> proper t -> length to < 128 ->
    (forall a (c : list coin), gets x ty_balance to (OBalance a c) -> readable bits c) ->
    send (tx_users t) (MsgSendCoins from to amt) x = (Fail e, x') ->
    forall ty k o, gets x' ty k o <-> gets x ty k o.
  Proof.
    intros Hx HP Hl HB H. apply (reachable_tracked C bits verify enum fuel decode HS) in Hx as [S HT].
    destruct (send_tracked C bits verify enum fuel decode HS (tx_users t) _ x S (Fail e) x' HT (proper_wf t HP) (proper_ordinary t HP) H I)
      as (S' & HT' & Hr).
    pose proof (shown_agree x S (tk_shown _ _ _ _ _ HT)) as A. pose proof (shown_agree x' S' (tk_shown _ _ _ _ _ HT')) as A'.
    assert (S' = S) as ->.
    { inversion Hr as [|? ? E|from' to' amt' r' S1 E _ Hs]; subst; [reflexivity|]. injection E as <- <- <-.
      assert (string_key to = to) as Hk by (apply string_key_small; unfold blen; lia).
      remember (Fail e) as r eqn:Er. clear Hr H.
      destruct Hs as [| | |y c c1 S1 z d e' H1 H2 H3 H4 -> H5 H6|y c c1 S1 z d d1 H1 H2 H3 H4 -> H5 H6 H7| | |]; try reflexivity; try discriminate Er.
      - exfalso. destruct (sub_worth bits c amt c1 H2) as (_ & A1 & A2 & _). eapply add_refused; [| |exact H6]; [|exact A1].
        destruct (decide (string_key from = to)) as [Hq|Hq].
        + rewrite Hq, lookup_insert in H5. by injection H5 as _ <-.
        + rewrite lookup_insert_ne in H5 by congruence. apply (HB z d). by apply (balance_reads _ S _ _ A).
      - rewrite Hk in H7. congruence. }
    intros ty k o. by rewrite (A ty k o), (A' ty k o).
  Qed.

  (** ** C35 *)
  Lemma account_known : ty_account ∈ all_types /\ ty_account_number ∈ all_types.
  Proof. split; known. Qed.
  Lemma numbering_view v S (ks : list bytes) : agree v S -> wt S -> numbering S ks -> by_number v ks.
  Proof.
    intros A HW [N1 N2 N3 N4]. destruct account_known as [K1 K2]. split.
    - exact N1.
    - intros a. rewrite N2. split.
      + intros [o Ho]. destruct (wt_account S HW a o Ho) as [acc [-> _]]. exists acc. by apply A.
      + intros [acc Ha]. apply A in Ha as [_ Ha]. eauto.
    - intros i a acc Hi Ha. apply A in Ha as [_ Ha]. by eapply N3.
    - by apply A.
  Qed.
  Lemma running_numbers id cs x cs' x' : running id cs x -> calls cs' x = Some x' ->
    exists l new, by_number (gets x) l /\ by_number (gets x') (l ++ new).
  Proof.
    intros Hr Hc. destruct (running_tracked C bits verify enum fuel decode HS id cs x Hr) as (S & HT & Hh).
    destruct (calls_tracked C bits verify enum fuel decode HS cs' x S x' HT Hc) as (S' & HT' & Hh').
    destruct (history_numbering bits verify decode cs _ S _ (genesis_inv id) Hh (genesis_numbering id)) as [l0 HN].
    destruct (history_numbering bits verify decode cs' S S' _ (tk_inv _ _ _ _ _ HT) Hh' HN) as [new HN'].
    exists ([genesis_address] ++ l0), new. split.
    - apply (numbering_view _ S); [by apply shown_agree, (tk_shown _ _ _ _ _ HT)|apply (iv_wt _ (tk_inv _ _ _ _ _ HT))|exact HN].
    - apply (numbering_view _ S'); [by apply shown_agree, (tk_shown _ _ _ _ _ HT')|apply (iv_wt _ (tk_inv _ _ _ _ _ HT'))|exact HN'].
  Qed.
  Lemma by_number_distinct (v : view) (l : list bytes) (a b : bytes) acc acc' : by_number v l -> (N.of_nat (length l) < 2 ^ 64)%N ->
    v ty_account a (OAccount acc) -> v ty_account b (OAccount acc') ->
    (a <> b -> ac_number acc <> ac_number acc')
    /\ exists n, v ty_account_number singleton_id (OAccountNumber n) /\ (ac_number acc < n)%N.
  Proof.
    intros [B1 B2 B3 B4] Hl Ha Hb.
    assert (exists i, l !! i = Some a) as [i Hi] by (apply elem_of_list_lookup, B2; eauto).
    assert (exists j, l !! j = Some b) as [j Hj] by (apply elem_of_list_lookup, B2; eauto).
    pose proof (lookup_lt_Some _ _ _ Hi) as Li. pose proof (lookup_lt_Some _ _ _ Hj) as Lj.
    rewrite (B3 i a acc Hi Ha), (B3 j b acc' Hj Hb). rewrite !N.mod_small by lia. split.
    - intros Hne E. apply Nat2N.inj in E as ->. congruence.
    - exists (N.of_nat (length l)). rewrite N.mod_small in B4 by lia. split; [exact B4|]. lia.
  Qed.
  Lemma send_created id x t acc x' : reachable id x -> proper t -> length (ac_address acc) < 128 ->
    send (tx_users t) (MsgCreateAccount (Some acc)) x = (Ok tt, x') ->
    exists n, gets x ty_account_number singleton_id (OAccountNumber n)
      /\ gets x' ty_account_number singleton_id (OAccountNumber ((n + 1) mod 2 ^ 64))
      /\ (forall o, ~ gets x ty_account (ac_address acc) o)
      /\ gets x' ty_account (ac_address acc)
           (OAccount {| ac_address := ac_address acc; ac_pubkey := ac_pubkey acc; ac_number := n; ac_sequence := 0 |})
      /\ (forall o, ~ gets x ty_binding (ac_address acc) o)
      /\ gets x' ty_binding (ac_address acc) (OBinding (ac_address acc) external_role_id)
      /\ forall ty k o, ty <> ty_account_number -> ~ (k = ac_address acc /\ (ty = ty_account \/ ty = ty_binding)) ->
           gets x' ty k o <-> gets x ty k o.
  Proof.
    intros Hx HP Hl H. apply (reachable_tracked C bits verify enum fuel decode HS) in Hx as [S HT].
    destruct (send_tracked C bits verify enum fuel decode HS (tx_users t) _ x S (Ok tt) x' HT (proper_wf t HP) (proper_ordinary t HP) H I)
      as (S' & HT' & Hr).
    pose proof (shown_agree x S (tk_shown _ _ _ _ _ HT)) as A. pose proof (shown_agree x' S' (tk_shown _ _ _ _ _ HT')) as A'.
    inversion Hr as [|a' S1 E _ Hc|? ? ? ? ? E]; subst; [|discriminate E]. injection E as <-.
    assert (string_key (ac_address acc) = ac_address acc) as Hk by (apply string_key_small; unfold blen; lia).
    destruct account_known as [K1 K2]. assert (ty_binding ∈ all_types) as K3 by known.
    destruct Hc as [n H1 H2 H3 H4]. rewrite Hk in *. exists n.
    assert (forall k, at_number <> at_account k) as N5 by (intros ?; tyne).
    assert (forall k, at_number <> at_binding k) as N6 by (intros ?; tyne).
    assert (forall k k', at_account k <> at_binding k') as N7 by (intros ??; tyne).
    assert (forall k k', at_binding k <> at_account k') as N8 by (intros ??; tyne).
    split; [by apply A|]. split.
    { apply A'. split; [exact K2|]. rewrite lookup_insert_ne by (intros E; by eapply N6). by rewrite lookup_insert. }
    split; [intros o Ho; apply A in Ho as [_ Ho]; congruence|]. split.
    { apply A'. split; [exact K1|]. rewrite lookup_insert_ne by (intros E; by eapply N8).
      rewrite lookup_insert_ne by (intros E; by eapply N5). by rewrite lookup_insert. }
    split; [intros o Ho; apply A in Ho as [_ Ho]; congruence|]. split.
    { apply A'. split; [exact K3|]. by rewrite lookup_insert. }
    intros ty k o T1 T2. rewrite (A ty k o), (A' ty k o).
    rewrite !lookup_insert_ne; [done|..]; intros E; pose proof (f_equal fst E) as E1; pose proof (f_equal snd E) as E2; cbn [fst snd] in E1, E2; clear E.
    - apply T2. split; [symmetry; exact E2|left; symmetry; exact E1].
    - apply T1. symmetry; exact E1.
    - apply T2. split; [symmetry; exact E2|right; symmetry; exact E1].
  Qed.

  (** ** C42 *)
  Lemma executes_tracked x S c t : shown x S -> 
    executes bits verify decode (gets x) c t <-> exists raw, c = CallDeliverTx raw /\ decode raw = Ok t /\ admitted bits verify S t.
  Proof.
    intros Hx. unfold executes. split; intros (raw & E & Ht & Ha); exists raw; (split; [exact E|]); (split; [exact Ht|]).
    - apply (admissible_tracked C bits verify enum decode HS x S t Hx (so_decoder _ _ _ HS _ _ Ht)). exact Ha.
    - apply (admissible_tracked C bits verify enum decode HS x S t Hx (so_decoder _ _ _ HS _ _ Ht)). exact Ha.
  Qed.
  Lemma call_sequence id cs x c r x' : running id cs x -> call c x = (r, x') -> alive r ->
    (forall a acc, gets x ty_account a (OAccount acc) ->
       (exists t, executes bits verify decode (gets x) c t /\ signs t a)
       /\ gets x' ty_account a (OAccount {| ac_address := ac_address acc; ac_pubkey := ac_pubkey acc;
            ac_number := ac_number acc; ac_sequence := (ac_sequence acc + 1) mod 2 ^ 64 |})
       \/ ~ (exists t, executes bits verify decode (gets x) c t /\ signs t a) /\ gets x' ty_account a (OAccount acc))
    /\ forall a acc, (forall o, ~ gets x ty_account a o) -> gets x' ty_account a (OAccount acc) -> ac_sequence acc = 0%N.
  Proof.
    intros Hr Hc Ha. destruct (running_tracked C bits verify enum fuel decode HS id cs x Hr) as (S & HT & Hh).
    destruct (call_tracked C bits verify enum fuel decode HS x S c r x' HT Hc Ha) as (S' & HT' & Hcr).
    pose proof (shown_agree x S (tk_shown _ _ _ _ _ HT)) as A. pose proof (shown_agree x' S' (tk_shown _ _ _ _ _ HT')) as A'.
    destruct account_known as [K1 _]. split.
    - intros a acc Hacc. apply A in Hacc as [_ Hacc].
      destruct (call_account bits verify decode S c r S' a acc Hcr Hacc) as (acc' & H1 & H2).
      assert ((exists t, executes bits verify decode (gets x) c t /\ signs t a)
              <-> exists raw t, c = CallDeliverTx raw /\ decode raw = Ok t /\ admitted bits verify S t /\ is_Some (tx_users t !! a)) as HE.
      { split.
        - intros (t & He & Hs). apply (executes_tracked x S c t (tk_shown _ _ _ _ _ HT)) in He as (raw & E1 & E2 & E3).
          exists raw, t. split; [exact E1|]. split; [exact E2|]. split; [exact E3|].
          apply (proper_users t a (so_decoder _ _ _ HS _ _ E2)). exact Hs.
        - intros (raw & t & E1 & E2 & E3 & Hs). exists t. split.
          + apply (executes_tracked x S c t (tk_shown _ _ _ _ _ HT)). eauto.
          + apply (proper_users t a (so_decoder _ _ _ HS _ _ E2)). exact Hs. }
      destruct H2 as [(raw & t & E1 & E2 & E3 & E4 & ->)|[H2 ->]].
      + left. split; [apply HE; exists raw, t; auto|]. apply A'. split; [exact K1|]. exact H1.
      + right. split; [intros Hx; apply H2, HE, Hx|]. apply A'. split; [exact K1|exact H1].
    - intros a acc Hn Hacc. apply A' in Hacc as [_ Hacc].
      destruct (history_numbering bits verify decode cs _ S _ (genesis_inv id) Hh (genesis_numbering id)) as [l0 HN].
      destruct (call_numbering bits verify decode S c r S' _ (iv_wt _ (tk_inv _ _ _ _ _ HT)) Hcr HN) as (new & HN' & Hz).
      apply (Hz a acc); [|exact Hacc].
      assert (a ∈ ([genesis_address] ++ l0) ++ new) as Hi by (apply (nu_keys _ _ HN'); eauto).
      apply elem_of_app in Hi as [Hi|Hi]; [|exact Hi].
      apply (nu_keys _ _ HN) in Hi as [o Ho]. exfalso. apply (Hn o). apply A. split; [exact K1|exact Ho].
  Qed.

  (** ** C43 *)
  Lemma call_heights id cs x c r x' : running id cs x -> call c x = (r, x') -> alive r ->
    (forall o, gets x' ty_current_block singleton_id o <->
       match c with CallBeginBlock h _ => o = OCurrentBlock (Z.to_N (h mod 2 ^ 64)) | _ => gets x ty_current_block singleton_id o end)
    /\ forall o, gets x' ty_stage singleton_id o <->
       match c with CallBeginBlock _ _ => o = OStage StBeginBlock | CallEndBlock _ => o = OStage StEndBlock
                  | _ => gets x ty_stage singleton_id o end.
  Proof.
    intros Hr Hc Ha. destruct (running_tracked C bits verify enum fuel decode HS id cs x Hr) as (S & HT & Hh).
    destruct (call_tracked C bits verify enum fuel decode HS x S c r x' HT Hc Ha) as (S' & HT' & Hcr).
    pose proof (shown_agree x S (tk_shown _ _ _ _ _ HT)) as A. pose proof (shown_agree x' S' (tk_shown _ _ _ _ _ HT')) as A'.
    destruct (call_height bits verify decode S c r S' (iv_wt _ (tk_inv _ _ _ _ _ HT)) Hcr) as [H1 H2].
    assert (ty_current_block ∈ all_types /\ ty_stage ∈ all_types) as [K1 K2] by (split; known).
    clear - A A' H1 H2 K1 K2. split; intros o; rewrite (A' _ _ o); [rewrite H1|rewrite H2];
      destruct c; rewrite ?(A _ _ o); (split; [intros [? ?]|intros ?]); naive_solver.
  Qed.

  (** ** C44 *)
  Lemma check_unchanged raw x r x' : call (CallCheckTx raw) x = (r, x') -> unchanged x x'.
  Proof.
    unfold ChainSpec.call. cbn [abci_step]. unfold check_tx, with_tx. destruct (decode raw) as [t|e| |]; [|intros [= <- <-]; reflexivity..].
    unfold at_world, bytes_store, the_app, unchanged. pose proof (test_app_like bits verify) as HA.
    generalize dependent (test_app bits verify). intros a HA.
    set (dlv := deliver O msg_name (orm_ops O (ap_registry a)) (env_of a enum (rt_enabled x)) fuel false).
    set (en := env_of a enum (rt_enabled x)).
    assert (forall w, w_store (snd (run_tx_admission_chain O (orm_ops O (ap_registry a)) en dlv t w)) = w_store w) as H1.
    { intros w. unfold run_tx_admission_chain. cbn [en en_router env_of]. destruct (app_tx_handlers bits verify a HA) as [-> _].
      apply tx_handlers_read, tx_admission_only_reads. }
    assert (forall us m w, w_store (snd (run_admission_chain O msg_name (orm_ops O (ap_registry a)) en dlv us m w)) = w_store w) as H2.
    { intros us m w. apply admission_reads. cbn [en en_router env_of].
      destruct (tl_routes _ _ _ HA m) as (_ & -> & _). destruct (exec_of bits m); [|exact I]. apply admission_only_reads. }
    assert (forall us l w, w_store (snd (each_msg (run_admission_chain O msg_name (orm_ops O (ap_registry a)) en dlv us) l w)) = w_store w) as H3.
    { intros us l. induction l as [|m l IH]; intros w; cbn [each_msg]; [reflexivity|]. specialize (H2 us m w).
      destruct (run_admission_chain _ _ _ _ _ us m w) as [[[]|e| |] w1]; cbn [then_do snd] in *; [by rewrite IH|exact H2..]. }
    specialize (H1 (rt_world x)). destruct (run_tx_admission_chain _ _ _ _ t (rt_world x)) as [[[]|e| |] w1]; cbn [then_do snd] in *.
    - specialize (H3 (tx_users t) (tx_msgs t) w1). destruct (each_msg _ _ w1) as [r2 w2]. intros [= <- <-]. cbn [set_world rt_world snd] in *. congruence.
    - intros [= <- <-]. exact H1.
    - intros [= <- <-]. exact H1.
    - intros [= <- <-]. exact H1.
  Qed.

  (** ** C40 *)
  Lemma check_tx_admission raw t x r x' : decode raw = Ok t -> admission t x = (r, x') -> r <> Ok tt ->
    call (CallCheckTx raw) x = (r, x').
  Proof.
    intros Ht H Hr. unfold ChainSpec.call. cbn [abci_step]. unfold check_tx, with_tx. rewrite Ht.
    unfold ChainSpec.admission, at_world in H. cbv zeta in H. unfold at_world, bytes_store, the_app in *.
    destruct (run_tx_admission_chain O ORM _ _ t (rt_world x)) as [ra w1].
    injection H as -> <-. destruct r as [[]|e| |]; [destruct (Hr eq_refl)|reflexivity..].
  Qed.
  Lemma inadmissible_refused raw t x S : (bits <= 314)%N -> shown x S -> rt_enabled x = true -> decode raw = Ok t ->
    ~ admissible bits verify (gets x) t ->
    exists e x', call (CallDeliverTx raw) x = (Fail e, x') /\ call (CallCheckTx raw) x = (Fail e, x') /\ unchanged x x'.
  Proof.
    intros Hb Hx He Ht Hn. pose proof (so_decoder _ _ _ HS _ _ Ht) as HP.
    destruct (admission_exact C bits verify enum fuel decode HS t x S Hb Hx He HP) as [Hu H].
    destruct (admission t x) as [r x'] eqn:E. cbn [fst snd] in *.
    destruct H as [[_ H]|[[e ->] _]]; [destruct (Hn H)|]. exists e, x'.
    split; [|split; [|exact Hu]].
    - rewrite (deliver_tx_parts raw t x Ht), (pay_admission t x _ x' E) by discriminate. reflexivity.
    - by apply (check_tx_admission raw t x).
  Qed.
  Lemma inadmissible_written raw t x : (bits <= 314)%N -> written x -> rt_enabled x = true -> decode raw = Ok t ->
    ~ admissible bits verify (gets x) t ->
    exists e x', call (CallDeliverTx raw) x = (Fail e, x') /\ call (CallCheckTx raw) x = (Fail e, x') /\ unchanged x x'.
  Proof.
    intros Hb Hw. destruct (written_shown C bits verify enum decode HS x Hw) as [S Hx]. exact (inadmissible_refused raw t x S Hb Hx).
  Qed.
  Lemma inadmissible_running id cs raw t x : (bits <= 314)%N -> running id cs x -> decode raw = Ok t ->
    ~ admissible bits verify (gets x) t ->
    exists e x', call (CallDeliverTx raw) x = (Fail e, x') /\ call (CallCheckTx raw) x = (Fail e, x') /\ unchanged x x'.
  Proof.
    intros Hb Hr. destruct (running_tracked C bits verify enum fuel decode HS id cs x Hr) as (S & HT & _).
    apply (inadmissible_refused raw t x S Hb (tk_shown _ _ _ _ _ HT) (proj1 (tracked_flags C bits verify x S HT))).
  Qed.
  Lemma undecodable raw x e : decode raw = Fail e ->
    call (CallDeliverTx raw) x = (Fail e, x) /\ call (CallCheckTx raw) x = (Fail e, x).
  Proof.
    intros H. unfold ChainSpec.call. cbn [abci_step]. unfold deliver_tx, check_tx, with_tx. rewrite H. split; reflexivity.
  Qed.

  (** ** C38 *)
  Lemma admission_written t x : (bits <= 314)%N -> written x -> rt_enabled x = true -> proper t ->
    unchanged x (snd (admission t x))
    /\ (fst (admission t x) = Ok tt /\ admissible bits verify (gets x) t
        \/ (exists e, fst (admission t x) = Fail e) /\ ~ admissible bits verify (gets x) t).
  Proof.
    intros Hb Hw. destruct (written_shown C bits verify enum decode HS x Hw) as [S Hx]. exact (admission_exact C bits verify enum fuel decode HS t x S Hb Hx).
  Qed.

  (** ** C36, C50 *)
  Lemma history_account cs S S' k acc : history bits verify decode cs S S' -> S !! at_account k = Some (OAccount acc) ->
    exists acc' (j : nat), S' !! at_account k = Some (OAccount acc') /\ ac_pubkey acc' = ac_pubkey acc
      /\ j <= deliveries cs
      /\ (j = 0 /\ ac_sequence acc' = ac_sequence acc
          \/ j <> 0 /\ ac_sequence acc' = ((ac_sequence acc + N.of_nat j) mod 2 ^ 64)%N).
  Proof.
    intros H. revert acc. induction H as [S|c cs S r S1 S' Hc _ IH]; intros acc Hk.
    - exists acc, 0. split; [exact Hk|]. split; [done|]. split; [lia|]. by left.
    - destruct (call_account bits verify decode S c r S1 k acc Hc Hk) as (acc1 & H1 & H2).
      destruct (IH acc1 H1) as (acc' & j & E1 & E2 & E3 & E4).
      destruct H2 as [(raw & t & -> & _ & _ & _ & ->)|[_ ->]].
      + exists acc', (Datatypes.S j). split; [exact E1|]. split; [rewrite E2; reflexivity|].
        split; [unfold deliveries in *; cbn [List.filter length]; lia|].
        right. split; [lia|]. cbn [next_sequence ac_sequence] in E4.
        destruct E4 as [[-> ->]|[_ ->]].
        * f_equal. 
        * rewrite N.add_mod_idemp_l by done. f_equal. lia.
      + exists acc', j. split; [exact E1|]. split; [exact E2|]. split; [|exact E4].
        unfold deliveries in *. cbn [List.filter]. destruct c; cbn [length]; lia.
  Qed.
  Lemma replay_refused id cs x raw t r x1 cs' x2 : (bits <= 314)%N -> running id cs x -> decode raw = Ok t ->
    admissible bits verify (gets x) t -> call (CallDeliverTx raw) x = (r, x1) -> alive r ->
    calls cs' x1 = Some x2 -> (N.of_nat (deliveries cs') < 2 ^ 64 - 1)%N ->
    exists e x3, call (CallDeliverTx raw) x2 = (Fail e, x3) /\ call (CallCheckTx raw) x2 = (Fail e, x3) /\ unchanged x2 x3.
  Proof.
    intros Hb Hr Ht Had Hc Ha Hcs Hn. pose proof (so_decoder _ _ _ HS _ _ Ht) as HP.
    pose proof (running_step C bits verify enum fuel decode id cs x _ r x1 Hr Hc Ha) as Hr1.
    pose proof (running_calls C bits verify enum fuel decode id _ x1 cs' x2 Hr1 Hcs) as Hr2.
    apply (inadmissible_running id _ raw t x2 Hb Hr2 Ht). intros Had2.
    destruct (running_tracked C bits verify enum fuel decode HS id cs x Hr) as (S & HT & _).
    destruct (call_tracked C bits verify enum fuel decode HS x S _ r x1 HT Hc Ha) as (S1 & HT1 & Hcr).
    destruct (calls_tracked C bits verify enum fuel decode HS cs' x1 S1 x2 HT1 Hcs) as (S2 & HT2 & Hh).
    destruct (tx_signers t) as [|s l] eqn:Es; [by destruct (pr_signed t HP)|].
    assert (s ∈ tx_signers t) as Hs by (rewrite Es; left).
    destruct (am_signed _ _ _ _ Had) as (ch & _ & Hsig). destruct (Hsig s Hs) as (acc & Hacc & _ & Hseq & _).
    destruct (am_signed _ _ _ _ Had2) as (ch2 & _ & Hsig2). destruct (Hsig2 s Hs) as (acc2 & Hacc2 & _ & Hseq2 & _).
    apply (shown_agree x S (tk_shown _ _ _ _ _ HT)) in Hacc as [_ Hacc].
    apply (shown_agree x2 S2 (tk_shown _ _ _ _ _ HT2)) in Hacc2 as [_ Hacc2].
    destruct (call_account bits verify decode S _ r S1 _ acc Hcr Hacc) as (acc1 & H1 & H2).
    assert (acc1 = next_sequence acc) as ->.
    { destruct H2 as [(raw' & t' & [= <-] & _ & _ & _ & ->)|[H2 _]]; [reflexivity|]. exfalso. apply H2. exists raw, t.
      split; [reflexivity|]. split; [exact Ht|]. split.
      - apply (admissible_tracked C bits verify enum decode HS x S t (tk_shown _ _ _ _ _ HT) HP). exact Had.
      - apply (proper_users t _ HP). unfold signs. apply elem_of_list_fmap. eauto. }
    destruct (history_account cs' S1 S2 _ _ Hh H1) as (acc' & j & E1 & _ & E3 & E4).
    rewrite E1 in Hacc2. injection Hacc2 as ->. cbn [next_sequence ac_sequence] in E4.
    assert (exists i, (0 < i < 2 ^ 64)%N /\ ac_sequence acc2 = ((ac_sequence acc + i) mod 2 ^ 64)%N) as (i & Hi & Hq).
    { destruct E4 as [[-> ->]|[Hj ->]].
      - exists 1%N. split; [done|reflexivity].
      - exists (1 + N.of_nat j)%N. split; [lia|]. rewrite N.add_mod_idemp_l by done. f_equal. lia. }
    rewrite Hseq2, <- Hseq in Hq. clear - Hi Hq.
    assert (ac_sequence acc < 2 ^ 64)%N as Hlt by (rewrite Hq; by apply N.mod_lt).
    destruct (N.lt_ge_cases (ac_sequence acc + i) (2 ^ 64)) as [Hs|Hs].
    - rewrite N.mod_small in Hq by exact Hs. lia.
    - assert ((ac_sequence acc + i) mod 2 ^ 64 = ac_sequence acc + i - 2 ^ 64)%N as E.
      { symmetry. apply (N.mod_unique _ _ 1); lia. }
      rewrite E in Hq. lia.
  Qed.
  Lemma keyless_refused id cs x a acc cs' x' raw t : (bits <= 314)%N -> running id cs x ->
    gets x ty_account a (OAccount acc) -> ac_pubkey acc = None -> calls cs' x = Some x' ->
    decode raw = Ok t -> signs t a ->
    exists e x'', call (CallDeliverTx raw) x' = (Fail e, x'') /\ call (CallCheckTx raw) x' = (Fail e, x'') /\ unchanged x' x''.
  Proof.
    intros Hb Hr Hacc Hp Hcs Ht Hs.
    pose proof (running_calls C bits verify enum fuel decode id _ x cs' x' Hr Hcs) as Hr'.
    apply (inadmissible_running id _ raw t x' Hb Hr' Ht). intros Had.
    destruct (running_tracked C bits verify enum fuel decode HS id cs x Hr) as (S & HT & _).
    destruct (calls_tracked C bits verify enum fuel decode HS cs' x S x' HT Hcs) as (S' & HT' & Hh).
    apply (shown_agree x S (tk_shown _ _ _ _ _ HT)) in Hacc as [_ Hacc].
    destruct (history_account cs' S S' _ _ Hh Hacc) as (acc' & j & E1 & E2 & _).
    unfold signs in Hs. apply elem_of_list_fmap in Hs as (s & -> & Hs).
    destruct (am_signed _ _ _ _ Had) as (ch & _ & Hsig). destruct (Hsig s Hs) as (acc2 & Hacc2 & Hne & _).
    apply (shown_agree x' S' (tk_shown _ _ _ _ _ HT')) in Hacc2 as [_ Hacc2].
    rewrite E1 in Hacc2. injection Hacc2 as <-. congruence.
  Qed.

  (** ** C41 *)
  Lemma sequenced_bump v S t : agree v S -> wt S -> proper t ->
    sequenced v (fun ty k o => ty ∈ all_types /\ bump (users_has1 (tx_users t)) S !! (ty, k) = Some o) t.
  Proof.
    intros A HW HP ty k o. destruct account_known as [K1 _].
    assert (users_has1 (tx_users t) k = true <-> signs t k) as Hu.
    { rewrite <- (proper_users t k HP). apply has1_spec. }
    destruct (decide (ty = ty_account)) as [->|Hty].
    - rewrite bump_lookup. split.
      + intros [_ H]. destruct (S !! at_account k) as [o1|] eqn:E; [|discriminate H].
        destruct (wt_account S HW k o1 E) as (acc & -> & _). cbn [fst snd] in H. injection H as <-.
        destruct (users_has1 (tx_users t) k) eqn:Eu.
        * right. split; [reflexivity|]. split; [by apply Hu|]. exists acc. split; [by apply A|]. reflexivity.
        * left. split; [intros [_ Hs]; apply Hu in Hs; congruence|]. by apply A.
      + intros [[Hn Hv]|(_ & Hs & acc & Hv & ->)]; (split; [exact K1|]).
        * apply A in Hv as [_ Hv]. rewrite Hv. destruct (wt_account S HW k o Hv) as (acc & -> & _). cbn [fst snd].
          destruct (users_has1 (tx_users t) k) eqn:Eu; [|reflexivity]. exfalso. apply Hn. split; [reflexivity|by apply Hu].
        * apply A in Hv as [_ Hv]. rewrite Hv. cbn [fst snd]. apply Hu in Hs. rewrite Hs. reflexivity.
    - rewrite (bump_other _ S ty k Hty HW), <- (A ty k o). split.
      + intros Hv. left. split; [|exact Hv]. intros [E _]. exact (Hty E).
      + intros [[_ Hv]|[E _]]; [exact Hv|]. destruct (Hty E).
  Qed.
  Lemma pay_fee id x t r x' : reachable id x -> proper t -> length (tx_payer t) < 128 ->
    (forall a (c : list coin), gets x ty_balance fee_collector (OBalance a c) -> readable bits c) ->
    pay t x = (r, x') -> alive r ->
    r = Ok tt /\ admissible bits verify (gets x) t
      /\ (exists v1, sequenced (gets x) v1 t /\ transferred bits v1 (gets x') (tx_payer t) fee_collector (tx_fee t))
    \/ (exists e, r = Fail e) /\ ~ admissible bits verify (gets x) t /\ forall ty k o, gets x' ty k o <-> gets x ty k o.
  Proof.
    intros Hx HP Hl HB H Ha. apply (reachable_tracked C bits verify enum fuel decode HS) in Hx as [S HT].
    destruct (pay_tracked C bits verify enum fuel decode HS t x S r x' HT HP H Ha) as (S' & HT' & Hp).
    pose proof (shown_agree x S (tk_shown _ _ _ _ _ HT)) as A. pose proof (shown_agree x' S' (tk_shown _ _ _ _ _ HT')) as A'.
    pose proof (iv_wt _ (tk_inv _ _ _ _ _ HT)) as HW.
    rewrite (admissible_tracked C bits verify enum decode HS x S t (tk_shown _ _ _ _ _ HT) HP).
    assert (forall k, bump (users_has1 (tx_users t)) S !! at_balance k = S !! at_balance k) as HBb.
    { intros k. apply bump_other; [|exact HW]. known. }
    assert (string_key (tx_payer t) = tx_payer t) as Hk by (apply string_key_small; unfold blen; lia).
    destruct Hp as [e Hn|e S2 Had Hs|S2 Had Hs].
    - right. split; [eauto|]. split; [exact Hn|]. intros ty k o. by rewrite (A ty k o), (A' ty k o).
    - exfalso. destruct (ad_fee _ _ _ _ Had) as (y & c & q & F1 & F2).
      assert (string_key fee_collector = fee_collector) as Hc by (apply string_key_small; vm_compute; reflexivity).
      remember (Fail e) as rf eqn:Er.
      destruct Hs as [Hs1 Hs2|y' c' e' Hs1 Hs2|y' c' c1 Hs1 Hs2 Hs3|y' c' c1 S1 z d e' H1 H2 H3 H4 -> H5 H6
        |y' c' c1 S1 z d d1 H1 H2 H3 H4 -> H5 H6 H7| | |]; try discriminate Er.
      + rewrite HBb in Hs2. congruence.
      + rewrite HBb in Hs1. rewrite F1 in Hs1. injection Hs1 as <- <-. congruence.
      + rewrite Hk in Hs3. congruence.
      + destruct (sub_worth bits c' _ c1 H2) as (_ & A1 & A2 & _). eapply add_refused; [| |exact H6]; [|exact A1].
        rewrite Hk in H5. destruct (decide (tx_payer t = fee_collector)) as [Hq|Hq].
        * rewrite Hq, lookup_insert in H5. by injection H5 as _ <-.
        * rewrite lookup_insert_ne, HBb in H5 by congruence. apply (HB z d). by apply (balance_reads _ S _ _ A).
      + rewrite Hc in H7. congruence.
    - left. split; [reflexivity|]. split; [exact Had|].
      exists (fun ty k o => ty ∈ all_types /\ bump (users_has1 (tx_users t)) S !! (ty, k) = Some o).
      split; [by apply sequenced_bump|].
      apply (moved_transferred _ (bump (users_has1 (tx_users t)) S) _ S2); [intros ty k o; reflexivity|exact A'|].
      apply sent_moved; [by apply bump_wt|unfold blen; lia|vm_compute; reflexivity|exact Hs].
  Qed.
End Chain.
