(** Transfers between addresses of any length. *)
From Coq Require Import NArith ZArith List Bool String Lia.
From stdpp Require Import base list gmap relations.
From Verif.Model Require Import Bytes Wire KindEncoder Desc Schema Indexes Orm Users Errors Prog Router Runtime
  Services Module Builder Universe Strings Coin CoreModules Rbac Bank Authn Distribution TestApp Abci.
From Verif.Spec Require Import UserSpec StoreSpec RuntimeSpec TextSpec CoinSpec RbacSpec ChainSpec FiledSpec.
From Verif.Proofs Require Import BytesFacts OrmFacts UserFacts RuntimeFacts CoinFacts SimFacts AppFacts AppSim RbacFacts MapExec
  ChainInv ChainWp ChainRun ChainHist ReadOnlyFacts ChainView ChainFacts AdmissionFacts SupplyFacts ChainProps.
From Verif.Proofs Require CodegenFacts.

Lemma filed_key a : string_key a <> [] -> string_key a = shelf a.
Proof.
  unfold string_key. intros H. destruct (blen a <? 2 ^ 63)%N eqn:E.
  - unfold shelf, drop1, append_bytes. destruct (append_varint (blen a)) as [|b l] eqn:Ev; [|reflexivity].
    exfalso. revert Ev. unfold append_varint. cbn [varint_bytes]. destruct (blen a <? 128)%N; discriminate.
  - by destruct H.
Qed.
Lemma shelf_short a : shelf a = a <-> length a < 128.
Proof.
  assert (shelf a = drop1 (append_bytes a)) as ->.
  { unfold shelf, drop1, append_bytes. destruct (append_varint (blen a)) as [|b l] eqn:Ev; [|reflexivity].
    exfalso. revert Ev. unfold append_varint. cbn [varint_bytes]. destruct (blen a <? 128)%N; discriminate. }
  rewrite CodegenFacts.prefix_none. unfold blen. lia.
Qed.

Section Filed.
  Context (bits : N).
  Implicit Types (S : amap) (from to k d : bytes) (amt c : list coin).
  Notation bal S := (fun k o => S !! at_balance k = Some o).

  Lemma put_written S a c : string_key a <> [] ->
    forall k o, put_balance a c S !! at_balance k = Some o <-> written_at (bal S) (shelf a) (OBalance a c) k o.
  Proof.
    intros Hk k o. rewrite (filed_key a Hk). unfold written_at. destruct (decide (k = shelf a)) as [->|Hn].
    - rewrite lookup_insert. split; [by intros [= <-]|by intros ->].
    - rewrite lookup_insert_ne by congruence. done.
  Qed.
  Lemma debit S from amt x c c1 : S !! at_balance from = Some (OBalance x c) -> safe_sub bits c amt = Ok c1 ->
    is_Some (S !! at_balance (string_key from)) -> string_key from <> [] -> debited bits (bal S) from amt (bal (put_balance from c1 S)).
  Proof.
    intros H1 H2 [o H3] H4. apply sub_worth in H2 as (F1 & F2 & _ & F3 & _ & F4). exists x, c, c1.
    split; [exact H1|]. do 4 (split; [done|]). split; [exists o; by rewrite <- filed_key|]. by apply put_written.
  Qed.
  Lemma total_put S a c d : string_key a <> [] ->
    (total bits (put_balance a c S) d + at_key bits d (bals S) (shelf a) = total bits S d + worth bits c d)%N.
  Proof.
    intros Hk. rewrite (filed_key a Hk). assert (bals (<[at_balance (shelf a):=OBalance a c]> S) = <[shelf a:=OBalance a c]> (bals S)) as E.
    { apply map_eq. intros k. rewrite bals_lookup. destruct (decide (k = shelf a)) as [->|Hn].
      - by rewrite !lookup_insert.
      - rewrite !lookup_insert_ne by congruence. by rewrite bals_lookup. }
    unfold total. rewrite E. exact (sum_insert bits d (bals S) (shelf a) (OBalance a c)).
  Qed.
  Lemma read_key S k d n : wt S -> read_at bits (bal S) k d n <-> n = at_key bits d (bals S) k.
  Proof.
    intros HW. unfold read_at, at_key. rewrite bals_lookup. split.
    - intros [(a & c & H & ->)|(H & ->)]; [by rewrite H|]. destruct (S !! at_balance k) as [o|] eqn:E; [by destruct (H o)|done].
    - intros ->. destruct (S !! at_balance k) as [o|] eqn:E.
      + left. destruct (wt_balance S HW k o E) as (a & c & -> & _). exists a, c. done.
      + right. split; [|done]. intros o Ho. cbv beta in Ho. congruence.
  Qed.

  (** What a transfer does to the balances and to the supply. *)
  Definition supply_after S S1 S' from to amt : Prop :=
    (forall d, 2 * total bits S d * 10 ^ 18 < 2 ^ bits /\ 2 * total bits S d < 2 ^ 255)%N ->
    forall d, (total bits S' d + at_key bits d (bals S) (shelf from) + at_key bits d (bals S1) (shelf to)
               = total bits S d + at_key bits d (bals S) from + at_key bits d (bals S1) to)%N.
  Lemma sent_success S from to amt S' : wt S -> sent bits S from to amt (Ok tt) S' ->
    exists S1 S2, wt S1 /\ debited bits (bal S) from amt (bal S1) /\ credited bits (bal S1) to amt (bal S2)
      /\ (forall ty k, ty <> ty_balance -> S2 !! (ty, k) = S !! (ty, k))
      /\ (S' = S2 /\ (something_at (bal S1) to \/ is_Some (S2 !! at_account to))
          \/ nothing_at (bal S1) to /\ string_key to <> [] /\ S2 !! at_account to = None /\ created S2 (fresh_account to) S')
      /\ supply_after S S1 S2 from to amt.
  Proof.
    intros HW H.
    assert (forall a c T, wt T -> string_key a <> [] -> wt (put_balance a c T)) as Hput.
    { intros a c T HT Hk. exact (wt_insert T (OBalance a c) HT Hk). }
    assert (forall a c T ty k, ty <> ty_balance -> (put_balance a c T : amap) !! (ty, k) = T !! (ty, k)) as Hoth.
    { intros a c T ty k Hn. apply lookup_insert_ne. congruence. }
    remember (Ok tt) as r eqn:Er.
    destruct H as [| | | | |x c c1 S1 y e d1 H1 H2 H3 H4 -> H5 H6 H7 H8|x c c1 S1 S2 H1 H2 H3 H4 -> H5 H6 H7 H8 -> H9|x c c1 S1 S2 S3 H1 H2 H3 H4 -> H5 H6 H7 H8 -> H9 H10];
      try discriminate Er; pose proof (debit S from amt x c c1 H1 H2 H3 H4) as HD;
      pose proof (sub_worth bits c amt c1 H2) as (F1 & F2 & _ & F3 & F4 & F5);
      pose proof (total_put S from c1) as T1; set (S1 := put_balance from c1 S) in *.
    - exists S1, (put_balance to d1 S1). split; [by apply Hput|]. split; [exact HD|].
      destruct (add_worth bits e amt d1 F2 H6) as (G1 & G2 & G3). split; [|split; [|split; [left; split; [done|]; left; by eexists|]]].
      + left. exists y, e, d1. do 3 (split; [done|]). destruct H7 as [o Ho]. split; [exists o; by rewrite <- filed_key|]. by apply put_written.
      + intros ty k Hn. unfold S1. by rewrite !Hoth.
      + intros Hb d. specialize (T1 d H4). pose proof (total_put S1 to d1 d H8) as T2.
        assert (at_key bits d (bals S) from = worth bits c d) as E1 by (unfold at_key; by rewrite bals_lookup, H1).
        assert (at_key bits d (bals S1) to = worth bits e d) as E2 by (unfold at_key; by rewrite bals_lookup, H5).
        assert (worth bits d1 d = worth bits e d + worth bits amt d)%N as E3.
        { apply G3. intros d'. specialize (Hb d').
          pose proof (sum_one bits d' (bals S) from) as L1. fold (total bits S d') in L1.
          assert (at_key bits d' (bals S) from = worth bits c d') as E1' by (unfold at_key; by rewrite bals_lookup, H1).
          assert (worth bits e d' <= total bits S d')%N as L2.
          { unfold S1 in H5. destruct (decide (to = string_key from)) as [->|Hn].
            - rewrite lookup_insert in H5. injection H5 as _ <-. rewrite (F4 d'). clear -L1 E1'. lia.
            - rewrite lookup_insert_ne in H5 by congruence. pose proof (sum_one bits d' (bals S) to) as L. fold (total bits S d') in L.
              unfold at_key in L. rewrite bals_lookup, H5 in L. exact L. }
          specialize (F3 d'). rewrite E1' in L1. destruct Hb as [B1 B2]. split; [|clear -L1 L2 F3 B2; lia].
          eapply N.le_lt_trans; [|exact B1]. apply N.mul_le_mono_r. clear -L1 L2 F3. lia. }
        specialize (F3 d). specialize (F4 d). rewrite E1, E2. clear -T1 T2 E3 F3 F4. lia.
    - exists S1, (put_balance to amt S1). split; [by apply Hput|]. split; [exact HD|].
      split; [|split; [|split; [left; split; [done|]; by right|]]].
      + right. split; [intros o Ho; cbv beta in Ho; congruence|]. split; [intros o Ho; cbv beta in Ho; rewrite <- filed_key in Ho by done; congruence|]. by apply put_written.
      + intros ty k Hn. unfold S1. by rewrite !Hoth.
      + intros Hb d. specialize (T1 d H4). pose proof (total_put S1 to amt d H7) as T2.
        assert (at_key bits d (bals S) from = worth bits c d) as E1 by (unfold at_key; by rewrite bals_lookup, H1).
        assert (at_key bits d (bals S1) to = 0%N) as E2 by (unfold at_key; by rewrite bals_lookup, H6).
        specialize (F3 d). specialize (F4 d). rewrite E1, E2. clear -T1 T2 F3 F4. lia.
    - exists S1, (put_balance to amt S1). split; [by apply Hput|]. split; [exact HD|].
      split; [|split; [|split; [right; split; [intros o Ho; cbv beta in Ho; congruence|done]|]]].
      + right. split; [intros o Ho; cbv beta in Ho; congruence|]. split; [intros o Ho; cbv beta in Ho; rewrite <- filed_key in Ho by done; congruence|]. by apply put_written.
      + intros ty k Hn. unfold S1. by rewrite !Hoth.
      + intros Hb d. specialize (T1 d H4). pose proof (total_put S1 to amt d H7) as T2.
        assert (at_key bits d (bals S) from = worth bits c d) as E1 by (unfold at_key; by rewrite bals_lookup, H1).
        assert (at_key bits d (bals S1) to = 0%N) as E2 by (unfold at_key; by rewrite bals_lookup, H6).
        specialize (F3 d). specialize (F4 d). rewrite E1, E2. clear -T1 T2 F3 F4. lia.
  Qed.
End Filed.

(** The same balances, read in another way. *)
Lemma written_ext (b b2 : balances) k o : (forall k o, b k o <-> b2 k o) -> forall k' o', written_at b k o k' o' <-> written_at b2 k o k' o'.
Proof. intros E k' o'. unfold written_at. destruct (decide (k' = k)); [done|apply E]. Qed.
Lemma nothing_ext (b b2 : balances) k : (forall k o, b k o <-> b2 k o) -> nothing_at b k <-> nothing_at b2 k.
Proof. intros E. unfold nothing_at. split; intros H o Ho; apply (H o); by apply E. Qed.
Lemma something_ext (b b2 : balances) k : (forall k o, b k o <-> b2 k o) -> something_at b k <-> something_at b2 k.
Proof. intros E. unfold something_at. split; intros [o Ho]; exists o; by apply E. Qed.
Lemma debited_ext bits (b b2 b' b2' : balances) from amt : (forall k o, b k o <-> b2 k o) -> (forall k o, b' k o <-> b2' k o) ->
  debited bits b from amt b' -> debited bits b2 from amt b2'.
Proof.
  intros E E' (a & c & c' & H1 & H2 & H3 & H4 & H5 & H6 & H7). exists a, c, c'. split; [by apply E|]. do 4 (split; [done|]).
  split; [by apply (something_ext b)|]. intros k o. rewrite <- E', H7. by apply written_ext.
Qed.
Lemma credited_ext bits (b b2 b' b2' : balances) to amt : (forall k o, b k o <-> b2 k o) -> (forall k o, b' k o <-> b2' k o) ->
  credited bits b to amt b' -> credited bits b2 to amt b2'.
Proof.
  intros E E' [(a & c & c' & H1 & H2 & H3 & H4 & H5)|(H1 & H2 & H3)].
  - left. exists a, c, c'. split; [by apply E|]. do 2 (split; [done|]). split; [by apply (something_ext b)|].
    intros k o. rewrite <- E', H5. by apply written_ext.
  - right. split; [by apply (nothing_ext b)|]. split; [by apply (nothing_ext b)|]. intros k o. rewrite <- E', H3. by apply written_ext.
Qed.
Lemma read_ext bits (b b2 : balances) k d n : (forall k o, b k o <-> b2 k o) -> read_at bits b k d n -> read_at bits b2 k d n.
Proof.
  intros E [(a & c & H & ->)|(H & ->)]; [left; exists a, c; split; [by apply E|done]|right; split; [by apply (nothing_ext b)|done]].
Qed.

Section Agree.
  Context (bits : N).
  Implicit Types (S : amap) (v : view) (k a d from to : bytes) (amt : list coin).
  Notation bal S := (fun k o => S !! at_balance k = Some o).
  Local Ltac known := apply (bool_decide_unpack _); vm_compute; exact I.

  Definition counts_ok v v' b from to : Prop :=
    (forall d n, supply bits v d n -> 2 * n * 10 ^ 18 < 2 ^ bits /\ 2 * n < 2 ^ 255)%N ->
    forall d n n' nf ns nt nr, supply bits v d n -> supply bits v' d n' ->
      read_at bits (v ty_balance) from d nf -> read_at bits (v ty_balance) (shelf from) d ns ->
      read_at bits b to d nt -> read_at bits b (shelf to) d nr ->
      (n' + ns + nr = n + nf + nt)%N.
  Definition counts_fail v v' from amt : Prop :=
    forall d n n' nf ns, supply bits v d n -> supply bits v' d n' ->
      read_at bits (v ty_balance) from d nf -> read_at bits (v ty_balance) (shelf from) d ns ->
      (n' + ns + worth bits amt d = n + nf)%N.

  Lemma sent_exact v v' S S' from to amt : agree v S -> agree v' S' -> wt S -> sent bits S from to amt (Ok tt) S' ->
    exists b, debited bits (v ty_balance) from amt b /\ credited bits b to amt (v' ty_balance)
      /\ ((something_at b to \/ something_at (v ty_account) to) /\ same_except [ty_balance] v v'
          \/ nothing_at b to /\ nothing_at (v ty_account) to /\ opened_where_filed v v' to)
      /\ counts_ok v v' b from to.
  Proof.
    intros A A' HW Hs.
    destruct (sent_success bits S from to amt S' HW Hs) as (S1 & S2 & HW1 & HD & HC & Ho & Ha & Hsup).
    assert (forall k, S' !! at_balance k = S2 !! at_balance k) as Eb.
    { intros k. destruct Ha as [[-> _]|(_ & _ & _ & [n ? ? ? ?])]; [done|]. rewrite !lookup_insert_ne; [done|tyne..]. }
    pose proof (fun k o => iff_sym (balance_reads v S k o A)) as G.
    assert (forall k o, S2 !! at_balance k = Some o <-> v' ty_balance k o) as G'.
    { intros k o. rewrite <- Eb. symmetry. by apply balance_reads. }
    assert (forall d, total bits S' d = total bits S2 d) as Et.
    { intros d. unfold total. f_equal. f_equal. apply map_eq. intros k. by rewrite !bals_lookup. }
    exists (bal S1). split; [exact (debited_ext bits _ _ _ _ from amt G (fun _ _ => iff_refl _) HD)|].
    split; [exact (credited_ext bits _ _ _ _ to amt (fun _ _ => iff_refl _) G' HC)|]. split.
    - destruct Ha as [[-> Hold]|(Hnb & Hk & H1 & Hcr)].
      + left. split.
        { destruct Hold as [Hold|[o Hold]]; [by left|]. right. exists o. apply A. split; [known|]. rewrite <- Ho by known. exact Hold. }
        intros ty k o Hn. rewrite (A ty k o), (A' ty k o), Ho; [done|]. intros ->. apply Hn. by left.
      + right. inversion Hcr as [n N1 N2 N3 N4 ES]. subst S'. cbn [fresh_account ac_address] in *. rewrite (filed_key to Hk) in *.
        assert (forall ty k, ty <> ty_balance -> forall o, S2 !! (ty, k) = Some o <-> S !! (ty, k) = Some o) as Ho'.
        { intros ty k Hn o. by rewrite Ho. }
        assert (ty_account_number ∈ all_types /\ ty_account ∈ all_types /\ ty_binding ∈ all_types) as (K1 & K2 & K3) by (split_and!; known).
        assert (ty_account_number <> ty_balance /\ ty_account <> ty_balance /\ ty_binding <> ty_balance) as (D1 & D2 & D3) by (split_and!; known).
        split; [exact Hnb|]. split; [intros o Hg; apply A in Hg as [_ Hg]; rewrite Ho in H1 by done; congruence|]. split.
        * exists n. split; [apply A; split; [done|]; by rewrite <- Ho|]. split; apply A'; (split; [done|]).
          -- rewrite lookup_insert_ne by tyne. by rewrite lookup_insert.
          -- rewrite lookup_insert_ne by tyne. rewrite lookup_insert_ne by tyne. by rewrite lookup_insert.
        * intros o Hg. apply A in Hg as [_ Hg]. rewrite Ho in N3 by done. congruence.
        * split; [intros o Hg; apply A in Hg as [_ Hg]; rewrite Ho in N4 by done; congruence|]. apply A'. split; [done|]. by rewrite lookup_insert.
        * intros ty k o T1 T2 T3. rewrite (A ty k o), (A' ty k o).
          rewrite lookup_insert_ne by (intros E; injection E as <- <-; apply T3; auto).
          rewrite lookup_insert_ne by (intros E; injection E as <- <-; by apply T2).
          rewrite lookup_insert_ne by (intros E; injection E as <- <-; apply T3; auto). by rewrite Ho.
    - intros Hb d n n' nf ns nt nr U1 U2 R1 R2 R3 R4.
      apply (supply_total bits _ S d n A) in U1 as ->. apply (supply_total bits _ S' d n' A') in U2 as ->. rewrite Et.
      pose proof (fun k d n => read_ext bits _ _ k d n (fun k o => iff_sym (G k o))) as RG.
      apply RG, (read_key bits S _ d _ HW) in R1 as ->. apply RG, (read_key bits S _ d _ HW) in R2 as ->.
      apply (read_key bits S1 _ d _ HW1) in R3 as ->. apply (read_key bits S1 _ d _ HW1) in R4 as ->.
      apply Hsup. intros d'. apply (Hb d'). by apply (supply_total bits _ S d' _ A).
  Qed.

  (** Failures: nothing has happened because there is nothing to take, or the
      receiver cannot be credited. *)
  Definition nothing_taken v from amt : Prop :=
    nothing_at (v ty_balance) from \/ nothing_at (v ty_balance) (shelf from) \/ (2 ^ 63 <= blen from)%N
    \/ exists a c e, v ty_balance from (OBalance a c) /\ safe_sub bits c amt = Fail e.
  Lemma sent_fail v v' S S' from to amt e : agree v S -> agree v' S' -> wt S -> sent bits S from to amt (Fail e) S' ->
    nothing_taken v from amt /\ (forall ty k o, v' ty k o <-> v ty k o)
    \/ taken_only bits v v' from to amt /\ counts_fail v v' from amt.
  Proof.
    intros A A' HW Hs. remember (Fail e) as r eqn:Er.
    pose proof (fun k o => iff_sym (balance_reads v S k o A)) as G.
    pose proof (fun k o => iff_sym (balance_reads v' S' k o A')) as G'.
    assert (forall z c c1, S !! at_balance from = Some (OBalance z c) -> safe_sub bits c amt = Ok c1 ->
      is_Some (S !! at_balance (string_key from)) -> string_key from <> [] -> S' = put_balance from c1 S ->
      not_creditable bits (bal S') to ->
      taken_only bits v v' from to amt /\ counts_fail v v' from amt) as HD.
    { intros z c c1 H1 H2 H3 H4 -> HN. split; [split; [|split]|].
      - exact (debited_ext bits _ _ _ _ from amt G G' (debit bits S from amt z c c1 H1 H2 H3 H4)).
      - destruct HN as (a & c' & N1 & N2). exists a, c'. split; [by apply G'|]. destruct N2 as [N2|[N2|N2]]; [by left|right; left|by right; right].
        by apply (nothing_ext _ _ _ G').
      - intros ty k o Hn. rewrite (A ty k o), (A' ty k o). rewrite lookup_insert_ne; [done|]. intros E. injection E as <- _. apply Hn. by left.
      - intros d n n' nf ns U1 U2 R1 R2.
        apply (supply_total bits _ S d n A) in U1 as ->. apply (supply_total bits _ _ d n' A') in U2 as ->.
        pose proof (fun k d n => read_ext bits _ _ k d n (fun k o => iff_sym (G k o))) as RG.
        apply RG, (read_key bits S _ d _ HW) in R1 as ->. apply RG, (read_key bits S _ d _ HW) in R2 as ->.
        pose proof (total_put bits S from c1 d H4) as T1. pose proof (sub_worth bits c amt c1 H2) as (_ & _ & _ & F3 & F4 & _).
        assert (at_key bits d (bals S) from = worth bits c d) as E1 by (unfold at_key; by rewrite bals_lookup, H1).
        specialize (F3 d). specialize (F4 d). rewrite E1. clear -T1 F3 F4. lia. }
    revert HD A' G'.
    destruct Hs as [Z1 Z2|z c e' H1 H2|z c c1 H1 H2 H3|z c c1 S1 y w e' H1 H2 H3 H4 -> H5 H6|z c c1 S1 y w d1 H1 H2 H3 H4 -> H5 H6 H7| | |]; try discriminate Er; intros HD A' G'.
    1,2,3: left; split; [|intros ty k o; by rewrite (A ty k o), (A' ty k o)].
    - left. intros o Ho. apply G in Ho. congruence.
    - right. right. right. exists z, c, e'. split; [by apply G|exact H2].
    - right. destruct (decide (string_key from = [])) as [E|E].
      + destruct (string_key_nil from E) as [->|Hl]; [|right; by left]. rewrite E in H3. congruence.
      + left. intros o Ho. apply G in Ho. rewrite <- filed_key in Ho by done. congruence.
    - right. apply (HD z c c1); try done. exists y, w. split; [exact H5|]. left. intros Hw.
      destruct (sub_worth bits c amt c1 H2) as (_ & A1 & _). exact (add_refused bits w amt e' Hw A1 H6).
    - right. apply (HD z c c1); try done. exists y, w. split; [exact H5|]. right.
      destruct (decide (string_key to = [])) as [E|E].
      + destruct (string_key_nil to E) as [->|Hl]; [|by right]. left. intros o Ho. cbv beta in Ho.
        change (shelf []) with (@nil byte) in Ho. rewrite E in H7. congruence.
      + left. intros o Ho. cbv beta in Ho. rewrite <- filed_key in Ho by done. congruence.
  Qed.
End Agree.

Section Chain.
  Context (C : codec) (bits : N) (verify : bytes -> bytes -> bytes -> bool).
  Context (enum : list (event object msg) -> users -> list user) (fuel : nat) (decode : bytes -> res tx).
  Context (HS : sound C enum decode).
  Notation gets := (gets C bits verify).
  Notation send := (send C bits verify enum fuel).
  Notation pay := (pay C bits verify enum fuel).
  Notation reachable := (reachable C bits verify enum fuel decode).
  Implicit Types (S : amap) (x : node) (t : tx) (k a d from to : bytes) (amt : list coin).

  Lemma send_sent id x t from to amt (r : res unit) x' : reachable id x -> proper t ->
    send (tx_users t) (MsgSendCoins from to amt) x = (r, x') -> alive r ->
    exists S S', agree (gets x) S /\ agree (gets x') S' /\ wt S /\ (sent bits S from to amt r S' \/ r <> Ok tt /\ S' = S).
  Proof.
    intros Hx HP H Ha. apply (reachable_tracked C bits verify enum fuel decode HS) in Hx as [S HT].
    destruct (send_tracked C bits verify enum fuel decode HS (tx_users t) _ x S r x' HT (proper_wf t HP) (proper_ordinary t HP) H Ha)
      as (S' & HT' & Hr).
    exists S, S'. split; [exact (shown_agree C bits verify enum decode HS x S (tk_shown _ _ _ _ _ HT))|].
    split; [exact (shown_agree C bits verify enum decode HS x' S' (tk_shown _ _ _ _ _ HT'))|].
    split; [exact (iv_wt _ (tk_inv _ _ _ _ _ HT))|].
    inversion Hr as [|a S1 E|from' to' amt' r' S1 E _ Hs]; subst; [by right|discriminate E|]. injection E as <- <- <-. by left.
  Qed.

  Lemma send_effect id x t from to amt x' : reachable id x -> proper t ->
    send (tx_users t) (MsgSendCoins from to amt) x = (Ok tt, x') -> moved_any bits (gets x) (gets x') from to amt.
  Proof.
    intros H1 H2 H3. destruct (send_sent id x t from to amt _ x' H1 H2 H3 I) as (S & S' & A & A' & HW & [Hs|[Hn _]]); [|done].
    destruct (sent_exact bits _ _ S S' from to amt A A' HW Hs) as (b & E1 & E2 & E3 & _). by exists b.
  Qed.
  Lemma send_counts id x t from to amt x' : reachable id x -> proper t ->
    send (tx_users t) (MsgSendCoins from to amt) x = (Ok tt, x') ->
    (forall d n, supply bits (gets x) d n -> 2 * n * 10 ^ 18 < 2 ^ bits /\ 2 * n < 2 ^ 255)%N ->
    exists b, debited bits (gets x ty_balance) from amt b /\ credited bits b to amt (gets x' ty_balance)
      /\ forall d n n' nf ns nt nr, supply bits (gets x) d n -> supply bits (gets x') d n' ->
         read_at bits (gets x ty_balance) from d nf -> read_at bits (gets x ty_balance) (shelf from) d ns ->
         read_at bits b to d nt -> read_at bits b (shelf to) d nr ->
         (n' + ns + nr = n + nf + nt)%N.
  Proof.
    intros H1 H2 H3 H4. destruct (send_sent id x t from to amt _ x' H1 H2 H3 I) as (S & S' & A & A' & HW & [Hs|[Hn _]]); [|done].
    destruct (sent_exact bits _ _ S S' from to amt A A' HW Hs) as (b & E1 & E2 & _ & E3). exists b. split; [done|]. split; [done|]. by apply E3.
  Qed.
  Lemma send_fail_effect id x t from to amt e x' : reachable id x -> proper t ->
    send (tx_users t) (MsgSendCoins from to amt) x = (Fail e, x') ->
    (forall ty k o, gets x' ty k o <-> gets x ty k o) \/ taken_only bits (gets x) (gets x') from to amt.
  Proof.
    intros H1 H2 H3. destruct (send_sent id x t from to amt _ x' H1 H2 H3 I) as (S & S' & A & A' & HW & [Hs|[_ ->]]).
    - destruct (sent_fail bits _ _ S S' from to amt e A A' HW Hs) as [[_ E]|[E _]]; auto.
    - left. intros ty k o. by rewrite (A ty k o), (A' ty k o).
  Qed.
  Lemma send_fail_counts id x t from to amt e x' : reachable id x -> proper t ->
    send (tx_users t) (MsgSendCoins from to amt) x = (Fail e, x') ->
    (forall d n, supply bits (gets x') d n <-> supply bits (gets x) d n)
    \/ forall d n n' nf ns, supply bits (gets x) d n -> supply bits (gets x') d n' ->
         read_at bits (gets x ty_balance) from d nf -> read_at bits (gets x ty_balance) (shelf from) d ns ->
         (n' + ns + worth bits amt d = n + nf)%N.
  Proof.
    intros H1 H2 H3. destruct (send_sent id x t from to amt _ x' H1 H2 H3 I) as (S & S' & A & A' & HW & [Hs|[_ ->]]).
    - destruct (sent_fail bits _ _ S S' from to amt e A A' HW Hs) as [[_ E]|[_ E]]; [|by right]. left.
      intros d n. unfold supply. split; intros (l & L1 & L2); exists l; (split; [|exact L2]); intros k o; rewrite (L1 k o); [apply E|symmetry; apply E].
    - left. intros d n. rewrite (supply_total bits _ S d n A), (supply_total bits _ S d n A'). done.
  Qed.

  (** Fees. *)
  Lemma pay_any_length id x t (r : res unit) x' : reachable id x -> proper t -> pay t x = (r, x') -> alive r ->
    ~ admissible bits verify (gets x) t /\ (exists e, r = Fail e) /\ (forall ty k o, gets x' ty k o <-> gets x ty k o)
    \/ admissible bits verify (gets x) t /\ exists v1, sequenced (gets x) v1 t
       /\ (r = Ok tt /\ moved_any bits v1 (gets x') (tx_payer t) fee_collector (tx_fee t)
           \/ (exists e, r = Fail e)
              /\ ((nothing_at (gets x ty_balance) (shelf (tx_payer t)) \/ (2 ^ 63 <= blen (tx_payer t))%N)
                  /\ (forall ty k o, gets x' ty k o <-> v1 ty k o)
                  \/ taken_only bits v1 (gets x') (tx_payer t) fee_collector (tx_fee t))).
  Proof.
    intros Hx HP H Ha. apply (reachable_tracked C bits verify enum fuel decode HS) in Hx as [S HT].
    destruct (pay_tracked C bits verify enum fuel decode HS t x S r x' HT HP H Ha) as (S' & HT' & Hp).
    pose proof (shown_agree C bits verify enum decode HS x S (tk_shown _ _ _ _ _ HT)) as A.
    pose proof (shown_agree C bits verify enum decode HS x' S' (tk_shown _ _ _ _ _ HT')) as A'.
    pose proof (iv_wt _ (tk_inv _ _ _ _ _ HT)) as HW.
    rewrite (admissible_tracked C bits verify enum decode HS x S t (tk_shown _ _ _ _ _ HT) HP).
    set (B := bump (users_has1 (tx_users t)) S) in *.
    assert (wt B) as HWB by (by apply bump_wt).
    set (v1 := fun ty k o => ty ∈ all_types /\ B !! (ty, k) = Some o).
    assert (agree v1 B) as A1 by (intros ty k o; reflexivity).
    assert (sequenced (gets x) v1 t) as Hq by (by apply sequenced_bump).
    assert (forall k o, v1 ty_balance k o <-> gets x ty_balance k o) as Hb.
    { intros k o. rewrite (balance_reads v1 B k o A1), (balance_reads _ S k o A). unfold B. rewrite bump_other; [done| |exact HW].
      apply (bool_decide_unpack _); vm_compute; exact I. }
    destruct Hp as [e Hn|e S2 Had Hs|S2 Had Hs].
    - left. split; [exact Hn|]. split; [eauto|]. intros ty k o. by rewrite (A ty k o), (A' ty k o).
    - right. split; [exact Had|]. exists v1. split; [exact Hq|]. right. split; [eauto|].
      destruct (sent_fail bits v1 _ B S2 _ _ _ e A1 A' HWB Hs) as [[Hr E]|[E _]]; [|by right]. left. split; [|exact E].
      destruct (ad_fee _ _ _ _ Had) as (y & c & q & F1 & F2). apply (balance_reads _ S _ _ A), Hb in F1.
      destruct Hr as [Hr|[Hr|[Hr|(a & c' & e' & R1 & R2)]]].
      + exact (False_ind _ (Hr _ F1)).
      + left. intros o Ho. apply Hb in Ho. exact (Hr o Ho).
      + by right.
      + apply (balance_reads v1 B _ _ A1) in F1, R1. rewrite F1 in R1. injection R1 as <- <-. rewrite F2 in R2. discriminate R2.
    - right. split; [exact Had|]. exists v1. split; [exact Hq|]. left. split; [reflexivity|].
      destruct (sent_exact bits v1 _ B S2 _ _ _ A1 A' HWB Hs) as (b & E1 & E2 & E3 & _).
      exists b. split; [exact E1|]. split; [exact E2|exact E3].
  Qed.
End Chain.
