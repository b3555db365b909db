(** What transfers do to balances. *)
From Coq Require Import NArith ZArith List Bool String Lia Sorted.
From stdpp Require Import base list gmap.
From Verif.Model Require Import Bytes KindEncoder Desc Schema Indexes Orm Users Prog Router Runtime
  Services Module Builder Universe Strings Coin CoreModules Rbac Bank Authn Distribution TestApp Abci.
From Verif.Spec Require Import UserSpec StoreSpec RuntimeSpec TextSpec CoinSpec RbacSpec ChainSpec.
From Verif.Proofs Require Import OrmFacts UserFacts CoinFacts SimFacts AppFacts AppSim RbacFacts MapExec
  ChainInv ChainWp ChainRun ChainHist ReadOnlyFacts ChainView ChainFacts.

Implicit Types (S : amap) (k a d : bytes) (c amt : list coin).

(** ** Worth *)
Lemma worth_zamount bits c l d : new_balance bits c = Ok l -> Z.of_N (worth bits c d) = zamount l d.
Proof.
  intros H. unfold worth. rewrite H. apply parse_coins_parsed in H. apply pa_each in H. clear -H.
  induction H as [|x l (_ & Hx & _) _ IH]; [done|]. rewrite zamount_cons, <- IH. cbn [fold_right]. destruct (decide _); lia.
Qed.
Lemma worth_set bits c A d : coin_set c A -> within bits A -> readable bits c /\ worth bits c d = A d.
Proof.
  intros H1 H2. destruct (coin_set_balance bits c A H1 H2) as (l & Hl & _ & _ & Hz). split; [by exists l|].
  specialize (Hz d). rewrite <- (worth_zamount bits c l d Hl) in Hz. lia.
Qed.
Lemma worth_bound bits c d : (worth bits c d * 10 ^ 18 < 2 ^ bits)%N /\ (worth bits c d < 2 ^ 255)%N.
Proof.
  assert (0 < 2 ^ bits)%N by (apply N.neq_0_lt_0, N.pow_nonzero; done).
  destruct (new_balance bits c) as [l|e| |] eqn:E; [|unfold worth; rewrite E; (split; [lia|done])..].
  pose proof (worth_zamount bits c l d E) as Hw. apply parse_coins_parsed in E.
  destruct (parsed_amount_bound bits l d E) as [H1 H2]. rewrite <- Hw in H1, H2.
  split; [by apply scaled_lt|]. change (2 ^ 255)%Z with (Z.of_N (2 ^ 255)) in H2. lia.
Qed.

Lemma sub_worth bits c amt c1 : safe_sub bits c amt = Ok c1 ->
  readable bits c /\ readable bits amt /\ readable bits c1
  /\ (forall d, worth bits amt d <= worth bits c d)%N
  /\ (forall d, worth bits c1 d = worth bits c d - worth bits amt d)%N
  /\ normal_set c1 (fun d => worth bits c d - worth bits amt d)%N.
Proof.
  intros H. assert (exists i s, new_balance bits c = Ok i /\ new_balance bits amt = Ok s) as (i & s & Hi & Hs).
  { unfold safe_sub in H. destruct (new_balance bits c); try discriminate; destruct (new_balance bits amt); try discriminate; eauto. }
  pose proof (safe_sub_parsed bits c amt i s Hi Hs) as HP. rewrite H in HP.
  destruct HP as (HL & k & -> & Hk & Hp & Hz).
  pose proof (fun d => worth_zamount bits c i d Hi) as W1. pose proof (fun d => worth_zamount bits amt s d Hs) as W2.
  pose proof (fun d => worth_zamount bits (to_coins k) k d Hk) as W3.
  split; [by exists i|]. split; [by exists s|]. split; [by exists k|].
  split; [intros d; specialize (HL d); rewrite <- W1, <- W2 in HL; lia|].
  split; [intros d; specialize (HL d); specialize (Hz d); rewrite <- W1, <- W2 in HL, Hz; rewrite <- W3 in Hz; lia|].
  apply parse_coins_parsed in Hk.
  eapply normal_set_ext; [|apply normal_to_coins; [by apply (pa_sorted _ _ Hk)|]].
  - intros d. cbv beta. rewrite Hz, <- W1, <- W2. specialize (HL d). rewrite <- W1, <- W2 in HL. lia.
  - pose proof (pa_each _ _ Hk) as HE. clear -HE Hp. induction HE as [|x l (Hx & _) _ IH]; [constructor|].
    inversion Hp; subst. constructor; auto.
Qed.
Lemma add_worth bits c amt c1 : readable bits amt -> safe_add bits c amt = Ok c1 ->
  readable bits c /\ normal_set c1 (fun d => worth bits c d + worth bits amt d)%N
  /\ ((forall d, (worth bits c d + worth bits amt d) * 10 ^ 18 < 2 ^ bits /\ worth bits c d + worth bits amt d < 2 ^ 255)%N ->
      readable bits c1 /\ forall d, worth bits c1 d = (worth bits c d + worth bits amt d)%N).
Proof.
  intros [s Hs] H. assert (exists i, new_balance bits c = Ok i) as (i & Hi).
  { unfold safe_add in H. destruct (new_balance bits c); try discriminate; eauto. }
  pose proof (safe_add_parsed bits c amt i s Hi Hs) as HP. rewrite H in HP.
  destruct HP as (k & -> & Hk & Hp & Hz).
  pose proof (fun d => worth_zamount bits c i d Hi) as W1. pose proof (fun d => worth_zamount bits amt s d Hs) as W2.
  assert (normal_set (to_coins k) (fun d => worth bits c d + worth bits amt d)%N) as HN.
  { eapply normal_set_ext; [|by apply normal_to_coins]. intros d. cbv beta. rewrite Hz, <- W1, <- W2. lia. }
  split; [by exists i|]. split; [done|]. intros Hw. split; [|intros d; apply (worth_set bits _ _ d (proj1 HN) Hw)].
  apply (worth_set bits _ _ [] (proj1 HN) Hw).
Qed.
Lemma add_refused bits c amt e : readable bits c -> readable bits amt -> safe_add bits c amt <> Fail e.
Proof.
  intros [i Hi] [s Hs] H. pose proof (safe_add_parsed bits c amt i s Hi Hs) as HP. by rewrite H in HP.
Qed.

(** ** One transfer between addresses that are their own keys *)
Record moved (bits : N) (S S' : amap) (from to : bytes) (amt : list coin) : Prop := {
  mv_sender : exists c, S !! at_balance from = Some (OBalance from c) /\ readable bits c /\ readable bits amt
    /\ (forall d, worth bits amt d <= worth bits c d)%N
    /\ exists c', S' !! at_balance from = Some (OBalance from c')
       /\ normal_set c' (fun d => if decide (from = to) then worth bits c d
                                  else worth bits c d - worth bits amt d)%N;
  mv_receiver : from <> to ->
    (exists c, S !! at_balance to = Some (OBalance to c) /\ readable bits c
       /\ exists c', S' !! at_balance to = Some (OBalance to c')
          /\ normal_set c' (fun d => worth bits c d + worth bits amt d)%N)
    \/ S !! at_balance to = None /\ S' !! at_balance to = Some (OBalance to amt);
  mv_others : forall a, a <> from -> a <> to -> S' !! at_balance a = S !! at_balance a;
  mv_account : (forall ty k, ty <> ty_balance -> S' !! (ty, k) = S !! (ty, k))
    \/ exists n, S !! at_number = Some (OAccountNumber n)
       /\ S !! at_account to = None /\ S !! at_binding to = None
       /\ S' !! at_number = Some (OAccountNumber ((n + 1) mod 2 ^ 64))
       /\ S' !! at_account to = Some (OAccount {| ac_address := to; ac_pubkey := None; ac_number := n; ac_sequence := 0 |})
       /\ S' !! at_binding to = Some (OBinding to external_role_id)
       /\ forall ty k, ty <> ty_balance -> ty <> ty_account_number ->
            ~ (k = to /\ (ty = ty_account \/ ty = ty_binding)) -> S' !! (ty, k) = S !! (ty, k)
}.

Lemma own_key S k x c : wt S -> (blen k < 128)%N -> S !! at_balance k = Some (OBalance x c) -> x = k.
Proof.
  intros HW Hk H. destruct (HW _ _ _ H) as (_ & E & Hn). cbn [key_of] in E. by eapply string_key_small_inv.
Qed.

Lemma sent_moved bits S from to amt S' : wt S -> (blen from < 128)%N -> (blen to < 128)%N ->
  sent bits S from to amt (Ok tt) S' -> moved bits S S' from to amt.
Proof.
  intros HW Hf Ht H.
  assert (forall x c c1, S !! at_balance from = Some (OBalance x c) -> safe_sub bits c amt = Ok c1 ->
    S !! at_balance from = Some (OBalance from c) /\ readable bits c /\ readable bits amt
    /\ (forall d, worth bits amt d <= worth bits c d)%N /\ readable bits c1
    /\ (forall d, worth bits c1 d = worth bits c d - worth bits amt d)%N
    /\ normal_set c1 (fun d => worth bits c d - worth bits amt d)%N) as HF.
  { intros x c c1 H1 H2. rewrite (own_key S from x c HW Hf H1) in H1. apply sub_worth in H2. naive_solver. }
  remember (Ok tt) as r eqn:Er.
  destruct H as [| | | |
    |x c c1 S1 y d d1 H1 H2 H3 H4 -> H5 H6 H7 H8|x c c1 S1 S2 H1 H2 H3 H4 -> H5 H6 H7 H8 -> H9
    |x c c1 S1 S2 S3 H1 H2 H3 H4 -> H5 H6 H7 H8 -> H9 HC]; try discriminate Er; clear Er;
    destruct (HF x c c1 H1 H2) as (F1 & F2 & F3 & F4 & F5 & F6 & F7); clear HF;
    rewrite !string_key_small in * by done.
  - destruct (decide (from = to)) as [<-|Hne].
    + rewrite lookup_insert in H5. injection H5 as <- <-.
      destruct (add_worth bits c1 amt d1 F3 H6) as (_ & HN & _).
      split.
      * exists c. do 4 (split; [done|]). exists d1. split; [by rewrite lookup_insert|].
        eapply normal_set_ext; [|exact HN]. intros d. cbv beta. rewrite decide_True by done. rewrite F6. specialize (F4 d). lia.
      * done.
      * intros a Ha _. rewrite !lookup_insert_ne by congruence. done.
      * left. intros ty k Hty. rewrite !lookup_insert_ne by congruence. done.
    + rewrite lookup_insert_ne in H5 by congruence.
      pose proof (own_key S to y d HW Ht H5) as ->.
      destruct (add_worth bits d amt d1 F3 H6) as (HD & HN & _).
      split.
      * exists c. do 4 (split; [done|]). exists c1.
        split; [by rewrite lookup_insert_ne, lookup_insert by congruence|].
        eapply normal_set_ext; [|exact F7]. intros e. cbv beta. by rewrite decide_False.
      * intros _. left. exists d. do 2 (split; [done|]). exists d1. split; [by rewrite lookup_insert|done].
      * intros a Ha Ha'. rewrite !lookup_insert_ne by congruence. done.
      * left. intros ty k Hty. rewrite !lookup_insert_ne by congruence. done.
  - assert (from <> to) as Hne by (intros ->; by rewrite lookup_insert in H6).
    rewrite lookup_insert_ne in H6 by congruence.
    split.
    + exists c. do 4 (split; [done|]). exists c1.
      split; [by rewrite lookup_insert_ne, lookup_insert by congruence|].
      eapply normal_set_ext; [|exact F7]. intros e. cbv beta. by rewrite decide_False.
    + intros _. right. split; [done|]. by rewrite lookup_insert.
    + intros a Ha Ha'. rewrite !lookup_insert_ne by congruence. done.
    + left. intros ty k Hty. rewrite !lookup_insert_ne by congruence. done.
  - assert (from <> to) as Hne by (intros ->; by rewrite lookup_insert in H6).
    rewrite lookup_insert_ne in H6 by congruence.
    destruct HC as [n C1 C2 C3 C4]. cbn [fresh_account ac_address ac_pubkey numbered] in *.
    rewrite !string_key_small in * by done.
    assert (at_number <> at_balance to /\ at_number <> at_balance from) as [N1 N2] by (split; tyne).
    assert (forall k k', at_account k <> at_balance k') as N3 by (intros ??; tyne).
    assert (forall k k', at_binding k <> at_balance k') as N4 by (intros ??; tyne).
    assert (forall k, at_number <> at_account k) as N5 by (intros ?; tyne).
    assert (forall k, at_number <> at_binding k) as N6 by (intros ?; tyne).
    assert (forall k k', at_account k <> at_binding k') as N7 by (intros ??; tyne).
    rewrite !lookup_insert_ne in C1, C3, C4 by done.
    assert (forall k, (<[at_binding to:=OBinding to external_role_id]>
      (<[at_number:=OAccountNumber ((n + 1) mod 2 ^ 64)]>
         (<[at_account to:=OAccount (numbered (fresh_account to) n)]>
            (<[at_balance to:=OBalance to amt]> (<[at_balance from:=OBalance from c1]> S))))) !! at_balance k
      = (<[at_balance to:=OBalance to amt]> (<[at_balance from:=OBalance from c1]> S)) !! at_balance k) as HB.
    { intros k. rewrite !(lookup_insert_ne _ (at_binding to)), !(lookup_insert_ne _ at_number),
        !(lookup_insert_ne _ (at_account to)) by (first [apply N3|apply N4|tyne]). done. }
    split.
    + exists c. do 4 (split; [done|]). exists c1. rewrite HB.
      split; [by rewrite lookup_insert_ne, lookup_insert by congruence|].
      eapply normal_set_ext; [|exact F7]. intros e. cbv beta. by rewrite decide_False.
    + intros _. right. split; [done|]. rewrite HB. by rewrite lookup_insert.
    + intros a Ha Ha'. rewrite HB. rewrite !lookup_insert_ne by congruence. done.
    + right. exists n. do 3 (split; [done|]).
      split; [rewrite lookup_insert_ne by (apply not_eq_sym, N6); by rewrite lookup_insert|].
      split; [rewrite lookup_insert_ne by (apply not_eq_sym, N7); rewrite lookup_insert_ne by apply N5; by rewrite lookup_insert|].
      split; [by rewrite lookup_insert|].
      intros ty k T1 T2 T3. rewrite !lookup_insert_ne; [done|..]; try congruence; intros E; injection E as <- <-; apply T3; auto.
Qed.

(** ** The sum of all balances *)
Definition bals S : gmap bytes object := default ∅ (gmap_curry S !! ty_balance).
Lemma bals_lookup S k : bals S !! k = S !! at_balance k.
Proof.
  unfold bals. rewrite <- (lookup_gmap_curry S ty_balance k).
  destruct (gmap_curry S !! ty_balance); cbn; [done|apply lookup_empty].
Qed.
Definition in_balance (bits : N) (d : bytes) (o : object) : N := match o with OBalance _ c => worth bits c d | _ => 0%N end.
Definition sum (bits : N) (d : bytes) (l : list (bytes * object)) : N :=
  fold_right (fun x acc => match snd x with OBalance _ c => worth bits c d | _ => 0 end + acc)%N 0%N l.
Lemma sum_cons (bits : N) (d : bytes) x l : sum bits d (x :: l) = (in_balance bits d (snd x) + sum bits d l)%N.
Proof. done. Qed.
Lemma sum_perm (bits : N) (d : bytes) l l' : l ≡ₚ l' -> sum bits d l = sum bits d l'.
Proof. induction 1; rewrite ?sum_cons; lia. Qed.
Definition total (bits : N) S d : N := sum bits d (map_to_list (bals S)).
Definition at_key (bits : N) (d : bytes) (m : gmap bytes object) k : N :=
  match m !! k with Some o => in_balance bits d o | None => 0%N end.
Lemma sum_delete (bits : N) (d : bytes) (m : gmap bytes object) k :
  sum bits d (map_to_list m) = (at_key bits d m k + sum bits d (map_to_list (base.delete k m)))%N.
Proof.
  unfold at_key. destruct (m !! k) as [o|] eqn:E.
  - rewrite <- (insert_delete m k o E) at 1.
    rewrite (sum_perm _ _ _ _ (map_to_list_insert (base.delete k m) k o (lookup_delete m k))), sum_cons. done.
  - by rewrite delete_notin.
Qed.
Lemma sum_insert (bits : N) (d : bytes) (m : gmap bytes object) (k : bytes) (o : object) :
  (sum bits d (map_to_list (<[k:=o]> m)) + at_key bits d m k = sum bits d (map_to_list m) + in_balance bits d o)%N.
Proof.
  rewrite (sum_delete bits d m k), (sum_delete bits d (<[k:=o]> m) k), delete_insert_delete.
  unfold at_key at 1. rewrite lookup_insert. lia.
Qed.
Lemma sum_two (bits : N) (d : bytes) (m : gmap bytes object) k k' : k <> k' ->
  (at_key bits d m k + at_key bits d m k' <= sum bits d (map_to_list m))%N.
Proof.
  intros Hne. rewrite (sum_delete bits d m k), (sum_delete bits d (base.delete k m) k').
  unfold at_key at 4. rewrite lookup_delete_ne by done. fold (at_key bits d m k'). lia.
Qed.
Lemma sum_one (bits : N) (d : bytes) (m : gmap bytes object) k : (at_key bits d m k <= sum bits d (map_to_list m))%N.
Proof. rewrite (sum_delete bits d m k). lia. Qed.

Record solvent (bits : N) S : Prop := {
  sv_each : forall k o, S !! at_balance k = Some o -> exists c, o = OBalance k c /\ (blen k < 128)%N /\ readable bits c;
  sv_total : forall d, (total bits S d * 10 ^ 18 < 2 ^ bits)%N /\ (total bits S d < 2 ^ 255)%N
}.

Lemma same_balances (bits : N) S S' : (forall k, S' !! at_balance k = S !! at_balance k) -> solvent bits S ->
  (forall d, total bits S' d = total bits S d) /\ solvent bits S'.
Proof.
  intros H [H1 H2]. assert (bals S' = bals S) as E by (apply map_eq; intros k; by rewrite !bals_lookup).
  assert (forall d, total bits S' d = total bits S d) as E' by (intros d; unfold total; by rewrite E).
  split; [done|]. split; [intros k o; rewrite H; apply H1|intros d; rewrite E'; apply H2].
Qed.

Lemma moved_total (bits : N) S S' from to amt : solvent bits S -> (blen from < 128)%N -> (blen to < 128)%N ->
  moved bits S S' from to amt -> (forall d, total bits S' d = total bits S d) /\ solvent bits S'.
Proof.
  intros [V1 V2] Hf Ht [(c & F1 & F2 & F3 & F4 & c' & F5 & F6) HR HO _].
  assert (forall d, at_key bits d (bals S) from = worth bits c d) as Kf.
  { intros d. unfold at_key. by rewrite bals_lookup, F1. }
  destruct (decide (from = to)) as [<-|Hne].
  - assert (forall d, readable bits c' /\ worth bits c' d = worth bits c d) as HW.
    { intros d. apply (worth_set bits c' (fun d => worth bits c d) d (proj1 F6)). intros e. apply worth_bound. }
    assert (bals S' = <[from:=OBalance from c']> (bals S)) as E.
    { apply map_eq. intros k. rewrite bals_lookup. destruct (decide (k = from)) as [->|Hk].
      - by rewrite lookup_insert. - rewrite lookup_insert_ne, bals_lookup by done. by apply HO. }
    assert (forall d, total bits S' d = total bits S d) as ET.
    { intros d. unfold total. rewrite E. pose proof (sum_insert bits d (bals S) from (OBalance from c')) as Hs.
      rewrite Kf in Hs. cbn [in_balance] in Hs. rewrite (proj2 (HW d)) in Hs. lia. }
    split; [done|]. split; [|intros d; rewrite ET; apply V2].
    intros k o Ho. destruct (decide (k = from)) as [->|Hk].
    + rewrite F5 in Ho. injection Ho as <-. exists c'. split; [done|]. split; [done|]. apply (HW []).
    + rewrite HO in Ho by done. by apply V1.
  - assert (forall d, readable bits c' /\ worth bits c' d = worth bits c d - worth bits amt d)%N as HW.
    { intros d. apply (worth_set bits c' (fun d => worth bits c d - worth bits amt d)%N d (proj1 F6)). intros e.
      destruct (worth_bound bits c e). split; nia. }
    assert (exists c2, S' !! at_balance to = Some (OBalance to c2) /\ readable bits c2
              /\ forall d, worth bits c2 d = (at_key bits d (bals S) to + worth bits amt d)%N) as (c2 & G1 & G2 & G3).
    { destruct (HR Hne) as [(e & R1 & R2 & e' & R3 & R4)|[R1 R2]].
      - assert (forall d, at_key bits d (bals S) to = worth bits e d) as Kt.
        { intros d. unfold at_key. by rewrite bals_lookup, R1. }
        assert (forall d, readable bits e' /\ worth bits e' d = worth bits e d + worth bits amt d)%N as HW'.
        { intros d. apply (worth_set bits e' (fun d => worth bits e d + worth bits amt d)%N d (proj1 R4)). intros f.
          pose proof (sum_two bits f (bals S) from to Hne) as Hs. rewrite Kf, Kt in Hs.
          specialize (F4 f). destruct (V2 f) as [B1 B2]. unfold total in B1, B2.
          split; [|lia]. eapply N.le_lt_trans; [|exact B1]. apply N.mul_le_mono_r. lia. }
        exists e'. split; [done|]. split; [apply (HW' [])|]. intros d. rewrite Kt. apply HW'.
      - exists amt. split; [done|]. split; [done|]. intros d. unfold at_key. rewrite bals_lookup, R1. lia. }
    assert (bals S' = <[to:=OBalance to c2]> (<[from:=OBalance from c']> (bals S))) as E.
    { apply map_eq. intros k. rewrite bals_lookup. destruct (decide (k = to)) as [->|Hk].
      - by rewrite lookup_insert.
      - rewrite lookup_insert_ne by done. destruct (decide (k = from)) as [->|Hk'].
        + by rewrite lookup_insert. + rewrite lookup_insert_ne, bals_lookup by done. by apply HO. }
    assert (forall d, total bits S' d = total bits S d) as ET.
    { intros d. unfold total. rewrite E.
      pose proof (sum_insert bits d (bals S) from (OBalance from c')) as Hs.
      pose proof (sum_insert bits d (<[from:=OBalance from c']> (bals S)) to (OBalance to c2)) as Hs'.
      unfold at_key in Hs' at 1. rewrite lookup_insert_ne in Hs' by done. fold (at_key bits d (bals S) to) in Hs'.
      rewrite Kf in Hs. cbn [in_balance] in *. rewrite (proj2 (HW d)) in Hs. rewrite G3 in Hs'.
      specialize (F4 d). lia. }
    split; [done|]. split; [|intros d; rewrite ET; apply V2].
    intros k o Ho. destruct (decide (k = from)) as [->|Hk]; [|destruct (decide (k = to)) as [->|Hk']].
    + rewrite F5 in Ho. injection Ho as <-. exists c'. split; [done|]. split; [done|]. apply (HW []).
    + rewrite G1 in Ho. injection Ho as <-. by exists c2.
    + rewrite HO in Ho by done. by apply V1.
Qed.

Lemma sent_total (bits : N) S from to amt r S' : wt S -> solvent bits S -> (blen to < 128)%N ->
  sent bits S from to amt r S' -> (forall d, total bits S' d = total bits S d) /\ solvent bits S'.
Proof.
  intros HW HV Ht H.
  assert (forall x c, S !! at_balance from = Some (OBalance x c) -> (blen from < 128)%N /\ readable bits c) as HF.
  { intros x c Hx. destruct (sv_each _ _ HV _ _ Hx) as (c' & E & H1 & H2). injection E as -> ->. done. }
  assert (r = Ok tt \/ r <> Ok tt) as [->|Hr] by (destruct r as [[]| | |]; [left; done|right; discriminate..]).
  { assert (blen from < 128)%N as Hf by (inversion H; subst; eapply HF; eassumption).
    apply (moved_total bits S S' from to amt HV Hf Ht), sent_moved; assumption. }
  destruct H as [| | |x c c1 S1 y d e H1 H2 H3 H4 -> H5 H6|x c c1 S1 y d d1 H1 H2 H3 H4 -> H5 H6 H7| | |];
    try (split; [done|exact HV]); try done; destruct (HF _ _ H1) as [Hf Hc]; rewrite string_key_small in * by done.
  - exfalso. destruct (sub_worth bits c amt c1 H2) as (_ & A1 & A2 & _).
    eapply add_refused; [| |exact H6]; [|done].
    destruct (decide (from = to)) as [<-|Hne].
    + rewrite lookup_insert in H5. by injection H5 as _ <-.
    + rewrite lookup_insert_ne in H5 by congruence. destruct (sv_each _ _ HV _ _ H5) as (? & E & _ & ?). by injection E as _ ->.
  - rewrite ?(string_key_small from), ?(string_key_small to) in H7 by done. rewrite ?(string_key_small from) in H5 by done. congruence.
Qed.

(** Histories in which coins go to addresses of less than 128 bytes only. *)
Definition to_short (m : msg) : Prop := match m with MsgSendCoins _ to _ => (blen to < 128)%N | _ => True end.

Lemma ran_total (bits : N) us m S r S' : wt S -> solvent bits S -> to_short m -> ran bits us m S r S' ->
  (forall d, total bits S' d = total bits S d) /\ solvent bits S'.
Proof.
  intros HW HV Hm [H|a S1 -> _ [n H1 H2 H3 H4]|from to amt r1 S1 -> _ Hs].
  - split; [done|exact HV].
  - apply same_balances; [|exact HV]. intros k. rewrite !lookup_insert_ne; [done|tyne..].
  - by eapply sent_total.
Qed.
Lemma msgs_ran_total (bits : N) us l S r S' : inv S -> solvent bits S -> Forall to_short l ->
  msgs_ran bits us l S r S' -> (forall d, total bits S' d = total bits S d) /\ solvent bits S'.
Proof.
  intros HI HV HF H. induction H as [S|m l S S1 r S2 H1 H2 IH|m l S e S1 H1].
  - split; [done|exact HV].
  - apply Forall_cons in HF as [Hm HF].
    destruct (ran_total bits us m S (Ok tt) S1 (iv_wt _ HI) HV Hm H1) as [E1 V1].
    destruct (IH (ran_inv _ _ _ _ _ _ HI H1) V1 HF) as [E2 V2].
    split; [|exact V2]. intros d. by rewrite E2, E1.
  - apply Forall_cons in HF as [Hm HF]. exact (ran_total bits us m S (Fail e) S1 (iv_wt _ HI) HV Hm H1).
Qed.
Lemma bump_total (bits : N) p S : wt S -> solvent bits S ->
  (forall d, total bits (bump p S) d = total bits S d) /\ solvent bits (bump p S).
Proof.
  intros HW HV. apply same_balances; [|exact HV]. intros k. apply bump_other; [|done].
  apply (bool_decide_unpack _); vm_compute; exact I.
Qed.
Lemma collector_short : (blen fee_collector < 128)%N.
Proof. vm_compute. reflexivity. Qed.
Lemma paid_total (bits : N) verify t S r S' : inv S -> solvent bits S -> paid bits verify t S r S' ->
  (forall d, total bits S' d = total bits S d) /\ solvent bits S'.
Proof.
  intros HI HV H. destruct (bump_total bits (users_has1 (tx_users t)) S (iv_wt _ HI) HV) as [E V].
  destruct H as [|e S2 _ H|S2 _ H]; [split; [done|exact HV]|..];
    (destruct (sent_total bits _ _ _ _ _ _ (bump_wt _ _ (iv_wt _ HI)) V collector_short H) as [E2 V2];
     split; [intros d; by rewrite E2, E|exact V2]).
Qed.
Lemma tx_ran_total (bits : N) verify t S r S' : inv S -> solvent bits S -> Forall to_short (tx_msgs t) ->
  tx_ran bits verify t S r S' -> (forall d, total bits S' d = total bits S d) /\ solvent bits S'.
Proof.
  intros HI HV HF H. destruct (bump_total bits (users_has1 (tx_users t)) S (iv_wt _ HI) HV) as [E V].
  pose proof (bump_inv (users_has1 (tx_users t)) S HI) as HI'.
  destruct H as [|e S2 _ H|S2 r S3 _ H HM]; [split; [done|exact HV]|..];
    destruct (sent_total bits _ _ _ _ _ _ (iv_wt _ HI') V collector_short H) as [E2 V2].
  - split; [intros d; by rewrite E2, E|exact V2].
  - destruct (msgs_ran_total bits _ _ _ _ _ (sent_inv _ _ _ _ _ _ _ HI' H) V2 HF HM) as [E3 V3].
    split; [intros d; by rewrite E3, E2, E|exact V3].
Qed.
Lemma call_ran_total (bits : N) verify (decode : bytes -> res tx) S (c : abci_call) r S' : inv S -> solvent bits S ->
  (forall raw t, c = CallDeliverTx raw -> decode raw = Ok t -> Forall to_short (tx_msgs t)) ->
  call_ran bits verify decode S c r S' -> (forall d, total bits S' d = total bits S d) /\ solvent bits S'.
Proof.
  intros HI HV HD H. assert ((exists raw, c = CallDeliverTx raw) \/ (forall raw, c <> CallDeliverTx raw)) as [[raw ->]|Hc].
  { destruct c; eauto; right; done. }
  - inversion H as [| |? e He|? t ? ? Ht Hr| |]; subst; [split; [done|exact HV]|].
    eapply tx_ran_total; [done|done| |done]. by eapply HD.
  - apply same_balances; [|exact HV]. intros k. apply (call_other _ _ _ _ _ _ _ _ _ Hc H). apply not_quiet.
Qed.
Lemma history_total (bits : N) verify (decode : bytes -> res tx) (cs : list abci_call) S S' : inv S -> solvent bits S ->
  (forall raw t, CallDeliverTx raw ∈ cs -> decode raw = Ok t -> Forall to_short (tx_msgs t)) ->
  history bits verify decode cs S S' -> (forall d, total bits S' d = total bits S d) /\ solvent bits S'.
Proof.
  intros HI HV HD H. induction H as [|c cs S r S1 S' Hc _ IH]; [split; [done|exact HV]|].
  destruct (call_ran_total bits verify decode S c r S1 HI HV) as [E1 V1]; [|exact Hc|].
  { intros raw t ->. apply HD. left. }
  destruct (IH (call_ran_inv _ _ _ _ _ _ _ HI Hc) V1) as [E2 V2].
  { intros raw t Hr. apply HD. by right. }
  split; [intros d; by rewrite E2, E1|exact V2].
Qed.

(** Genesis. *)
Definition genesis_amount (d : bytes) : N := if decide (d = str "test") then 5000000000%N else 0%N.
Definition genesis_coins : list coin := [{| co_denom := str "test"; co_amount := str "5000000000" |}].
Lemma genesis_coin_set : coin_set genesis_coins genesis_amount.
Proof.
  exists [5000000000%N]. split; [|split].
  - apply List.Forall2_cons; [|apply List.Forall2_nil]. split.
    + exists (Byte.x74), (str "est"). split; [done|]. split; [right; vm_compute; split; discriminate|].
      split; [cbn; lia|]. repeat (apply List.Forall_cons; [left; right; vm_compute; split; discriminate|]). apply List.Forall_nil.
    + exists [5; 0; 0; 0; 0; 0; 0; 0; 0; 0]%N. split; [done|]. split; [|split; vm_compute; reflexivity].
      repeat constructor.
  - apply NoDup_singleton.
  - intros d. unfold genesis_amount, amount_in. cbn [zip zip_with map genesis_coins fold_right fst snd co_denom].
    destruct (decide (d = str "test")) as [->|Hn]; destruct (decide _); try done; congruence.
Qed.
Lemma genesis_within (bits : N) : (93 <= bits)%N -> within bits genesis_amount.
Proof.
  intros Hb d. unfold genesis_amount. assert (2 ^ 93 <= 2 ^ bits)%N as H by (by apply N.pow_le_mono_r).
  destruct (decide _); (split; [|done]); (eapply N.lt_le_trans; [|exact H]); done.
Qed.
Lemma genesis_balances id k o : genesis_store id !! at_balance k = Some o ->
  k = genesis_address /\ o = OBalance genesis_address genesis_coins.
Proof.
  intros Ho. apply elem_of_list_to_map_2 in Ho. apply elem_of_list_fmap in Ho as (o' & E & Ho).
  injection E as E1 -> ->.
  assert (Forall (fun o => match o with OBalance _ _ => o = OBalance genesis_address genesis_coins | _ => True end) (genesis_objects id)) as HF.
  { unfold genesis_objects. cbn [role_table flat_map List.app].
    repeat (apply Forall_cons; split; [first [exact I|vm_compute; reflexivity]|]). by apply Forall_nil. }
  rewrite Forall_forall in HF. specialize (HF _ Ho).
  apply (ty_of_tag (OBalance [] []) o') in E1. destruct o'; try discriminate E1. rewrite HF. done.
Qed.
Lemma genesis_solvent (bits : N) id : (93 <= bits)%N ->
  (forall d, total bits (genesis_store id) d = genesis_amount d) /\ solvent bits (genesis_store id).
Proof.
  intros Hb.
  assert (bals (genesis_store id) = {[genesis_address := OBalance genesis_address genesis_coins]}) as E.
  { apply map_eq. intros k. rewrite bals_lookup. destruct (decide (k = genesis_address)) as [->|Hk].
    - rewrite lookup_singleton. vm_compute. reflexivity.
    - rewrite lookup_singleton_ne by done. destruct (_ !! at_balance k) as [o|] eqn:Eo; [|done].
      by apply genesis_balances in Eo as [-> _]. }
  pose proof (fun d => worth_set bits genesis_coins genesis_amount d genesis_coin_set (genesis_within bits Hb)) as HW.
  assert (forall d, total bits (genesis_store id) d = genesis_amount d) as ET.
  { intros d. unfold total. rewrite E, map_to_list_singleton, sum_cons. cbn [snd in_balance sum fold_right].
    rewrite (proj2 (HW d)). lia. }
  split; [exact ET|]. split.
  - intros k o Ho. apply genesis_balances in Ho as [-> ->]. exists genesis_coins. split; [done|].
    split; [done|apply (HW [])].
  - intros d. rewrite ET. apply (genesis_within bits Hb d).
Qed.
