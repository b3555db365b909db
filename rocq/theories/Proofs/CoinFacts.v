From Coq Require Import NArith ZArith List Bool Lia Sorted Permutation String.
From stdpp Require Import base list.
From Verif.Model Require Import Bytes KindEncoder Strings Universe Coin.
From Verif.Spec Require Import TextSpec CoinSpec StoreSpec.
From Verif.Proofs Require Import BytesFacts KindEncoderFacts.
Local Open Scope Z_scope.

Definition byte_list_eq_dec (a b : bytes) : {a = b} + {a <> b} := decide (a = b).

(** ** Texts *)

Lemma itoa_fuel_map f n acc :
  itoa_fuel f n (map digit_char acc) = map digit_char (digits_fuel f n acc).
Proof.
  revert n acc; induction f as [|f IH]; intros n acc; simpl; [reflexivity|].
  destruct (n <? 10)%N eqn:E.
  - simpl. f_equal. unfold digit_char. rewrite N.mod_small by lia. reflexivity.
  - apply (IH (n / 10)%N (n mod 10 :: acc)%N).
Qed.

Lemma itoa_decimal n : itoa n = decimal n.
Proof. exact (itoa_fuel_map _ n []). Qed.

(** Bytes that are ASCII and not spaces. *)
Definition plain (b : byte) : Prop := (b2N b < 128)%N /\ ascii_space b = false.

Lemma drop_spaces_plain two three c s :
  plain c -> (forall b, two c b = false) -> (forall a b, three c a b = false) ->
  drop_spaces two three (c :: s) = c :: s.
Proof.
  intros [_ Hp] H2 H3. cbn [drop_spaces]. rewrite Hp. destruct s as [|b s]; [reflexivity|].
  rewrite H2. destruct s as [|a s]; [reflexivity|]. rewrite H3. reflexivity.
Qed.

Lemma trim_space_plain s : Forall plain s -> trim_space s = s.
Proof.
  intros H. unfold trim_space.
  assert (E : drop_spaces space2 space3 s = s).
  { destruct s as [|c s]; [reflexivity|]. inversion H as [|? ? Hc ?]; subst.
    destruct Hc as [Hb Hs]. apply drop_spaces_plain; [split; auto| |].
    - intros b. unfold space2. destruct (b2N c =? 194)%N eqn:E; [lia|reflexivity].
    - intros a b. unfold space3.
      destruct (b2N c =? 225)%N eqn:E1; [lia|]. destruct (b2N c =? 226)%N eqn:E2; [lia|].
      destruct (b2N c =? 227)%N eqn:E3; [lia|]. reflexivity. }
  rewrite E.
  assert (Hr : Forall plain (rev s)) by (apply Forall_rev; exact H).
  assert (E' : drop_spaces (fun a b => space2 b a) (fun a b c => space3 c b a) (rev s) = rev s).
  { destruct (rev s) as [|c t]; [reflexivity|]. inversion Hr as [|? ? Hc ?]; subst.
    destruct Hc as [Hb Hs]. apply drop_spaces_plain; [split; auto| |].
    - intros b. unfold space2. rewrite (proj2 (N.eqb_neq (b2N c) 133)) by lia.
      rewrite (proj2 (N.eqb_neq (b2N c) 160)) by lia. apply andb_false_r.
    - intros a b. unfold space3.
      rewrite (proj2 (N.eqb_neq (b2N c) 128)), (proj2 (N.eqb_neq (b2N c) 168)),
        (proj2 (N.eqb_neq (b2N c) 169)), (proj2 (N.eqb_neq (b2N c) 175)),
        (proj2 (N.eqb_neq (b2N c) 159)), (proj2 (N.leb_gt 128 (b2N c))) by lia.
      rewrite !andb_false_r. reflexivity. }
  rewrite E'. apply rev_involutive.
Qed.

Lemma split_join sep l :
  l <> [] -> Forall (fun s => ~ In sep s) l -> split_on sep (join [sep] l) = l.
Proof.
  intros Hne H. induction H as [|s l Hs Hl IH]; [congruence|].
  assert (App : forall t r, ~ In sep t ->
            split_on sep (t ++ r) = match split_on sep r with x :: k => (t ++ x) :: k | [] => [t] end).
  { intros t r Ht. induction t as [|c t IHt].
    - simpl. destruct (split_on sep r) eqn:E; [|reflexivity]. exfalso.
      destruct r as [|y r]; [discriminate|]. simpl in E.
      destruct (decide (y = sep)); [discriminate|]. destruct (split_on sep r); discriminate.
    - simpl. destruct (decide (c = sep)) as [->|Hc]; [exfalso; apply Ht; left; reflexivity|].
      rewrite IHt by (intros Hi; apply Ht; right; exact Hi).
      destruct (split_on sep r); reflexivity. }
  destruct l as [|t l].
  - cbn [join]. rewrite <- (app_nil_r s) at 1. rewrite App by exact Hs. simpl. rewrite app_nil_r. reflexivity.
  - change (join [sep] (s :: t :: l)) with (s ++ [sep] ++ join [sep] (t :: l)).
    rewrite App by exact Hs. cbn [List.app split_on].
    destruct (decide (sep = sep)); [|congruence]. rewrite IH by discriminate.
    rewrite app_nil_r. reflexivity.
Qed.

Lemma take_digits_app ds r :
  Forall (fun c => is_digit c = true) ds ->
  match r with c :: _ => is_digit c = false | [] => True end ->
  take_digits (ds ++ r) = (ds, r).
Proof.
  intros H Hr. induction H as [|c ds Hc _ IH].
  - destruct r as [|c r]; [reflexivity|]. simpl. rewrite Hr. reflexivity.
  - simpl. rewrite Hc, IH. reflexivity.
Qed.

Lemma digits_value_acc ds acc :
  Forall (fun d => d < 10)%N ds ->
  fold_left (fun a c => a * 10 + default 0 (digit c))%N (map digit_char ds) acc
  = (acc * 10 ^ N.of_nat (length ds) + positional ds)%N.
Proof.
  intros H; revert acc; induction H as [|d ds Hd _ IH]; intros acc; cbn [map fold_left length positional].
  - simpl. lia.
  - rewrite IH, digit_digit_char by exact Hd. cbn [default from_option].
    rewrite Nnat.Nat2N.inj_succ, N.pow_succ_r'. unfold default, from_option, id. lia.
Qed.

Lemma digits_value_text s n : decimal_text s n -> digits_value s = n.
Proof.
  intros (ds & _ & Hds & -> & <-). unfold digits_value. rewrite digits_value_acc by exact Hds. lia.
Qed.

Lemma decimal_text_digits s n : decimal_text s n ->
  s <> [] /\ Forall (fun c => is_digit c = true) s /\ Forall (fun c => 48 <= b2N c <= 57)%N s.
Proof.
  intros (ds & Hne & Hds & -> & _). split; [destruct ds; [congruence|discriminate]|].
  split; apply List.Forall_map; eapply Forall_impl; [exact Hds| |exact Hds|]; cbv beta; intros d Hd.
  - unfold is_digit. rewrite digit_digit_char by exact Hd. reflexivity.
  - unfold digit_char. rewrite b2N_N2b_small by lia. lia.
Qed.

Lemma is_letter_iff b : is_letter b = true <-> letter b.
Proof. unfold is_letter, letter. lia. Qed.
Lemma is_digit_iff b : is_digit b = true <-> (48 <= b2N b <= 57)%N.
Proof.
  unfold is_digit, digit. destruct ((48 <=? b2N b)%N && (b2N b <=? 57)%N) eqn:E.
  - split; [lia|reflexivity].
  - split; [discriminate|lia].
Qed.

Lemma denom_ok_iff d : denom_ok d = true <-> denomination d.
Proof.
  unfold denom_ok, denomination, blen. split.
  - destruct d as [|c r]; [discriminate|]. intros H.
    apply andb_prop in H as [H H4]. apply andb_prop in H as [H H3]. apply andb_prop in H as [H1 H2].
    exists c, r. split; [reflexivity|]. split; [apply is_letter_iff; exact H1|]. split; [lia|].
    rewrite forallb_forall in H4. apply List.Forall_forall. intros b Hb. specialize (H4 b Hb).
    apply orb_prop in H4 as [H4|H4]; [apply orb_prop in H4 as [H4|H4]|].
    + left. apply is_letter_iff; exact H4.
    + right; left. apply is_digit_iff; exact H4.
    + right; right. lia.
  - intros (c & r & -> & Hc & Hl & Hr). rewrite (proj2 (is_letter_iff c) Hc).
    assert (E1 : (2 <=? N.of_nat (length r))%N = true) by lia.
    assert (E2 : (N.of_nat (length r) <=? 127)%N = true) by lia.
    rewrite E1, E2. cbn. apply forallb_forall. intros b Hb.
    pose proof (proj1 (List.Forall_forall _ _) Hr b Hb) as [H|[H|H]]; cbv beta in H.
    + rewrite (proj2 (is_letter_iff b) H). reflexivity.
    + rewrite (proj2 (is_digit_iff b) H), orb_true_r. reflexivity.
    + rewrite H, orb_true_r. reflexivity.
Qed.

Lemma denomination_plain d : denomination d ->
  Forall plain d /\ ~ In (N2b 44) d
  /\ match d with c :: _ => is_digit c = false /\ (b2N c =? 46)%N = false | [] => False end.
Proof.
  intros (c & r & -> & Hc & _ & Hr).
  assert (P : forall b, letter b \/ (48 <= b2N b <= 57)%N \/ b2N b = 47%N -> plain b /\ b <> N2b 44).
  { intros b Hb. split; [split|].
    - destruct Hb as [[|]|[|]]; lia.
    - unfold ascii_space. destruct Hb as [[|]|[|]]; lia.
    - intros ->. unfold letter in Hb. rewrite b2N_N2b_small in Hb by lia. destruct Hb as [[|]|[|]]; lia. }
  split; [|split].
  - constructor; [apply P; left; exact Hc|]. eapply Forall_impl; [exact Hr|]. intros b Hb. apply P; exact Hb.
  - intros [->|Hi]; [apply (P (N2b 44)); [left; exact Hc|reflexivity]|].
    pose proof (proj1 (List.Forall_forall _ _) Hr _ Hi) as Hb. apply (P _ Hb). reflexivity.
  - split.
    + destruct (is_digit c) eqn:E; [|reflexivity]. apply is_digit_iff in E. destruct Hc; lia.
    + destruct Hc; lia.
Qed.

Lemma digits_plain s : Forall (fun c => 48 <= b2N c <= 57)%N s ->
  Forall plain s /\ ~ In (N2b 44) s.
Proof.
  intros H. split.
  - eapply Forall_impl; [exact H|]. cbv beta. intros b Hb. split; [lia|]. unfold ascii_space. lia.
  - intros Hi. pose proof (proj1 (List.Forall_forall _ _) H _ Hi) as Hb. cbv beta in Hb.
    rewrite b2N_N2b_small in Hb; lia.
Qed.

Lemma parse_dec_coin_text bits c n :
  coin_reads c n -> (n * 10 ^ 18 < 2 ^ bits)%N ->
  parse_dec_coin bits (co_amount c ++ co_denom c) = Some (co_denom c, (n * 10 ^ 18)%N).
Proof.
  intros [Hd Ht] Hb. destruct (denomination_plain _ Hd) as (Hp & _ & Hh).
  destruct (decimal_text_digits _ _ Ht) as (Hne & Hdig & Hr). unfold parse_dec_coin.
  rewrite trim_space_plain by (apply Forall_app_2; [apply digits_plain; exact Hr|exact Hp]).
  rewrite take_digits_app; [|exact Hdig|destruct (co_denom c); [exact I|apply Hh]].
  destruct (co_amount c) as [|a am] eqn:Ea; [congruence|]. rewrite <- Ea in *. clear Ea a am.
  destruct (co_denom c) as [|x d] eqn:Ed; [destruct Hh|]. destruct Hh as [_ Hx]. rewrite Hx.
  rewrite <- Ed in *.
  assert (Hs : drop_ascii_spaces (co_denom c) = co_denom c).
  { rewrite Ed. apply drop_spaces_plain; auto. rewrite Ed in Hp. inversion Hp; assumption. }
  rewrite Hs, (proj2 (denom_ok_iff _) Hd). unfold new_dec. cbn [blen length N.of_nat].
  change (18 <? 0)%N with false. cbv iota. rewrite app_nil_r, (digits_value_text _ _ Ht).
  change (18 - 0)%N with 18%N.
  destruct (2 ^ bits <=? n * 10 ^ 18)%N eqn:E; [lia|reflexivity].
Qed.

Lemma parse_dec_coin_list_text bits l ns :
  Forall2 coin_reads l ns -> Forall (fun n => n * 10 ^ 18 < 2 ^ bits)%N ns ->
  parse_dec_coin_list bits (map (fun c => co_amount c ++ co_denom c) l)
  = Some (zip (map co_denom l) (map (fun n => n * 10 ^ 18)%N ns)).
Proof.
  intros H Hb. induction H as [|c n l ns Hc H IH]; [reflexivity|].
  inversion Hb as [|? ? Hb1 Hb2]; subst. cbn [map parse_dec_coin_list zip_with].
  rewrite (parse_dec_coin_text bits c n) by auto. rewrite IH by exact Hb2. reflexivity.
Qed.

(** ** Sorting *)

Definition lower {A} (a b : bytes * A) : Prop := strictly_below (fst a) (fst b).

Lemma below_trans a b c : strictly_below a b -> strictly_below b c -> strictly_below a c.
Proof.
  intros [H1 N1] [H2 N2]. split; [eapply bytes_leb_trans; eauto|]. intros ->.
  apply N1, bytes_leb_antisym; assumption.
Qed.
Lemma not_leb_below a b : bytes_leb b a = false -> strictly_below a b.
Proof.
  intros H. destruct (bytes_leb_total a b) as [Hab|Hab]; [|congruence]. split; [exact Hab|].
  intros ->. congruence.
Qed.
Lemma below_not_leb a b : strictly_below a b -> bytes_leb b a = false.
Proof.
  intros [H N1]. destruct (bytes_leb b a) eqn:E; [|reflexivity]. exfalso. apply N1, bytes_leb_antisym; auto.
Qed.

Lemma ascending_sorted l : ascending l = true <-> StronglySorted lower l.
Proof.
  split.
  - induction l as [|x l IH]; intros H; [constructor|].
    destruct l as [|y l]; [repeat constructor|]. cbn [ascending] in H. apply andb_prop in H as [H1 H2].
    specialize (IH H2). constructor; [exact IH|].
    assert (Hxy : lower x y) by (apply not_leb_below; destruct (bytes_leb _ _); [discriminate|reflexivity]).
    inversion IH as [|? ? _ Hy]; subst. constructor; [exact Hxy|].
    eapply Forall_impl; [exact Hy|]. intros z Hz. eapply below_trans; eauto.
  - induction 1 as [|x l Hs IH Hx]; [reflexivity|]. destruct l as [|y l]; [reflexivity|].
    inversion Hx as [|? ? Hxy _]; subst. cbn [ascending]. apply below_not_leb in Hxy. rewrite Hxy.
    exact IH.
Qed.

Lemma insert_coin_perm c l : insert_coin c l ≡ₚ c :: l.
Proof.
  induction l as [|x l IH]; [reflexivity|]. simpl. destruct (bytes_leb _ _); [reflexivity|].
  rewrite IH. constructor.
Qed.

Lemma sort_perm l : fold_right insert_coin [] l ≡ₚ l.
Proof. induction l as [|x l IH]; [reflexivity|]. simpl. rewrite insert_coin_perm, IH. reflexivity. Qed.

Lemma insert_coin_sorted c l :
  ~ In (fst c) (map fst l) -> StronglySorted lower l -> StronglySorted lower (insert_coin c l).
Proof.
  intros Hn H. induction H as [|x l Hs IH Hx]; [repeat constructor|]. simpl.
  destruct (bytes_leb (fst c) (fst x)) eqn:E.
  - assert (Hcx : lower c x) by (split; [exact E|intros Heq; apply Hn; left; symmetry; exact Heq]).
    constructor; [constructor; assumption|]. constructor; [exact Hcx|].
    eapply Forall_impl; [exact Hx|]. intros z Hz. eapply below_trans; eauto.
  - assert (Hxc : lower x c) by (apply not_leb_below; exact E).
    constructor; [apply IH; intros Hi; apply Hn; right; exact Hi|].
    rewrite insert_coin_perm. constructor; assumption.
Qed.

Lemma sort_sorted l : NoDup (map fst l) -> StronglySorted lower (fold_right insert_coin [] l).
Proof.
  induction l as [|x l IH]; intros H; [constructor|]. cbn [map] in H. apply NoDup_cons in H as [H1 H2].
  simpl. apply insert_coin_sorted; [|apply IH; exact H2].
  intros Hi. apply H1. apply elem_of_list_In.
  eapply Permutation_in; [|exact Hi]. apply Permutation_map, sort_perm.
Qed.

Lemma sorted_nodup {A} (l : list (bytes * A)) : StronglySorted lower l -> NoDup (map fst l).
Proof.
  induction 1 as [|x l Hs IH Hx]; [constructor|]. cbn [map]. apply NoDup_cons. split; [|exact IH].
  intros Hi. apply elem_of_list_In, in_map_iff in Hi as (y & Hy & Hi).
  pose proof (proj1 (List.Forall_forall _ _) Hx _ Hi) as [_ Hne]. congruence.
Qed.

(** ** Amounts *)

Definition zamount (l : sdk_coins) (d : bytes) : Z :=
  fold_right (fun x acc => if decide (fst x = d) then snd x + acc else acc) 0 l.

Lemma zamount_cons x l d :
  zamount (x :: l) d = (if decide (fst x = d) then snd x else 0) + zamount l d.
Proof. cbn [zamount fold_right]. fold (zamount l d). destruct (decide _); lia. Qed.
Lemma zamount_app a b d : zamount (a ++ b) d = zamount a d + zamount b d.
Proof.
  induction a as [|x a IH]; [reflexivity|]. cbn [List.app]. rewrite !zamount_cons, IH. lia.
Qed.
Lemma zamount_nonzero l d : zamount (nonzero l) d = zamount l d.
Proof.
  induction l as [|x l IH]; [reflexivity|]. unfold nonzero in *. cbn [List.filter].
  rewrite zamount_cons. destruct (snd x =? 0) eqn:E; cbn [negb].
  - rewrite IH. destruct (decide _); lia.
  - rewrite zamount_cons, IH. reflexivity.
Qed.
Lemma zamount_notin l d : ~ In d (map fst l) -> zamount l d = 0.
Proof.
  induction l as [|x l IH]; intros H; [reflexivity|]. rewrite zamount_cons.
  destruct (decide (fst x = d)) as [E|_]; [exfalso; apply H; left; exact E|].
  rewrite IH; [reflexivity|]. intros Hi; apply H; right; exact Hi.
Qed.
Lemma zamount_in l d z : NoDup (map fst l) -> In (d, z) l -> zamount l d = z.
Proof.
  induction l as [|x l IH]; intros H Hi; [destruct Hi|]. cbn [map] in H. apply NoDup_cons in H as [H1 H2].
  rewrite zamount_cons. destruct Hi as [->|Hi].
  - cbn [fst snd] in *. destruct (decide (d = d)); [|congruence]. rewrite zamount_notin; [lia|].
    intros Hi; apply H1, elem_of_list_In; exact Hi.
  - destruct (decide (fst x = d)) as [E|_]; [|rewrite (IH H2 Hi); reflexivity].
    exfalso. apply H1. apply elem_of_list_In. rewrite E. apply in_map_iff. exists (d, z); auto.
Qed.
Lemma zamount_perm l k d : l ≡ₚ k -> zamount l d = zamount k d.
Proof.
  induction 1 as [|x l k _ IH|x y l|l k m _ IH1 _ IH2]; [reflexivity| | |congruence];
    rewrite !zamount_cons; lia.
Qed.
Lemma zamount_neg l d : zamount (map (fun c => (fst c, - snd c)) l) d = - zamount l d.
Proof.
  induction l as [|x l IH]; [reflexivity|]. cbn [map]. rewrite !zamount_cons, IH. cbn [fst snd].
  destruct (decide _); lia.
Qed.

(** ** SDK arithmetic *)

Lemma sdk_add_nil_l b : sdk_add [] b = Ok (nonzero b).
Proof. destruct b; reflexivity. Qed.
Lemma sdk_add_nil_r a : sdk_add a [] = Ok (nonzero a).
Proof. destruct a as [|[? ?] ?]; reflexivity. Qed.
Lemma sdk_add_cons da x a db y b :
  sdk_add ((da, x) :: a) ((db, y) :: b) =
  if bytes_eqb da db then
    if int_fits (x + y) then res_bind (sdk_add a b) (fun r => Ok (nonzero [(da, x + y)] ++ r)) else Panic
  else if bytes_leb da db then res_bind (sdk_add a ((db, y) :: b)) (fun r => Ok (nonzero [(da, x)] ++ r))
  else res_bind (sdk_add ((da, x) :: a) b) (fun r => Ok (nonzero [(db, y)] ++ r)).
Proof. reflexivity. Qed.

Lemma nonzero_sub l c : In c (nonzero l) -> In c l.
Proof. intros H. apply filter_In in H. apply H. Qed.
Lemma nonzero_sorted l : StronglySorted lower l -> StronglySorted lower (nonzero l).
Proof.
  induction 1 as [|x l Hs IH Hx]; [constructor|]. unfold nonzero in *. cbn [List.filter].
  destruct (negb _); [|exact IH]. constructor; [exact IH|].
  apply List.Forall_forall. intros y Hy. apply filter_In in Hy as [Hy _].
  exact (proj1 (List.Forall_forall _ _) Hx y Hy).
Qed.
Lemma nonzero_all l : Forall (fun c => snd c <> 0) (nonzero l).
Proof.
  apply List.Forall_forall. intros c H. apply filter_In in H as [_ H]. lia.
Qed.
Lemma nonzero_id l : Forall (fun c => snd c <> 0) l -> nonzero l = l.
Proof.
  induction 1 as [|x l Hx _ IH]; [reflexivity|]. unfold nonzero in *. cbn [List.filter].
  destruct (snd x =? 0) eqn:E; [lia|]. cbn [negb]. rewrite IH. reflexivity.
Qed.

Record added (a b r : sdk_coins) : Prop := {
  ad_amount : forall d, zamount r d = zamount a d + zamount b d;
  ad_sorted : StronglySorted lower r;
  ad_nonzero : Forall (fun c => snd c <> 0) r;
  ad_from : forall d, In d (map fst r) -> In d (map fst a) \/ In d (map fst b)
}.

Lemma added_step c r :
  StronglySorted lower r -> Forall (fun c => snd c <> 0) r ->
  Forall (fun y => strictly_below (fst c) y) (map fst r) ->
  StronglySorted lower (nonzero [c] ++ r) /\ Forall (fun c => snd c <> 0) (nonzero [c] ++ r)
  /\ (forall d, In d (map fst (nonzero [c] ++ r)) -> d = fst c \/ In d (map fst r)).
Proof.
  intros Hs Hn H. unfold nonzero. cbn [List.filter]. destruct (snd c =? 0) eqn:E; cbn [negb List.app].
  - split; [exact Hs|]. split; [exact Hn|]. auto.
  - split; [|split].
    + constructor; [exact Hs|]. apply List.Forall_forall. intros y Hy.
      apply (proj1 (List.Forall_forall _ _) H). apply in_map; exact Hy.
    + constructor; [lia|exact Hn].
    + intros d [<-|Hd]; auto.
Qed.

Lemma sorted_tail {A} (x : bytes * A) l : StronglySorted lower (x :: l) ->
  StronglySorted lower l /\ Forall (fun d => strictly_below (fst x) d) (map fst l).
Proof.
  intros H. inversion H as [|? ? Hs Hx]; subst. split; [exact Hs|].
  apply List.Forall_forall. intros d Hd. apply in_map_iff in Hd as (y & <- & Hy).
  exact (proj1 (List.Forall_forall _ _) Hx y Hy).
Qed.

Lemma below_all x y (l : list bytes) : strictly_below x y ->
  Forall (strictly_below y) l -> Forall (strictly_below x) l.
Proof. intros H Hl. eapply Forall_impl; [exact Hl|]. intros z Hz. eapply below_trans; eauto. Qed.

Lemma sdk_add_spec n a b : (length a + length b <= n)%nat ->
  StronglySorted lower a -> StronglySorted lower b ->
  match sdk_add a b with
  | Ok r => added a b r
            /\ (forall d, In d (map fst a) -> In d (map fst b) -> int_fits (zamount a d + zamount b d) = true)
  | Panic => exists d, In d (map fst a) /\ In d (map fst b) /\ int_fits (zamount a d + zamount b d) = false
  | _ => False
  end.
Proof.
  revert a b; induction n as [|n IH]; intros a b Hn Ha Hb.
  - destruct a; [|simpl in Hn; lia]. destruct b; [|simpl in Hn; lia]. simpl.
    split; [|tauto]. split; simpl; auto; constructor.
  - destruct a as [|[da x] a].
    { rewrite sdk_add_nil_l. split; [|simpl; tauto]. split.
      - intros d. rewrite zamount_nonzero. simpl. lia.
      - apply nonzero_sorted; exact Hb.
      - apply nonzero_all.
      - intros d Hd. right. apply in_map_iff in Hd as (c & <- & Hc). apply in_map, nonzero_sub; exact Hc. }
    destruct b as [|[db y] b].
    { rewrite sdk_add_nil_r. split; [|simpl; tauto]. split.
      - intros d. rewrite zamount_nonzero. simpl. lia.
      - apply nonzero_sorted; exact Ha.
      - apply nonzero_all.
      - intros d Hd. left. apply in_map_iff in Hd as (c & <- & Hc). apply in_map, nonzero_sub; exact Hc. }
    rewrite sdk_add_cons. destruct (sorted_tail _ _ Ha) as [Ha' La]. destruct (sorted_tail _ _ Hb) as [Hb' Lb].
    cbn [fst] in La, Lb.
    assert (Ka : forall d, zamount ((da, x) :: a) d = (if decide (da = d) then x else 0) + zamount a d)
      by (intros d; apply zamount_cons).
    assert (Kb : forall d, zamount ((db, y) :: b) d = (if decide (db = d) then y else 0) + zamount b d)
      by (intros d; apply zamount_cons).
    assert (Ne : forall z (l : list bytes), Forall (strictly_below z) l -> ~ In z l).
    { intros z l Hl Hi. pose proof (proj1 (List.Forall_forall _ _) Hl _ Hi) as [_ Hne]. congruence. }
    unfold bytes_eqb. destruct (bool_decide (da = db)) eqn:Eeq.
    + apply bool_decide_eq_true in Eeq. subst db.
      assert (Za : zamount a da = 0) by (apply zamount_notin, Ne; exact La).
      assert (Zb : zamount b da = 0) by (apply zamount_notin, Ne; exact Lb).
      destruct (int_fits (x + y)) eqn:Ef.
      * specialize (IH a b). simpl in Hn. specialize (IH ltac:(lia) Ha' Hb').
        destruct (sdk_add a b) as [r|?| |]; cbn [res_bind]; try contradiction.
        -- destruct IH as [[I1 I2 I3 I4] I5].
           destruct (added_step (da, x + y) r I2 I3) as (S1 & S2 & S3).
           { apply List.Forall_forall. intros d Hd. destruct (I4 d Hd) as [Hd'|Hd'];
               [exact (proj1 (List.Forall_forall _ _) La d Hd')|exact (proj1 (List.Forall_forall _ _) Lb d Hd')]. }
           split; [split|].
           ++ intros d. rewrite zamount_app, zamount_nonzero, Ka, Kb, I1.
              rewrite zamount_cons. cbn [zamount fold_right fst snd]. destruct (decide _); lia.
           ++ exact S1.
           ++ exact S2.
           ++ intros d Hd. destruct (S3 d Hd) as [->|Hd']; [left; left; reflexivity|].
              destruct (I4 d Hd'); [left|right]; right; assumption.
           ++ intros d Hd1 Hd2. rewrite Ka, Kb. destruct (decide (da = d)) as [<-|Hne].
              ** rewrite Za, Zb, !Z.add_0_r. exact Ef.
              ** destruct Hd1 as [E|Hd1]; [exfalso; exact (Hne E)|]. destruct Hd2 as [E|Hd2]; [exfalso; exact (Hne E)|].
                 rewrite !Z.add_0_l. apply I5; assumption.
        -- destruct IH as (d & D1 & D2 & D3). exists d. split; [right; exact D1|]. split; [right; exact D2|].
           rewrite Ka, Kb. destruct (decide (da = d)) as [<-|Hne]; [exfalso; eapply Ne; eauto|].
           rewrite !Z.add_0_l. exact D3.
      * exists da. split; [left; reflexivity|]. split; [left; reflexivity|].
        rewrite Ka, Kb. destruct (decide (da = da)); [|congruence]. rewrite Za, Zb, !Z.add_0_r. exact Ef.
    + apply bool_decide_eq_false in Eeq. destruct (bytes_leb da db) eqn:El.
      * assert (Hlt : strictly_below da db) by (split; assumption).
        assert (Ib : ~ In da (map fst ((db, y) :: b)))
          by (apply Ne; constructor; [exact Hlt|eapply below_all; eauto]).
        assert (Zb : zamount ((db, y) :: b) da = 0) by (apply zamount_notin; exact Ib).
        specialize (IH a ((db, y) :: b)). simpl in Hn. simpl length in IH.
        specialize (IH ltac:(lia) Ha' Hb).
        destruct (sdk_add a ((db, y) :: b)) as [r|?| |]; cbn [res_bind]; try contradiction.
        -- destruct IH as [[I1 I2 I3 I4] I5].
           destruct (added_step (da, x) r I2 I3) as (S1 & S2 & S3).
           { apply List.Forall_forall. intros d Hd. destruct (I4 d Hd) as [Hd'|Hd'].
             - exact (proj1 (List.Forall_forall _ _) La d Hd').
             - destruct Hd' as [<-|Hd']; [exact Hlt|].
               eapply below_trans; [exact Hlt|exact (proj1 (List.Forall_forall _ _) Lb d Hd')]. }
           split; [split|].
           ++ intros d. rewrite zamount_app, zamount_nonzero, Ka, I1.
              rewrite zamount_cons. cbn [zamount fold_right fst snd]. destruct (decide _); lia.
           ++ exact S1.
           ++ exact S2.
           ++ intros d Hd. destruct (S3 d Hd) as [->|Hd']; [left; left; reflexivity|].
              destruct (I4 d Hd') as [Hi|Hi]; [left; right; exact Hi|right; exact Hi].
           ++ intros d Hd1 Hd2. rewrite Ka. destruct (decide (da = d)) as [<-|Hne]; [contradiction|].
              destruct Hd1 as [E|Hd1]; [exfalso; exact (Hne E)|]. rewrite !Z.add_0_l. apply I5; assumption.
        -- destruct IH as (d & D1 & D2 & D3). exists d. split; [right; exact D1|]. split; [exact D2|].
           rewrite Ka. destruct (decide (da = d)) as [<-|Hne]; [contradiction|].
           rewrite !Z.add_0_l. exact D3.
      * assert (Hlt : strictly_below db da) by (apply not_leb_below; exact El).
        assert (Ia : ~ In db (map fst ((da, x) :: a)))
          by (apply Ne; constructor; [exact Hlt|eapply below_all; eauto]).
        specialize (IH ((da, x) :: a) b). simpl in Hn. simpl length in IH.
        specialize (IH ltac:(lia) Ha Hb').
        destruct (sdk_add ((da, x) :: a) b) as [r|?| |]; cbn [res_bind]; try contradiction.
        -- destruct IH as [[I1 I2 I3 I4] I5].
           destruct (added_step (db, y) r I2 I3) as (S1 & S2 & S3).
           { apply List.Forall_forall. intros d Hd. destruct (I4 d Hd) as [Hd'|Hd'].
             - destruct Hd' as [<-|Hd']; [exact Hlt|].
               eapply below_trans; [exact Hlt|exact (proj1 (List.Forall_forall _ _) La d Hd')].
             - exact (proj1 (List.Forall_forall _ _) Lb d Hd'). }
           split; [split|].
           ++ intros d. rewrite zamount_app, zamount_nonzero, Kb, I1.
              rewrite zamount_cons. cbn [zamount fold_right fst snd]. destruct (decide _); lia.
           ++ exact S1.
           ++ exact S2.
           ++ intros d Hd. destruct (S3 d Hd) as [->|Hd']; [right; left; reflexivity|].
              destruct (I4 d Hd') as [Hi|Hi]; [left; exact Hi|right; right; exact Hi].
           ++ intros d Hd1 Hd2. rewrite Kb. destruct (decide (db = d)) as [<-|Hne]; [contradiction|].
              destruct Hd2 as [E|Hd2]; [exfalso; exact (Hne E)|]. rewrite !Z.add_0_l. apply I5; assumption.
        -- destruct IH as (d & D1 & D2 & D3). exists d. split; [exact D1|]. split; [right; exact D2|].
           rewrite Kb. destruct (decide (db = d)) as [<-|Hne]; [contradiction|].
           rewrite !Z.add_0_l. exact D3.
Qed.

(** ** Parsing *)

(** Sets as the parser yields them. *)
Record parsed (bits : N) (c : sdk_coins) : Prop := {
  pa_sorted : StronglySorted lower c;
  pa_each : Forall (fun x => denomination (fst x) /\ 0 <= snd x
                             /\ snd x * 10 ^ 18 < 2 ^ Z.of_N bits /\ int_fits (snd x) = true) c
}.

Lemma sanitize_perm l : sanitize l ≡ₚ List.filter (fun c => negb (snd c =? 0)%N) l.
Proof. apply sort_perm. Qed.

Lemma parse_dec_coin_sound bits s d n :
  parse_dec_coin bits s = Some (d, n) -> denomination d /\ (n < 2 ^ bits)%N.
Proof.
  unfold parse_dec_coin. destruct (take_digits (trim_space s)) as [int r].
  destruct int as [|c int]; [discriminate|]. destruct (match r with [] => _ | _ => _ end) as [[frac r']|]; [|discriminate].
  destruct (denom_ok _) eqn:Ed; [|discriminate]. unfold new_dec. destruct (18 <? blen frac)%N; [discriminate|].
  cbv zeta. destruct (2 ^ bits <=? _)%N eqn:E; [discriminate|]. intros H; injection H as <- <-.
  split; [apply denom_ok_iff; exact Ed|apply N.leb_gt; exact E].
Qed.

Lemma parse_dec_coin_list_sound bits l cs :
  parse_dec_coin_list bits l = Some cs -> Forall (fun c => denomination (fst c) /\ (snd c < 2 ^ bits)%N) cs.
Proof.
  revert cs; induction l as [|s l IH]; intros cs; simpl.
  - intros H; injection H as <-. constructor.
  - destruct (parse_dec_coin bits s) as [[d n]|] eqn:E; [|discriminate].
    destruct (parse_dec_coin_list bits l) as [k|]; [|discriminate]. intros H; injection H as <-.
    constructor; [apply parse_dec_coin_sound in E; exact E|apply IH; reflexivity].
Qed.

Lemma parse_dec_coins_sound bits s l :
  parse_dec_coins bits s = Some l ->
  StronglySorted lower l /\ Forall (fun c => denomination (fst c) /\ (snd c < 2 ^ bits)%N) l.
Proof.
  unfold parse_dec_coins. destruct (trim_space s) as [|c t].
  - intros H; injection H as <-. split; constructor.
  - destruct (parse_dec_coin_list _ _) as [k|] eqn:E; [|discriminate].
    destruct (ascending (sanitize k)) eqn:Ea; [|discriminate]. intros H; injection H as <-.
    split; [apply ascending_sorted; exact Ea|]. rewrite sanitize_perm.
    apply parse_dec_coin_list_sound in E. apply List.Forall_forall. intros x Hx.
    apply filter_In in Hx as [Hx _]. exact (proj1 (List.Forall_forall _ _) E x Hx).
Qed.

Lemma sorted_map_same {A B} (f : bytes * A -> bytes * B) l :
  (forall x, fst (f x) = fst x) -> StronglySorted lower l -> StronglySorted lower (map f l).
Proof.
  intros Hf. induction 1 as [|x l Hs IH Hx]; [constructor|]. cbn [map]. constructor; [exact IH|].
  apply List.Forall_map. eapply Forall_impl; [exact Hx|]. cbv beta. intros y Hy. unfold lower in *.
  rewrite !Hf. exact Hy.
Qed.

Lemma parse_coins_parsed bits s c : parse_coins bits s = Ok c -> parsed bits c.
Proof.
  unfold parse_coins. destruct (parse_dec_coins bits s) as [l|] eqn:E; [|discriminate].
  destruct (forallb _ _) eqn:Ef; [|discriminate]. intros H; injection H as <-.
  apply parse_dec_coins_sound in E as [Hs Hl]. split.
  - apply sorted_map_same; [reflexivity|exact Hs].
  - rewrite forallb_forall in Ef. apply List.Forall_forall. intros x Hx.
    assert (Hfit := Ef x Hx). apply in_map_iff in Hx as (y & <- & Hy). cbn [fst snd] in *.
    destruct (proj1 (List.Forall_forall _ _) Hl y Hy) as [Hd Hn]. split; [exact Hd|]. split; [lia|].
    split; [|exact Hfit].
    assert (snd y / 10 ^ 18 * 10 ^ 18 < 2 ^ bits)%N.
    { pose proof (N.mul_div_le (snd y) (10 ^ 18) ltac:(lia)). lia. }
    change (10 ^ 18) with (Z.of_N (10 ^ 18)). rewrite <- N2Z.inj_mul.
    change 2 with (Z.of_N 2). rewrite <- N2Z.inj_pow. lia.
Qed.

Lemma scaled_lt n bits : (n * 10 ^ 18 < 2 ^ bits)%N <-> Z.of_N n * 10 ^ 18 < 2 ^ Z.of_N bits.
Proof.
  change (10 ^ 18) with (Z.of_N (10 ^ 18)). rewrite <- N2Z.inj_mul.
  change 2 with (Z.of_N 2). rewrite <- N2Z.inj_pow. lia.
Qed.

Lemma join_plain l :
  Forall (fun s => Forall plain s /\ s <> []) l -> Forall plain (join (str ",") l) /\ (l <> [] -> join (str ",") l <> []).
Proof.
  assert (Hc : plain (N2b 44)) by (split; [rewrite b2N_N2b_small; lia|reflexivity]).
  induction 1 as [|s k [Hs Hne] Hk [IH1 IH2]]; [split; [constructor|congruence]|].
  destruct k as [|t k].
  - cbn [join]. split; [exact Hs|intros _; exact Hne].
  - change (join (str ",") (s :: t :: k)) with (s ++ [N2b 44] ++ join (str ",") (t :: k)). split.
    + apply Forall_app_2; [exact Hs|]. constructor; [exact Hc|exact IH1].
    + intros _ E. apply app_eq_nil in E as [E _]. congruence.
Qed.

Lemma nodup_zip_filter {A} (f : bytes * A -> bool) ds (xs : list A) :
  NoDup ds -> NoDup (map fst (List.filter f (zip ds xs))).
Proof.
  intros H. revert xs; induction H as [|d ds Hd _ IH]; intros xs; [constructor|].
  destruct xs as [|x xs]; [constructor|]. cbn [zip_with List.filter].
        destruct (f (d, x)); [|apply IH]. cbn [map]. apply NoDup_cons. split; [|apply IH].
  intros Hi. apply elem_of_list_In, in_map_iff in Hi as ([d' y] & E & Hi). cbn [fst] in E. subst d'.
  apply filter_In in Hi as [Hi _]. apply Hd. apply elem_of_list_In in Hi.
  apply elem_of_zip_l in Hi. exact Hi.
Qed.

Lemma texts_plain l ns : Forall2 coin_reads l ns ->
  Forall (fun s => Forall plain s /\ s <> []) (map (fun c => co_amount c ++ co_denom c) l)
  /\ Forall (fun s => ~ In (N2b 44) s) (map (fun c => co_amount c ++ co_denom c) l).
Proof.
  induction 1 as [|c n l ns [Hd Hn] _ [IH1 IH2]]; [split; constructor|].
  destruct (denomination_plain _ Hd) as (P1 & P2 & _).
  destruct (decimal_text_digits _ _ Hn) as (Q0 & _ & Q). destruct (digits_plain _ Q) as [Q1 Q2].
  cbn [map]. split; constructor; auto.
  - split; [apply Forall_app_2; assumption|]. destruct (co_amount c); [congruence|discriminate].
  - intros Hi. apply in_app_or in Hi as [Hi|Hi]; contradiction.
Qed.

Lemma parse_dec_coins_text bits l ns :
  Forall2 coin_reads l ns -> NoDup (map co_denom l) -> Forall (fun n => n * 10 ^ 18 < 2 ^ bits)%N ns ->
  parse_dec_coins bits (coins_text l)
  = Some (sanitize (zip (map co_denom l) (map (fun n => n * 10 ^ 18)%N ns))).
Proof.
  intros H Hnd Hb. unfold parse_dec_coins, coins_text. destruct l as [|c l].
  - inversion H; subst. reflexivity.
  - destruct (texts_plain _ _ H) as [T1 T2]. destruct (join_plain _ T1) as [J1 J2].
    specialize (J2 ltac:(discriminate)). rewrite trim_space_plain by exact J1.
    destruct (join (str ",") _) as [|x t] eqn:E; [congruence|]. rewrite <- E. clear E.
    change (str ",") with [N2b 44]. rewrite split_join; [|discriminate|exact T2].
    rewrite (parse_dec_coin_list_text bits _ ns) by assumption.
    assert (ascending (sanitize (zip (map co_denom (c :: l)) (map (fun n => n * 10 ^ 18)%N ns))) = true) as ->.
    { apply ascending_sorted, sort_sorted, nodup_zip_filter. exact Hnd. }
    reflexivity.
Qed.

Lemma filter_scaled (ds : list bytes) ns :
  map (fun c : bytes * N => (fst c, Z.of_N (snd c / 10 ^ 18)))
    (List.filter (fun c => negb (snd c =? 0)%N) (zip ds (map (fun n => n * 10 ^ 18)%N ns)))
  = map (fun c : bytes * N => (fst c, Z.of_N (snd c))) (List.filter (fun c => negb (snd c =? 0)%N) (zip ds ns)).
Proof.
  revert ns; induction ds as [|d ds IH]; intros ns; [reflexivity|]. destruct ns as [|n ns]; [reflexivity|].
  cbn [map zip_with List.filter snd].  
  destruct (n =? 0)%N eqn:E.
  - assert ((n * 10 ^ 18 =? 0)%N = true) as -> by lia. cbn [negb]. apply IH.
  - assert ((n * 10 ^ 18 =? 0)%N = false) as -> by lia. cbn [negb map fst snd]. rewrite N.div_mul by lia.
    f_equal. apply IH.
Qed.

Lemma parse_coins_text bits l ns :
  Forall2 coin_reads l ns -> NoDup (map co_denom l) ->
  Forall (fun n => n * 10 ^ 18 < 2 ^ bits /\ n < 2 ^ 255)%N ns ->
  exists c, new_balance bits l = Ok c /\ Forall (fun x => 0 < snd x) c
    /\ c ≡ₚ map (fun x => (fst x, Z.of_N (snd x)))
              (List.filter (fun x => negb (snd x =? 0)%N) (zip (map co_denom l) ns)).
Proof.
  intros H Hnd Hb. unfold new_balance, parse_coins.
  rewrite (parse_dec_coins_text bits l ns); [|exact H|exact Hnd|eapply Forall_impl; [exact Hb|]; cbv beta; tauto].
  set (c := map _ (sanitize _)).
  assert (Hc : c ≡ₚ map (fun x => (fst x, Z.of_N (snd x)))
              (List.filter (fun x => negb (snd x =? 0)%N) (zip (map co_denom l) ns))).
  { unfold c. rewrite sanitize_perm, filter_scaled. reflexivity. }
  assert (Hin : forall x, In x c -> exists n, In n ns /\ snd x = Z.of_N n /\ n <> 0%N).
  { intros x Hx. eapply Permutation_in in Hx; [|exact Hc]. apply in_map_iff in Hx as ([d n] & <- & Hx).
    apply filter_In in Hx as [Hx Hz]. cbn [snd] in *. exists n. split; [|split; [reflexivity|lia]].
    apply elem_of_list_In in Hx. apply elem_of_zip_r in Hx. apply elem_of_list_In; exact Hx. }
  assert (forallb (fun c => int_fits (snd c)) c = true) as ->.
  { apply forallb_forall. intros x Hx. destruct (Hin x Hx) as (n & Hn & -> & _).
    destruct (proj1 (List.Forall_forall _ _) Hb n Hn) as [_ Hf]. unfold int_fits.
    change (2 ^ 255) with (Z.of_N (2 ^ 255)). lia. }
  exists c. split; [reflexivity|]. split; [|exact Hc]. apply List.Forall_forall. intros x Hx.
  destruct (Hin x Hx) as (n & _ & -> & Hz). lia.
Qed.

(** Texts of sets. *)
Lemma to_coins_reads bits c : parsed bits c ->
  Forall2 coin_reads (to_coins c) (map (fun x => Z.to_N (snd x)) c).
Proof.
  intros [_ H]. induction H as [|x c (Hd & Hp & _) _ IH]; [constructor|]. cbn [to_coins map]. constructor; [|exact IH].
  split; [exact Hd|]. cbn [co_amount]. destruct (snd x <? 0) eqn:E; [lia|]. cbn [List.app].
  rewrite itoa_decimal. replace (Z.abs_N (snd x)) with (Z.to_N (snd x)) by lia. apply decimal_is_text.
Qed.

Lemma to_coins_denoms c : map co_denom (to_coins c) = map fst c.
Proof. unfold to_coins. rewrite map_map. reflexivity. Qed.

Lemma sorted_perm_eq (a b : sdk_coins) : StronglySorted lower a -> StronglySorted lower b -> a ≡ₚ b -> a = b.
Proof.
  intros Ha. revert b. induction Ha as [|x a Ha IH Hx]; intros b Hb P.
  - apply Permutation_nil in P. congruence.
  - destruct b as [|y b]; [apply Permutation_sym, Permutation_nil in P; discriminate|].
    inversion Hb as [|? ? Hb' Hy]; subst.
    assert (E : x = y).
    { assert (I1 : In x (y :: b)) by (eapply Permutation_in; [exact P|left; reflexivity]).
      assert (I2 : In y (x :: a)) by (eapply Permutation_in; [apply Permutation_sym; exact P|left; reflexivity]).
      destruct I1 as [E|I1]; [congruence|]. destruct I2 as [E|I2]; [congruence|].
      pose proof (proj1 (List.Forall_forall _ _) Hx y I2) as [L1 N1].
      pose proof (proj1 (List.Forall_forall _ _) Hy x I1) as [L2 _].
      exfalso. apply N1, bytes_leb_antisym; assumption. }
    subst y. f_equal. apply IH; [exact Hb'|]. eapply Permutation_cons_inv; exact P.
Qed.

Lemma new_balance_to_coins bits c : parsed bits c -> Forall (fun x => 0 < snd x) c ->
  new_balance bits (to_coins c) = Ok c.
Proof.
  intros Hp Hpos.
  assert (Hs := pa_sorted _ _ Hp).
  destruct (parse_coins_text bits (to_coins c) (map (fun x => Z.to_N (snd x)) c)) as (k & Hk & _ & Pk).
  - apply (to_coins_reads bits); exact Hp.
  - rewrite to_coins_denoms. apply sorted_nodup; exact Hs.
  - apply List.Forall_map. eapply Forall_impl; [exact (pa_each _ _ Hp)|]. cbv beta.
    intros x (_ & H0 & H1 & H2). unfold int_fits in H2. split.
    + apply scaled_lt. rewrite Z2N.id by lia. exact H1.
    + apply N2Z.inj_lt. rewrite Z2N.id by lia. change (Z.of_N (2 ^ 255)) with (2 ^ 255). lia.
  - rewrite Hk. f_equal. apply sorted_perm_eq; [|exact Hs|].
    + unfold new_balance in Hk. apply parse_coins_parsed in Hk. apply pa_sorted in Hk. exact Hk.
    + rewrite Pk, to_coins_denoms.
      assert (E : map (fun x : bytes * N => (fst x, Z.of_N (snd x)))
                    (List.filter (fun x => negb (snd x =? 0)%N) (zip (map fst c) (map (fun x => Z.to_N (snd x)) c))) = c).
      { clear - Hpos. induction Hpos as [|[d z] c Hz _ IH]; [reflexivity|].
        cbn [map zip_with List.filter fst snd] in *. 
        assert ((Z.to_N z =? 0)%N = false) as -> by lia. cbn [negb map fst snd]. rewrite Z2N.id by lia.
        f_equal. exact IH. }
      rewrite E. reflexivity.
Qed.

(** ** Amounts of coins *)

Lemma amount_in_zip ds ns d :
  Z.of_N (amount_in (zip ds ns) d)
  = zamount (map (fun x => (fst x, Z.of_N (snd x))) (List.filter (fun x => negb (snd x =? 0)%N) (zip ds ns))) d.
Proof.
  revert ns; induction ds as [|e ds IH]; intros ns; [reflexivity|]. destruct ns as [|n ns]; [reflexivity|].
  cbn [zip_with amount_in fold_right fst snd List.filter]. fold (amount_in (zip ds ns) d).
  specialize (IH ns).
  destruct (n =? 0)%N eqn:E; cbn [negb map].
  - destruct (decide (e = d)); rewrite <- IH; lia.
  - rewrite zamount_cons. cbn [fst snd]. rewrite <- IH. destruct (decide (e = d)); lia.
Qed.

Lemma coin_set_balance bits l A : coin_set l A -> within bits A ->
  exists c, new_balance bits l = Ok c /\ parsed bits c /\ Forall (fun x => 0 < snd x) c
            /\ forall d, zamount c d = Z.of_N (A d).
Proof.
  intros (ns & H & Hnd & HA) Hw.
  destruct (parse_coins_text bits l ns H Hnd) as (c & Hc & Hpos & Pc).
  - apply List.Forall_forall. intros n Hn.
    assert (exists d, A d = n) as [d <-]; [|apply Hw].
    apply elem_of_list_In, elem_of_list_lookup in Hn as [i Hi].
    assert (Hl : length l = length ns) by (eapply Forall2_length; exact H).
    assert (exists c0, l !! i = Some c0) as [c0 Hc0].
    { apply lookup_lt_is_Some. rewrite Hl. apply lookup_lt_is_Some. eauto. }
    exists (co_denom c0). rewrite HA. apply N2Z.inj. rewrite amount_in_zip.
    destruct (decide (n = 0%N)) as [->|Hz].
    + apply zamount_notin. intros Hi'. apply in_map_iff in Hi' as (x & Ex & Hx).
      apply in_map_iff in Hx as ([e m] & <- & Hx). cbn [fst] in Ex. subst e.
      apply filter_In in Hx as [Hx Hm]. cbn [snd] in Hm.
      apply elem_of_list_In, elem_of_list_lookup in Hx as [j Hj].
      apply lookup_zip_with_Some in Hj as (e & m' & Ej & J1 & J2). injection Ej as <- <-.
      assert (j = i).
      { eapply NoDup_lookup; [exact Hnd|exact J1|]. rewrite list_lookup_fmap, Hc0. reflexivity. }
      subst j. rewrite Hi in J2. injection J2 as <-. discriminate Hm.
    + apply zamount_in.
      * rewrite map_map. cbn [fst]. apply (nodup_zip_filter _ (map co_denom l) ns); exact Hnd.
      * apply in_map_iff. exists (co_denom c0, n). split; [reflexivity|]. apply filter_In.
        split; [|cbn [snd]; lia]. apply elem_of_list_In, elem_of_list_lookup. exists i.
        apply lookup_zip_with_Some. exists (co_denom c0), n. split; [reflexivity|]. split; [|exact Hi].
        rewrite list_lookup_fmap, Hc0. reflexivity.
  - exists c. split; [exact Hc|]. split; [exact (parse_coins_parsed _ _ _ Hc)|]. split; [exact Hpos|].
    intros d. rewrite (zamount_perm _ _ _ Pc), HA, amount_in_zip. reflexivity.
Qed.

(** Any set of positive amounts prints to its normal form. *)
Lemma normal_to_coins c :
  StronglySorted lower c -> Forall (fun x => denomination (fst x) /\ 0 < snd x) c ->
  normal_set (to_coins c) (fun d => Z.to_N (zamount c d)).
Proof.
  intros Hs Hc. split; [|split].
  - exists (map (fun x => Z.to_N (snd x)) c). split; [|split].
    + clear Hs. induction Hc as [|x c [Hd Hp] _ IH]; [constructor|]. cbn [to_coins map]. constructor; [|exact IH].
      split; [exact Hd|]. cbn [co_amount]. destruct (snd x <? 0) eqn:E; [lia|]. cbn [List.app].
      rewrite itoa_decimal. replace (Z.abs_N (snd x)) with (Z.to_N (snd x)) by lia. apply decimal_is_text.
    + rewrite to_coins_denoms. apply sorted_nodup; exact Hs.
    + intros d. rewrite to_coins_denoms. clear Hs. apply N2Z.inj. rewrite Z2N.id.
      * induction Hc as [|[e z] c [Hd Hp] _ IH]; [reflexivity|]. rewrite zamount_cons. cbn [fst snd] in *.
        cbn [map zip_with amount_in fold_right fst snd].
        
        fold (amount_in (zip (map fst c) (map (fun x : bytes * Z => Z.to_N (snd x)) c)) d).
        destruct (decide (e = d)); lia.
      * induction Hc as [|[e z] c [Hd Hp] _ IH]; [reflexivity|]. rewrite zamount_cons. cbn [fst snd] in *.
        destruct (decide (e = d)); lia.
  - induction Hs as [|x c Hs IH Hx]; [constructor|]. inversion Hc; subst. cbn [to_coins map].
    constructor; [apply IH; assumption|]. apply List.Forall_map. eapply Forall_impl; [exact Hx|].
    cbv beta. intros y Hy. exact Hy.
  - clear Hs. induction Hc as [|x c [Hd Hp] _ IH]; [constructor|]. cbn [to_coins map]. constructor; [|exact IH].
    exists (Z.to_N (snd x)). split; [lia|]. cbn [co_amount]. destruct (snd x <? 0) eqn:E; [lia|].
    cbn [List.app]. rewrite itoa_decimal. f_equal. lia.
Qed.

Lemma parsed_nonneg bits c : parsed bits c -> any_negative c = false.
Proof.
  intros [_ H]. unfold any_negative. apply not_true_iff_false. intros E. apply existsb_exists in E as (x & Hx & E).
  destruct (proj1 (List.Forall_forall _ _) H x Hx) as (_ & H0 & _). lia.
Qed.
Lemma parsed_amount_nonneg bits c d : parsed bits c -> 0 <= zamount c d.
Proof.
  intros [_ H]. induction H as [|x c (_ & H0 & _) _ IH]; [reflexivity|]. rewrite zamount_cons.
  destruct (decide _); lia.
Qed.
Lemma parsed_denom bits c d : parsed bits c -> In d (map fst c) -> denomination d.
Proof.
  intros [_ H] Hd. apply in_map_iff in Hd as (x & <- & Hx).
  exact (proj1 (proj1 (List.Forall_forall _ _) H x Hx)).
Qed.
Lemma zamount_in_domain c d : zamount c d <> 0 -> In d (map fst c).
Proof.
  intros H. destruct (in_dec byte_list_eq_dec d (map fst c)) as [Hi|Hn]; [exact Hi|].
  exfalso. apply H, zamount_notin; exact Hn.
Qed.

(** ** SafeAdd and SafeSub on texts that parse *)

Lemma safe_add_parsed bits a b i s : new_balance bits a = Ok i -> new_balance bits b = Ok s ->
  match safe_add bits a b with
  | Ok r => exists k, r = to_coins k /\ StronglySorted lower k /\ Forall (fun x => denomination (fst x) /\ 0 < snd x) k
                      /\ (forall d, zamount k d = zamount i d + zamount s d)
  | Panic => exists d, 2 ^ 255 <= zamount i d + zamount s d
  | _ => False
  end.
Proof.
  intros Hi Hs. unfold safe_add. rewrite Hi, Hs. cbn [res_bind].
  apply parse_coins_parsed in Hi. apply parse_coins_parsed in Hs.
  rewrite (parsed_nonneg _ _ Hi), (parsed_nonneg _ _ Hs). cbn [orb].
  pose proof (sdk_add_spec _ i s (le_n _) (pa_sorted _ _ Hi) (pa_sorted _ _ Hs)) as H.
  destruct (sdk_add i s) as [r|?| |]; cbn [res_bind]; try contradiction.
  - destruct H as [[A1 A2 A3 A4] _]. exists r. split; [reflexivity|]. split; [exact A2|]. split; [|exact A1].
    apply List.Forall_forall. intros [d z] Hx. cbn [fst snd]. split.
    + destruct (A4 d (in_map fst _ _ Hx)) as [Hd|Hd]; [apply (parsed_denom bits i)|apply (parsed_denom bits s)]; assumption.
    + pose proof (proj1 (List.Forall_forall _ _) A3 _ Hx) as Hz. cbn [snd] in Hz.
      specialize (A1 d). rewrite (zamount_in r d z (sorted_nodup _ A2) Hx) in A1.
      pose proof (parsed_amount_nonneg bits i d Hi). pose proof (parsed_amount_nonneg bits s d Hs). lia.
  - destruct H as (d & _ & _ & Hf). exists d. unfold int_fits in Hf.
    pose proof (parsed_amount_nonneg bits i d Hi). pose proof (parsed_amount_nonneg bits s d Hs). lia.
Qed.

Lemma sorted_neg l : StronglySorted lower l -> StronglySorted lower (map (fun c => (fst c, - snd c)) l).
Proof. apply sorted_map_same. reflexivity. Qed.

Lemma parsed_amount_bound bits c d : parsed bits c ->
  zamount c d * 10 ^ 18 < 2 ^ Z.of_N bits /\ zamount c d < 2 ^ 255.
Proof.
  intros H. destruct (in_dec byte_list_eq_dec d (map fst c)) as [Hi|Hn].
  - apply in_map_iff in Hi as ([e z] & Ee & Hi). cbn [fst] in Ee. subst e.
    rewrite (zamount_in c d z (sorted_nodup _ (pa_sorted _ _ H)) Hi).
    destruct (proj1 (List.Forall_forall _ _) (pa_each _ _ H) _ Hi) as (_ & H0 & H1 & H2).
    cbn [snd] in *. split; [exact H1|]. unfold int_fits in H2. lia.
  - rewrite zamount_notin by exact Hn. split; [|lia]. rewrite Z.mul_0_l. apply Z.pow_pos_nonneg; lia.
Qed.

Lemma safe_sub_parsed bits a b i s : new_balance bits a = Ok i -> new_balance bits b = Ok s ->
  match safe_sub bits a b with
  | Ok r => (forall d, zamount s d <= zamount i d)
            /\ exists k, r = to_coins k /\ new_balance bits r = Ok k
                         /\ Forall (fun x => 0 < snd x) k
                         /\ (forall d, zamount k d = zamount i d - zamount s d)
  | Fail e => e = EAnon /\ exists d, zamount i d < zamount s d
  | _ => False
  end.
Proof.
  intros Hi Hs. unfold safe_sub. rewrite Hi, Hs. cbn [res_bind].
  apply parse_coins_parsed in Hi. apply parse_coins_parsed in Hs.
  rewrite (parsed_nonneg _ _ Hi), (parsed_nonneg _ _ Hs). cbn [orb]. unfold sdk_sub.
  set (m := map (fun c => (fst c, - snd c)) s).
  pose proof (sdk_add_spec _ i m (le_n _) (pa_sorted _ _ Hi) (sorted_neg _ (pa_sorted _ _ Hs))) as H.
  assert (Hm : forall d, zamount m d = - zamount s d) by (intros d; apply zamount_neg).
  destruct (sdk_add i m) as [r|?| |]; cbn [res_bind]; try contradiction.
  - destruct H as [[A1 A2 A3 A4] _].
    destruct (any_negative r) eqn:En.
    + split; [reflexivity|]. apply existsb_exists in En as ([d z] & Hx & Hz). cbn [snd] in Hz. exists d.
      specialize (A1 d). rewrite Hm, (zamount_in r d z (sorted_nodup _ A2) Hx) in A1. lia.
    + assert (Hpos : Forall (fun x => 0 < snd x) r).
      { apply List.Forall_forall. intros x Hx. pose proof (proj1 (List.Forall_forall _ _) A3 x Hx) as Hz. cbv beta in Hz.
        unfold any_negative in En. apply not_true_iff_false in En.
        destruct (snd x <? 0) eqn:E; [|lia]. exfalso. apply En, existsb_exists. exists x. auto. }
      assert (Hle : forall d, zamount s d <= zamount i d).
      { intros d. specialize (A1 d). rewrite Hm in A1.
        assert (0 <= zamount r d); [|lia]. clear - Hpos.
        induction Hpos as [|x r Hx _ IH]; [reflexivity|]. rewrite zamount_cons. destruct (decide _); lia. }
      split; [exact Hle|]. exists r. split; [reflexivity|]. split; [|split; [exact Hpos|intros d; rewrite A1, Hm; lia]].
      apply new_balance_to_coins; [|exact Hpos]. split; [exact A2|].
      apply List.Forall_forall. intros [d z] Hx. cbn [fst snd]. split; [|split; [|split]].
      * destruct (A4 d (in_map fst _ _ Hx)) as [Hd|Hd]; [apply (parsed_denom bits i); assumption|].
        unfold m in Hd. rewrite map_map in Hd. cbn [fst] in Hd. apply (parsed_denom bits s); assumption.
      * pose proof (proj1 (List.Forall_forall _ _) Hpos _ Hx) as Hz. cbn [snd] in Hz. lia.
      * specialize (A1 d). rewrite Hm, (zamount_in r d z (sorted_nodup _ A2) Hx) in A1.
        destruct (parsed_amount_bound bits i d Hi) as [B1 _].
        pose proof (parsed_amount_nonneg bits s d Hs). nia.
      * specialize (A1 d). rewrite Hm, (zamount_in r d z (sorted_nodup _ A2) Hx) in A1.
        destruct (parsed_amount_bound bits i d Hi) as [_ B2].
        pose proof (parsed_amount_nonneg bits s d Hs).
        pose proof (proj1 (List.Forall_forall _ _) Hpos _ Hx) as Hz. cbn [snd] in Hz. unfold int_fits. lia.
  - destruct H as (d & _ & _ & Hf). exfalso. unfold int_fits in Hf. rewrite Hm in Hf.
    pose proof (parsed_amount_nonneg bits i d Hi). pose proof (parsed_amount_nonneg bits s d Hs).
    destruct (parsed_amount_bound bits i d Hi) as [_ B1]. destruct (parsed_amount_bound bits s d Hs) as [_ B2]. lia.
Qed.

(** The result of an addition parses if its amounts are small enough. *)
Lemma added_parsed bits k :
  StronglySorted lower k -> Forall (fun x => denomination (fst x) /\ 0 < snd x) k ->
  (forall d, zamount k d * 10 ^ 18 < 2 ^ Z.of_N bits /\ zamount k d < 2 ^ 255) ->
  new_balance bits (to_coins k) = Ok k.
Proof.
  intros Hs Hk Hb. apply new_balance_to_coins.
  - split; [exact Hs|]. apply List.Forall_forall. intros [d z] Hx.
    destruct (proj1 (List.Forall_forall _ _) Hk _ Hx) as [Hd Hp]. cbn [fst snd] in *.
    specialize (Hb d). rewrite (zamount_in k d z (sorted_nodup _ Hs) Hx) in Hb.
    split; [exact Hd|]. split; [lia|]. split; [apply Hb|]. unfold int_fits. lia.
  - eapply Forall_impl; [exact Hk|]. cbv beta. tauto.
Qed.

(** ** The statements about sets of coins *)

Lemma normal_set_ext r A B : (forall d, A d = B d) -> normal_set r A -> normal_set r B.
Proof.
  intros E [(ns & H1 & H2 & H3) [H4 H5]]. split; [|split; assumption].
  exists ns. split; [exact H1|]. split; [exact H2|]. intros d. rewrite <- E. apply H3.
Qed.

Lemma safe_add_sets bits a b A B :
  coin_set a A -> coin_set b B -> within bits A -> within bits B ->
  (forall d, A d + B d < 2 ^ 255)%N ->
  exists r, safe_add bits a b = Ok r /\ normal_set r (fun d => A d + B d)%N.
Proof.
  intros Ha Hb Wa Wb Hf.
  destruct (coin_set_balance bits a A Ha Wa) as (i & Hi & _ & _ & Ai).
  destruct (coin_set_balance bits b B Hb Wb) as (s & Hs & _ & _ & As).
  pose proof (safe_add_parsed bits a b i s Hi Hs) as H.
  destruct (safe_add bits a b) as [r|?| |]; try contradiction.
  - destruct H as (k & -> & K1 & K2 & K3). exists (to_coins k). split; [reflexivity|].
    eapply normal_set_ext; [|apply normal_to_coins; assumption]. intros d. cbv beta. rewrite K3, Ai, As. lia.
  - destruct H as (d & Hd). specialize (Hf d). rewrite Ai, As in Hd. exfalso.
    change (2 ^ 255) with (Z.of_N (2 ^ 255)) in Hd. lia.
Qed.

Lemma safe_add_overflow bits a b A B d :
  coin_set a A -> coin_set b B -> within bits A -> within bits B ->
  (2 ^ 255 <= A d + B d)%N -> safe_add bits a b = Panic.
Proof.
  intros Ha Hb Wa Wb Hf.
  destruct (coin_set_balance bits a A Ha Wa) as (i & Hi & _ & _ & Ai).
  destruct (coin_set_balance bits b B Hb Wb) as (s & Hs & _ & _ & As).
  unfold safe_add. rewrite Hi, Hs. cbn [res_bind].
  apply parse_coins_parsed in Hi. apply parse_coins_parsed in Hs.
  rewrite (parsed_nonneg _ _ Hi), (parsed_nonneg _ _ Hs). cbn [orb].
  pose proof (sdk_add_spec _ i s (le_n _) (pa_sorted _ _ Hi) (pa_sorted _ _ Hs)) as H.
  destruct (sdk_add i s) as [r|?| |]; cbn [res_bind]; try contradiction; [|reflexivity].
  exfalso. destruct H as [_ H]. destruct (Wa d) as [_ W1]. destruct (Wb d) as [_ W2].
  assert (Di : In d (map fst i)) by (apply zamount_in_domain; rewrite Ai; lia).
  assert (Ds : In d (map fst s)) by (apply zamount_in_domain; rewrite As; lia).
  specialize (H d Di Ds). unfold int_fits in H. rewrite Ai, As in H.
  change (2 ^ 255) with (Z.of_N (2 ^ 255)) in H. lia.
Qed.

Lemma safe_sub_sets bits a b A B :
  coin_set a A -> coin_set b B -> within bits A -> within bits B ->
  (forall d, B d <= A d)%N ->
  exists r, safe_sub bits a b = Ok r /\ normal_set r (fun d => A d - B d)%N.
Proof.
  intros Ha Hb Wa Wb Hf.
  destruct (coin_set_balance bits a A Ha Wa) as (i & Hi & _ & _ & Ai).
  destruct (coin_set_balance bits b B Hb Wb) as (s & Hs & _ & _ & As).
  pose proof (safe_sub_parsed bits a b i s Hi Hs) as H.
  destruct (safe_sub bits a b) as [r|?| |]; try contradiction.
  - destruct H as (_ & k & -> & K1 & K2 & K3). exists (to_coins k). split; [reflexivity|].
    apply parse_coins_parsed in K1.
    eapply normal_set_ext; [|apply normal_to_coins].
    + intros d. cbv beta. rewrite K3, Ai, As. lia.
    + apply (pa_sorted _ _ K1).
    + apply List.Forall_forall. intros x Hx. split.
      * exact (proj1 (proj1 (List.Forall_forall _ _) (pa_each _ _ K1) x Hx)).
      * exact (proj1 (List.Forall_forall _ _) K2 x Hx).
  - destruct H as (_ & d & Hd). specialize (Hf d). rewrite Ai, As in Hd. lia.
Qed.

Lemma safe_sub_refused bits a b A B d :
  coin_set a A -> coin_set b B -> within bits A -> within bits B ->
  (A d < B d)%N -> exists e, safe_sub bits a b = Fail e.
Proof.
  intros Ha Hb Wa Wb Hf.
  destruct (coin_set_balance bits a A Ha Wa) as (i & Hi & _ & _ & Ai).
  destruct (coin_set_balance bits b B Hb Wb) as (s & Hs & _ & _ & As).
  pose proof (safe_sub_parsed bits a b i s Hi Hs) as H.
  destruct (safe_sub bits a b) as [r|e| |]; try contradiction; [|eauto].
  destruct H as (H & _). specialize (H d). rewrite Ai, As in H. lia.
Qed.

(** Whatever the texts, a result is a set in normal form. *)
Lemma safe_result_normal bits a b r :
  safe_add bits a b = Ok r \/ safe_sub bits a b = Ok r -> exists R, normal_set r R.
Proof.
  intros H.
  assert (exists i s, new_balance bits a = Ok i /\ new_balance bits b = Ok s) as (i & s & Hi & Hs).
  { destruct H as [H|H]; unfold safe_add, safe_sub in H;
      destruct (new_balance bits a); try discriminate; destruct (new_balance bits b); try discriminate; eauto. }
  destruct H as [H|H].
  - pose proof (safe_add_parsed bits a b i s Hi Hs) as K. rewrite H in K.
    destruct K as (k & -> & K1 & K2 & _). eexists. apply normal_to_coins; assumption.
  - pose proof (safe_sub_parsed bits a b i s Hi Hs) as K. rewrite H in K.
    destruct K as (_ & k & -> & K1 & K2 & _). apply parse_coins_parsed in K1. eexists.
    apply normal_to_coins; [apply (pa_sorted _ _ K1)|].
    apply List.Forall_forall. intros x Hx. split.
    + exact (proj1 (proj1 (List.Forall_forall _ _) (pa_each _ _ K1) x Hx)).
    + exact (proj1 (List.Forall_forall _ _) K2 x Hx).
Qed.

(** Reading what was printed. *)
Lemma normal_set_roundtrip bits r R : normal_set r R -> within bits R ->
  exists c, new_balance bits r = Ok c /\ to_coins c = r /\ forall d, zamount c d = Z.of_N (R d).
Proof.
  intros [Hset [Hs Hd]] Hw. destruct (coin_set_balance bits r R Hset Hw) as (c & Hc & Pc & Pos & Ac).
  exists c. split; [exact Hc|]. split; [|exact Ac].
  destruct Hset as (ns & Hns & Hnd & HR).
  (* the sdk list of [r] itself *)
  set (c' := zip (map co_denom r) (map Z.of_N ns)).
  assert (Hlen : length r = length ns) by (eapply Forall2_length; exact Hns).
  assert (Hr : to_coins c' = r /\ map fst c' = map co_denom r /\ Forall (fun x => 0 < snd x) c'
               /\ forall d, zamount c' d = Z.of_N (amount_in (zip (map co_denom r) ns) d)).
  { clear - Hns Hd. unfold c'. induction Hns as [|x n r ns [Hx Hn] Hns IH].
    - repeat split; constructor.
    - inversion Hd as [|? ? (m & Hm & Em) Hd']; subst. destruct (IH Hd') as (I1 & I2 & I3 & I4).
      assert (m = n).
      { rewrite Em in Hn. pose proof (digits_value_text _ _ Hn) as E1.
        pose proof (digits_value_text _ _ (decimal_is_text m)) as E2. congruence. }
      subst m. cbn [map zip_with].  
      repeat split.
      + cbn [to_coins map fst snd]. f_equal; [|exact I1].
        destruct (Z.of_N n <? 0) eqn:E; [lia|]. cbn [List.app]. rewrite itoa_decimal.
        replace (Z.abs_N (Z.of_N n)) with n by lia. destruct x; cbn in *; congruence.
      + cbn [map fst]. f_equal. exact I2.
      + constructor; [cbn [snd]; lia|exact I3].
      + intros d. rewrite zamount_cons, I4. cbn [amount_in fold_right fst snd].
        fold (amount_in (zip (map co_denom r) ns) d). destruct (decide _); lia. }
  destruct Hr as (R1 & R2 & R3 & R4).
  assert (Hs' : StronglySorted lower c').
  { clear - Hs R2. clearbody c'. revert c' R2. induction Hs as [|x r Hs IH Hx]; intros c' R2.
    - destruct c'; [constructor|discriminate].
    - destruct c' as [|y c']; [discriminate|]. cbn [map] in R2. injection R2 as E R2.
      constructor; [apply IH; exact R2|]. apply List.Forall_forall. intros z Hz.
      assert (Hz' : In (fst z) (map co_denom r)) by (rewrite <- R2; apply in_map; exact Hz).
      apply in_map_iff in Hz' as (w & Ew & Hw). pose proof (proj1 (List.Forall_forall _ _) Hx w Hw) as [L1 L2].
      unfold lower, strictly_below. rewrite <- Ew, E. split; [exact L1|exact L2]. }
  assert (E : new_balance bits r = Ok c').
  { rewrite <- R1. apply added_parsed; [exact Hs'| |].
    - apply List.Forall_forall. intros x Hx. split; [|exact (proj1 (List.Forall_forall _ _) R3 x Hx)].
      assert (Hx' : In (fst x) (map co_denom r)) by (rewrite <- R2; apply in_map; exact Hx).
      apply in_map_iff in Hx' as (w & Ew & Hi). rewrite <- Ew. clear - Hns Hi.
      induction Hns as [|y n r ns [Hy _] _ IH]; [destruct Hi|]. destruct Hi as [->|Hi]; auto.
    - intros d. rewrite R4, <- HR. destruct (Hw d) as [W1 W2]. split.
      + apply scaled_lt; exact W1.
      + change (2 ^ 255) with (Z.of_N (2 ^ 255)). lia. }
  rewrite E in Hc. injection Hc as <-. exact R1.
Qed.
