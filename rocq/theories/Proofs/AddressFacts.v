(** Addresses: the text of a hash determines the hash and has a fixed length;
    the checksum of a text is right. *)
From Coq Require Import NArith List Bool String Lia.
From stdpp Require Import base list tactics.
From Verif.Model Require Import Bytes Bech32.
From Verif.Spec Require Import AddressSpec.
From Verif.Proofs Require Import BytesFacts.
Local Open Scope N_scope.

(** ** Groups of five bits *)
Lemma groups_length l : Forall (fun g => length g = 5%nat) (groups l).
Proof.
  enough (forall n l, (length l <= n)%nat -> Forall (fun g => length g = 5%nat) (groups l)) as H by (eapply H; reflexivity).
  clear l. induction n as [|n IH]; intros l Hl.
  - destruct l; [apply List.Forall_nil|cbn in Hl; lia].
  - destruct l as [|a [|b [|c [|d [|e l]]]]]; cbn [groups]; repeat (apply List.Forall_cons; [reflexivity|]); try apply List.Forall_nil.
    apply IH. cbn in Hl. lia.
Qed.
Lemma groups_prefix l : exists pad, concat (groups l) = l ++ pad.
Proof.
  enough (forall n l, (length l <= n)%nat -> exists pad, concat (groups l) = l ++ pad) as H by (eapply H; reflexivity).
  clear l. induction n as [|n IH]; intros l Hl.
  - destruct l; [exists []; reflexivity|cbn in Hl; lia].
  - destruct l as [|a [|b [|c [|d [|e l]]]]]; cbn [groups concat app]; [exists []; reflexivity|eexists; reflexivity..|].
    destruct (IH l) as [pad Hp]; [cbn in Hl; lia|]. exists pad. by rewrite Hp.
Qed.
Lemma bits_five a b c d e a' b' c' d' e' :
  bits_number [a; b; c; d; e] = bits_number [a'; b'; c'; d'; e'] -> [a; b; c; d; e] = [a'; b'; c'; d'; e'].
Proof. destruct a, b, c, d, e, a', b', c', d', e'; vm_compute; intros H; first [reflexivity|discriminate H]. Qed.
Lemma bits_number_inj g g' : length g = 5%nat -> length g' = 5%nat -> bits_number g = bits_number g' -> g = g'.
Proof.
  destruct g as [|a [|b [|c [|d [|e [|]]]]]]; try discriminate. destruct g' as [|a' [|b' [|c' [|d' [|e' [|]]]]]]; try discriminate.
  intros _ _. apply bits_five.
Qed.
Lemma bits_number_bound g : length g = 5%nat -> bits_number g < 32.
Proof.
  destruct g as [|a [|b [|c [|d [|e [|]]]]]]; try discriminate. intros _. destruct a, b, c, d, e; reflexivity.
Qed.
Lemma byte_bits_inj x y : byte_bits x = byte_bits y -> x = y.
Proof.
  intros H. unfold byte_bits in H. cbn [map] in H. injection H as H7 H6 H5 H4 H3 H2 H1 H0.
  apply b2N_inj. apply N.bits_inj. intros k. pose proof (b2N_bound x) as Bx. pose proof (b2N_bound y) as By.
  destruct (N.ltb_spec k 8) as [Hk|Hk].
  - assert (k = 0 \/ k = 1 \/ k = 2 \/ k = 3 \/ k = 4 \/ k = 5 \/ k = 6 \/ k = 7) as E by (clear -Hk; lia).
    destruct E as [->|[->|[->|[->|[->|[->|[->| ->]]]]]]]; [exact H0|exact H1|exact H2|exact H3|exact H4|exact H5|exact H6|exact H7].
  - assert (forall z, z < 256 -> N.testbit z k = false) as Hz.
    { intros z Hz. destruct (N.eq_dec z 0) as [->|Hn]; [apply N.bits_0|]. apply N.bits_above_log2.
      apply N.lt_le_trans with 8; [|exact Hk]. apply N.log2_lt_pow2; [clear -Hn; lia|]. exact Hz. }
    by rewrite !Hz.
Qed.
Lemma byte_bits_length x : length (byte_bits x) = 8%nat.
Proof. reflexivity. Qed.
Lemma all_bits_length b : length (concat (map byte_bits b)) = (8 * length b)%nat.
Proof. induction b as [|x b IH]; [reflexivity|]. cbn [map concat]. rewrite app_length, IH, byte_bits_length. cbn [length]. lia. Qed.
Lemma all_bits_inj b : forall c, length b = length c -> concat (map byte_bits b) = concat (map byte_bits c) -> b = c.
Proof.
  induction b as [|x b IH]; intros [|y c] Hl H; try discriminate Hl; [reflexivity|]. cbn [map concat] in H.
  apply app_inj_1 in H as [H1 H2]; [|reflexivity]. apply byte_bits_inj in H1 as ->. f_equal. apply IH; [by injection Hl|exact H2].
Qed.
Lemma map_inj_on {A B} (P : A -> Prop) (f : A -> B) l : forall l', (forall x y, P x -> P y -> f x = f y -> x = y) ->
  Forall P l -> Forall P l' -> map f l = map f l' -> l = l'.
Proof.
  induction l as [|x l IH]; intros [|y l'] Hf HP HP' H; try discriminate H; [reflexivity|]. cbn [map] in H. injection H as H1 H2.
  inversion HP; inversion HP'; subst. f_equal; [by apply Hf|by apply IH].
Qed.
Lemma convert_bits_bound d : Forall (fun v => v < 32) (convert_bits d).
Proof.
  unfold convert_bits. pose proof (groups_length (concat (map byte_bits d))) as H. induction H as [|g l Hg _ IH]; [apply List.Forall_nil|].
  cbn [map]. apply List.Forall_cons; [by apply bits_number_bound|exact IH].
Qed.
Lemma convert_bits_inj d d' : length d = length d' -> convert_bits d = convert_bits d' -> d = d'.
Proof.
  intros Hl H. unfold convert_bits in H.
  apply (map_inj_on (fun g => length g = 5%nat)) in H; [|apply bits_number_inj|apply groups_length..].
  apply all_bits_inj; [exact Hl|]. destruct (groups_prefix (concat (map byte_bits d))) as [p Hp].
  destruct (groups_prefix (concat (map byte_bits d'))) as [p' Hp']. rewrite H, Hp' in Hp.
  symmetry in Hp. apply app_inj_1 in Hp as [Hp _]; [exact Hp|]. by rewrite !all_bits_length, Hl.
Qed.
Lemma groups_count l : length (groups l) = ((length l + 4) / 5)%nat.
Proof.
  enough (forall n l, (length l <= n)%nat -> length (groups l) = ((length l + 4) / 5)%nat) as H by (eapply H; reflexivity).
  clear l. induction n as [|n IH]; intros l Hl.
  - destruct l; [reflexivity|cbn in Hl; lia].
  - destruct l as [|a [|b [|c [|d [|e l]]]]]; try reflexivity. cbn [groups length].
    rewrite IH by (cbn in Hl; lia). replace (S (S (S (S (S (length l))))) + 4)%nat with (length l + 4 + 1 * 5)%nat by lia.
    rewrite Nat.div_add by lia. lia.
Qed.
Lemma convert_bits_length d : length (convert_bits d) = ((8 * length d + 4) / 5)%nat.
Proof. unfold convert_bits. by rewrite map_length, groups_count, all_bits_length. Qed.

(** ** Characters *)
Definition below32 : list N := [0;1;2;3;4;5;6;7;8;9;10;11;12;13;14;15;16;17;18;19;20;21;22;23;24;25;26;27;28;29;30;31].
Lemma below32_in v : v < 32 -> List.In v below32.
Proof. intros H. cbn. lia. Qed.
Lemma char_inj_all : forallb (fun v => forallb (fun w => implb (Byte.eqb (bech32_char v) (bech32_char w)) (v =? w)) below32) below32 = true.
Proof. reflexivity. Qed.
Lemma byte_eqb_refl x : Byte.eqb x x = true.
Proof. by apply Byte.byte_dec_lb. Qed.
Lemma bech32_char_inj v w : v < 32 -> w < 32 -> bech32_char v = bech32_char w -> v = w.
Proof.
  intros Hv Hw H. pose proof char_inj_all as E. rewrite forallb_forall in E. specialize (E v (below32_in v Hv)).
  rewrite forallb_forall in E. specialize (E w (below32_in w Hw)). rewrite H, byte_eqb_refl in E. by apply N.eqb_eq.
Qed.
Lemma bech32_inj hrp d d' : length d = length d' -> bech32 hrp d = bech32 hrp d' -> d = d'.
Proof.
  intros Hl H. unfold bech32 in H. apply app_inv_head in H. apply app_inv_head in H. rewrite !map_app in H.
  apply app_inj_1 in H as [H _]; [|by rewrite !map_length, !convert_bits_length, Hl].
  apply (map_inj_on (fun v => v < 32)) in H; [|apply bech32_char_inj|apply convert_bits_bound..].
  by apply convert_bits_inj.
Qed.
Lemma bech32_length hrp d : length (bech32 hrp d) = (length hrp + 7 + (8 * length d + 4) / 5)%nat.
Proof.
  unfold bech32. rewrite !app_length, map_length, app_length, convert_bits_length. cbn [str length checksum map].
  change (length (str "1")) with 1%nat. change (length (checksum hrp (convert_bits d))) with 6%nat. lia.
Qed.

(** ** The checksum *)
Definition gen_part (top acc : N) : N :=
  fold_left (fun acc g => if N.testbit top (fst g) then N.lxor acc (snd g) else acc) generators acc.
Lemma step_parts chk v : polymod_step chk v = gen_part (N.shiftr chk 25) (N.lxor (N.shiftl (N.land chk 0x1ffffff) 5) v).
Proof. reflexivity. Qed.
Lemma gen_part_linear top top' x y : gen_part (N.lxor top top') (N.lxor x y) = N.lxor (gen_part top x) (gen_part top' y).
Proof.
  unfold gen_part. generalize generators as l. intros l. revert x y. induction l as [|g l IH]; intros x y; [reflexivity|].
  cbn [fold_left]. rewrite <- IH. f_equal. rewrite N.lxor_spec. generalize (snd g). intros z. apply N.bits_inj. intros k.
  destruct (N.testbit top (fst g)), (N.testbit top' (fst g)); cbn [xorb]; rewrite !N.lxor_spec;
    by destruct (N.testbit x k), (N.testbit y k), (N.testbit z k).
Qed.
Lemma step_linear a b v w : polymod_step (N.lxor a b) (N.lxor v w) = N.lxor (polymod_step a v) (polymod_step b w).
Proof.
  rewrite !step_parts, <- gen_part_linear, N.shiftr_lxor. f_equal.
  assert (N.land (N.lxor a b) 0x1ffffff = N.lxor (N.land a 0x1ffffff) (N.land b 0x1ffffff)) as ->.
  { apply N.bits_inj. intros k. rewrite N.lxor_spec, !N.land_spec, N.lxor_spec.
    by destruct (N.testbit a k), (N.testbit b k), (N.testbit 0x1ffffff k). }
  rewrite N.shiftl_lxor. generalize (N.shiftl (N.land a 33554431) 5) (N.shiftl (N.land b 33554431) 5).
  intros r s. apply N.bits_inj. intros k. rewrite !N.lxor_spec.
  by destruct (N.testbit r k), (N.testbit s k), (N.testbit v k), (N.testbit w k).
Qed.
Lemma fold_linear l : forall l' a b, length l = length l' ->
  fold_left polymod_step (zip_with N.lxor l l') (N.lxor a b) = N.lxor (fold_left polymod_step l a) (fold_left polymod_step l' b).
Proof.
  induction l as [|v l IH]; intros [|w l'] a b Hl; try discriminate Hl; [reflexivity|]. cbn [zip_with fold_left].
  rewrite step_linear. apply IH. by injection Hl.
Qed.
Lemma lxor_bound a b n : a < 2 ^ n -> b < 2 ^ n -> N.lxor a b < 2 ^ n.
Proof.
  intros Ha Hb. destruct (N.eq_dec (N.lxor a b) 0) as [->|Hn]; [apply N.neq_0_lt_0, N.pow_nonzero; discriminate|].
  apply N.log2_lt_pow2; [lia|]. eapply N.le_lt_trans; [apply N.log2_lxor|].
  destruct (N.eq_dec n 0) as [->|Hn0].
  - change (2 ^ 0) with 1 in *. assert (a = 0) as -> by lia. assert (b = 0) as -> by lia. destruct (Hn eq_refl).
  - apply N.max_lub_lt.
    + destruct (N.eq_dec a 0) as [->|]; [cbn; lia|]. apply N.log2_lt_pow2; [lia|exact Ha].
    + destruct (N.eq_dec b 0) as [->|]; [cbn; lia|]. apply N.log2_lt_pow2; [lia|exact Hb].
Qed.
Lemma step_bound chk v : v < 32 -> polymod_step chk v < 2 ^ 30.
Proof.
  intros Hv. rewrite step_parts.
  assert (forall l acc, Forall (fun g : N * N => snd g < 2 ^ 30) l -> acc < 2 ^ 30 ->
    fold_left (fun acc g => if N.testbit (N.shiftr chk 25) (fst g) then N.lxor acc (snd g) else acc) l acc < 2 ^ 30) as H.
  { intros l acc Hl. revert acc. induction Hl as [|g l Hg _ IH]; intros acc Ha; [exact Ha|]. cbn [fold_left]. apply IH.
    destruct (N.testbit (N.shiftr chk 25) (fst g)); [by apply lxor_bound|exact Ha]. }
  apply H; [unfold generators; repeat (apply List.Forall_cons; [reflexivity|]); apply List.Forall_nil|].
  apply lxor_bound; [|apply N.lt_trans with 32; [exact Hv|reflexivity]].
  rewrite N.shiftl_mul_pow2. change 0x1ffffff with (N.ones 25). rewrite N.land_ones.
  pose proof (N.mod_lt chk (2 ^ 25)) as Hm. assert (chk mod 2 ^ 25 < 2 ^ 25) as Hm' by (apply Hm; discriminate). clear Hm.
  change (2 ^ 30) with (2 ^ 25 * 2 ^ 5). revert Hm'. generalize (chk mod 2 ^ 25). intros x Hx. apply N.mul_lt_mono_pos_r; [reflexivity|exact Hx].
Qed.

Lemma polymod_app a b : polymod (a ++ b) = fold_left polymod_step b (polymod a).
Proof. apply fold_left_app. Qed.
(** Six groups run through the checksum from zero are the number they spell. *)
Lemma small_step chk v : chk < 2 ^ 25 -> polymod_step chk v = N.lxor (N.shiftl chk 5) v.
Proof.
  intros H. rewrite step_parts. rewrite N.shiftr_div_pow2, N.div_small by exact H.
  change 0x1ffffff with (N.ones 25). rewrite N.land_ones, N.mod_small by exact H. reflexivity.
Qed.
Lemma next_group x : x < 2 ^ 30 -> polymod_step (N.shiftr x 5) (N.land x 31) = x.
Proof.
  intros Hx. rewrite small_step.
  - apply N.bits_inj. intros k. rewrite N.lxor_spec, N.land_spec. change 31 with (N.ones 5). destruct (N.ltb_spec k 5) as [Hk|Hk].
    + rewrite N.shiftl_spec_low by exact Hk. rewrite N.ones_spec_low by exact Hk. by rewrite andb_true_r, xorb_false_l.
    + rewrite N.shiftl_spec_high' by exact Hk. rewrite N.ones_spec_high by exact Hk. rewrite andb_false_r, xorb_false_r, N.shiftr_spec'.
      f_equal. lia.
  - rewrite N.shiftr_div_pow2. apply N.div_lt_upper_bound; [discriminate|exact Hx].
Qed.
Lemma shiftr_bound p k : p < 2 ^ 30 -> N.shiftr p k < 2 ^ 30.
Proof.
  intros H. rewrite N.shiftr_div_pow2. eapply N.le_lt_trans; [|exact H]. apply N.div_le_upper_bound; [apply N.pow_nonzero; discriminate|].
  assert (1 <= 2 ^ k) by (apply (N.pow_le_mono_r 2 0 k); [discriminate|apply N.le_0_l]).
  rewrite <- (N.mul_1_l p) at 1. by apply N.mul_le_mono_r.
Qed.
Lemma six_groups p : p < 2 ^ 30 ->
  fold_left polymod_step (map (fun i => N.land (N.shiftr p (5 * (5 - i))) 31) [0; 1; 2; 3; 4; 5]) 0 = p.
Proof.
  intros Hp. cbn [map fold_left]. change (5 * (5 - 0)) with 25. change (5 * (5 - 1)) with 20. change (5 * (5 - 2)) with 15.
  change (5 * (5 - 3)) with 10. change (5 * (5 - 4)) with 5. change (5 * (5 - 5)) with 0.
  assert (polymod_step 0 (N.land (N.shiftr p 25) 31) = N.shiftr p 25) as ->.
  { rewrite <- (next_group (N.shiftr p 25)) at 2 by (by apply shiftr_bound). f_equal. rewrite N.shiftr_shiftr, N.shiftr_div_pow2.
    symmetry. apply N.div_small. exact Hp. }
  replace (N.shiftr p 25) with (N.shiftr (N.shiftr p 20) 5) by (by rewrite N.shiftr_shiftr).
  rewrite (next_group (N.shiftr p 20)) by (by apply shiftr_bound).
  replace (N.shiftr p 20) with (N.shiftr (N.shiftr p 15) 5) by (by rewrite N.shiftr_shiftr).
  rewrite (next_group (N.shiftr p 15)) by (by apply shiftr_bound).
  replace (N.shiftr p 15) with (N.shiftr (N.shiftr p 10) 5) by (by rewrite N.shiftr_shiftr).
  rewrite (next_group (N.shiftr p 10)) by (by apply shiftr_bound).
  replace (N.shiftr p 10) with (N.shiftr (N.shiftr p 5) 5) by (by rewrite N.shiftr_shiftr).
  rewrite (next_group (N.shiftr p 5)) by (by apply shiftr_bound).
  rewrite N.shiftr_0_r. by apply next_group.
Qed.
(** The checksum of a text is right: run through the whole text it is one. *)
Lemma checksum_valid hrp data : polymod (hrp_expand hrp ++ data ++ checksum hrp data) = 1.
Proof.
  unfold checksum. rewrite app_assoc, polymod_app. rewrite (app_assoc (hrp_expand hrp)), (polymod_app (hrp_expand hrp ++ data)).
  set (s := polymod (hrp_expand hrp ++ data)). set (z := fold_left polymod_step [0; 0; 0; 0; 0; 0] s).
  assert (z < 2 ^ 30) as Hz by (apply step_bound; reflexivity).
  set (c := map _ _). assert (fold_left polymod_step c 0 = N.lxor z 1) as Hc by (apply six_groups, lxor_bound; [exact Hz|reflexivity]).
  assert (length c = 6%nat) as Hl by reflexivity. clearbody c.
  pose proof (fold_linear [0; 0; 0; 0; 0; 0] c s 0 (eq_sym Hl)) as H. rewrite N.lxor_0_r in H.
  destruct c as [|c0 [|c1 [|c2 [|c3 [|c4 [|c5 [|]]]]]]]; try discriminate Hl. cbn [zip_with] in H. rewrite !N.lxor_0_l in H.
  rewrite H. fold z. rewrite Hc.
  by rewrite <- N.lxor_assoc, N.lxor_nilpotent, N.lxor_0_l.
Qed.
Lemma checksum_bound hrp data : Forall (fun v => v < 32) (checksum hrp data).
Proof.
  unfold checksum. apply List.Forall_map, List.Forall_forall. intros i _. change 31 with (N.ones 5). rewrite N.land_ones.
  apply N.mod_lt. discriminate.
Qed.

(** ** What is written is an address text *)
Lemma bits_of_number g : length g = 5%nat -> bits_of 5 (bits_number g) = g.
Proof.
  destruct g as [|a [|b [|c [|d [|e [|]]]]]]; try discriminate. intros _. destruct a, b, c, d, e; reflexivity.
Qed.
Lemma groups_pad l : exists pad, concat (groups l) = l ++ pad /\ (length pad < 5)%nat /\ Forall (fun b => b = false) pad.
Proof.
  enough (forall n l, (length l <= n)%nat -> exists pad, concat (groups l) = l ++ pad /\ (length pad < 5)%nat /\ Forall (fun b => b = false) pad)
    as H by (eapply H; reflexivity).
  clear l. induction n as [|n IH]; intros l Hl.
  - destruct l; [|cbn in Hl; lia]. exists []. split; [reflexivity|]. split; [cbn; lia|apply List.Forall_nil].
  - destruct l as [|a [|b [|c [|d [|e l]]]]]; cbn [groups concat app].
    + exists []. split; [reflexivity|]. split; [cbn; lia|apply List.Forall_nil].
    + exists [false; false; false; false]. split; [reflexivity|]. split; [cbn; lia|repeat constructor].
    + exists [false; false; false]. split; [reflexivity|]. split; [cbn; lia|repeat constructor].
    + exists [false; false]. split; [reflexivity|]. split; [cbn; lia|repeat constructor].
    + exists [false]. split; [reflexivity|]. split; [cbn; lia|repeat constructor].
    + destruct (IH l) as (pad & Hp & H); [cbn in Hl; lia|]. exists pad. split; [by rewrite Hp|exact H].
Qed.
Lemma char_value_ok v : v < 32 -> char_value (bech32_char v) v.
Proof.
  intros H. unfold char_value, bech32_char.
  assert (length charset = 32%nat) as Hl by reflexivity. revert Hl. generalize charset. intros l Hl.
  destruct (lookup_lt_is_Some_2 l (N.to_nat v)) as [c Hc]; [lia|]. rewrite Hc. f_equal. symmetry. by apply nth_lookup_Some.
Qed.
Lemma bech32_spec hrp d : bech32_text hrp d (bech32 hrp d).
Proof.
  constructor. exists (map bech32_char (convert_bits d ++ checksum hrp (convert_bits d))), (convert_bits d), (checksum hrp (convert_bits d)).
  split; [reflexivity|]. split.
  { assert (Forall (fun v => v < 32) (convert_bits d ++ checksum hrp (convert_bits d))) as H
      by (apply List.Forall_app; split; [apply convert_bits_bound|apply checksum_bound]).
    induction H as [|v l Hv _ IH]; cbn [map]; constructor; [by apply char_value_ok|exact IH]. }
  split; [reflexivity|]. split; [apply checksum_valid|].
  destruct (groups_pad (concat (map byte_bits d))) as (pad & Hp & H). exists pad. split; [|exact H].
  change (map (fun b => bits_of 8 (b2N b)) d) with (map byte_bits d). rewrite <- Hp. unfold convert_bits. rewrite map_map. f_equal.
  pose proof (groups_length (concat (map byte_bits d))) as G. clear Hp H. revert G. generalize (groups (concat (map byte_bits d))). intros l G.
  induction G as [|g l Hg _ IH]; [reflexivity|]. cbn [map]. rewrite IH, bits_of_number by exact Hg. reflexivity.
Qed.
