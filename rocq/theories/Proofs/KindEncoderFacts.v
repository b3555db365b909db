(** Lemmas about the field encoders. *)
From Coq Require Import Strings.Byte Strings.String NArith ZArith List Bool Lia.
From Coq Require Import ZifyBool ZifyNat ZifyN.
From stdpp Require Import base list.
From Verif.Model Require Import Bytes Wire KindEncoder.
From Verif.Spec Require Import TextSpec.
From Verif.Proofs Require Import BytesFacts.
Local Open Scope N_scope.

Lemma blen_app a b : blen (a ++ b) = blen a + blen b.
Proof. unfold blen. rewrite app_length. lia. Qed.

(** ** Encoding of strings and bytes *)

Lemma drop1_append_bytes_small s : blen s < 128 -> drop1 (append_bytes s) = s.
Proof. intros H. unfold append_bytes. rewrite append_varint_small by exact H. reflexivity. Qed.

Lemma drop1_length s :
  length (drop1 (append_bytes s)) = (length (append_varint (blen s)) - 1 + length s)%nat.
Proof.
  unfold drop1, append_bytes.
  destruct (append_varint (blen s)) eqn:E.
  - exfalso. unfold append_varint in E. eapply varint_bytes_nonempty; eauto.
  - simpl. rewrite app_length. lia.
Qed.

Lemma drop1_append_bytes_inj s t :
  blen s < two64 -> blen t < two64 ->
  drop1 (append_bytes s) = drop1 (append_bytes t) -> s = t.
Proof.
  intros Hs Ht H.
  assert (Hlen : length s = length t).
  { pose proof (drop1_length s) as E1. pose proof (drop1_length t) as E2.
    rewrite H in E1. rewrite E1 in E2. unfold append_varint in E2.
    destruct (N.le_ge_cases (blen s) (blen t)) as [Hle|Hle].
    - pose proof (varint_length_mono 9 _ _ Hle).
      pose proof (varint_bytes_length 9 (blen s)). unfold blen in *. lia.
    - pose proof (varint_length_mono 9 _ _ Hle).
      pose proof (varint_bytes_length 9 (blen t)). unfold blen in *. lia. }
  unfold drop1, append_bytes in H.
  assert (blen s = blen t) as E by (unfold blen; lia). rewrite <- E in H.
  destruct (append_varint (blen s)) eqn:E2.
  - exfalso. unfold append_varint in E2. eapply varint_bytes_nonempty; eauto.
  - simpl in H. apply app_inv_head in H. exact H.
Qed.

Lemma drop1_append_bytes_big s :
  128 <= blen s -> drop1 (append_bytes s) <> s.
Proof.
  intros H E. apply (f_equal length) in E. rewrite drop1_length in E.
  pose proof (append_varint_length_big _ H). lia.
Qed.

Lemma drop1_append_bytes_nil s : drop1 (append_bytes s) = [] <-> s = [].
Proof.
  split.
  - intros H. apply (f_equal length) in H. rewrite drop1_length in H. simpl in H.
    destruct s; [reflexivity|simpl in H; lia].
  - intros ->. reflexivity.
Qed.

(** ** Integers *)

Lemma two_compl_inj a b :
  (-(2 ^ 63) <= a < 2 ^ 63)%Z -> (-(2 ^ 63) <= b < 2 ^ 63)%Z ->
  Z.to_N (a mod 2 ^ 64) = Z.to_N (b mod 2 ^ 64) -> a = b.
Proof.
  intros Ha Hb H. apply Z2N.inj in H; try (apply Z.mod_pos_bound; lia).
  Z.to_euclidean_division_equations. lia.
Qed.

Lemma two_compl_bound a : Z.to_N (a mod 2 ^ 64) < two64.
Proof.
  unfold two64. pose proof (Z.mod_pos_bound a (2 ^ 64) ltac:(lia)). lia.
Qed.

Lemma encode_value_total k v :
  value_ok k v = true -> exists b, encode_value k v = Ok b.
Proof. destruct k, v; simpl; try discriminate; eauto. Qed.

Lemma encode_value_inj_ok k v w b :
  value_ok k v = true -> value_ok k w = true ->
  encode_value k v = Ok b -> encode_value k w = Ok b -> v = w.
Proof.
  destruct k, v; simpl; try discriminate; destruct w; simpl; try discriminate;
  intros Hv Hw E1 E2; injection E1 as <-; injection E2 as E2; symmetry in E2.
  - apply append_varint_inj in E2; [|destruct b0; reflexivity|destruct b1; reflexivity].
    destruct b0, b1; congruence.
  - apply append_varint_inj in E2; try apply two_compl_bound.
    f_equal. apply two_compl_inj; [lia|lia|exact E2].
  - apply append_varint_inj in E2; try (unfold two64; zify; Z.to_euclidean_division_equations; lia).
    f_equal. rewrite !N.mod_small in E2; lia.
  - apply append_varint_inj in E2; try apply two_compl_bound.
    f_equal. apply two_compl_inj; [lia|lia|exact E2].
  - apply append_varint_inj in E2; [congruence|unfold two64; lia|unfold two64; lia].
  - f_equal. apply drop1_append_bytes_inj; auto; unfold two64; lia.
  - f_equal. apply drop1_append_bytes_inj; auto; unfold two64; lia.
Qed.

(** ** Decimal texts *)

Lemma digit_digit_char d : d < 10 -> digit (digit_char d) = Some d.
Proof.
  intros H. unfold digit, digit_char. rewrite b2N_N2b_small by lia.
  destruct ((48 <=? 48 + d) && (48 + d <=? 57)) eqn:E; [f_equal; lia|lia].
Qed.

Lemma digit_inv c d : digit c = Some d -> d < 10 /\ c = digit_char d.
Proof.
  unfold digit, digit_char. destruct (_ && _) eqn:E; [|discriminate].
  intros H; injection H as <-. split; [lia|].
  replace (48 + (b2N c - 48)) with (b2N c) by lia. symmetry. apply N2b_b2N.
Qed.

Lemma positional_bound ds : Forall (fun d => d < 10) ds -> positional ds < 10 ^ N.of_nat (length ds).
Proof.
  induction 1 as [|d ds Hd _ IH]; [simpl; lia|].
  cbn [positional length]. rewrite Nnat.Nat2N.inj_succ, N.pow_succ_r'. nia.
Qed.

(** What the parser loop computes. *)
Lemma parse_digits_sound max acc s n :
  parse_digits max acc s = Some n ->
  exists ds, Forall (fun d => d < 10) ds /\ s = map digit_char ds
             /\ n = acc * 10 ^ N.of_nat (length ds) + positional ds
             /\ (acc <= max -> n <= max).
Proof.
  revert acc; induction s as [|c s IH]; intros acc; simpl.
  - intros H; injection H as <-. exists []. simpl. repeat split; auto; lia.
  - destruct (digit c) as [d|] eqn:Ed; [|discriminate].
    destruct (max <? acc * 10 + d) eqn:El; [discriminate|].
    intros H. apply IH in H as (ds & Hds & Hs & Hn & Hm).
    apply digit_inv in Ed as [Hd ->]. exists (d :: ds). repeat split.
    + constructor; auto.
    + simpl. congruence.
    + subst n. simpl length. simpl positional.
      rewrite Nnat.Nat2N.inj_succ, N.pow_succ_r'. lia.
    + intros _. apply Hm. lia.
Qed.

Lemma parse_digits_complete max acc ds :
  Forall (fun d => d < 10) ds ->
  acc * 10 ^ N.of_nat (length ds) + positional ds <= max ->
  parse_digits max acc (map digit_char ds)
  = Some (acc * 10 ^ N.of_nat (length ds) + positional ds).
Proof.
  intros H; revert acc; induction H as [|d ds Hd _ IH]; intros acc Hm; cbn [map parse_digits].
  - f_equal. simpl. lia.
  - rewrite digit_digit_char by exact Hd.
    cbn [length positional] in Hm.
    rewrite Nnat.Nat2N.inj_succ, N.pow_succ_r' in Hm.
    assert (1 <= 10 ^ N.of_nat (length ds)) by (pose proof (N.pow_nonzero 10 (N.of_nat (length ds))); lia).
    destruct (max <? acc * 10 + d) eqn:E; [nia|].
    rewrite IH by lia. f_equal. cbn [length positional].
    rewrite Nnat.Nat2N.inj_succ, N.pow_succ_r'. lia.
Qed.

Lemma parse_uint_spec bits s n :
  parse_uint bits s = Some n <-> decimal_text s n /\ n < 2 ^ bits.
Proof.
  assert (Hp : 1 <= 2 ^ bits) by (pose proof (N.pow_nonzero 2 bits); lia).
  unfold parse_uint, decimal_text. split.
  - destruct s as [|c s]; [discriminate|]. intros H.
    apply parse_digits_sound in H as (ds & Hds & Hs & Hn & Hm).
    split; [|specialize (Hm ltac:(lia)); lia].
    exists ds. split; [intros ->; discriminate|]. split; [exact Hds|].
    split; [exact Hs|lia].
  - intros [(ds & Hne & Hds & -> & <-) Hb].
    destruct ds as [|d ds]; [congruence|]. simpl map.
    change (digit_char d :: map digit_char ds) with (map digit_char (d :: ds)).
    rewrite parse_digits_complete; [f_equal; lia|auto|lia].
Qed.

Lemma decimal_text_head t n : decimal_text t n ->
  exists c r, t = c :: r /\ 48 <= b2N c <= 57.
Proof.
  intros (ds & Hne & Hds & -> & _). destruct ds as [|d ds]; [congruence|].
  exists (digit_char d), (map digit_char ds). split; [reflexivity|].
  inversion Hds; subst. unfold digit_char. rewrite b2N_N2b_small by lia. lia.
Qed.

Lemma sign_minus : str "-" = [N2b 45]. Proof. reflexivity. Qed.
Lemma sign_plus : str "+" = [N2b 43]. Proof. reflexivity. Qed.

Lemma parse_int_spec bits s z : 1 <= bits ->
  parse_int bits s = Some z <->
  signed_decimal_text s z /\ (- Z.of_N (2 ^ (bits - 1)) <= z < Z.of_N (2 ^ (bits - 1)))%Z.
Proof.
  intros Hbits.
  assert (Hp : 2 ^ bits = 2 * 2 ^ (bits - 1)).
  { replace bits with (N.succ (bits - 1)) at 1 by lia. apply N.pow_succ_r'. }
  assert (Hp1 : 1 <= 2 ^ (bits - 1)) by (pose proof (N.pow_nonzero 2 (bits - 1)); lia).
  unfold parse_int, signed_decimal_text. split.
  - destruct s as [|c r].
    + simpl. discriminate.
    + destruct (b2N c =? 45) eqn:E45; [|destruct (b2N c =? 43) eqn:E43].
      * destruct (parse_uint bits r) as [un|] eqn:E; [|discriminate].
        apply parse_uint_spec in E as [Ht Hb].
        destruct (2 ^ (bits - 1) <? un) eqn:El; [discriminate|]. intros H; injection H as <-.
        split; [|lia]. exists r, un. split; [auto|]. right; right. split; [|lia].
        rewrite sign_minus. simpl. f_equal.
        rewrite <- (N2b_b2N c). f_equal. lia.
      * destruct (parse_uint bits r) as [un|] eqn:E; [|discriminate].
        apply parse_uint_spec in E as [Ht Hb].
        destruct (2 ^ (bits - 1) <=? un) eqn:El; [discriminate|]. intros H; injection H as <-.
        split; [|lia]. exists r, un. split; [auto|]. right; left. split; [|lia].
        rewrite sign_plus. simpl. f_equal.
        rewrite <- (N2b_b2N c). f_equal. lia.
      * destruct (parse_uint bits (c :: r)) as [un|] eqn:E; [|discriminate].
        apply parse_uint_spec in E as [Ht Hb].
        destruct (2 ^ (bits - 1) <=? un) eqn:El; [discriminate|]. intros H; injection H as <-.
        split; [|lia]. exists (c :: r), un. auto.
  - intros [(t & n & Ht & Hs) Hb].
    assert (Hu : n < 2 ^ bits -> parse_uint bits t = Some n)
      by (intros; apply parse_uint_spec; auto).
    destruct Hs as [[-> ->]|[[-> ->]|[-> ->]]].
    + destruct (decimal_text_head t n Ht) as (c & r & -> & Hc).
      destruct (b2N c =? 45) eqn:E45; [lia|]. destruct (b2N c =? 43) eqn:E43; [lia|].
      rewrite Hu by lia. destruct (2 ^ (bits - 1) <=? n) eqn:El; [lia|reflexivity].
    + change (str "+" ++ t) with (Byte.x2b :: t). cbn -[parse_uint N.pow N.sub].
      rewrite Hu by lia. destruct (2 ^ (bits - 1) <=? n) eqn:El; [lia|reflexivity].
    + change (str "-" ++ t) with (Byte.x2d :: t). cbn -[parse_uint N.pow N.sub].
      rewrite Hu by lia. destruct (2 ^ (bits - 1) <? n) eqn:El; [lia|reflexivity].
Qed.

Lemma digits_fuel_spec f n acc :
  n < 2 ^ N.of_nat f -> (0 < f)%nat -> Forall (fun d => d < 10) acc ->
  let ds := digits_fuel f n acc in
  ds <> [] /\ Forall (fun d => d < 10) ds
  /\ positional ds = n * 10 ^ N.of_nat (length acc) + positional acc.
Proof.
  revert n acc; induction f as [|f IH]; intros n acc Hn Hf Ha; [lia|].
  simpl. destruct (n <? 10) eqn:E.
  - split; [congruence|]. split; [constructor; auto; lia|]. simpl. lia.
  - destruct f as [|f].
    { exfalso. simpl in Hn. lia. }
    specialize (IH (n / 10) (n mod 10 :: acc)).
    assert (Hm : n mod 10 < 10) by (apply N.mod_upper_bound; lia).
    replace (N.of_nat (S (S f))) with (N.succ (N.of_nat (S f))) in Hn by lia.
    rewrite N.pow_succ_r' in Hn.
    destruct IH as (H1 & H2 & H3).
    + apply N.div_lt_upper_bound; lia.
    + lia.
    + constructor; auto.
    + cbv zeta in *. split; [exact H1|]. split; [exact H2|].
      rewrite H3. cbn [length positional].
      replace (N.of_nat (S (length acc))) with (N.succ (N.of_nat (length acc))) by lia.
      rewrite N.pow_succ_r'. pose proof (N.div_mod n 10 ltac:(lia)). nia.
Qed.

Lemma decimal_is_text n : decimal_text (decimal n) n.
Proof.
  unfold decimal. exists (digits_fuel (S (N.to_nat (N.log2 n))) n []).
  destruct (digits_fuel_spec (S (N.to_nat (N.log2 n))) n []) as (H1 & H2 & H3).
  - destruct (N.eq_dec n 0) as [->|Hn]; [simpl; lia|].
    replace (N.of_nat (S (N.to_nat (N.log2 n)))) with (N.succ (N.log2 n)) by lia.
    apply N.log2_spec. lia.
  - lia.
  - constructor.
  - repeat split; auto. rewrite H3. simpl. lia.
Qed.

Lemma signed_decimal_is_text z : signed_decimal_text (signed_decimal z) z.
Proof.
  unfold signed_decimal, signed_decimal_text. destruct (z <? 0)%Z eqn:E.
  - exists (decimal (Z.to_N (- z))), (Z.to_N (- z)). split; [apply decimal_is_text|].
    right; right. split; [reflexivity|lia].
  - exists (decimal (Z.to_N z)), (Z.to_N z). split; [apply decimal_is_text|].
    left. split; [reflexivity|lia].
Qed.

(** ** Base64 *)

Lemma b64_val_char v : v < 64 -> b64_val (b64_char v) = Some v.
Proof.
  intros H.
  assert (Hall : forallb (fun v => match b64_val (b64_char v) with Some w => w =? v | None => false end)
                   (map N.of_nat (seq 0 64)) = true) by (vm_compute; reflexivity).
  rewrite forallb_forall in Hall. specialize (Hall v).
  destruct (b64_val (b64_char v)) as [w|].
  - f_equal. apply N.eqb_eq. apply Hall. apply in_map_iff. exists (N.to_nat v).
    split; [lia|]. apply in_seq. lia.
  - discriminate Hall. apply in_map_iff. exists (N.to_nat v).
    split; [lia|]. apply in_seq. lia.
Qed.

Lemma b64_char_newline v : v < 64 -> is_newline (b64_char v) = false.
Proof.
  intros H. pose proof (b64_val_char v H) as E. unfold b64_val in E. unfold is_newline.
  destruct ((b2N (b64_char v) =? 10) || (b2N (b64_char v) =? 13)) eqn:E2; [|reflexivity].
  exfalso. destruct (b2N (b64_char v) =? 10) eqn:E3.
  - apply N.eqb_eq in E3. rewrite E3 in E. discriminate.
  - simpl in E2. apply N.eqb_eq in E2. rewrite E2 in E. discriminate.
Qed.

Lemma b64_vals_chars vs : Forall (fun v => v < 64) vs -> b64_vals (map b64_char vs) = Some vs.
Proof.
  induction 1 as [|v vs Hv _ IH]; simpl; [reflexivity|].
  rewrite b64_char_newline, b64_val_char, IH by exact Hv. reflexivity.
Qed.

Fixpoint base64_vals (b : bytes) : list N :=
  match b with
  | [] => []
  | [x] => let x := b2N x in [x / 4; x mod 4 * 16]
  | [x; y] => let x := b2N x in let y := b2N y in
      [x / 4; x mod 4 * 16 + y / 16; y mod 16 * 4]
  | x :: y :: z :: r =>
      let x := b2N x in let y := b2N y in let z := b2N z in
      x / 4 :: x mod 4 * 16 + y / 16 :: y mod 16 * 4 + z / 64 :: z mod 64 :: base64_vals r
  end.

Lemma bytes_ind3 (P : bytes -> Prop) :
  P [] -> (forall x, P [x]) -> (forall x y, P [x; y]) ->
  (forall x y z r, P r -> P (x :: y :: z :: r)) -> forall b, P b.
Proof.
  intros H0 H1 H2 H3.
  assert (H : forall n b, (length b <= n)%nat -> P b).
  { induction n as [|n IH]; intros b Hb.
    - destruct b; [auto|simpl in Hb; lia].
    - destruct b as [|x [|y [|z r]]]; auto. apply H3, IH. simpl in Hb. lia. }
  intros b. apply (H (length b)). lia.
Qed.

Lemma base64_map b : base64 b = map b64_char (base64_vals b).
Proof. induction b using bytes_ind3; simpl; congruence. Qed.

Lemma base64_vals_bound b : Forall (fun v => v < 64) (base64_vals b).
Proof.
  induction b using bytes_ind3; simpl.
  - constructor.
  - pose proof (b2N_bound x). repeat constructor; zify; Z.to_euclidean_division_equations; lia.
  - pose proof (b2N_bound x). pose proof (b2N_bound y).
    repeat constructor; zify; Z.to_euclidean_division_equations; lia.
  - pose proof (b2N_bound x). pose proof (b2N_bound y). pose proof (b2N_bound z).
    repeat (constructor; [zify; Z.to_euclidean_division_equations; lia|]). exact IHb.
Qed.

Lemma byte_eq_from b n : n = b2N b -> N2b n = b.
Proof. intros ->. apply N2b_b2N. Qed.

Lemma b64_groups_vals b : b64_groups (base64_vals b) = Some b.
Proof.
  induction b using bytes_ind3; cbn [base64_vals b64_groups].
  - reflexivity.
  - pose proof (b2N_bound x). f_equal. f_equal. apply byte_eq_from.
    zify; Z.to_euclidean_division_equations; lia.
  - pose proof (b2N_bound x). pose proof (b2N_bound y).
    f_equal. f_equal; [|f_equal]; apply byte_eq_from;
    zify; Z.to_euclidean_division_equations; lia.
  - rewrite IHb. pose proof (b2N_bound x). pose proof (b2N_bound y). pose proof (b2N_bound z).
    f_equal. f_equal; [|f_equal; [|f_equal]]; apply byte_eq_from;
    zify; Z.to_euclidean_division_equations; lia.
Qed.

Lemma b64_decode_base64 b : b64_decode (base64 b) = Some b.
Proof.
  unfold b64_decode. rewrite base64_map, b64_vals_chars by apply base64_vals_bound.
  apply b64_groups_vals.
Qed.

(** ** Queries *)

Lemma encode_string_text k v :
  value_ok k v = true -> encode_string k (text_of v) = Ok v.
Proof.
  destruct k, v; simpl; try discriminate; intros H; unfold opt_res.
  - destruct b; reflexivity.
  - assert (E : parse_int 32 (signed_decimal z) = Some z).
    { apply parse_int_spec; [lia|]. split; [apply signed_decimal_is_text|]. simpl. lia. }
    rewrite E. reflexivity.
  - assert (E : parse_uint 32 (decimal n) = Some n).
    { apply parse_uint_spec. split; [apply decimal_is_text|lia]. }
    rewrite E. reflexivity.
  - assert (E : parse_int 64 (signed_decimal z) = Some z).
    { apply parse_int_spec; [lia|]. split; [apply signed_decimal_is_text|]. simpl. lia. }
    rewrite E. reflexivity.
  - assert (E : parse_uint 64 (decimal n) = Some n).
    { apply parse_uint_spec. split; [apply decimal_is_text|lia]. }
    rewrite E. reflexivity.
  - reflexivity.
  - rewrite b64_decode_base64. reflexivity.
Qed.
