(** Lemmas about bytes, varints and length prefixes. *)
From Coq Require Import Strings.Byte NArith ZArith List Bool Lia.
From Coq Require Import ZifyBool ZifyNat ZifyN.
From stdpp Require Import base list.
From Verif.Model Require Import Bytes Wire.
Local Open Scope N_scope.

Lemma b2N_bound b : b2N b < 256.
Proof. unfold b2N. pose proof (Byte.to_N_bounded b). lia. Qed.

Lemma N2b_b2N b : N2b (b2N b) = b.
Proof.
  unfold N2b. rewrite N.mod_small by apply b2N_bound.
  unfold b2N. rewrite Byte.of_to_N. reflexivity.
Qed.

Lemma b2N_N2b n : b2N (N2b n) = n mod 256.
Proof.
  unfold N2b. destruct (Byte.of_N (n mod 256)) as [b|] eqn:E.
  - apply Byte.to_of_N in E. exact E.
  - exfalso. apply Byte.of_N_None_iff in E.
    pose proof (N.mod_upper_bound n 256). lia.
Qed.

Lemma b2N_N2b_small n : n < 256 -> b2N (N2b n) = n.
Proof. intros. rewrite b2N_N2b. apply N.mod_small. lia. Qed.

Lemma b2N_inj a b : b2N a = b2N b -> a = b.
Proof. intros H. rewrite <- (N2b_b2N a), <- (N2b_b2N b), H. reflexivity. Qed.

Lemma N2b_inj a b : a < 256 -> b < 256 -> N2b a = N2b b -> a = b.
Proof.
  intros Ha Hb H. apply (f_equal b2N) in H.
  rewrite !b2N_N2b_small in H by lia. exact H.
Qed.

(** ** Order on byte strings *)

Lemma bytes_leb_refl a : bytes_leb a a = true.
Proof.
  induction a as [|x a IH]; simpl; [reflexivity|].
  rewrite N.ltb_irrefl. exact IH.
Qed.

Lemma bytes_leb_total a b : bytes_leb a b = true \/ bytes_leb b a = true.
Proof.
  revert b; induction a as [|x a IH]; intros [|y b]; simpl; auto.
  destruct (b2N x <? b2N y) eqn:E1; [auto|].
  destruct (b2N y <? b2N x) eqn:E2; auto.
Qed.

Lemma bytes_leb_antisym a b : bytes_leb a b = true -> bytes_leb b a = true -> a = b.
Proof.
  revert b; induction a as [|x a IH]; intros [|y b]; simpl; try congruence.
  destruct (b2N x <? b2N y) eqn:E1; destruct (b2N y <? b2N x) eqn:E2; try congruence.
  - lia.
  - intros H1 H2. f_equal; [apply b2N_inj; lia | auto].
Qed.

Lemma bytes_leb_trans a b c :
  bytes_leb a b = true -> bytes_leb b c = true -> bytes_leb a c = true.
Proof.
  revert b c; induction a as [|x a IH]; intros [|y b] [|z c]; simpl; try congruence.
  destruct (b2N x <? b2N y) eqn:E1; destruct (b2N y <? b2N x) eqn:E2;
  destruct (b2N y <? b2N z) eqn:E3; destruct (b2N z <? b2N y) eqn:E4;
  destruct (b2N x <? b2N z) eqn:E5; destruct (b2N z <? b2N x) eqn:E6;
  try congruence; try lia.
  apply IH.
Qed.

(** ** Prefixes *)

Lemma has_prefix_spec p b : has_prefix p b = true <-> exists r, b = p ++ r.
Proof.
  revert b; induction p as [|x p IH]; intros b; simpl.
  - split; [exists b; reflexivity | reflexivity].
  - destruct b as [|y b].
    + split; [discriminate | intros [r Hr]; discriminate].
    + destruct (decide (x = y)) as [->|Hne].
      * rewrite IH. split; intros [r Hr]; exists r; simpl in *; congruence.
      * split; [discriminate | intros [r Hr]; simpl in Hr; congruence].
Qed.

(** ** Varints *)

Lemma varint_bytes_nonempty f v : varint_bytes f v <> [].
Proof. destruct f; simpl; [congruence|]. destruct (v <? 128); congruence. Qed.

Lemma varint_bytes_length f v : (1 <= length (varint_bytes f v) <= S f)%nat.
Proof.
  revert v; induction f as [|f IH]; intros v; simpl; [lia|].
  destruct (v <? 128); simpl; [lia|]. specialize (IH (v / 128)). lia.
Qed.

Lemma pow2_7S i : 2 ^ (7 * N.of_nat (S i)) = 128 * 2 ^ (7 * N.of_nat i).
Proof.
  replace (7 * N.of_nat (S i)) with (7 + 7 * N.of_nat i) by lia.
  rewrite N.pow_add_r. reflexivity.
Qed.

Lemma consume_varint_at_append f i v acc r :
  (i + f = 9)%nat -> v * 2 ^ (7 * N.of_nat i) < two64 ->
  consume_varint_at i acc (varint_bytes f v ++ r)
  = inl (acc + v * 2 ^ (7 * N.of_nat i), r).
Proof.
  revert i v acc; induction f as [|f IH]; intros i v acc Hi Hv.
  - assert (i = 9)%nat as -> by lia. simpl varint_bytes. simpl app.
    change (consume_varint_at 9 acc (N2b v :: r)) with
      (if b2N (N2b v) <? 2 then @inl (N * bytes) wire_err (acc + b2N (N2b v) * 2 ^ 63, r) else inr WOverflow).
    change (2 ^ (7 * N.of_nat 9)) with 9223372036854775808 in *.
    unfold two64 in Hv. assert (v < 2) by lia.
    rewrite b2N_N2b_small by lia. destruct (v <? 2) eqn:E; [reflexivity|lia].
  - simpl varint_bytes. destruct (v <? 128) eqn:E.
    + simpl app. cbn [consume_varint_at].
      rewrite b2N_N2b_small by lia. rewrite E.
      destruct (9 <=? i)%nat eqn:E9; [lia|]. reflexivity.
    + simpl app. cbn [consume_varint_at].
      assert (v mod 128 < 128) by (apply N.mod_upper_bound; lia).
      rewrite b2N_N2b_small by lia.
      destruct (9 <=? i)%nat eqn:E9; [lia|].
      destruct (v mod 128 + 128 <? 128) eqn:E2; [lia|].
      pose proof (N.div_mod v 128 ltac:(lia)) as Hd.
      rewrite IH; [| lia |].
      * f_equal. f_equal. rewrite pow2_7S.
        replace (v mod 128 + 128 - 128) with (v mod 128) by lia.
        set (p := 2 ^ (7 * N.of_nat i)). rewrite Hd at 3.
        lia.
      * rewrite pow2_7S.
        assert (v / 128 * 128 <= v) by lia.
        set (p := 2 ^ (7 * N.of_nat i)) in *.
        replace (v / 128 * (128 * p)) with ((v / 128 * 128) * p) by lia.
        apply N.le_lt_trans with (v * p); [|exact Hv].
        apply N.mul_le_mono_r. lia.
Qed.

Lemma consume_varint_append v r :
  v < two64 -> consume_varint (append_varint v ++ r) = inl (v, r).
Proof.
  intros H. unfold consume_varint, append_varint.
  rewrite consume_varint_at_append; [|lia|].
  - f_equal. f_equal. simpl. lia.
  - simpl. lia.
Qed.

Lemma append_varint_inj_app v w r s :
  v < two64 -> w < two64 ->
  append_varint v ++ r = append_varint w ++ s -> v = w /\ r = s.
Proof.
  intros Hv Hw H. pose proof (consume_varint_append v r Hv) as E1.
  pose proof (consume_varint_append w s Hw) as E2.
  rewrite H in E1. rewrite E1 in E2. inversion E2; auto.
Qed.

Lemma append_varint_inj v w :
  v < two64 -> w < two64 -> append_varint v = append_varint w -> v = w.
Proof.
  intros Hv Hw H. apply (append_varint_inj_app v w [] []); auto. congruence.
Qed.

Lemma consume_bytes_append v r :
  blen v < two64 -> consume_bytes (append_bytes v ++ r) = inl (v, r).
Proof.
  intros H. unfold consume_bytes, append_bytes.
  rewrite <- app_assoc, consume_varint_append by exact H.
  unfold blen in *. rewrite app_length.
  destruct (N.of_nat (length v + length r) <? N.of_nat (length v)) eqn:E; [lia|].
  rewrite Nnat.Nat2N.id, take_app, drop_app. reflexivity.
Qed.

Lemma append_bytes_inj_app v w r s :
  blen v < two64 -> blen w < two64 ->
  append_bytes v ++ r = append_bytes w ++ s -> v = w /\ r = s.
Proof.
  intros Hv Hw H. pose proof (consume_bytes_append v r Hv) as E1.
  pose proof (consume_bytes_append w s Hw) as E2.
  rewrite H in E1. rewrite E1 in E2. inversion E2; auto.
Qed.

Lemma append_bytes_nonempty v : append_bytes v <> [].
Proof.
  unfold append_bytes, append_varint.
  destruct (varint_bytes 9 (blen v)) eqn:E; [|simpl; congruence].
  exfalso. eapply varint_bytes_nonempty; eauto.
Qed.

(** The length of a varint is monotone in the value. *)
Lemma varint_length_mono f v w :
  v <= w -> (length (varint_bytes f v) <= length (varint_bytes f w))%nat.
Proof.
  revert v w; induction f as [|f IH]; intros v w H; simpl; [lia|].
  destruct (v <? 128) eqn:E1; destruct (w <? 128) eqn:E2; simpl; try lia.
  apply le_n_S, IH. apply N.div_le_mono; lia.
Qed.

Lemma append_varint_small v : v < 128 -> append_varint v = [N2b v].
Proof. intros H. unfold append_varint. simpl. destruct (v <? 128) eqn:E; [reflexivity|lia]. Qed.

Lemma append_varint_length_big v : 128 <= v -> (2 <= length (append_varint v))%nat.
Proof.
  intros H. unfold append_varint. cbn [varint_bytes].
  destruct (v <? 128) eqn:E; [lia|]. simpl.
  pose proof (varint_bytes_length 8 (v / 128)). simpl in *. lia.
Qed.

(** ** Little endian lengths *)

Ltac eval_pows :=
  repeat match goal with
  | |- context [2 ^ ?k] =>
      let v := eval vm_compute in (2 ^ k) in
      change (2 ^ k) with v
  end.

Lemma le64_length v : length (le64 v) = 8%nat.
Proof. reflexivity. Qed.

Lemma shiftr8_byte v k : b2N (N2b (N.shiftr v k)) = v / 2 ^ k mod 256.
Proof. rewrite b2N_N2b, N.shiftr_div_pow2. reflexivity. Qed.

Lemma lor_disjoint_add a b k : a < 2 ^ k -> N.lor a (N.shiftl b k) = a + b * 2 ^ k.
Proof.
  intros Ha. rewrite N.shiftl_mul_pow2.
  rewrite <- N.lxor_lor.
  - rewrite <- N.add_nocarry_lxor; [reflexivity|].
    rewrite <- N.shiftl_mul_pow2. apply N.bits_inj. intros m. rewrite N.land_spec, N.bits_0.
    destruct (N.lt_ge_cases m k).
    + rewrite N.shiftl_spec_low by lia. apply andb_false_r.
    + destruct (N.eq_dec a 0) as [->|Hnz]; [rewrite N.bits_0; reflexivity|].
      rewrite N.bits_above_log2; [reflexivity|].
      apply N.log2_lt_pow2 in Ha; lia.
  - rewrite <- N.shiftl_mul_pow2. apply N.bits_inj. intros m. rewrite N.land_spec, N.bits_0.
    destruct (N.lt_ge_cases m k).
    + rewrite N.shiftl_spec_low by lia. apply andb_false_r.
    + destruct (N.eq_dec a 0) as [->|Hnz]; [rewrite N.bits_0; reflexivity|].
      rewrite N.bits_above_log2; [reflexivity|].
      apply N.log2_lt_pow2 in Ha; lia.
Qed.

Lemma le64_decode_sum b0 b1 b2 b3 b4 b5 b6 b7 :
  le64_decode b0 b1 b2 b3 b4 b5 b6 b7 =
  b2N b0 + 256 * (b2N b1 + 256 * (b2N b2 + 256 * (b2N b3 + 256 * (b2N b4
  + 256 * (b2N b5 + 256 * (b2N b6 + 256 * b2N b7)))))).
Proof.
  unfold le64_decode.
  pose proof (b2N_bound b0); pose proof (b2N_bound b1); pose proof (b2N_bound b2);
  pose proof (b2N_bound b3); pose proof (b2N_bound b4); pose proof (b2N_bound b5);
  pose proof (b2N_bound b6); pose proof (b2N_bound b7).
  rewrite !N.lor_assoc. rewrite N.shiftl_0_r.
  do 7 (match goal with
        | |- context [N.lor ?a (N.shiftl ?b ?k)] =>
            lazymatch a with
            | context [N.lor] => fail
            | _ => rewrite (lor_disjoint_add a b k) by (eval_pows; lia)
            end
        end).
  eval_pows. lia.
Qed.

Lemma le64_roundtrip v :
  v < two64 ->
  match le64 v with
  | [b0; b1; b2; b3; b4; b5; b6; b7] => le64_decode b0 b1 b2 b3 b4 b5 b6 b7 = v
  | _ => False
  end.
Proof.
  intros H. unfold le64. rewrite le64_decode_sum, !shiftr8_byte, b2N_N2b.
  change (2 ^ 8) with 256.
  change (2 ^ 16) with (256 * 256).
  change (2 ^ 24) with (256 * 256 * 256).
  change (2 ^ 32) with (256 * 256 * 256 * 256).
  change (2 ^ 40) with (256 * 256 * 256 * 256 * 256).
  change (2 ^ 48) with (256 * 256 * 256 * 256 * 256 * 256).
  change (2 ^ 56) with (256 * 256 * 256 * 256 * 256 * 256 * 256).
  rewrite <- !N.div_div by discriminate.
  assert (Hd : forall x, x = x mod 256 + 256 * (x / 256)).
  { intros x. rewrite N.add_comm. apply N.div_mod. discriminate. }
  assert (Hlast : v / 256 / 256 / 256 / 256 / 256 / 256 / 256 < 256).
  { rewrite !N.div_div by discriminate. apply N.div_lt_upper_bound; [discriminate|]. exact H. }
  rewrite (N.mod_small _ _ Hlast).
  rewrite <- !Hd. reflexivity.
Qed.
