(** Signatures as DER text. *)
From Coq Require Import NArith ZArith Znumtheory List Bool String Lia.
From Coq Require Import ZifyBool ZifyN ZifyNat.
From stdpp Require Import base list.
From Verif.Model Require Import Bytes Secp256k1 Curve Ecdsa.
From Verif.Spec Require Import Secp256k1Spec EcdsaSpec.
From Verif.Proofs Require Import BytesFacts Secp256k1Facts.
Local Open Scope N_scope.

Lemma byte_bound b : b2N b < 256.
Proof. pose proof (Byte.to_N_bounded b). unfold b2N. lia. Qed.
Lemma eqb_byte a b : Byte.eqb a b = true <-> a = b.
Proof. split; [apply Byte.byte_dec_bl|apply Byte.byte_dec_lb]. Qed.

(** ** Lengths *)
Lemma long_length_exact count : forall acc b n r, 0 < acc -> acc < 2 ^ 31 ->
  long_length count acc b = Some (n, r)
  <-> exists ds, b = ds ++ r /\ length ds = count /\ n = acc * 256 ^ N.of_nat count + number ds /\ n < 2 ^ 31.
Proof.
  induction count as [|count IH]; intros acc b n r H0 Hacc; cbn [long_length].
  - split.
    + intros E. injection E as <- <-. exists []. cbn. repeat split; lia.
    + intros (ds & -> & HL & -> & Hn). destruct ds; [|done]. cbn. do 2 f_equal. lia.
  - destruct b as [|d b].
    { split; [done|]. intros (ds & E & HL & _). destruct ds; discriminate. }
    pose proof (byte_bound d) as Hd. rewrite Nat2N.inj_succ, N.pow_succ_r'.
    assert (256 ^ N.of_nat count <> 0) as Hp by (apply N.pow_nonzero; lia).
    destruct (N.leb_spec (2 ^ 23) acc) as [Hbig|Hsmall].
    + split; [done|]. intros (ds & E & HL & En & Hn). exfalso. set (p := 256 ^ N.of_nat count) in *.
      change (2 ^ 23) with 8388608 in Hbig. change (2 ^ 31) with 2147483648 in Hn.
      assert (acc * 256 <= acc * (256 * p)) by nia. lia.
    + change (2 ^ 23) with 8388608 in Hsmall. change (2 ^ 31) with 2147483648 in Hacc.
      destruct (N.eqb_spec (acc * 256 + b2N d) 0) as [Ez|_]; [lia|].
      rewrite IH; [|lia|change (2 ^ 31) with 2147483648; lia]. split.
      * intros (ds & -> & HL & -> & Hn). exists (d :: ds). cbn [length number app]. rewrite HL. repeat split; lia.
      * intros (ds & E & HL & En & Hn). destruct ds as [|d' ds]; [discriminate|]. cbn [app length number] in *.
        injection E as <- ->. injection HL as HL. exists ds. rewrite HL in En. repeat split; lia.
Qed.
Lemma digits_count first digits n : number (first :: digits) = n -> b2N first <> 0 -> n < 2 ^ 31 -> (length digits <= 3)%nat.
Proof.
  cbn [number]. intros E H0 Hn. destruct (Nat.leb_spec (length digits) 3) as [H|H]; [done|]. exfalso.
  assert (256 ^ 4 <= 256 ^ N.of_nat (length digits)) as Hp by (apply N.pow_le_mono_r; lia).
  change (256 ^ 4) with 4294967296 in Hp. change (2 ^ 31) with 2147483648 in Hn. nia.
Qed.
Lemma read_length_exact b n r : read_length b = Some (n, r) <-> exists l, b = l ++ r /\ der_length n l.
Proof.
  destruct b as [|d b]; cbn [read_length].
  { split; [done|]. intros (l & E & [[_ ->]|(_ & f & ds & -> & _)]); discriminate. }
  pose proof (byte_bound d) as Hd. destruct (N.ltb_spec (b2N d) 128) as [Hs|Hs].
  - split.
    + intros E. injection E as <- <-. exists [d]. split; [done|]. left. split; [done|]. by rewrite N2b_b2N.
    + intros (l & E & [[Hn ->]|(Hn & f & ds & -> & H0 & HN)]).
      * injection E as -> ->. rewrite b2N_N2b_small by lia. done.
      * exfalso. cbn [app] in E. injection E as -> ->. pose proof (digits_count _ _ _ HN H0 ltac:(lia)).
        rewrite b2N_N2b_small in Hs by lia. lia.
  - destruct (N.eqb_spec (b2N d) 128) as [H128|H128].
    + split; [done|]. intros (l & E & [[Hn ->]|(Hn & f & ds & -> & H0 & HN)]); cbn [app] in E; injection E as -> ->.
      * rewrite b2N_N2b_small in H128 by lia. lia.
      * pose proof (digits_count _ _ _ HN H0 ltac:(lia)). rewrite b2N_N2b_small in H128 by lia. lia.
    + destruct (N.to_nat (b2N d - 128)) as [|count] eqn:Ec; [lia|].
      assert (d = N2b (128 + N.of_nat (S count))) as Ed.
      { rewrite <- Ec, <- (N2b_b2N d) at 1. f_equal. lia. }
      assert (b2N d = 128 + N.of_nat (S count)) as Ev by lia.
      split.
      * destruct (long_length (S count) 0 b) as [[n' r']|] eqn:El; [|done]. destruct (N.ltb_spec n' 128) as [?|Hn]; [done|].
        intros E. injection E as -> ->. cbn [long_length] in El. destruct b as [|f b]; [done|]. cbn [N.leb N.compare] in El.
        change (2 ^ 23 <=? 0) with false in El. cbv iota in El.
        destruct (N.eqb_spec (0 * 256 + b2N f) 0) as [|Hf]; [done|]. pose proof (byte_bound f) as Hf'.
        apply long_length_exact in El; [|lia|change (2 ^ 31) with 2147483648; lia]. destruct El as (ds & -> & HL & En & Hn').
        exists (d :: f :: ds). split; [done|]. right. split; [done|]. exists f, ds. split; [by rewrite HL, <- Ed|]. split; [lia|].
        cbn [number]. rewrite HL. lia.
      * intros (l & E & [[Hn ->]|(Hn & f & ds & -> & H0 & HN)]); cbn [app] in E; injection E as E ->.
        { exfalso. rewrite E, b2N_N2b_small in Hs by lia. lia. }
        pose proof (digits_count _ _ _ HN H0 ltac:(lia)) as Hc.
        assert (length ds = count) as HL.
        { rewrite E, b2N_N2b_small in Ev by lia. lia. }
        cbn [long_length]. change (2 ^ 23 <=? 0) with false. cbv iota. destruct (N.eqb_spec (0 * 256 + b2N f) 0) as [|Hf]; [lia|].
        pose proof (byte_bound f) as Hf'.
        assert (long_length count (0 * 256 + b2N f) (ds ++ r) = Some (n, r)) as ->.
        { apply long_length_exact; [lia|change (2 ^ 31) with 2147483648; lia|]. exists ds. cbn [number] in HN. rewrite HL in HN. repeat split; lia. }
        destruct (N.ltb_spec n 128); [lia|done].
Qed.
Lemma read_field_exact tag b c r : read_field tag b = Some (c, r) <-> exists t, der_item tag c t /\ b = t ++ r.
Proof.
  destruct b as [|t b]; cbn [read_field].
  { split; [done|]. intros (t & (l & _ & ->) & E). discriminate. }
  destruct (Byte.eqb t tag) eqn:Et; cbn [negb].
  - apply eqb_byte in Et. subst t. split.
    + destruct (read_length b) as [[n q]|] eqn:El; [|done]. destruct (N.ltb_spec (N.of_nat (length q)) n) as [|Hn]; [done|].
      intros E. injection E as <- <-. apply read_length_exact in El. destruct El as (l & -> & Hl).
      exists (tag :: l ++ take (N.to_nat n) q). split.
      * exists l. split; [|done]. rewrite take_length, Nat.min_l by lia. by rewrite N2Nat.id.
      * cbn [app]. rewrite <- app_assoc, take_drop. done.
    + intros (t & (l & Hl & ->) & E). injection E as ->.
      assert (read_length ((l ++ c) ++ r) = Some (N.of_nat (length c), c ++ r)) as ->.
      { apply read_length_exact. exists l. by rewrite app_assoc. }
      destruct (N.ltb_spec (N.of_nat (length (c ++ r))) (N.of_nat (length c))) as [H|_].
      { rewrite app_length in H. lia. }
      rewrite Nat2N.id, take_app, drop_app. done.
  - split; [done|]. intros (u & (l & Hl & ->) & E). injection E as -> _.
    assert (Byte.eqb tag tag = true) by by apply eqb_byte. congruence.
Qed.

(** ** Numbers *)
Local Open Scope Z_scope.
Definition twos_value (b : bytes) : Z :=
  match b with
  | a :: _ => if N.ltb (b2N a) 128 then Z.of_N (set_bytes b) else Z.of_N (set_bytes b) - 256 ^ Z.of_nat (length b)
  | [] => 0
  end.
Lemma zpow n : Z.of_N (256 ^ N.of_nat n) = 256 ^ Z.of_nat n.
Proof. rewrite N2Z.inj_pow, nat_N_Z. reflexivity. Qed.
Lemma pow_pos n : 0 < 256 ^ Z.of_nat n.
Proof. apply Z.pow_pos_nonneg; lia. Qed.
Lemma pow_S n : 256 ^ Z.of_nat (S n) = 256 * 256 ^ Z.of_nat n.
Proof. rewrite Nat2Z.inj_succ, Z.pow_succ_r; lia. Qed.
Lemma number_cons a b : Z.of_N (number (a :: b)) = Z.of_N (b2N a) * 256 ^ Z.of_nat (length b) + Z.of_N (number b).
Proof. cbn [number]. rewrite N2Z.inj_add, N2Z.inj_mul, zpow. reflexivity. Qed.
Lemma zbound b : 0 <= Z.of_N (number b) < 256 ^ Z.of_nat (length b).
Proof. pose proof (number_bound b). rewrite <- zpow. lia. Qed.
Lemma twos_has b : twos b (twos_value b).
Proof.
  destruct b as [|a b]; [split; [apply Z.divide_1_l|cbn; lia]|]. unfold twos, twos_value. rewrite set_bytes_number.
  pose proof (number_cons a b) as E. pose proof (zbound b) as Hb. pose proof (pow_pos (length b)) as Hp. pose proof (byte_bound a) as Ha.
  cbn [length]. rewrite pow_S. set (w := 256 ^ Z.of_nat (length b)) in *.
  destruct (N.ltb_spec (b2N a) 128) as [H|H].
  - split; [rewrite Z.sub_diag; apply Z.divide_0_r|]. rewrite E. nia.
  - split; [exists (-1); lia|]. rewrite E. nia.
Qed.
Lemma twos_unique b z z' : twos b z -> twos b z' -> z = z'.
Proof.
  intros [D R] [D' R']. pose proof (pow_pos (length b)) as Hp. set (m := 256 ^ Z.of_nat (length b)) in *.
  assert (m | z - z') as [k Hk].
  { replace (z - z') with ((z - Z.of_N (number b)) - (z' - Z.of_N (number b))) by lia. by apply Z.divide_sub_r. }
  assert (k = 0) by nia. lia.
Qed.
Lemma twos_value_shorter a d t : twos_value (a :: d :: t) = twos_value (d :: t)
  <-> (b2N a = 0 /\ b2N d < 128)%N \/ (b2N a = 255 /\ 128 <= b2N d)%N.
Proof.
  unfold twos_value. rewrite !set_bytes_number, number_cons, (number_cons d t). cbn [length]. rewrite !pow_S.
  pose proof (zbound t) as Hb. pose proof (pow_pos (length t)) as Hp. pose proof (byte_bound a) as Ha. pose proof (byte_bound d) as Hd.
  set (w := 256 ^ Z.of_nat (length t)) in *. set (q := Z.of_N (number t)) in *.
  destruct (N.ltb_spec (b2N a) 128), (N.ltb_spec (b2N d) 128); split; intros H1; try lia; nia.
Qed.
Lemma check_shorter a d t : check_integer (a :: d :: t) = false
  <-> (b2N a = 0 /\ b2N d < 128)%N \/ (b2N a = 255 /\ 128 <= b2N d)%N.
Proof. cbn [check_integer]. lia. Qed.
(** A number that fits into one byte less is not written with all bytes. *)
Lemma check_range a d t : check_integer (a :: d :: t) = true ->
  ~ (- 256 ^ Z.of_nat (S (length t)) <= 2 * twos_value (a :: d :: t) < 256 ^ Z.of_nat (S (length t))).
Proof.
  intros HC HR. assert (~ ((b2N a = 0 /\ b2N d < 128)%N \/ (b2N a = 255 /\ 128 <= b2N d)%N)) as HN.
  { rewrite <- check_shorter. by rewrite HC. }
  apply HN. clear HC HN. unfold twos_value in HR. rewrite !set_bytes_number, number_cons, (number_cons d t) in HR. cbn [length] in HR. rewrite !pow_S in HR.
  pose proof (zbound t) as Hb. pose proof (pow_pos (length t)) as Hp. pose proof (byte_bound a) as Ha. pose proof (byte_bound d) as Hd.
  set (w := 256 ^ Z.of_nat (length t)) in *. set (q := Z.of_N (number t)) in *.
  destruct (N.ltb_spec (b2N a) 128).
  - assert (b2N a = 0%N) by nia. left. split; [done|]. nia.
  - assert (b2N a = 255%N) by nia. right. split; [done|]. nia.
Qed.
Lemma parse_big_int_exact b z : parse_big_int b = Some z <-> der_number z b.
Proof.
  unfold parse_big_int. fold (twos_value b). split.
  - destruct (check_integer b) eqn:HC; [|done]. intros E. injection E as <-.
    split; [by intros ->|]. split; [apply twos_has|]. intros b' Hb' [_ HR].
    destruct b as [|a [|d t]]; [cbn; lia|destruct b'; [done|cbn; lia]|].
    destruct (Nat.leb_spec (length (a :: d :: t)) (length b')) as [|HL]; [done|]. exfalso. apply (check_range a d t HC).
    cbn [length] in HL. assert (256 ^ Z.of_nat (length b') <= 256 ^ Z.of_nat (S (length t))) by (apply Z.pow_le_mono_r; lia). lia.
  - intros (H0 & HT & HM). destruct (check_integer b) eqn:HC; [f_equal; by apply (twos_unique b); [apply twos_has|]|]. exfalso.
    destruct b as [|a [|d t]]; [done|discriminate|]. apply check_shorter, (twos_value_shorter a d t) in HC.
    assert (twos (d :: t) z) as HT'. { rewrite (twos_unique _ _ _ HT (twos_has _)), HC. apply twos_has. }
    specialize (HM (d :: t) ltac:(done) HT'). cbn [length] in HM. lia.
Qed.
Lemma read_integer_exact b z r : read_integer b = Some (z, r) <-> exists c t, der_number z c /\ der_item Byte.x02 c t /\ b = t ++ r.
Proof.
  unfold read_integer. split.
  - destruct (read_field Byte.x02 b) as [[c q]|] eqn:E; [|done]. destruct (parse_big_int c) as [z'|] eqn:EP; [|done].
    intros E'. injection E' as -> ->. apply read_field_exact in E. destruct E as (t & Ht & ->). apply parse_big_int_exact in EP. eauto.
  - intros (c & t & Hn & Ht & ->). assert (read_field Byte.x02 (t ++ r) = Some (c, r)) as -> by (apply read_field_exact; eauto).
    apply parse_big_int_exact in Hn. by rewrite Hn.
Qed.
Lemma asn1_signature_exact sig r s : asn1_signature sig = Some (r, s) <-> exists inside after, der_pair r s inside after sig.
Proof.
  unfold asn1_signature. split.
  - destruct (read_field Byte.x30 sig) as [[c after]|] eqn:E; [|done]. destruct (read_integer c) as [[r' c']|] eqn:E1; [|done].
    destruct (read_integer c') as [[s' inside]|] eqn:E2; [|done]. intros E'. injection E' as -> ->.
    apply read_field_exact in E. destruct E as (t & Ht & ->). apply read_integer_exact in E1. destruct E1 as (a & ta & Ha & Hta & ->).
    apply read_integer_exact in E2. destruct E2 as (b & tb & Hb & Htb & ->). exists inside, after, a, b, ta, tb, t. auto 10.
  - intros (inside & after & a & b & ta & tb & t & Ha & Hb & Hta & Htb & Ht & ->).
    assert (read_field Byte.x30 (t ++ after) = Some (ta ++ tb ++ inside, after)) as -> by (apply read_field_exact; eauto).
    assert (read_integer (ta ++ tb ++ inside) = Some (r, tb ++ inside)) as -> by (apply read_integer_exact; eauto).
    assert (read_integer (tb ++ inside) = Some (s, inside)) as -> by (apply read_integer_exact; eauto). done.
Qed.
Lemma pair_appended r s inside after sig more : der_pair r s inside after sig -> der_pair r s inside (after ++ more) (sig ++ more).
Proof. intros (a & b & ta & tb & t & Ha & Hb & Hta & Htb & Ht & ->). exists a, b, ta, tb, t. rewrite <- app_assoc. auto 10. Qed.
Lemma read_appended sig more v : asn1_signature sig = Some v -> asn1_signature (sig ++ more) = Some v.
Proof.
  destruct v as [r s]. intros H. apply asn1_signature_exact in H. destruct H as (inside & after & H). apply asn1_signature_exact. eauto using pair_appended.
Qed.

(** ** Writing *)
Lemma digits_head f : forall n acc, 0 < Z.of_N n -> (n < 256 ^ N.of_nat f)%N -> exists a t, digits f n acc = a :: t /\ b2N a <> 0%N.
Proof.
  induction f as [|f IH]; intros n acc Hn Hf; [cbn in Hf; lia|]. cbn [digits]. destruct (N.eqb_spec n 0) as [|H0]; [lia|].
  rewrite Nat2N.inj_succ, N.pow_succ_r' in Hf.
  destruct (N.eqb_spec (n / 256) 0) as [Hz|Hz].
  - rewrite Hz. assert (digits f 0 (N2b n :: acc) = N2b n :: acc) as -> by by destruct f.
    exists (N2b n), acc. split; [done|]. apply N.div_small_iff in Hz; [|done]. rewrite b2N_N2b_small; lia.
  - apply IH; [lia|]. apply N.div_lt_upper_bound; lia.
Qed.
Lemma int_bytes_head n : (0 < n)%N -> exists a t, int_bytes n = a :: t /\ b2N a <> 0%N.
Proof.
  intros H. unfold int_bytes. apply digits_head; [lia|].
  assert (n < 2 ^ N.of_nat (N.size_nat n))%N as HS.
  { destruct n as [|p]; [lia|]. cbn [N.size_nat]. pose proof (N.size_gt (N.pos p)) as HS.
    assert (N.of_nat (Pos.size_nat p) = N.size (N.pos p)) as ->; [|exact HS].
    clear. cbn [N.size]. induction p as [p IH|p IH|]; cbn [Pos.size_nat Pos.size]; [| |done]; rewrite Nat2N.inj_succ, IH; done. }
  eapply N.lt_le_trans; [exact HS|]. apply N.pow_le_mono_l. lia.
Qed.
Lemma write_length_der n : (n < 2 ^ 31)%N -> der_length n (write_length n).
Proof.
  intros H. unfold write_length. destruct (N.ltb_spec n 128) as [Hs|Hs]; [by left|]. right. split; [lia|].
  destruct (int_bytes_head n ltac:(lia)) as (a & t & E & Ha). exists a, t. rewrite E. split; [done|]. split; [done|]. rewrite <- E. apply int_bytes_number.
Qed.
Lemma write_field_der tag c : (N.of_nat (length c) < 2 ^ 31)%N -> der_item tag c (write_field tag c).
Proof. intros H. exists (write_length (N.of_nat (length c))). split; [by apply write_length_der|done]. Qed.
Lemma content_der n : der_number (Z.of_N n) (big_int_content n).
Proof.
  apply parse_big_int_exact. unfold parse_big_int. fold (twos_value (big_int_content n)). unfold big_int_content.
  pose proof (int_bytes_number n) as EN. destruct (N.eqb_spec n 0) as [->|H0]; [reflexivity|].
  destruct (int_bytes_head n ltac:(lia)) as (a & t & E & Ha). rewrite E in EN |- *. destruct (N.ltb_spec (b2N a) 128) as [Hs|Hs].
  - assert (check_integer (a :: t) = true) as ->. { destruct t; cbn [check_integer]; lia. }
    unfold twos_value. rewrite set_bytes_number, EN. destruct (N.ltb_spec (b2N a) 128); [done|lia].
  - assert (check_integer (Byte.x00 :: a :: t) = true) as ->. { cbn [check_integer]. change (b2N Byte.x00) with 0%N. lia. }
    unfold twos_value. rewrite set_bytes_number. change (b2N Byte.x00 <? 128)%N with true. cbv iota. f_equal. f_equal. rewrite <- EN. reflexivity.
Qed.
Lemma content_length n k : (n < 256 ^ N.of_nat k)%N -> (length (big_int_content n) <= k + 1)%nat.
Proof.
  intros H. apply int_bytes_length in H. unfold big_int_content. destruct (int_bytes n) as [|a t]; cbn [length] in *; [lia|].
  destruct (b2N a <? 128)%N; cbn [length]; lia.
Qed.
Lemma write_length_length n : (n < 2 ^ 31)%N -> (1 <= length (write_length n) <= 5)%nat.
Proof.
  intros H. unfold write_length. destruct (n <? 128)%N; cbn [length]; [lia|].
  assert (length (int_bytes n) <= 4)%nat; [|lia]. apply int_bytes_length. change (256 ^ N.of_nat 4)%N with 4294967296%N. change (2 ^ 31)%N with 2147483648%N in H. lia.
Qed.
(** The numbers of a curve of up to 2^29 bytes. *)
Lemma written_pair r s k : (r < 256 ^ N.of_nat k)%N -> (s < 256 ^ N.of_nat k)%N -> (N.of_nat k < 2 ^ 29)%N ->
  der_pair (Z.of_N r) (Z.of_N s) [] [] (write_signature r s).
Proof.
  intros Hr Hs Hk. apply content_length in Hr, Hs. change (2 ^ 29)%N with 536870912%N in Hk.
  assert (forall n, (n <= k + 1)%nat -> (N.of_nat n < 2 ^ 31)%N) as Hn by (intros n; change (2 ^ 31)%N with 2147483648%N; lia).
  assert (forall c, (length c <= k + 1)%nat -> (length (write_field Byte.x02 c) <= k + 7)%nat) as HF.
  { intros c Hc. unfold write_field. cbn [length]. rewrite app_length. pose proof (write_length_length (N.of_nat (length c)) (Hn _ Hc)). lia. }
  exists (big_int_content r), (big_int_content s), (write_field Byte.x02 (big_int_content r)), (write_field Byte.x02 (big_int_content s)), (write_signature r s).
  split; [apply content_der|]. split; [apply content_der|]. split; [apply write_field_der; auto|]. split; [apply write_field_der; auto|].
  rewrite !app_nil_r. split; [|done]. apply write_field_der. rewrite app_length. pose proof (HF _ Hr). pose proof (HF _ Hs). change (2 ^ 31)%N with 2147483648%N. lia.
Qed.
