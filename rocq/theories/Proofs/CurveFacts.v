(** Facts about curve arithmetic. *)
From Coq Require Import NArith ZArith Znumtheory List Bool String Lia Setoid Morphisms.
From stdpp Require Import base list.
From Verif.Model Require Import Bytes Secp256k1 Curve.
From Verif.Spec Require Import CurveSpec DemoCurve.
Local Open Scope Z_scope.

(** ** Inverses *)
Lemma euclid_gcd fuel : forall r0 r1 s0 s1 d x, 0 <= r0 -> 0 <= r1 -> euclid fuel r0 r1 s0 s1 = Some (d, x) -> d = Z.gcd r0 r1.
Proof.
  induction fuel as [|fuel IH]; intros r0 r1 s0 s1 d x H0 H1 E; [discriminate|]. cbn in E.
  destruct (Z.eqb_spec r1 0) as [->|Hr].
  - injection E as <- <-. rewrite Z.gcd_0_r, Z.abs_eq; lia.
  - apply IH in E; [|lia|apply Z.mod_pos_bound; lia]. rewrite E.
    rewrite Z.gcd_comm, Z.gcd_mod by lia. apply Z.gcd_comm.
Qed.
Lemma euclid_factor fuel n g : forall r0 r1 s0 s1 d x, (n | s0 * g - r0) -> (n | s1 * g - r1) ->
  euclid fuel r0 r1 s0 s1 = Some (d, x) -> (n | x * g - d).
Proof.
  induction fuel as [|fuel IH]; intros r0 r1 s0 s1 d x H0 H1 E; [discriminate|]. cbn in E.
  destruct (Z.eqb_spec r1 0) as [->|Hr].
  - injection E as <- <-. exact H0.
  - apply IH in E; [exact E|exact H1|].
    replace ((s0 - r0 / r1 * s1) * g - r0 mod r1) with ((s0 * g - r0) - r0 / r1 * (s1 * g - r1)).
    + apply Z.divide_sub_r; [exact H0|]. apply Z.divide_mul_r. exact H1.
    + rewrite (Z.mod_eq r0 r1) by lia. ring.
Qed.
Lemma euclid_ends (k : nat) : forall r0 r1 s0 s1, 0 <= r1 -> r1 < r0 -> r0 < 2 ^ Z.of_nat k ->
  exists dx, euclid (2 * k + 1) r0 r1 s0 s1 = Some dx.
Proof.
  induction k as [|k IH]; intros r0 r1 s0 s1 H1 H0 Hk.
  - cbn in Hk. lia.
  - replace (2 * S k + 1)%nat with (S (S (2 * k + 1))) by lia. cbn [euclid].
    destruct (Z.eqb_spec r1 0) as [->|Hr]; [eauto|].
    pose proof (Z.mod_pos_bound r0 r1 ltac:(lia)) as B.
    destruct (Z.eqb_spec (r0 mod r1) 0) as [E|Hm].
    + eauto.
    + apply IH.
      * apply Z.mod_pos_bound. lia.
      * apply Z.mod_pos_bound. lia.
      * pose proof (Z.div_mod r0 r1 ltac:(lia)) as D.
        assert (1 <= r0 / r1) by (apply Z.div_le_lower_bound; lia).
        rewrite Nat2Z.inj_succ, Z.pow_succ_r in Hk by lia. nia.
Qed.
Lemma mod_inverse_exact g n : 1 < n ->
  match mod_inverse g n with
  | Ok (Some w) => rel_prime g n /\ 0 <= w < n /\ (n | w * g - 1)
  | Ok None => ~ rel_prime g n
  | _ => False
  end.
Proof.
  intros Hn. unfold mod_inverse, euclid_steps.
  assert (Hg : 0 <= g mod n < n) by (apply Z.mod_pos_bound; lia).
  destruct (euclid_ends (S (Z.to_nat (Z.log2 n))) n (g mod n) 0 (1 - (g mod n) / n * 0) ltac:(lia) ltac:(lia)) as [dx E].
  { rewrite Nat2Z.inj_succ, Z2Nat.id by apply Z.log2_nonneg. apply Z.log2_spec. lia. }
  replace (2 * Z.to_nat (Z.log2 n) + 4)%nat with (S (2 * S (Z.to_nat (Z.log2 n)) + 1)) by lia.
  cbn [euclid]. destruct (Z.eqb_spec n 0) as [|_]; [lia|].
  rewrite (Z.mod_small (g mod n) n) by lia. rewrite E. destruct dx as [d x].
  assert (Hd : d = Z.gcd n (g mod n)) by (refine (euclid_gcd _ _ _ _ _ _ _ _ _ E); lia).
  assert (Hf : (n | x * g - d)).
  { refine (euclid_factor _ n g _ _ _ _ _ _ _ _ E).
    - replace (0 * g - n) with (- 1 * n) by ring. apply Z.divide_factor_r.
    - rewrite Z.mul_0_r, Z.sub_0_r, Z.mul_1_l. rewrite (Z.mod_eq g n) by lia.
      replace (g - (g - n * (g / n))) with (g / n * n) by ring. apply Z.divide_factor_r. }
  assert (Hgcd : Z.gcd g n = d).
  { rewrite Hd, Z.gcd_comm, <- (Z.gcd_mod g n) by lia. apply Z.gcd_comm. }
  destruct (Z.eqb_spec d 1) as [E1|E1].
  - split; [|split].
    + apply Zgcd_1_rel_prime. congruence.
    + apply Z.mod_pos_bound. lia.
    + rewrite E1 in Hf. rewrite (Z.mod_eq x n) by lia.
      replace ((x - n * (x / n)) * g - 1) with ((x * g - 1) - (x / n * g) * n) by ring.
      apply Z.divide_sub_r; [exact Hf|]. apply Z.divide_factor_r.
  - intros HR. apply Zgcd_1_rel_prime in HR. congruence.
Qed.

(** ** Arithmetic modulo p *)
Section Modulo.
  Context (p : Z).
  Definition eqm (a b : Z) : Prop := (p | a - b).
  Infix "≡" := eqm (at level 70).
  Global Instance eqm_equiv : Equivalence eqm.
  Proof.
    split.
    - intros a. unfold eqm. rewrite Z.sub_diag. apply Z.divide_0_r.
    - intros a b H. unfold eqm. replace (b - a) with (- (a - b)) by ring. apply Z.divide_opp_r. exact H.
    - intros a b c H1 H2. unfold eqm. replace (a - c) with ((a - b) + (b - c)) by ring. apply Z.divide_add_r; assumption.
  Qed.
  Global Instance eqm_add : Proper (eqm ==> eqm ==> eqm) Z.add.
  Proof. intros a a' Ha b b' Hb. unfold eqm. replace (a + b - (a' + b')) with ((a - a') + (b - b')) by ring. apply Z.divide_add_r; assumption. Qed.
  Global Instance eqm_sub : Proper (eqm ==> eqm ==> eqm) Z.sub.
  Proof. intros a a' Ha b b' Hb. unfold eqm. replace (a - b - (a' - b')) with ((a - a') - (b - b')) by ring. apply Z.divide_sub_r; assumption. Qed.
  Global Instance eqm_mul : Proper (eqm ==> eqm ==> eqm) Z.mul.
  Proof.
    intros a a' Ha b b' Hb. unfold eqm. replace (a * b - a' * b') with ((a - a') * b + a' * (b - b')) by ring.
    apply Z.divide_add_r; [apply Z.divide_mul_l|apply Z.divide_mul_r]; assumption.
  Qed.
  Global Instance eqm_pow : Proper (eqm ==> eq ==> eqm) Z.pow.
  Proof.
    intros a a' Ha e e' <-. destruct (Z.neg_nonneg_cases e) as [He|He]; [rewrite !Z.pow_neg_r by exact He; reflexivity|].
    revert e He. apply natlike_ind; [rewrite !Z.pow_0_r; reflexivity|]. intros e He IH.
    rewrite !Z.pow_succ_r by exact He. apply eqm_mul; [exact Ha|exact IH].
  Qed.
  Lemma eqm_mod a : p <> 0 -> a mod p ≡ a.
  Proof. intros Hp. unfold eqm. rewrite Z.mod_eq by exact Hp. replace (a - p * (a / p) - a) with (- (a / p) * p) by ring. apply Z.divide_factor_r. Qed.
  Lemma eqm_0 a : a ≡ 0 <-> (p | a).
  Proof. unfold eqm. rewrite Z.sub_0_r. reflexivity. Qed.
  Lemma eqm_sub_0 a b : a ≡ b <-> a - b ≡ 0.
  Proof. rewrite eqm_0. reflexivity. Qed.
  Lemma eqm_same a b : a = b -> a ≡ b.
  Proof. intros ->. reflexivity. Qed.
  (** Units cancel. *)
  Lemma unit_of a : 1 < p -> rel_prime a p -> exists w, w * a ≡ 1.
  Proof. intros Hp Ha. destruct (rel_prime_bezout _ _ Ha) as [u v E]. exists u. unfold eqm. exists (- v). nia. Qed.
  Lemma unit_cancel a w x y : w * a ≡ 1 -> a * x ≡ a * y -> x ≡ y.
  Proof.
    intros Hw H. transitivity (w * a * x); [rewrite Hw; apply eqm_same; ring|].
    transitivity (w * (a * x)); [apply eqm_same; ring|]. rewrite H.
    transitivity (w * a * y); [apply eqm_same; ring|]. rewrite Hw. apply eqm_same. ring.
  Qed.
  Lemma unit_rel a w : w * a ≡ 1 -> rel_prime a p.
  Proof. intros [k E]. apply bezout_rel_prime. apply (Bezout_intro _ _ _ w (- k)). lia. Qed.
  Lemma unit_eqm a b : a ≡ b -> rel_prime a p <-> rel_prime b p.
  Proof.
    assert (X : forall a b, a ≡ b -> rel_prime a p -> rel_prime b p).
    { intros a' b' [k E] H. destruct (rel_prime_bezout _ _ H) as [u v B]. apply bezout_rel_prime.
      apply (Bezout_intro _ _ _ u (v + u * k)). replace b' with (a' - k * p) by lia. nia. }
    intros H. split; [apply X; exact H|apply X; symmetry; exact H].
  Qed.
  Lemma unit_mul a b : rel_prime (a * b) p <-> rel_prime a p /\ rel_prime b p.
  Proof.
    split.
    - intros H. destruct (rel_prime_bezout _ _ H) as [u v B]. split; apply bezout_rel_prime.
      + apply (Bezout_intro _ _ _ (u * b) v). nia.
      + apply (Bezout_intro _ _ _ (u * a) v). nia.
    - intros [Ha Hb]. apply rel_prime_sym, rel_prime_mult; apply rel_prime_sym; assumption.
  Qed.
  Lemma reduced_same a b : reduced p a -> reduced p b -> a ≡ b -> a = b.
  Proof. intros Ha Hb [k E]. unfold reduced in *. assert (k = 0) by nia. lia. Qed.
End Modulo.

(** ** The formulas *)
Section Curve.
  Context (c : bit_curve).
  Notation p := (cu_p c).
  Infix "≡" := (eqm p) (at level 70).
  Context (Hp : 1 < p).

  Lemma lift_eqm v : lift c v ≡ v.
  Proof.
    unfold lift. destruct (Z.ltb v 0); [|reflexivity].
    unfold eqm. replace (v + p - v) with p by ring. apply Z.divide_refl.
  Qed.
  Lemma modp a : a mod p ≡ a.
  Proof. apply eqm_mod. lia. Qed.

  Lemma add_formulas x1 y1 z1 x2 y2 z2 x3 y3 z3 : add_jacobian c x1 y1 z1 x2 y2 z2 = (x3, y3, z3) ->
    let H := x2 * z1 ^ 2 - x1 * z2 ^ 2 in let R := y2 * z1 ^ 3 - y1 * z2 ^ 3 in
    z3 ≡ 2 * z1 * z2 * H /\ x3 ≡ 4 * R ^ 2 - 4 * H ^ 3 - 8 * x1 * z2 ^ 2 * H ^ 2
    /\ y3 ≡ 2 * R * (4 * x1 * z2 ^ 2 * H ^ 2 - x3) - 8 * y1 * z2 ^ 3 * H ^ 3.
  Proof.
    unfold add_jacobian. intros E. injection E as <- <- <-.
    set (z1z1 := (z1 * z1) mod p). set (z2z2 := (z2 * z2) mod p).
    set (u1 := (x1 * z2z2) mod p). set (u2 := (x2 * z1z1) mod p).
    set (s1 := (y1 * z2 * z2z2) mod p). set (s2 := (y2 * z1 * z1z1) mod p).
    set (h := lift c (u2 - u1)). set (r := lift c (s2 - s1)).
    assert (Ez1 : z1z1 ≡ z1 ^ 2) by (unfold z1z1; rewrite modp; apply eqm_same; ring).
    assert (Ez2 : z2z2 ≡ z2 ^ 2) by (unfold z2z2; rewrite modp; apply eqm_same; ring).
    assert (Eu1 : u1 ≡ x1 * z2 ^ 2) by (unfold u1; rewrite modp, Ez2; reflexivity).
    assert (Eu2 : u2 ≡ x2 * z1 ^ 2) by (unfold u2; rewrite modp, Ez1; reflexivity).
    assert (Es1 : s1 ≡ y1 * z2 ^ 3) by (unfold s1; rewrite modp, Ez2; apply eqm_same; ring).
    assert (Es2 : s2 ≡ y2 * z1 ^ 3) by (unfold s2; rewrite modp, Ez1; apply eqm_same; ring).
    assert (Eh : h ≡ x2 * z1 ^ 2 - x1 * z2 ^ 2) by (unfold h; rewrite lift_eqm, Eu1, Eu2; reflexivity).
    assert (Er : r ≡ y2 * z1 ^ 3 - y1 * z2 ^ 3) by (unfold r; rewrite lift_eqm, Es1, Es2; reflexivity).
    cbv zeta. repeat split.
    - rewrite modp, !lift_eqm, Ez1, Ez2, Eh. apply eqm_same. ring.
    - rewrite modp, Eh, Er, Eu1. apply eqm_same. ring.
    - set (x3 := (2 * r * (2 * r) - h * (2 * h * (2 * h)) - u1 * (2 * h * (2 * h)) - u1 * (2 * h * (2 * h))) mod p).
      rewrite (modp (2 * r * _ - _)), Eh, Er, Eu1, Es1. apply eqm_same. ring.
  Qed.
  Lemma double_formulas x y z x3 y3 z3 : double_jacobian c x y z = (x3, y3, z3) ->
    z3 ≡ 2 * y * z /\ x3 ≡ 9 * x ^ 4 - 8 * x * y ^ 2 /\ y3 ≡ 3 * x ^ 2 * (4 * x * y ^ 2 - x3) - 8 * y ^ 4.
  Proof.
    unfold double_jacobian. intros E. injection E as <- <- <-. repeat split.
    - rewrite modp. apply eqm_same. ring.
    - rewrite modp. apply eqm_same. ring.
    - match goal with |- _ ≡ 3 * x ^ 2 * (_ - ?a) - _ => set (x3 := a) end.
      rewrite modp. apply eqm_same. ring.
  Qed.

  (** Two is a unit modulo an odd number. *)
  Lemma two_unit : Z.odd p = true -> rel_prime 2 p.
  Proof.
    intros Ho. apply Z.odd_spec in Ho as [k E]. apply bezout_rel_prime. apply (Bezout_intro _ _ _ (- k) 1). lia.
  Qed.

  Lemma add_unit x1 y1 z1 x2 y2 z2 X1 Y1 X2 Y2 X3 Y3 Z3 : Z.odd p = true ->
    stands_for p (X1, Y1, z1) x1 y1 -> stands_for p (X2, Y2, z2) x2 y2 ->
    add_jacobian c X1 Y1 z1 X2 Y2 z2 = (X3, Y3, Z3) -> rel_prime Z3 p <-> rel_prime (x2 - x1) p.
  Proof.
    intros Ho (U1 & A1 & _) (U2 & A2 & _) E. destruct (add_formulas _ _ _ _ _ _ _ _ _ E) as (EZ & _ & _).
    change (X1 ≡ x1 * z1 ^ 2) in A1. change (X2 ≡ x2 * z2 ^ 2) in A2. rewrite A1, A2 in EZ.
    assert (EZ' : Z3 ≡ 2 * z1 * z2 * z1 * z1 * z2 * z2 * (x2 - x1)) by (rewrite EZ; apply eqm_same; ring).
    rewrite (unit_eqm p _ _ EZ'), !unit_mul. pose proof (two_unit Ho). tauto.
  Qed.
  Lemma add_stands x1 y1 z1 x2 y2 z2 X1 Y1 X2 Y2 x3 y3 : Z.odd p = true ->
    stands_for p (X1, Y1, z1) x1 y1 -> stands_for p (X2, Y2, z2) x2 y2 -> rel_prime (x2 - x1) p ->
    chord p x1 y1 x2 y2 x3 y3 -> stands_for p (add_jacobian c X1 Y1 z1 X2 Y2 z2) x3 y3.
  Proof.
    intros Ho S1 S2 Hd (l & Hl & _ & _ & L3 & L4). destruct (add_jacobian c X1 Y1 z1 X2 Y2 z2) as [[X3 Y3] Z3] eqn:E.
    split; [apply (add_unit _ _ _ _ _ _ _ _ _ _ _ _ _ Ho S1 S2 E); exact Hd|].
    destruct (add_formulas _ _ _ _ _ _ _ _ _ E) as (EZ & EX & EY).
    destruct S1 as (_ & A1 & B1), S2 as (_ & A2 & B2).
    change (X1 ≡ x1 * z1 ^ 2) in A1. change (X2 ≡ x2 * z2 ^ 2) in A2.
    change (Y1 ≡ y1 * z1 ^ 3) in B1. change (Y2 ≡ y2 * z2 ^ 3) in B2.
    change (l * (x2 - x1) ≡ y2 - y1) in Hl. change (x3 ≡ l ^ 2 - x1 - x2) in L3. change (y3 ≡ l * (x1 - x3) - y1) in L4.
    rewrite A1, A2 in EZ. rewrite A1, A2, B1, B2 in EX. rewrite A1, A2, B1, B2 in EY.
    assert (ER : y2 * z2 ^ 3 * z1 ^ 3 - y1 * z1 ^ 3 * z2 ^ 3 ≡ l * (x2 - x1) * z1 ^ 3 * z2 ^ 3) by (rewrite Hl; apply eqm_same; ring).
    rewrite ER in EX, EY. assert (EX' : X3 ≡ x3 * Z3 ^ 2) by (rewrite EX, L3, EZ; apply eqm_same; ring).
    split; [exact EX'|]. change (Y3 ≡ y3 * Z3 ^ 3). rewrite EY, EX', L4, EZ. apply eqm_same. ring.
  Qed.
  Lemma double_unit x y X Y z X3 Y3 Z3 : Z.odd p = true -> stands_for p (X, Y, z) x y ->
    double_jacobian c X Y z = (X3, Y3, Z3) -> rel_prime Z3 p <-> rel_prime y p.
  Proof.
    intros Ho (U & _ & B) E. destruct (double_formulas _ _ _ _ _ _ E) as (EZ & _ & _).
    change (Y ≡ y * z ^ 3) in B. rewrite B in EZ.
    assert (EZ' : Z3 ≡ 2 * z * z * z * z * y) by (rewrite EZ; apply eqm_same; ring).
    rewrite (unit_eqm p _ _ EZ'), !unit_mul. pose proof (two_unit Ho). tauto.
  Qed.
  Lemma double_stands x y X Y z x3 y3 : Z.odd p = true -> stands_for p (X, Y, z) x y -> rel_prime y p ->
    tangent p x y x3 y3 -> stands_for p (double_jacobian c X Y z) x3 y3.
  Proof.
    intros Ho S Hd (l & Hl & _ & _ & L3 & L4). destruct (double_jacobian c X Y z) as [[X3 Y3] Z3] eqn:E.
    split; [apply (double_unit _ _ _ _ _ _ _ _ Ho S E); exact Hd|].
    destruct (double_formulas _ _ _ _ _ _ E) as (EZ & EX & EY).
    destruct S as (_ & A & B). change (X ≡ x * z ^ 2) in A. change (Y ≡ y * z ^ 3) in B.
    change (l * (2 * y) ≡ 3 * x ^ 2) in Hl. change (x3 ≡ l ^ 2 - x - x) in L3. change (y3 ≡ l * (x - x3) - y) in L4.
    rewrite B in EZ. rewrite A, B in EX. rewrite A, B in EY.
    assert (EX' : X3 ≡ x3 * Z3 ^ 2).
    { rewrite EX, L3, EZ. transitivity ((3 * x ^ 2) ^ 2 * z ^ 8 - 8 * x * y ^ 2 * z ^ 8); [apply eqm_same; ring|].
      assert (Q : (3 * x ^ 2) ^ 2 ≡ (l * (2 * y)) ^ 2) by (rewrite Hl; reflexivity).
      rewrite Q. apply eqm_same. ring. }
    split; [exact EX'|]. change (Y3 ≡ y3 * Z3 ^ 3). rewrite EY, EX', L4, EZ.
    transitivity (3 * x ^ 2 * z ^ 4 * (4 * x * y ^ 2 * z ^ 8 - x3 * (2 * y * z ^ 4) ^ 2) - 8 * y ^ 4 * z ^ 12); [apply eqm_same; ring|].
    rewrite <- Hl. apply eqm_same. ring.
  Qed.

  (** Back to affine coordinates. *)
  Lemma affine_exact X Y z x y : stands_for p (X, Y, z) x y -> reduced p x -> reduced p y ->
    affine_from_jacobian c (X, Y, z) = Ok (x, y).
  Proof.
    intros (U & A & B) Hx Hy. unfold affine_from_jacobian. pose proof (mod_inverse_exact z p Hp) as HI.
    destruct (mod_inverse z p) as [[w|]| | |]; [|exfalso; tauto|tauto..]. destruct HI as (_ & _ & W).
    change (X ≡ x * z ^ 2) in A. change (Y ≡ y * z ^ 3) in B. change (w * z ≡ 1) in W.
    f_equal. f_equal; apply (reduced_same p); try assumption; try (apply Z.mod_pos_bound; lia).
    - rewrite modp, A. transitivity (x * ((w * z) * (w * z))); [apply eqm_same; ring|]. rewrite W. apply eqm_same. ring.
    - rewrite modp, B. transitivity (y * ((w * z) * (w * z) * (w * z))); [apply eqm_same; ring|]. rewrite W. apply eqm_same. ring.
  Qed.
  Lemma affine_panics X Y z : ~ rel_prime z p -> affine_from_jacobian c (X, Y, z) = Panic.
  Proof.
    intros U. unfold affine_from_jacobian. pose proof (mod_inverse_exact z p Hp) as HI.
    destruct (mod_inverse z p) as [[w|]| | |]; [exfalso; tauto|reflexivity|tauto..].
  Qed.

  (** ** The sums exist and are unique *)
  Lemma line_exists l x1 y1 x2 : exists x3 y3, line p l x1 y1 x2 x3 y3.
  Proof.
    exists ((l ^ 2 - x1 - x2) mod p). exists ((l * (x1 - (l ^ 2 - x1 - x2) mod p) - y1) mod p).
    repeat split; try (apply Z.mod_pos_bound; lia); apply modp.
  Qed.
  Lemma line_unique l l' x1 y1 x2 x3 y3 x3' y3' : l ≡ l' -> line p l x1 y1 x2 x3 y3 -> line p l' x1 y1 x2 x3' y3' -> x3 = x3' /\ y3 = y3'.
  Proof.
    intros El (R1 & R2 & A & B) (R1' & R2' & A' & B').
    change (x3 ≡ l ^ 2 - x1 - x2) in A. change (y3 ≡ l * (x1 - x3) - y1) in B.
    change (x3' ≡ l' ^ 2 - x1 - x2) in A'. change (y3' ≡ l' * (x1 - x3') - y1) in B'.
    assert (Ex : x3 ≡ x3') by (rewrite A, A', El; reflexivity).
    split; apply (reduced_same p); try assumption. rewrite B, B', El, Ex. reflexivity.
  Qed.
  Lemma slope a b : rel_prime a p -> exists l, l * a ≡ b.
  Proof. intros Ha. destruct (unit_of p a Hp Ha) as [w W]. exists (b * w). transitivity (b * (w * a)); [apply eqm_same; ring|]. rewrite W. apply eqm_same. ring. Qed.
  Lemma slope_unique a b l l' : rel_prime a p -> l * a ≡ b -> l' * a ≡ b -> l ≡ l'.
  Proof.
    intros Ha E E'. destruct (unit_of p a Hp Ha) as [w W]. apply (unit_cancel p a w); [exact W|].
    rewrite (Z.mul_comm a l), (Z.mul_comm a l'), E, E'. reflexivity.
  Qed.
  Lemma chord_exists x1 y1 x2 y2 : rel_prime (x2 - x1) p -> exists x3 y3, chord p x1 y1 x2 y2 x3 y3.
  Proof.
    intros Hd. destruct (slope (x2 - x1) (y2 - y1) Hd) as [l Hl]. destruct (line_exists l x1 y1 x2) as (x3 & y3 & HL).
    exists x3, y3, l. split; [exact Hl|exact HL].
  Qed.
  Lemma chord_unique x1 y1 x2 y2 x3 y3 x3' y3' : rel_prime (x2 - x1) p ->
    chord p x1 y1 x2 y2 x3 y3 -> chord p x1 y1 x2 y2 x3' y3' -> x3 = x3' /\ y3 = y3'.
  Proof.
    intros Hd (l & Hl & HL) (l' & Hl' & HL').
    exact (line_unique l l' _ _ _ _ _ _ _ (slope_unique _ _ _ _ Hd Hl Hl') HL HL').
  Qed.
  Lemma two_mul_unit y : Z.odd p = true -> rel_prime y p -> rel_prime (2 * y) p.
  Proof. intros Ho Hy. apply unit_mul. split; [exact (two_unit Ho)|exact Hy]. Qed.
  Lemma tangent_exists x y : Z.odd p = true -> rel_prime y p -> exists x3 y3, tangent p x y x3 y3.
  Proof.
    intros Ho Hy. destruct (slope (2 * y) (3 * x ^ 2) (two_mul_unit y Ho Hy)) as [l Hl].
    destruct (line_exists l x y x) as (x3 & y3 & HL). exists x3, y3, l. split; [exact Hl|exact HL].
  Qed.
  Lemma tangent_unique x y x3 y3 x3' y3' : Z.odd p = true -> rel_prime y p ->
    tangent p x y x3 y3 -> tangent p x y x3' y3' -> x3 = x3' /\ y3 = y3'.
  Proof.
    intros Ho Hd (l & Hl & HL) (l' & Hl' & HL').
    exact (line_unique l l' _ _ _ _ _ _ _ (slope_unique _ _ _ _ (two_mul_unit y Ho Hd) Hl Hl') HL HL').
  Qed.

  Lemma affine_stands x y : stands_for p (x, y, 1) x y.
  Proof.
    split; [apply bezout_rel_prime; apply (Bezout_intro _ _ _ 1 0); ring|].
    split; apply eqm_same; ring.
  Qed.
  Lemma add_exact x1 y1 x2 y2 : Z.odd p = true ->
    match curve_add c x1 y1 x2 y2 with
    | Ok (x3, y3) => rel_prime (x2 - x1) p /\ forall x y, chord p x1 y1 x2 y2 x y <-> x = x3 /\ y = y3
    | Panic => ~ rel_prime (x2 - x1) p
    | _ => False
    end.
  Proof.
    intros Ho. unfold curve_add. destruct (rel_prime_dec (x2 - x1) p) as [Hd|Hd].
    - destruct (chord_exists x1 y1 x2 y2 Hd) as (x3 & y3 & HC).
      pose proof (add_stands _ _ _ _ _ _ _ _ _ _ _ _ Ho (affine_stands x1 y1) (affine_stands x2 y2) Hd HC) as HS.
      destruct (add_jacobian c x1 y1 1 x2 y2 1) as [[X Y] z].
      rewrite (affine_exact X Y z x3 y3 HS) by (destruct HC as (l & _ & HL); apply HL).
      split; [exact Hd|]. intros x y. split.
      + intros HC'. exact (chord_unique _ _ _ _ _ _ _ _ Hd HC' HC).
      + intros [-> ->]. exact HC.
    - destruct (add_jacobian c x1 y1 1 x2 y2 1) as [[X Y] z] eqn:E. rewrite affine_panics; [exact Hd|].
      rewrite (add_unit _ _ _ _ _ _ _ _ _ _ _ _ _ Ho (affine_stands x1 y1) (affine_stands x2 y2) E). exact Hd.
  Qed.
  Lemma double_exact x y : Z.odd p = true ->
    match curve_double c x y with
    | Ok (x3, y3) => rel_prime y p /\ forall a b, tangent p x y a b <-> a = x3 /\ b = y3
    | Panic => ~ rel_prime y p
    | _ => False
    end.
  Proof.
    intros Ho. unfold curve_double. destruct (rel_prime_dec y p) as [Hd|Hd].
    - destruct (tangent_exists x y Ho Hd) as (x3 & y3 & HC).
      pose proof (double_stands _ _ _ _ _ _ _ Ho (affine_stands x y) Hd HC) as HS.
      destruct (double_jacobian c x y 1) as [[X Y] z].
      rewrite (affine_exact X Y z x3 y3 HS) by (destruct HC as (l & _ & HL); apply HL).
      split; [exact Hd|]. intros a b. split.
      + intros HC'. exact (tangent_unique _ _ _ _ _ _ Ho Hd HC' HC).
      + intros [-> ->]. exact HC.
    - destruct (double_jacobian c x y 1) as [[X Y] z] eqn:E. rewrite affine_panics; [exact Hd|].
      rewrite (double_unit _ _ _ _ _ _ _ _ Ho (affine_stands x y) E). exact Hd.
  Qed.

  (** ** Sums stay on the curve *)
  Lemma on_curve_iff x y : is_on_curve c x y = true <-> lies_on p (cu_b c) x y.
  Proof.
    unfold is_on_curve, lies_on. rewrite Z.eqb_eq. split.
    - intros E. change (y ^ 2 ≡ x ^ 3 + cu_b c). transitivity (y * y); [apply eqm_same; ring|].
      rewrite <- (modp (y * y)), <- E, modp. apply eqm_same. ring.
    - intros E. change (y ^ 2 ≡ x ^ 3 + cu_b c) in E. apply (reduced_same p); try (apply Z.mod_pos_bound; lia).
      rewrite !modp. transitivity (x ^ 3 + cu_b c); [apply eqm_same; ring|]. rewrite <- E. apply eqm_same. ring.
  Qed.
  Lemma chord_on_curve b x1 y1 x2 y2 x3 y3 : rel_prime (x2 - x1) p -> lies_on p b x1 y1 -> lies_on p b x2 y2 ->
    chord p x1 y1 x2 y2 x3 y3 -> lies_on p b x3 y3.
  Proof.
    intros Hd H1 H2 (l & Hl & _ & _ & L3 & L4).
    change (y1 ^ 2 ≡ x1 ^ 3 + b) in H1. change (y2 ^ 2 ≡ x2 ^ 3 + b) in H2.
    change (l * (x2 - x1) ≡ y2 - y1) in Hl. change (x3 ≡ l ^ 2 - x1 - x2) in L3. change (y3 ≡ l * (x1 - x3) - y1) in L4.
    destruct (unit_of p _ Hp Hd) as [w W].
    change (y3 ^ 2 ≡ x3 ^ 3 + b).
    (* the line meets the curve at x1, x2: subtract the two equations *)
    assert (Ey2 : y2 ≡ l * (x2 - x1) + y1) by (rewrite Hl; apply eqm_same; ring).
    assert (Q : l ^ 2 * (x2 - x1) + 2 * l * y1 ≡ x1 ^ 2 + x1 * x2 + x2 ^ 2).
    { apply (unit_cancel p (x2 - x1) w); [exact W|].
      transitivity ((l * (x2 - x1) + y1) ^ 2 - y1 ^ 2); [apply eqm_same; ring|].
      rewrite H1. transitivity (y2 ^ 2 - (x1 ^ 3 + b)); [rewrite Ey2; reflexivity|].
      rewrite H2. apply eqm_same. ring. }
    apply eqm_sub_0.
    assert (L4' : y3 ^ 2 ≡ (l * (x1 - x3) - y1) ^ 2) by (rewrite L4; reflexivity). rewrite L4'.
    transitivity ((x1 - x3) * (l ^ 2 * (x1 - x3) - 2 * l * y1) + y1 ^ 2 - x3 ^ 3 - b); [apply eqm_same; ring|].
    rewrite H1.
    transitivity ((x1 - x3) * (l ^ 2 * (x1 - x3) - 2 * l * y1 + x1 ^ 2 + x1 * x3 + x3 ^ 2)); [apply eqm_same; ring|].
    assert (Q2 : l ^ 2 * (x1 - x3) - 2 * l * y1 + x1 ^ 2 + x1 * x3 + x3 ^ 2 ≡ 0).
    { transitivity (l ^ 2 * (x2 - x3) + x1 ^ 2 + x1 * x3 + x3 ^ 2 - (l ^ 2 * (x2 - x1) + 2 * l * y1)); [apply eqm_same; ring|].
      rewrite Q.
      assert (El : l ^ 2 ≡ x1 + x2 + x3) by (rewrite L3; apply eqm_same; ring).
      rewrite El. apply eqm_same. ring. }
    rewrite Q2. apply eqm_same. ring.
  Qed.
  Lemma tangent_on_curve b x y x3 y3 : lies_on p b x y -> tangent p x y x3 y3 -> lies_on p b x3 y3.
  Proof.
    intros H (l & Hl & _ & _ & L3 & L4).
    change (y ^ 2 ≡ x ^ 3 + b) in H. change (l * (2 * y) ≡ 3 * x ^ 2) in Hl.
    change (x3 ≡ l ^ 2 - x - x) in L3. change (y3 ≡ l * (x - x3) - y) in L4.
    change (y3 ^ 2 ≡ x3 ^ 3 + b). apply eqm_sub_0.
    assert (L4' : y3 ^ 2 ≡ (l * (x - x3) - y) ^ 2) by (rewrite L4; reflexivity). rewrite L4'.
    transitivity ((x - x3) * (l ^ 2 * (x - x3) - l * (2 * y)) + y ^ 2 - x3 ^ 3 - b); [apply eqm_same; ring|].
    rewrite H, Hl.
    assert (El : l ^ 2 ≡ x + x + x3) by (rewrite L3; apply eqm_same; ring).
    rewrite El. apply eqm_same. ring.
  Qed.
  Lemma chord_comm x1 y1 x2 y2 x3 y3 : chord p x1 y1 x2 y2 x3 y3 -> chord p x2 y2 x1 y1 x3 y3.
  Proof.
    intros (l & Hl & R1 & R2 & A & B).
    change (l * (x2 - x1) ≡ y2 - y1) in Hl. change (x3 ≡ l ^ 2 - x1 - x2) in A. change (y3 ≡ l * (x1 - x3) - y1) in B.
    exists l. split; [|repeat split; try apply R1; try apply R2].
    - change (l * (x1 - x2) ≡ y1 - y2). transitivity (0 - l * (x2 - x1)); [apply eqm_same; ring|]. rewrite Hl. apply eqm_same. ring.
    - change (x3 ≡ l ^ 2 - x2 - x1). rewrite A. apply eqm_same. ring.
    - change (y3 ≡ l * (x2 - x3) - y2). rewrite B. transitivity (l * (x2 - x3) - y1 - l * (x2 - x1)); [apply eqm_same; ring|].
      rewrite Hl. apply eqm_same. ring.
  Qed.
End Curve.

(** ** In the terms of the claims *)
Section Claims.
  Context (c : bit_curve) (Hp : 1 < cu_p c) (Ho : Z.odd (cu_p c) = true).
  Notation p := (cu_p c).
  Lemma add_on_curve x1 y1 x2 y2 x3 y3 : is_on_curve c x1 y1 = true -> is_on_curve c x2 y2 = true ->
    curve_add c x1 y1 x2 y2 = Ok (x3, y3) -> is_on_curve c x3 y3 = true.
  Proof.
    intros H1 H2 E. pose proof (add_exact c Hp x1 y1 x2 y2 Ho) as HA. rewrite E in HA. destruct HA as [Hd HC].
    apply (on_curve_iff c Hp). apply (on_curve_iff c Hp) in H1, H2.
    exact (chord_on_curve c Hp (cu_b c) x1 y1 x2 y2 x3 y3 Hd H1 H2 (proj2 (HC x3 y3) (conj eq_refl eq_refl))).
  Qed.
  Lemma double_on_curve x y x3 y3 : is_on_curve c x y = true -> curve_double c x y = Ok (x3, y3) -> is_on_curve c x3 y3 = true.
  Proof.
    intros H E. pose proof (double_exact c Hp x y Ho) as HA. rewrite E in HA. destruct HA as [Hd HC].
    apply (on_curve_iff c Hp). apply (on_curve_iff c Hp) in H.
    exact (tangent_on_curve c (cu_b c) x y x3 y3 H (proj2 (HC x3 y3) (conj eq_refl eq_refl))).
  Qed.
  Lemma add_comm x1 y1 x2 y2 : curve_add c x1 y1 x2 y2 = curve_add c x2 y2 x1 y1.
  Proof.
    pose proof (add_exact c Hp x1 y1 x2 y2 Ho) as HA. pose proof (add_exact c Hp x2 y2 x1 y1 Ho) as HB.
    assert (HS : rel_prime (x2 - x1) p <-> rel_prime (x1 - x2) p).
    { rewrite <- !Zgcd_1_rel_prime. replace (x1 - x2) with (- (x2 - x1)) by ring. rewrite Z.gcd_opp_l. reflexivity. }
    destruct (curve_add c x1 y1 x2 y2) as [[x3 y3]| | |]; destruct (curve_add c x2 y2 x1 y1) as [[x3' y3']| | |]; try tauto.
    destruct HA as [Hd HC], HB as [Hd' HC'].
    assert (HX : x3 = x3' /\ y3 = y3').
    { apply HC'. apply (chord_comm c). apply HC. split; reflexivity. }
    destruct HX as [-> ->]. reflexivity.
  Qed.
  Lemma rel_prime_iff a : prime p -> rel_prime a p <-> ~ (p | a).
  Proof.
    intros HP. split.
    - intros HR HD. apply rel_prime_sym in HR. pose proof (prime_ge_2 p HP); apply Zgcd_1_rel_prime in HR; apply Z.divide_gcd_iff in HD; lia.
    - intros HD. apply rel_prime_sym, prime_rel_prime; assumption.
  Qed.
  Lemma add_defined x1 y1 x2 y2 : prime p ->
    (exists x3 y3, curve_add c x1 y1 x2 y2 = Ok (x3, y3)) <-> ~ (p | x2 - x1).
  Proof.
    intros HP. rewrite <- (rel_prime_iff _ HP). pose proof (add_exact c Hp x1 y1 x2 y2 Ho) as HA.
    destruct (curve_add c x1 y1 x2 y2) as [[x3 y3]| | |]; split; try tauto.
    - intros _. exists x3, y3. reflexivity.
    - intros (x3 & y3 & E). discriminate E.
  Qed.
  Lemma double_defined x y : prime p -> (exists x3 y3, curve_double c x y = Ok (x3, y3)) <-> ~ (p | y).
  Proof.
    intros HP. rewrite <- (rel_prime_iff _ HP). pose proof (double_exact c Hp x y Ho) as HA.
    destruct (curve_double c x y) as [[x3 y3]| | |]; split; try tauto.
    - intros _. exists x3, y3. reflexivity.
    - intros (x3 & y3 & E). discriminate E.
  Qed.
  Lemma add_same_column x y y' : curve_add c x y x y' = Panic.
  Proof.
    pose proof (add_exact c Hp x y x y' Ho) as HA. destruct (curve_add c x y x y') as [[x3 y3]| | |]; try tauto.
    destruct HA as [Hd _]. exfalso. rewrite Z.sub_diag in Hd. apply Zgcd_1_rel_prime in Hd. rewrite Z.gcd_0_l in Hd. lia.
  Qed.
End Claims.

(** ** Cases *)
Lemma unit_by_inverse a p w : 0 < p -> (w * a) mod p = 1 -> rel_prime a p.
Proof.
  intros Hp E. apply bezout_rel_prime. apply (Bezout_intro _ _ _ w (- (w * a / p))).
  pose proof (Z.div_mod (w * a) p). lia.
Qed.
Lemma prime_17 : prime 17.
Proof.
  apply prime_intro; [lia|]. intros n Hn. 
  assert (n = 1 \/ n = 2 \/ n = 3 \/ n = 4 \/ n = 5 \/ n = 6 \/ n = 7 \/ n = 8 \/ n = 9 \/ n = 10 \/ n = 11 \/ n = 12 \/ n = 13 \/ n = 14 \/ n = 15 \/ n = 16) as HC by lia.
  apply Zgcd_1_rel_prime. decompose [or] HC; subst n; reflexivity.
Qed.
Lemma small_case : prime (cu_p small) /\ 1 < cu_p small /\ Z.odd (cu_p small) = true
  /\ stands_for (cu_p small) (9, 135, 3) 1 5 /\ stands_for (cu_p small) (8, 56, 2) 2 7 /\ rel_prime (2 - 1) (cu_p small) /\ rel_prime 5 (cu_p small)
  /\ curve_add small 1 5 2 7 = Ok (1, 12) /\ curve_double small 1 5 = Ok (2, 10).
Proof.
  split; [exact prime_17|]. split; [reflexivity|]. split; [reflexivity|].
  split; [split; [apply Zgcd_1_rel_prime; reflexivity|split; exists 0; reflexivity]|].
  split; [split; [apply Zgcd_1_rel_prime; reflexivity|split; exists 0; reflexivity]|].
  split; [apply Zgcd_1_rel_prime; reflexivity|]. split; [apply Zgcd_1_rel_prime; reflexivity|].
  split; vm_compute; reflexivity.
Qed.
Lemma not_neutral : exists x y, is_on_curve the_curve x y = true /\ curve_add the_curve x y 0 0 <> Ok (x, y).
Proof. exists (cu_gx the_curve), (cu_gy the_curve). split; [vm_compute; reflexivity|vm_compute; discriminate]. Qed.
