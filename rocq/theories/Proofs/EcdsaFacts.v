(** ECDSA keys as text. *)
From Coq Require Import NArith ZArith Znumtheory List Bool String Lia.
From Coq Require Import ZifyBool ZifyN ZifyNat.
From stdpp Require Import base list.
From Verif.Model Require Import Bytes Secp256k1 Curve Sign Ecdsa.
From Verif.Spec Require Import Secp256k1Spec EcdsaSpec.
From Verif.Proofs Require Import BytesFacts Secp256k1Facts PointFacts DerFacts.
Local Open Scope Z_scope.

Lemma fill_bytes_exact x n :
  match fill_bytes x n with
  | Ok b => length b = n /\ Z.of_N (number b) = Z.abs x
  | Panic => 256 ^ Z.of_nat n <= Z.abs x
  | _ => False
  end.
Proof.
  unfold fill_bytes. destruct (Z.leb_spec (256 ^ Z.of_nat n) (Z.abs x)) as [H|H]; [done|].
  destruct (read_bits_exact x n) as [HL HN]. split; [done|]. rewrite HN, N.mod_small; [lia|]. rewrite <- zpow in H. lia.
Qed.
Lemma on_params_iff c x y : 0 < pa_p c -> on_params c x y = true <-> on_short (pa_p c) (pa_b c) x y.
Proof.
  intros Hp. unfold on_params, polynomial, on_short. rewrite Z.eqb_eq. split.
  - intros E. apply Z.mod_divide; [lia|]. replace (y ^ 2 - (x ^ 3 - 3 * x + pa_b c)) with (y * y - (x * x * x - 3 * x + pa_b c)) by ring.
    rewrite Zminus_mod, E, Z.sub_diag. apply Zmod_0_l.
  - intros [k Hk]. replace (x * x * x - 3 * x + pa_b c) with (y * y + (- k) * pa_p c) by lia. by rewrite Z.mod_add by lia.
Qed.
Lemma reduced_zero p z : 0 <= z < p -> (p | z) -> z = 0.
Proof. intros H D. destruct (Z.eqb_spec z 0) as [|Hz]; [done|]. apply Z.divide_pos_le in D; lia. Qed.
Lemma two_roots p a y y' : prime p -> 0 <= y < p -> 0 <= y' < p -> (p | y ^ 2 - a) -> (p | y' ^ 2 - a) -> y' = y \/ y' = (- y) mod p.
Proof.
  intros HP Hy Hy' D D'. pose proof (prime_ge_2 p HP) as H2.
  assert (p | (y' - y) * (y' + y)) as DM.
  { replace ((y' - y) * (y' + y)) with ((y' ^ 2 - a) - (y ^ 2 - a)) by ring. by apply Z.divide_sub_r. }
  apply prime_mult in DM; [|done]. destruct DM as [[k Hk]|[k Hk]].
  - left. assert (k = 0) by nia. lia.
  - right. replace (- y) with (y' + (- k) * p) by lia. rewrite Z.mod_add by lia. symmetry. apply Z.mod_small. lia.
Qed.
Lemma opposite_parity p y : 0 < y < p -> Z.odd p = true -> Z.odd ((- y) mod p) = negb (Z.odd y).
Proof.
  intros Hy Ho. assert ((- y) mod p = p - y) as ->.
  { replace (- y) with (p - y + (- 1) * p) by lia. rewrite Z.mod_add by lia. apply Z.mod_small. lia. }
  by rewrite Z.odd_sub, Ho.
Qed.
Lemma opposite_root p a y : 0 < p -> (p | y ^ 2 - a) -> (p | ((- y) mod p) ^ 2 - a).
Proof.
  intros Hp [k Hk]. pose proof (Z.div_mod (- y) p ltac:(lia)) as E. set (q := - y / p) in *. set (m := (- y) mod p) in *.
  assert (m = - y - p * q) as -> by lia. exists (k + q * (2 * y + p * q)). nia.
Qed.
Lemma polynomial_root c x y : 0 < pa_p c -> (pa_p c | y ^ 2 - polynomial c x) <-> on_short (pa_p c) (pa_b c) x y.
Proof.
  intros Hp. unfold on_short, polynomial. set (v := x * x * x - 3 * x + pa_b c). replace (x ^ 3 - 3 * x + pa_b c) with v by (unfold v; ring).
  pose proof (Z.div_mod v (pa_p c) ltac:(lia)) as E. set (q := v / pa_p c) in *. set (m := v mod pa_p c) in *.
  split; intros [k Hk]; [exists (k - q)|exists (k + q)]; nia.
Qed.

Section Points.
  Context (c : params) (mod_sqrt : Z -> Z -> option Z).
  Notation p := (pa_p c).
  Context (HP : prime p) (HO : Z.odd p = true) (HR : square_roots p mod_sqrt).

  Lemma field_order : 1 < p. Proof. pose proof (prime_ge_2 p HP). lia. Qed.

  Lemma compressed_odd size data x odd : compressed size data x odd ->
    exists d rest, data = d :: rest /\ length rest = size /\ Z.of_N (set_bytes rest) = x /\ Byte.eqb d Byte.x03 = odd
      /\ (Byte.eqb d Byte.x02 || Byte.eqb d Byte.x03) = true.
  Proof. intros (b & -> & HL & HN). exists (if odd then Byte.x03 else Byte.x02), b. rewrite set_bytes_number. by destruct odd. Qed.

  (** What is read, exactly. *)
  Lemma compressed_reads data x y odd : compressed (field_size c) data x odd -> 0 <= x < p -> 0 <= y < p ->
    on_short p (pa_b c) x y -> odd = Z.odd y \/ y = 0 -> unmarshal_compressed mod_sqrt c data = Some (x, y).
  Proof.
    pose proof field_order as H1. intros HC Hx Hy HS Ho. destruct (compressed_odd _ _ _ _ HC) as (d & rest & -> & HL & HN & Ed & E23).
    unfold unmarshal_compressed. cbn [length]. rewrite HL, Nat.eqb_refl, E23, HN, Ed. cbn [negb].
    destruct (Z.leb_spec p x) as [|_]; [lia|]. pose proof (HR (polynomial c x)) as HQ. destruct (mod_sqrt (polynomial c x) p) as [w|].
    2:{ exfalso. apply (HQ y). apply polynomial_root; [lia|done]. }
    destruct HQ as [Hw Dw]. assert (p | y ^ 2 - polynomial c x) as Dy by (apply polynomial_root; [lia|done]).
    set (w' := if Bool.eqb (Z.odd w) odd then w else (- w) mod p). assert (w' = y) as ->.
    - unfold w'. destruct (two_roots p _ y w HP Hy Hw Dy Dw) as [-> | ->].
      + destruct Ho as [->| ->]; [by rewrite eqb_reflx|]. rewrite Zmod_0_l. by destruct (Bool.eqb _ _).
      + destruct (Z.eqb_spec y 0) as [-> | H0].
        * change (- 0) with 0. rewrite Zmod_0_l. change (- 0) with 0. rewrite Zmod_0_l. by destruct (Bool.eqb _ _).
        * destruct Ho as [-> | ?]; [|lia]. rewrite opposite_parity by (lia || done).
          assert (Bool.eqb (negb (Z.odd y)) (Z.odd y) = false) as -> by by destruct (Z.odd y).
          assert ((- y) mod p = p - y) as ->.
          { replace (- y) with (p - y + (- 1) * p) by lia. rewrite Z.mod_add by lia. apply Z.mod_small. lia. }
          replace (- (p - y)) with (y + (- 1) * p) by lia. rewrite Z.mod_add by lia. apply Z.mod_small. lia.
    - assert (on_params c x y = true) as -> by (apply on_params_iff; [lia|done]). done.
  Qed.
  Lemma compressed_read data x y : unmarshal_compressed mod_sqrt c data = Some (x, y) ->
    exists odd, compressed (field_size c) data x odd /\ 0 <= x < p /\ 0 <= y < p /\ on_short p (pa_b c) x y /\ (odd = Z.odd y \/ y = 0).
  Proof.
    pose proof field_order as H1. unfold unmarshal_compressed. destruct (Nat.eqb_spec (length data) (1 + field_size c)) as [HL|]; [|done]. cbn [negb].
    destruct data as [|d rest]; [done|]. cbn [length] in HL. injection HL as HL.
    destruct (Byte.eqb d Byte.x02 || Byte.eqb d Byte.x03) eqn:E23; [|done]. cbn [negb].
    destruct (Z.leb_spec p (Z.of_N (set_bytes rest))) as [|Hx]; [done|]. pose proof (HR (polynomial c (Z.of_N (set_bytes rest)))) as HQ.
    destruct (mod_sqrt _ p) as [w|]; [|done]. destruct HQ as [Hw Dw]. set (w' := if Bool.eqb _ _ then w else _).
    destruct (on_params c (Z.of_N (set_bytes rest)) w') eqn:EO; [|done]. intros E. injection E as <- <-.
    exists (Byte.eqb d Byte.x03). split.
    { exists rest. rewrite set_bytes_number. split; [|done]. apply orb_true_iff in E23.
      destruct (Byte.eqb d Byte.x03) eqn:E3; [apply eqb_byte in E3; by subst|]. destruct E23 as [E2|]; [apply eqb_byte in E2; by subst|done]. }
    split; [lia|]. split.
    { unfold w'. destruct (Bool.eqb _ _); [done|]. apply Z.mod_pos_bound. lia. }
    split; [by apply on_params_iff; [lia|]|]. unfold w'. destruct (Bool.eqb (Z.odd w) _) eqn:EP.
    - left. symmetry. by apply eqb_prop.
    - destruct (Z.eqb_spec w 0) as [-> | H0]; [by right; rewrite Zmod_0_l|]. left. rewrite opposite_parity by (lia || done).
      by destruct (Z.odd w), (Byte.eqb d Byte.x03).
  Qed.
  Lemma compressed_exact data x y : unmarshal_compressed mod_sqrt c data = Some (x, y)
    <-> 0 <= x < p /\ 0 <= y < p /\ on_short p (pa_b c) x y
        /\ exists odd, compressed (field_size c) data x odd /\ (odd = Z.odd y \/ y = 0).
  Proof.
    split.
    - intros H. destruct (compressed_read data x y H) as (odd & H1 & H2 & H3 & H4 & H5). eauto 10.
    - intros (H2 & H3 & H4 & odd & H1 & H5). by apply (compressed_reads data x y odd).
  Qed.
  Lemma marshal_compressed_exact x y :
    match marshal_compressed c x y with
    | Ok data => compressed (field_size c) data (Z.abs x) (Z.odd y)
    | Panic => 256 ^ Z.of_nat (field_size c) <= Z.abs x
    | _ => False
    end.
  Proof.
    unfold marshal_compressed. pose proof (fill_bytes_exact x (field_size c)) as H. destruct (fill_bytes x (field_size c)) as [b| | |]; try done.
    destruct H as [HL HN]. exists b. by destruct (Z.odd y).
  Qed.
  Lemma compressed_unique size d d' x odd : compressed size d x odd -> compressed size d' x odd -> d = d'.
  Proof. intros (b & -> & HL & HN) (b' & -> & HL' & HN'). f_equal. apply number_inj; [congruence|lia]. Qed.
  Lemma marshal_reads_back x y : p <= 256 ^ Z.of_nat (field_size c) -> 0 <= x < p -> 0 <= y < p -> on_short p (pa_b c) x y ->
    exists data, marshal_compressed c x y = Ok data /\ length data = S (field_size c) /\ unmarshal_compressed mod_sqrt c data = Some (x, y).
  Proof.
    intros HF Hx Hy HS. pose proof (marshal_compressed_exact x y) as H. destruct (marshal_compressed c x y) as [data| | |]; try done; [|lia].
    exists data. split; [done|]. rewrite Z.abs_eq in H by lia. split; [|eapply compressed_reads; eauto].
    destruct H as (b & -> & HL & _). cbn. by rewrite HL.
  Qed.
  Lemma reads_write_back data x y : unmarshal_compressed mod_sqrt c data = Some (x, y) -> y <> 0 -> marshal_compressed c x y = Ok data.
  Proof.
    intros H H0. destruct (compressed_read data x y H) as (odd & HC & Hx & Hy & HS & [->|]); [|done].
    pose proof (marshal_compressed_exact x y) as HM. rewrite Z.abs_eq in HM by lia.
    destruct (marshal_compressed c x y) as [d| | |]; try done.
    - f_equal. by apply (compressed_unique (field_size c) d data x (Z.odd y)).
    - destruct HC as (b & _ & HL & HN). pose proof (zbound b). rewrite HL in *. lia.
  Qed.
End Points.

(** ** Text of keys *)
Lemma capital_reads b : hex_digit (capital (N.div (b2N b) 16)) = Some (N.div (b2N b) 16) /\ hex_digit (capital (N.modulo (b2N b) 16)) = Some (N.modulo (b2N b) 16).
Proof. destruct b; split; reflexivity. Qed.
Lemma capitals_read b : hex_decode (capitals b) = Some b.
Proof.
  induction b as [|x b IH]; [done|]. unfold capitals in *. cbn [flat_map app hex_decode]. destruct (capital_reads x) as [-> ->]. rewrite IH.
  do 2 f_equal. rewrite <- (N2b_b2N x) at 3. f_equal. pose proof (N.div_mod (b2N x) 16). lia.
Qed.
Lemma copied buffer b :
  length (copy_into buffer b) = length buffer
  /\ ((length b <= length buffer)%nat -> take (length b) (copy_into buffer b) = b)
  /\ (forall i, (length b <= i)%nat -> copy_into buffer b !! i = buffer !! i)
  /\ ((length buffer < length b)%nat -> copy_into buffer b = take (length buffer) b).
Proof.
  unfold copy_into. repeat split.
  - rewrite app_length, take_length, drop_length. lia.
  - intros H. rewrite (take_ge b) by lia. apply take_app.
  - intros i Hi. destruct (Nat.leb_spec (length b) (length buffer)) as [H|H].
    + rewrite (take_ge b) by lia. rewrite lookup_app_r by lia. rewrite lookup_drop. f_equal. lia.
    + rewrite drop_ge by lia. rewrite app_nil_r. rewrite !lookup_ge_None_2; [done| |]; [lia|rewrite take_length; lia].
  - intros H. rewrite drop_ge by lia. apply app_nil_r.
Qed.
