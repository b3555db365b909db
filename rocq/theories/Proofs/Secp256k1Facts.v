(** Keys and signatures. *)
From Coq Require Import NArith ZArith List Bool String Lia.
From Coq Require Import ZifyBool ZifyN ZifyNat.
From stdpp Require Import base list.
From Verif.Model Require Import Bytes Secp256k1.
From Verif.Spec Require Import Secp256k1Spec.
From Verif.Proofs Require Import BytesFacts.
Local Open Scope N_scope.

(** ** Numbers as bytes *)
Lemma fold_number b n : fold_left (fun n c => n * 256 + b2N c) b n = n * 256 ^ N.of_nat (length b) + number b.
Proof.
  revert n. induction b as [|c b IH]; intros n; cbn [fold_left number length]; [change (N.of_nat 0) with 0; lia|].
  rewrite IH, Nat2N.inj_succ, N.pow_succ_r'. nia.
Qed.
Lemma set_bytes_number b : set_bytes b = number b.
Proof. unfold set_bytes. rewrite fold_number. lia. Qed.
Lemma number_app a b : number (a ++ b) = number a * 256 ^ N.of_nat (length b) + number b.
Proof.
  induction a as [|c a IH]; cbn [app number]; [lia|]. rewrite IH, app_length, Nat2N.inj_add, N.pow_add_r. nia.
Qed.
Lemma number_bound b : number b < 256 ^ N.of_nat (length b).
Proof.
  induction b as [|c b IH]; cbn [number length]; [cbn; lia|]. rewrite Nat2N.inj_succ, N.pow_succ_r'.
  pose proof (Byte.to_N_bounded c) as H. unfold b2N. nia.
Qed.
Lemma number_zeros n b : number (replicate n Byte.x00 ++ b) = number b.
Proof. induction n as [|n IH]; [done|]. cbn [replicate app number]. rewrite IH. change (b2N Byte.x00) with 0. lia. Qed.
Lemma number_inj a b : length a = length b -> number a = number b -> a = b.
Proof.
  revert b. induction a as [|c a IH]; intros [|c' b]; try discriminate; [done|]. cbn [number length]. intros H E. injection H as H.
  rewrite H in E. pose proof (number_bound a) as Ba. pose proof (number_bound b) as Bb. rewrite H in Ba.
  set (p := 256 ^ N.of_nat (length b)) in *.
  assert (b2N c = b2N c') as Ec by nia. assert (number a = number b) as En by nia.
  f_equal; [by apply b2N_inj|by apply IH].
Qed.
Lemma digits_number f n acc : n < 256 ^ N.of_nat f ->
  number (digits f n acc) = n * 256 ^ N.of_nat (length acc) + number acc.
Proof.
  revert n acc. induction f as [|f IH]; intros n acc Hn; cbn [digits].
  - cbn in Hn. assert (n = 0) as -> by lia. lia.
  - destruct (N.eqb_spec n 0) as [->|Hz]; [lia|].
    rewrite Nat2N.inj_succ, N.pow_succ_r' in Hn. rewrite IH by (apply N.div_lt_upper_bound; lia).
    cbn [length number]. rewrite b2N_N2b, Nat2N.inj_succ, N.pow_succ_r'. pose proof (N.div_mod n 256). nia.
Qed.
Lemma digits_length f n acc k : n < 256 ^ N.of_nat k -> (length (digits f n acc) <= k + length acc)%nat.
Proof.
  revert n acc k. induction f as [|f IH]; intros n acc k Hn; cbn [digits]; [lia|].
  destruct (N.eqb_spec n 0) as [->|Hz]; [lia|]. destruct k as [|k]; [cbn in Hn; lia|].
  rewrite Nat2N.inj_succ, N.pow_succ_r' in Hn.
  pose proof (IH (n / 256) (N2b n :: acc) k) as H. cbn [length] in H. assert (n / 256 < 256 ^ N.of_nat k) as Hd by (apply N.div_lt_upper_bound; lia). specialize (H Hd). lia.
Qed.
Lemma int_bytes_number n : number (int_bytes n) = n.
Proof.
  unfold int_bytes. rewrite digits_number; [cbn; lia|].
  assert (n < 2 ^ N.of_nat (N.size_nat n)) as H.
  { destruct n as [|p]; [cbn; lia|]. cbn [N.size_nat].
    pose proof (N.size_gt (N.pos p)) as HS. rewrite N.size_log2 in HS by done.
    assert (N.of_nat (Pos.size_nat p) = N.size (N.pos p)) as ->; [|rewrite N.size_log2 by done; exact HS].
    clear. cbn [N.size]. induction p as [p IH|p IH|]; cbn [Pos.size_nat Pos.size]; [| |done]; rewrite Nat2N.inj_succ, IH; done. }
  eapply N.lt_le_trans; [exact H|]. apply N.pow_le_mono_l. lia.
Qed.
Lemma int_bytes_length n k : n < 256 ^ N.of_nat k <-> (length (int_bytes n) <= k)%nat.
Proof.
  split.
  - intros H. unfold int_bytes. pose proof (digits_length (N.size_nat n) n [] k H) as HL. cbn [length] in HL. lia.
  - intros H. rewrite <- (int_bytes_number n) at 1. eapply N.lt_le_trans; [apply number_bound|]. apply N.pow_le_mono_r; lia.
Qed.
Lemma pad32_ok n : n < 2 ^ 256 -> exists b, pad32 (int_bytes n) = Ok b /\ length b = 32%nat /\ number b = n.
Proof.
  intros Hn. change (2 ^ 256) with (256 ^ N.of_nat 32) in Hn. apply int_bytes_length in Hn. unfold pad32.
  apply Nat.leb_le in Hn as E. rewrite E. eexists. split; [done|]. split.
  - rewrite app_length, replicate_length. lia.
  - by rewrite number_zeros, int_bytes_number.
Qed.
Lemma pad32_panics n : 2 ^ 256 <= n -> pad32 (int_bytes n) = Panic.
Proof.
  intros Hn. unfold pad32. destruct (Nat.leb_spec (length (int_bytes n)) 32) as [H|H]; [|done].
  apply int_bytes_length in H. change (256 ^ N.of_nat 32) with (2 ^ 256) in H. lia.
Qed.

(** ** Signatures *)
Lemma holds_iff sig r s : holds sig r s <-> length sig = 64%nat /\ signature_from_bytes sig = (r, s).
Proof.
  unfold holds, signature_from_bytes. rewrite !set_bytes_number. split.
  - intros (a & b & Ha & Hb & -> & <- & <-). rewrite app_length. split; [lia|].
    rewrite <- Ha at 1. rewrite take_app, <- Ha, drop_app. rewrite Ha, <- Hb, firstn_all. done.
  - intros [HL H]. injection H as <- <-. exists (take 32 sig), (take 32 (drop 32 sig)).
    rewrite !take_length, drop_length. split; [lia|]. split; [lia|]. split; [|done].
    rewrite <- (take_drop 32 sig) at 1. f_equal. symmetry. apply take_ge. rewrite drop_length. lia.
Qed.
Lemma holds_unique sig r s r' s' : holds sig r s -> holds sig r' s' -> r = r' /\ s = s'.
Proof. rewrite !holds_iff. intros [_ ->] [_ H]. injection H. done. Qed.
Lemma holds_bound sig r s : holds sig r s -> r < 2 ^ 256 /\ s < 2 ^ 256.
Proof.
  intros (a & b & Ha & Hb & _ & <- & <-). pose proof (number_bound a) as H1. pose proof (number_bound b) as H2.
  rewrite Ha in H1. rewrite Hb in H2. split; [exact H1|exact H2].
Qed.
Lemma serialize_holds r s : r < 2 ^ 256 -> s < 2 ^ 256 ->
  exists sig, serialize_sig r s = Ok sig /\ forall r' s', holds sig r' s' <-> r' = r /\ s' = s.
Proof.
  intros Hr Hs. unfold serialize_sig. destruct (pad32_ok r Hr) as (a & -> & La & Na). destruct (pad32_ok s Hs) as (b & -> & Lb & Nb).
  exists (a ++ b). split; [done|].
  assert (holds (a ++ b) r s) as H by (exists a, b; done). intros r' s'. split.
  - intros H'. by apply (holds_unique (a ++ b)).
  - intros [-> ->]. done.
Qed.
Lemma serialize_panics r s : 2 ^ 256 <= r \/ 2 ^ 256 <= s -> serialize_sig r s = Panic.
Proof.
  intros H. unfold serialize_sig. destruct (N.lt_ge_cases r (2 ^ 256)) as [Hr|Hr]; [|by rewrite pad32_panics].
  destruct (pad32_ok r Hr) as (a & -> & _). rewrite pad32_panics; [done|]. lia.
Qed.
Lemma serialize_reads_back sig r s : holds sig r s -> serialize_sig r s = Ok sig.
Proof.
  intros H. destruct (holds_bound _ _ _ H) as [Hr Hs]. unfold serialize_sig.
  destruct (pad32_ok r Hr) as (a & -> & La & Na). destruct (pad32_ok s Hs) as (b & -> & Lb & Nb).
  destruct H as (a' & b' & La' & Lb' & -> & Na' & Nb'). f_equal. f_equal; apply number_inj; congruence.
Qed.

Lemma half_order_iff n s : half_order n < s <-> n < 2 * s.
Proof.
  unfold half_order. rewrite N.shiftr_div_pow2. change (2 ^ 1) with 2. pose proof (N.div_mod n 2). pose proof (N.mod_lt n 2). lia.
Qed.
Section Verify.
  Context {point : Type} (parse_point : bytes -> option point) (sha256 : bytes -> bytes) (point_verify : point -> bytes -> N -> N -> bool).
  Lemma verify_iff order key msg sig : 
    verify_signature parse_point order sha256 point_verify key msg sig = true <->
    exists pub r s, parse_point key = Some pub /\ holds sig r s /\ 2 * s <= order /\ point_verify pub (sha256 msg) r s = true.
  Proof.
    unfold verify_signature. destruct (Nat.eqb_spec (length sig) 64) as [HL|HL]; cbn [negb].
    - destruct (parse_point key) as [pub|]; [|split; [discriminate|intros (? & ? & ? & [=] & _)]].
      destruct (signature_from_bytes sig) as [r s] eqn:E.
      assert (holds sig r s) as H by (by apply holds_iff).
      destruct (N.ltb_spec (half_order order) s) as [Hs|Hs].
      + split; [discriminate|]. intros (p & r' & s' & _ & H' & Hs' & _). apply half_order_iff in Hs.
        destruct (holds_unique _ _ _ _ _ H H') as [<- <-]. lia.
      + split.
        * intros HV. exists pub, r, s. do 2 (split; [done|]). split; [|done]. apply N.nlt_ge. rewrite <- half_order_iff. lia.
        * intros (p & r' & s' & [= <-] & H' & _ & HV). destruct (holds_unique _ _ _ _ _ H H') as [<- <-]. done.
    - split; [discriminate|]. intros (p & r & s & _ & H & _). apply holds_iff in H as [H _]. done.
  Qed.
  Lemma twin_refused key msg key' msg' sig twin r s :
    verify_signature parse_point curve_order sha256 point_verify key msg sig = true ->
    holds sig r s -> holds twin r (group_order - s) ->
    verify_signature parse_point curve_order sha256 point_verify key' msg' twin = false.
  Proof.
    intros HV H H'. apply verify_iff in HV as (p & r1 & s1 & _ & H1 & Hs & _). destruct (holds_unique _ _ _ _ _ H H1) as [<- <-].
    apply not_true_iff_false. intros HW. apply verify_iff in HW as (p' & r2 & s2 & _ & H2 & Hs2 & _).
    destruct (holds_unique _ _ _ _ _ H' H2) as [_ <-]. change curve_order with group_order in Hs, Hs2. unfold group_order in Hs, Hs2. lia.
  Qed.
End Verify.

(** ** Private keys *)
Lemma valid_scalar_iff d : valid_scalar d = true <-> 0 < d < group_order.
Proof. unfold valid_scalar. change curve_order with group_order. lia. Qed.
(** The first block of 32 bytes that is in range. *)
Lemma gen_loop fuel reader : (length reader < fuel)%nat ->
  match gen_priv_key_loop fuel reader with
  | Ok key => exists skipped rest, reader = concat skipped ++ key ++ rest /\ length key = 32%nat /\ 0 < number key < group_order
      /\ Forall (fun b => length b = 32%nat /\ ~ (0 < number b < group_order)) skipped
  | Panic => exists skipped rest, reader = concat skipped ++ rest /\ (length rest < 32)%nat
      /\ Forall (fun b => length b = 32%nat /\ ~ (0 < number b < group_order)) skipped
  | _ => False
  end.
Proof.
  revert reader. induction fuel as [|fuel IH]; intros reader HF; [lia|]. cbn [gen_priv_key_loop].
  destruct (Nat.ltb_spec (length reader) 32) as [HL|HL]; [exists [], reader; split; [done|]; split; [done|constructor]|].
  assert (length (take 32 reader) = 32%nat) as H32 by (rewrite take_length; lia).
  rewrite set_bytes_number. destruct (valid_scalar (number (take 32 reader))) eqn:E.
  - apply valid_scalar_iff in E. exists [], (drop 32 reader). rewrite take_drop. split; [done|]. split; [done|]. split; [done|constructor].
  - assert (~ (0 < number (take 32 reader) < group_order)) as HN by (rewrite <- valid_scalar_iff; congruence).
    pose proof (IH (drop 32 reader)) as HI. rewrite drop_length in HI.
    assert (length reader - 32 < fuel)%nat as HD by lia. specialize (HI HD).
    destruct (gen_priv_key_loop fuel (drop 32 reader)) as [key|e| |]; try done.
    + destruct HI as (sk & rest & E1 & E2 & E3 & E4). exists (take 32 reader :: sk), rest. cbn [concat].
      rewrite <- app_assoc, <- E1, take_drop. split; [done|]. split; [done|]. split; [done|]. by constructor.
    + destruct HI as (sk & rest & E1 & E2 & E3). exists (take 32 reader :: sk), rest. cbn [concat].
      rewrite <- app_assoc, <- E1, take_drop. split; [done|]. split; [done|]. by constructor.
Qed.
Lemma gen_exact reader :
  match gen_priv_key reader with
  | Ok key => exists skipped rest, reader = concat skipped ++ key ++ rest /\ length key = 32%nat /\ 0 < number key < group_order
      /\ Forall (fun b => length b = 32%nat /\ ~ (0 < number b < group_order)) skipped
  | Panic => exists skipped rest, reader = concat skipped ++ rest /\ (length rest < 32)%nat
      /\ Forall (fun b => length b = 32%nat /\ ~ (0 < number b < group_order)) skipped
  | _ => False
  end.
Proof. apply gen_loop. lia. Qed.
Lemma secret_exact sha256 secret :
  exists key, priv_key_from_secret sha256 secret = Ok key /\ length key = 32%nat /\ 0 < number key < group_order
    /\ number key = number (sha256 secret) mod (group_order - 1) + 1.
Proof.
  unfold priv_key_from_secret. rewrite set_bytes_number. change curve_order with group_order.
  set (v := number (sha256 secret) mod (group_order - 1) + 1).
  assert (0 < v < group_order) as Hv.
  { unfold v. pose proof (N.mod_lt (number (sha256 secret)) (group_order - 1)) as H. unfold group_order in *. lia. }
  destruct (pad32_ok v) as (b & -> & HL & HN); [unfold group_order in Hv; lia|]. exists b. rewrite HN. done.
Qed.

(** ** Signing and verifying *)
Section Ecdsa.
  Context {point : Type} (order : N) (base_mult : N -> point) (mult : N -> point -> point) (add : point -> point -> point)
    (first : point -> option N) (inverse : N -> option N) (nonce : N -> bytes -> N).
  Context (HC : curve_ok order base_mult mult add first inverse nonce).
  Notation verifies := (ecdsa_verify order base_mult mult add first inverse).
  Notation signs := (ecdsa_sign order base_mult first inverse nonce).
  Lemma mod_one_factor a b c d : (a * b) mod order = c mod order -> (a * d * b) mod order = (c * d) mod order.
  Proof.
    pose proof (cv_order _ _ _ _ _ _ _ HC) as H1. intros E. replace (a * d * b) with (a * b * d) by lia.
    rewrite <- N.mul_mod_idemp_l by lia. rewrite E. apply N.mul_mod_idemp_l. lia.
  Qed.
  Lemma sign_in_range d h r s : signs d h = Ok (r, s) -> 0 < r < order /\ 0 < s < order /\ 2 * s <= order.
  Proof.
    pose proof (cv_order _ _ _ _ _ _ _ HC) as H1. unfold ecdsa_sign.
    destruct (inverse (nonce d h)) as [i|]; [|discriminate]. destruct (first (base_mult (nonce d h))) as [x|]; [|discriminate].
    cbv zeta. destruct (N.eqb_spec (x mod order) 0) as [|Hr]; [discriminate|].
    set (s0 := ((d * (x mod order) + hash_to_int order h) * i) mod order).
    assert (s0 < order) as Hs0 by (apply N.mod_lt; lia). assert (x mod order < order) as Hx by (apply N.mod_lt; lia).
    destruct (N.ltb_spec (half_order order) s0) as [Hh|Hh].
    - apply half_order_iff in Hh. destruct (N.eqb_spec (order - s0) 0); [discriminate|]. intros [= <- <-]. lia.
    - assert (2 * s0 <= order) by (apply N.nlt_ge; rewrite <- half_order_iff; lia).
      destruct (N.eqb_spec s0 0); [discriminate|]. intros [= <- <-]. lia.
  Qed.
  Lemma sign_verifies d h r s : signs d h = Ok (r, s) -> verifies (base_mult d) h r s = true.
  Proof.
    pose proof (cv_order _ _ _ _ _ _ _ HC) as H1. intros HS. destruct (sign_in_range _ _ _ _ HS) as (Hr & Hs & _).
    unfold ecdsa_verify. 
    assert ((r =? 0) || (s =? 0) || (order <=? r) || (order <=? s) = false) as -> by lia.
    destruct (cv_inverse _ _ _ _ _ _ _ HC s Hs) as (w & -> & Hw & Ew).
    cbv zeta. rewrite (cv_mult _ _ _ _ _ _ _ HC), (cv_add _ _ _ _ _ _ _ HC).
    set (e := hash_to_int order h) in *.
    set (k := nonce d h) in *.
    assert (0 < k < order) as Hk by apply (cv_nonce _ _ _ _ _ _ _ HC).
    assert (((e * w) mod order + ((r * w) mod order * d) mod order) mod order = ((d * r + e) * w) mod order) as EU.
    { rewrite N.mul_mod_idemp_l by lia. rewrite <- N.add_mod by lia. f_equal. lia. }
    rewrite EU. clear EU.
    (* the scalar is the nonce or its negation *)
    assert (((d * r + e) * w) mod order = k \/ ((d * r + e) * w) mod order = order - k) as HK.
    { unfold ecdsa_sign in HS. fold k in HS.
      destruct (cv_inverse _ _ _ _ _ _ _ HC k Hk) as (i & Ei & Hi & Eik). rewrite Ei in HS.
      destruct (first (base_mult k)) as [x|]; [|discriminate]. cbv zeta in HS.
      destruct (x mod order =? 0); [discriminate|]. fold e in HS.
      set (t := d * (x mod order) + e) in *. 
      assert (r = x mod order) as Er.
      { destruct (half_order order <? _), (_ =? 0); try discriminate; by injection HS as <- _. }
      rewrite Er. fold t.
      assert (forall z, (k * ((t * i) mod order) * z) mod order = (t * z) mod order) as Hcancel.
      { intros z. rewrite <- N.mul_mod_idemp_l by lia. rewrite (N.mul_mod_idemp_r k) by lia. replace (k * (t * i)) with (k * i * t) by lia.
        rewrite <- (N.mul_mod_idemp_l (k * i)) by lia. rewrite Eik. rewrite N.mul_1_l. rewrite N.mul_mod_idemp_l by lia. done. }
      rewrite <- Hcancel. set (s0 := (t * i) mod order) in *.
      assert (s0 < order) as Hs0 by (apply N.mod_lt; lia).
      destruct (half_order order <? s0).
      - right. assert (s = order - s0) as Es by (destruct (order - s0 =? 0); [discriminate|by injection HS as _ <-]).
        assert (s0 = order - s) as -> by (clear -Es Hs0 Hs; lia).
        assert ((k * (order - s) * w + k * (s * w)) mod order = 0) as E0.
        { remember (order - s) as o eqn:Eo. assert (order = o + s) as Eo' by (clear -Eo Hs; lia).
          replace (k * o * w + k * (s * w)) with (k * w * (o + s)) by ring. rewrite <- Eo'. apply N.mod_mul. clear -H1. lia. }
        rewrite N.add_mod in E0 by (clear -H1 Hk Hs; lia). rewrite <- (N.mul_mod_idemp_r k (s * w)) in E0 by (clear -H1 Hk Hs; lia). rewrite Ew, N.mul_1_r in E0.
        rewrite (N.mod_small k) in E0 by (clear -H1 Hk Hs; lia).
        set (q := (k * (order - s) * w) mod order) in *. assert (q < order) as Hq by (apply N.mod_lt; clear -H1; lia).
        assert (q + k = order \/ q + k < order \/ order < q + k) as [Hc|[Hc|Hc]] by (clear; lia).
        + clear -Hc Hk; lia.
        + rewrite N.mod_small in E0 by exact Hc. clear -E0 Hk; lia.
        + exfalso. assert ((q + k) mod order = q + k - order) as E; [|clear -E E0 Hc; lia].
          transitivity ((q + k - order + 1 * order) mod order); [f_equal; clear -Hc; lia|]. rewrite N.mod_add by (clear -H1; lia). apply N.mod_small. clear -Hq Hk Hc; lia.
      - left. assert (s = s0) as <- by (destruct (s0 =? 0); [discriminate|by injection HS as _ <-]).
        replace (k * s * w) with (k * (s * w)) by lia. rewrite <- N.mul_mod_idemp_r by lia. rewrite Ew, N.mul_1_r. apply N.mod_small. lia. }
    assert (first (base_mult (((d * r + e) * w) mod order)) = first (base_mult k)) as ->.
    { destruct HK as [->| ->]; [done|]. by apply (cv_negated _ _ _ _ _ _ _ HC). }
    unfold ecdsa_sign in HS. fold k in HS. destruct (inverse k); [|discriminate]. destruct (first (base_mult k)) as [x|]; [|discriminate].
    cbv zeta in HS. destruct (x mod order =? 0); [discriminate|].
    apply N.eqb_eq. destruct (half_order order <? _), (_ =? 0); try discriminate; by injection HS as <- _.
  Qed.
End Ecdsa.

Section Keys.
  Context {point : Type} (parse_point : bytes -> option point) (write_point : point -> bytes) (sha256 : bytes -> bytes).
  Context (order : N) (base_mult : N -> point) (mult : N -> point -> point) (add : point -> point -> point)
    (first : point -> option N) (inverse : N -> option N) (nonce : N -> bytes -> N).
  Context (HC : curve_ok order base_mult mult add first inverse nonce) (HO : order <= 2 ^ 256)
    (HP : forall a, parse_point (write_point (base_mult a)) = Some (base_mult a)).
  Lemma signed_is_accepted key msg sig :
    sign sha256 (ecdsa_sign order base_mult first inverse nonce) key msg = Ok sig ->
    verify_signature parse_point order sha256 (ecdsa_verify order base_mult mult add first inverse)
      (pub_key write_point base_mult key) msg sig = true.
  Proof.
    unfold sign, pub_key. rewrite set_bytes_number. intros H.
    destruct (ecdsa_sign order base_mult first inverse nonce (number key) (sha256 msg)) as [[r s]| | |] eqn:E; try discriminate.
    destruct (sign_in_range order base_mult mult add first inverse nonce HC _ _ _ _ E) as (H1 & H2 & H3).
    destruct (serialize_holds r s) as (sig' & Es & Hs); [lia|lia|]. rewrite H in Es. injection Es as <-.
    apply verify_iff. exists (base_mult (number key)), r, s. split; [apply HP|]. split; [by apply Hs|]. split; [done|].
    by apply (sign_verifies order base_mult mult add first inverse nonce HC).
  Qed.
End Keys.

Lemma serialize_exact r s :
  match serialize_sig r s with
  | Ok sig => (forall r' s', holds sig r' s' <-> r' = r /\ s' = s) /\ signature_from_bytes sig = (r, s)
  | Panic => 2 ^ 256 <= r \/ 2 ^ 256 <= s
  | _ => False
  end.
Proof.
  destruct (N.lt_ge_cases r (2 ^ 256)) as [Hr|Hr]; [|rewrite serialize_panics; by left].
  destruct (N.lt_ge_cases s (2 ^ 256)) as [Hs|Hs]; [|rewrite serialize_panics; by right].
  destruct (serialize_holds r s Hr Hs) as (sig & -> & H). split; [exact H|].
  assert (holds sig r s) as Hh by by apply H. by apply holds_iff in Hh as [_ ->].
Qed.
Lemma read_signature sig : length sig = 64%nat ->
  let '(r, s) := signature_from_bytes sig in holds sig r s /\ serialize_sig r s = Ok sig.
Proof.
  intros HL. destruct (signature_from_bytes sig) as [r s] eqn:E. assert (holds sig r s) as H by (apply holds_iff; done).
  split; [exact H|by apply serialize_reads_back].
Qed.
