(** Facts about points as bytes and about the Go side of the C library. *)
From Coq Require Import NArith ZArith List Bool String Lia.
From Coq Require Import ZifyBool ZifyN ZifyNat.
From stdpp Require Import base list.
From Verif.Model Require Import Bytes Secp256k1 Curve.
From Verif.Spec Require Import Secp256k1Spec CurveSpec DemoCurve.
From Verif.Proofs Require Import BytesFacts Secp256k1Facts.
Local Open Scope N_scope.

(** ** Words and bytes *)
Fixpoint value (ws : list N) : N := match ws with [] => 0 | w :: ws' => w + 2 ^ 64 * value ws' end.
Lemma size_nat_gt n : n < 2 ^ N.of_nat (N.size_nat n).
Proof.
  destruct n as [|p]; [cbn; lia|]. cbn [N.size_nat].
  pose proof (N.size_gt (N.pos p)) as HS. rewrite N.size_log2 in HS by done.
  assert (N.of_nat (Pos.size_nat p) = N.size (N.pos p)) as ->; [|rewrite N.size_log2 by done; exact HS].
  clear. cbn [N.size]. induction p as [p IH|p IH|]; cbn [Pos.size_nat Pos.size]; [| |done]; rewrite Nat2N.inj_succ, IH; done.
Qed.
Lemma words_value fuel : forall n, n < 2 ^ N.of_nat fuel -> value (words fuel n) = n /\ Forall (fun w => w < 2 ^ 64) (words fuel n).
Proof.
  induction fuel as [|fuel IH]; intros n Hn; cbn [words].
  - change (2 ^ N.of_nat 0) with 1 in Hn. split; [cbn; lia|constructor].
  - destruct (N.eqb_spec n 0) as [->|H0]; [split; [reflexivity|constructor]|].
    destruct (IH (n / 2 ^ 64)) as [E F].
    + apply N.div_lt_upper_bound; [lia|]. rewrite Nat2N.inj_succ, N.pow_succ_r' in Hn.
      set (q := 2 ^ N.of_nat fuel) in *. change (2 ^ 64) with (2 * 2 ^ 63). nia.
    + split; [|constructor; [apply N.mod_lt; lia|exact F]].
      cbn [value]. rewrite E. pose proof (N.div_mod n (2 ^ 64)). lia.
Qed.
Lemma int_words_value x : value (int_words x) = Z.abs_N x /\ Forall (fun w => w < 2 ^ 64) (int_words x).
Proof. apply words_value, size_nat_gt. Qed.

Lemma read_word_exact j : forall d room done room' done', read_word j d room done = (room', done') ->
  let k := min j room in
  room' = (room - k)%nat /\ exists b, done' = b ++ done /\ length b = k /\ number b = d mod 256 ^ N.of_nat k.
Proof.
  induction j as [|j IH]; intros d room done room' done' E; cbn zeta.
  - cbn in E. injection E as <- <-. split; [cbn; lia|]. exists []. cbn [app length number]. rewrite N.mod_1_r. done.
  - destruct room as [|room]; cbn [read_word] in E.
    + injection E as <- <-. split; [cbn; lia|]. exists []. cbn [app length number Nat.min]. rewrite N.mod_1_r. done.
    + apply IH in E as [-> (b & -> & HL & HN)]. cbn [Nat.min].
      split; [lia|]. exists (b ++ [N2b d]). rewrite <- app_assoc. split; [reflexivity|].
      rewrite app_length. cbn [length]. split; [lia|].
      rewrite number_app. cbn [number length]. rewrite HN, b2N_N2b, N.shiftr_div_pow2.
      change (2 ^ 8) with 256. change (256 ^ N.of_nat 1) with 256. change (256 ^ N.of_nat 0) with 1.
      rewrite (Nat2N.inj_succ (j `min` room)), N.pow_succ_r'.
      set (q := 256 ^ N.of_nat (j `min` room)). assert (0 < q) as Hq by (apply N.neq_0_lt_0, N.pow_nonzero; lia).
      rewrite N.mod_mul_r by lia. lia.
Qed.
Lemma read_words_exact ws : forall room done, Forall (fun w => w < 2 ^ 64) ws ->
  length (read_words ws room done) = (room + length done)%nat
  /\ number (read_words ws room done) = (value ws mod 256 ^ N.of_nat room) * 256 ^ N.of_nat (length done) + number done.
Proof.
  induction ws as [|w ws IH]; intros room done HF; cbn [read_words].
  - rewrite app_length, replicate_length. split; [lia|]. rewrite number_zeros. cbn [value]. rewrite N.mod_0_l by (apply N.pow_nonzero; lia). lia.
  - inversion HF as [|? ? Hw HF']; subst.
    destruct (read_word 8 w room done) as [room' done'] eqn:E. apply read_word_exact in E as [-> (b & -> & HL & HN)].
    destruct (IH (room - 8 `min` room)%nat (b ++ done) HF') as [EL EN]. rewrite EL, EN. rewrite !app_length, HL.
    split; [clear; lia|]. rewrite number_app, HN. cbn [value].
    rewrite Nat2N.inj_add, N.pow_add_r.
    set (s := 256 ^ N.of_nat (length done)).
    destruct (le_lt_dec room 8) as [Hr|Hr].
    + rewrite Nat.min_r by (clear -Hr; lia). rewrite Nat.sub_diag. change (N.of_nat 0) with 0. rewrite N.pow_0_r, N.mod_1_r.
      replace (2 ^ 64) with (256 ^ N.of_nat room * 256 ^ N.of_nat (8 - room)).
      2:{ rewrite <- N.pow_add_r, <- Nat2N.inj_add. replace (room + (8 - room))%nat with 8%nat by (clear -Hr; lia). reflexivity. }
      set (q := 256 ^ N.of_nat room). assert (q <> 0) as Hq by (apply N.pow_nonzero; lia).
      rewrite <- (N.mul_assoc q _ (value ws)), (N.mul_comm q (_ * value ws)), N.mod_add by exact Hq. clear. lia.
    + rewrite Nat.min_l by (clear -Hr; lia). change (256 ^ N.of_nat 8) with (2 ^ 64). rewrite (N.mod_small w) by exact Hw.
      replace (256 ^ N.of_nat room) with (2 ^ 64 * 256 ^ N.of_nat (room - 8)).
      2:{ change (2 ^ 64) with (256 ^ N.of_nat 8). rewrite <- N.pow_add_r, <- Nat2N.inj_add. replace (8 + (room - 8))%nat with room by (clear -Hr; lia). reflexivity. }
      set (q := 256 ^ N.of_nat (room - 8)). assert (q <> 0) as Hq by (apply N.pow_nonzero; lia).
      rewrite N.mod_mul_r by (exact Hq || discriminate).
      rewrite (N.mul_comm (2 ^ 64) (value ws)), N.mod_add by discriminate. rewrite (N.mod_small w) by exact Hw.
      rewrite N.div_add by discriminate. rewrite (N.div_small w) by exact Hw. rewrite N.add_0_l. generalize (value ws mod q). clear. intros v. lia.
Qed.
Lemma read_bits_exact x n : length (read_bits x n) = n /\ number (read_bits x n) = Z.abs_N x mod 256 ^ N.of_nat n.
Proof.
  unfold read_bits. destruct (int_words_value x) as [EV HF]. destruct (read_words_exact (int_words x) n [] HF) as [EL EN].
  rewrite EL, EN, EV. cbn [length number]. change (N.of_nat 0) with 0. rewrite N.pow_0_r. split; lia.
Qed.
Lemma read_bits_unique x n b : length b = n -> number b = Z.abs_N x mod 256 ^ N.of_nat n -> read_bits x n = b.
Proof. intros HL HN. destruct (read_bits_exact x n) as [L N']. apply number_inj; congruence. Qed.

(** ** Points as bytes *)
Lemma unmarshal_exact c data :
  match unmarshal_point c data with
  | Some (x, y) => (0 <= x)%Z /\ (0 <= y)%Z /\ uncompressed (byte_len c) data (Z.to_N x) (Z.to_N y)
  | None => forall x y, ~ uncompressed (byte_len c) data x y
  end.
Proof.
  unfold unmarshal_point. destruct (Nat.eqb_spec (length data) (1 + 2 * byte_len c)) as [HL|HL]; cbn [negb].
  - destruct data as [|h rest]; [cbn in HL; lia|]. cbn [length] in HL.
    assert (h = Byte.x04 \/ h <> Byte.x04) as [->|Hh] by (destruct (decide (h = Byte.x04)); auto).
    + split; [lia|]. split; [lia|]. rewrite !N2Z.id, !set_bytes_number.
      exists (take (byte_len c) rest), (drop (byte_len c) rest).
      rewrite take_length, drop_length, take_drop. repeat split; lia.
    + destruct h; try (intros x y (a & b & _ & _ & E & _); injection E as E1 E2; discriminate E1). exfalso. by apply Hh.
  - intros x y (a & b & La & Lb & -> & _). cbn [length] in HL. rewrite app_length in HL. lia.
Qed.
Lemma uncompressed_unique size data data' x y : uncompressed size data x y -> uncompressed size data' x y -> data = data'.
Proof.
  intros (a & b & La & Lb & -> & Na & Nb) (a' & b' & La' & Lb' & -> & Na' & Nb').
  f_equal. f_equal; apply number_inj; congruence.
Qed.
Lemma uncompressed_numbers size data x y x' y' : uncompressed size data x y -> uncompressed size data x' y' -> x = x' /\ y = y'.
Proof.
  intros (a & b & La & Lb & -> & Na & Nb) (a' & b' & La' & Lb' & E & Na' & Nb').
  injection E as E. apply app_inj_1 in E as [-> ->]; [|congruence]. split; congruence.
Qed.
Lemma marshal_exact c x y :
  uncompressed (byte_len c) (marshal_point c x y) (Z.abs_N x mod 256 ^ N.of_nat (byte_len c)) (Z.abs_N y mod 256 ^ N.of_nat (byte_len c)).
Proof.
  destruct (read_bits_exact x (byte_len c)) as [Lx Nx]. destruct (read_bits_exact y (byte_len c)) as [Ly Ny].
  exists (read_bits x (byte_len c)), (read_bits y (byte_len c)). by repeat split.
Qed.
Lemma uncompressed_bound size data x y : uncompressed size data x y -> x < 256 ^ N.of_nat size /\ y < 256 ^ N.of_nat size.
Proof. intros (a & b & La & Lb & _ & <- & <-). pose proof (number_bound a). pose proof (number_bound b). rewrite La in *. rewrite Lb in *. by split. Qed.
Lemma marshal_reads_back c x y : (0 <= x < 256 ^ Z.of_nat (byte_len c))%Z -> (0 <= y < 256 ^ Z.of_nat (byte_len c))%Z ->
  unmarshal_point c (marshal_point c x y) = Some (x, y) /\ uncompressed (byte_len c) (marshal_point c x y) (Z.to_N x) (Z.to_N y).
Proof.
  intros Hx Hy. pose proof (marshal_exact c x y) as HM.
  assert (forall z, (0 <= z < 256 ^ Z.of_nat (byte_len c))%Z -> Z.abs_N z mod 256 ^ N.of_nat (byte_len c) = Z.to_N z) as HB.
  { intros z Hz. rewrite Zabs2N.abs_N_nonneg by lia. apply N.mod_small. apply N2Z.inj_lt.
    rewrite Z2N.id by lia. rewrite N2Z.inj_pow, nat_N_Z. exact (proj2 Hz). }
  rewrite !HB in HM by assumption. split; [|exact HM].
  pose proof (unmarshal_exact c (marshal_point c x y)) as HU. destruct (unmarshal_point c (marshal_point c x y)) as [[x' y']|].
  - destruct HU as (Hx' & Hy' & HU). destruct (uncompressed_numbers _ _ _ _ _ _ HU HM) as [E1 E2].
    apply Z2N.inj in E1; [|lia..]. apply Z2N.inj in E2; [|lia..]. congruence.
  - exfalso. exact (HU _ _ HM).
Qed.
Lemma unmarshal_writes_back c data x y : unmarshal_point c data = Some (x, y) -> marshal_point c x y = data.
Proof.
  intros E. pose proof (unmarshal_exact c data) as HU. rewrite E in HU. destruct HU as (Hx & Hy & HU).
  destruct (uncompressed_bound _ _ _ _ HU) as [Bx By].
  assert (forall z, (0 <= z)%Z -> Z.to_N z < 256 ^ N.of_nat (byte_len c) -> (0 <= z < 256 ^ Z.of_nat (byte_len c))%Z) as HB.
  { intros z Hz Bz. split; [exact Hz|]. apply N2Z.inj_lt in Bz. rewrite Z2N.id, N2Z.inj_pow, nat_N_Z in Bz by lia. exact Bz. }
  destruct (marshal_reads_back c x y (HB x Hx Bx) (HB y Hy By)) as [_ HM].
  exact (uncompressed_unique _ _ _ _ _ HM HU).
Qed.
Lemma marshal_sign c x y : marshal_point c (- x) y = marshal_point c x y.
Proof. unfold marshal_point. f_equal. f_equal. unfold read_bits, int_words. by rewrite Zabs2N.inj_opp. Qed.

(** ** Scalars *)
Lemma read_bits_holds x y : (0 <= x < 2 ^ 256)%Z -> (0 <= y < 2 ^ 256)%Z -> holds (read_bits x 32 ++ read_bits y 32) (Z.to_N x) (Z.to_N y).
Proof.
  intros Hx Hy. exists (read_bits x 32), (read_bits y 32).
  destruct (read_bits_exact x 32) as [Lx Nx]. destruct (read_bits_exact y 32) as [Ly Ny].
  assert (forall z, (0 <= z < 2 ^ 256)%Z -> Z.abs_N z mod 256 ^ N.of_nat 32 = Z.to_N z) as HB.
  { intros z Hz. rewrite Zabs2N.abs_N_nonneg by apply Hz. apply N.mod_small. apply N2Z.inj_lt.
    rewrite Z2N.id by apply Hz. exact (proj2 Hz). }
  rewrite HB in Nx, Ny by assumption. by repeat split.
Qed.
Lemma holds_same sig sig' r s : holds sig r s -> holds sig' r s -> sig = sig'.
Proof.
  intros (a & b & La & Lb & -> & Na & Nb) (a' & b' & La' & Lb' & -> & Na' & Nb').
  f_equal; apply number_inj; congruence.
Qed.
Lemma scalar_mult_exact ext x y k : (0 <= x < 2 ^ 256)%Z -> (0 <= y < 2 ^ 256)%Z ->
  (forall point scalar, length (fst (ext point scalar)) = length point) ->
  match scalar_mult ext x y k with
  | Ok r => (length k <= 32)%nat /\ exists point scalar, holds point (Z.to_N x) (Z.to_N y) /\ length scalar = 32%nat /\ number scalar = number k
      /\ match r with
         | Some (a, b) => snd (ext point scalar) = true /\ (0 <= a)%Z /\ (0 <= b)%Z /\ holds (fst (ext point scalar)) (Z.to_N a) (Z.to_N b)
         | None => snd (ext point scalar) = false
         end
  | Panic => (32 < length k)%nat
  | _ => False
  end.
Proof.
  intros Hx Hy Hext. unfold scalar_mult. destruct (Nat.ltb_spec 32 (length k)) as [HL|HL]; [exact HL|].
  set (point := read_bits x 32 ++ read_bits y 32). set (scalar := replicate (32 - length k) Byte.x00 ++ k).
  pose proof (Hext point scalar) as HO. pose proof (read_bits_holds x y Hx Hy) as HP. fold point in HP.
  destruct (ext point scalar) as [out one] eqn:E. cbn [fst] in HO.
  split; [exact HL|]. exists point, scalar. rewrite E. cbn [fst snd].
  split; [exact HP|]. split; [unfold scalar; rewrite app_length, replicate_length; lia|].
  split; [apply number_zeros|]. destruct one; [|reflexivity].
  split; [reflexivity|]. split; [lia|]. split; [lia|]. rewrite !N2Z.id, !set_bytes_number.
  exists (take 32 out), (drop 32 out).
  assert (length out = 64%nat) as HO'.
  { rewrite HO. destruct HP as (a & b & La & Lb & -> & _). rewrite app_length. lia. }
  rewrite take_length, drop_length, take_drop. repeat split; lia.
Qed.
Lemma scalar_mult_number ext x y k k' : (length k <= 32)%nat -> (length k' <= 32)%nat -> number k = number k' ->
  scalar_mult ext x y k = scalar_mult ext x y k'.
Proof.
  intros HL HL' E. unfold scalar_mult.
  replace (Nat.ltb 32 (length k)) with false by (symmetry; apply Nat.ltb_ge; exact HL).
  replace (Nat.ltb 32 (length k')) with false by (symmetry; apply Nat.ltb_ge; exact HL').
  assert (replicate (32 - length k) Byte.x00 ++ k = replicate (32 - length k') Byte.x00 ++ k') as ->; [|reflexivity].
  apply number_inj; [rewrite !app_length, !replicate_length; lia|]. by rewrite !number_zeros.
Qed.

(** ** The library *)
Section Library.
  Context (seckey_verify : bytes -> bool) (sign_recoverable : bytes -> bytes -> option (bytes * byte))
    (ecdsa_recover : bytes -> bytes -> option bytes) (ecdsa_verify : bytes -> bytes -> bytes -> bool)
    (reencode : nat -> bytes -> option bytes).
  Notation sign := (lib_sign seckey_verify sign_recoverable).
  Notation recover := (recover_pubkey ecdsa_recover).
  Notation verify := (lib_verify ecdsa_verify).
  Lemma lib_sign_exact msg key :
    match sign msg key with
    | inl sig => length msg = 32%nat /\ length key = 32%nat /\ seckey_verify key = true
        /\ exists rs recid, sign_recoverable msg key = Some (rs, recid) /\ sig = rs ++ [recid]
    | inr InvalidMsgLen => length msg <> 32%nat
    | inr InvalidKey => length msg = 32%nat /\ (length key <> 32%nat \/ seckey_verify key = false)
    | inr SignFailed => length msg = 32%nat /\ length key = 32%nat /\ seckey_verify key = true /\ sign_recoverable msg key = None
    | inr _ => False
    end.
  Proof using All.
    unfold lib_sign. destruct (Nat.eqb_spec (length msg) 32) as [Hm|Hm]; cbn [negb]; [|exact Hm].
    destruct (Nat.eqb_spec (length key) 32) as [Hk|Hk]; cbn [negb]; [|tauto].
    destruct (seckey_verify key) eqn:Ev; cbn [negb]; [|tauto].
    destruct (sign_recoverable msg key) as [[rs recid]|] eqn:Es; [|tauto].
    repeat split; try assumption. by exists rs, recid.
  Qed.
  Lemma recover_exact msg sig :
    match recover msg sig with
    | inl key => length msg = 32%nat /\ (exists rs recid, sig = rs ++ [recid] /\ length rs = 64%nat /\ b2N recid < 4) /\ ecdsa_recover sig msg = Some key
    | inr InvalidMsgLen => length msg <> 32%nat
    | inr InvalidSignatureLen => length msg = 32%nat /\ length sig <> 65%nat
    | inr InvalidRecoveryID => length msg = 32%nat /\ exists rs recid, sig = rs ++ [recid] /\ length rs = 64%nat /\ 4 <= b2N recid
    | inr RecoverFailed => length msg = 32%nat /\ (exists rs recid, sig = rs ++ [recid] /\ length rs = 64%nat /\ b2N recid < 4) /\ ecdsa_recover sig msg = None
    | inr _ => False
    end.
  Proof using All.
    unfold recover_pubkey, check_signature. destruct (Nat.eqb_spec (length msg) 32) as [Hm|Hm]; cbn [negb]; [|exact Hm].
    destruct (Nat.eqb_spec (length sig) 65) as [Hs|Hs]; cbn [negb]; [|tauto].
    assert (exists rs recid, sig = rs ++ [recid] /\ length rs = 64%nat) as (rs & recid & -> & Hrs).
    { destruct sig as [|z sig _] using rev_ind; [cbn in Hs; lia|]. rewrite app_length in Hs. cbn [length] in Hs. exists sig, z. split; [reflexivity|lia]. }
    rewrite app_nth2 by lia. rewrite Hrs, Nat.sub_diag. cbn [nth].
    destruct (N.leb_spec 4 (b2N recid)) as [Hr|Hr].
    - split; [exact Hm|]. by exists rs, recid.
    - destruct (ecdsa_recover (rs ++ [recid]) msg) as [key|]; (split; [exact Hm|]; split; [by exists rs, recid|reflexivity]).
  Qed.
  Lemma lib_verify_iff key msg sig : verify key msg sig = true <->
    length msg = 32%nat /\ length sig = 64%nat /\ key <> [] /\ ecdsa_verify sig msg key = true.
  Proof using All.
    unfold lib_verify.
    destruct (Nat.eqb_spec (length msg) 32) as [Hm|Hm]; cbn [negb orb]; [|split; [discriminate|tauto]].
    destruct (Nat.eqb_spec (length sig) 64) as [Hs|Hs]; cbn [negb orb]; [|split; [discriminate|tauto]].
    destruct key as [|z key]; cbn [length Nat.eqb]; [split; [discriminate|tauto]|].
    split; [intros E; repeat split; try assumption; discriminate|tauto].
  Qed.
  (** A library that keeps its promises for one key. *)
  Lemma sign_recover_verify msg key pub sig :
    (forall rs recid, sign_recoverable msg key = Some (rs, recid) -> length rs = 64%nat /\ b2N recid < 4
       /\ ecdsa_recover (rs ++ [recid]) msg = Some pub /\ ecdsa_verify rs msg pub = true) -> pub <> [] ->
    sign msg key = inl sig ->
    length sig = 65%nat /\ recover msg sig = inl pub /\ verify pub msg (take 64 sig) = true /\ verify pub msg sig = false.
  Proof using All.
    intros HP Hpub E. pose proof (lib_sign_exact msg key) as HS. rewrite E in HS. destruct HS as (Hm & Hk & Hv & rs & recid & Es & ->).
    destruct (HP rs recid Es) as (HL & Hr & Hrec & Hver).
    assert (length (rs ++ [recid]) = 65%nat) as HL65 by (rewrite app_length; cbn [length]; lia).
    split; [exact HL65|]. split; [|split].
    - unfold recover_pubkey, check_signature. rewrite Hm, HL65. cbn [Nat.eqb negb].
      rewrite app_nth2 by lia. rewrite HL. cbn [Nat.sub nth].
      destruct (N.leb_spec 4 (b2N recid)) as [Hr'|_]; [lia|]. by rewrite Hrec.
    - apply lib_verify_iff. rewrite take_app_alt by (symmetry; exact HL). done.
    - destruct (verify pub msg (rs ++ [recid])) eqn:EV; [|reflexivity]. apply lib_verify_iff in EV as (_ & EL & _). lia.
  Qed.
  Lemma compress_decompress x y : (0 <= x < 2 ^ 256)%Z -> (0 <= y < 2 ^ 256)%Z ->
    (forall data k, uncompressed 32 data (Z.to_N x) (Z.to_N y) -> reencode 33 data = Some k -> length k = 33%nat /\ reencode 65 k = Some data) ->
    match compress_pubkey reencode x y with
    | Ok k => length k = 33%nat /\ decompress_pubkey reencode k = Some (x, y)
    | Panic => exists data, uncompressed 32 data (Z.to_N x) (Z.to_N y) /\ reencode 33 data = None
    | _ => False
    end.
  Proof using All.
    intros Hx Hy HR. destruct (marshal_reads_back the_curve x y Hx Hy) as [EU HU]. unfold compress_pubkey.
    change (byte_len the_curve) with 32%nat in HU.
    destruct (reencode 33 (marshal_point the_curve x y)) as [k|] eqn:Ek; [|by exists (marshal_point the_curve x y)].
    destruct (HR _ _ HU Ek) as [Lk Ek']. split; [exact Lk|]. unfold decompress_pubkey. rewrite Lk. cbn [Nat.eqb negb]. rewrite Ek'.
    destruct HU as (a & b & La & Lb & -> & Na & Nb).
    change (drop 1 (Byte.x04 :: a ++ b)) with (a ++ b). change (drop 33 (Byte.x04 :: a ++ b)) with (drop 32 (a ++ b)).
    rewrite take_app_alt by (symmetry; exact La). rewrite drop_app_alt by (symmetry; exact La).
    rewrite !set_bytes_number, Na, Nb, !Z2N.id by lia. reflexivity.
  Qed.
  Lemma decompress_length k p : decompress_pubkey reencode k = Some p -> length k = 33%nat.
  Proof using All. unfold decompress_pubkey. destruct (Nat.eqb_spec (length k) 33) as [H|H]; [intros _; exact H|discriminate]. Qed.
End Library.

(** ** Cases *)
Lemma off_the_curve : exists data x y, unmarshal_point the_curve data = Some (x, y) /\ is_on_curve the_curve x y = false.
Proof. exists (marshal_point the_curve 1 1), 1%Z, 1%Z. split; vm_compute; reflexivity. Qed.
Lemma points_case :
  unmarshal_point the_curve (marshal_point the_curve g2x g2y) = Some (g2x, g2y)
  /\ (0 <= g2x < 256 ^ Z.of_nat (byte_len the_curve))%Z /\ (0 <= g2y < 256 ^ Z.of_nat (byte_len the_curve))%Z
  /\ marshal_point small 3 260 = [Byte.x04; Byte.x03; Byte.x04] /\ unmarshal_point small [Byte.x02; Byte.x03; Byte.x04] = None
  /\ unmarshal_point small [Byte.x04; Byte.x03; Byte.x04; Byte.x05] = None.
Proof. repeat apply conj; vm_compute; first [reflexivity|discriminate]. Qed.
Lemma scalar_case : (forall point scalar, length (fst (leave point scalar)) = length point)
  /\ scalar_base_mult the_curve leave [Byte.x01] = Ok (Some (cu_gx the_curve, cu_gy the_curve))
  /\ scalar_base_mult the_curve leave [] = Ok None /\ scalar_base_mult the_curve leave (replicate 33 Byte.x00) = Panic.
Proof. split; [reflexivity|]. repeat apply conj; vm_compute; reflexivity. Qed.
Lemma library_case : let msg := replicate 32 Byte.x07 in let key := replicate 32 Byte.x01 in
  (forall rs recid, repeat_message msg key = Some (rs, recid) -> length rs = 64%nat /\ b2N recid < 4
     /\ recover_repeated (rs ++ [recid]) msg = Some (str "public") /\ verify_repeated rs msg (str "public") = true)
  /\ lib_sign (fun _ => true) repeat_message msg key = inl (msg ++ msg ++ [Byte.x01])
  /\ (forall data k, uncompressed 32 data 1 2 -> one_key 33 data = Some k -> length k = 33%nat /\ one_key 65 k = Some data)
  /\ compress_pubkey one_key 1 2 = Ok (replicate 33 Byte.x02).
Proof.
  cbn zeta. split; [|split; [|split]].
  - intros rs recid E. injection E as <- <-. repeat apply conj; vm_compute; reflexivity.
  - vm_compute. reflexivity.
  - intros data k HU E.
    destruct (marshal_reads_back the_curve 1 2 ltac:(split; vm_compute; congruence) ltac:(split; vm_compute; congruence)) as [_ HM].
    pose proof (uncompressed_unique _ _ _ _ _ HM HU) as <-.
    vm_compute in E. injection E as <-. split; vm_compute; reflexivity.
  - vm_compute. reflexivity.
Qed.
