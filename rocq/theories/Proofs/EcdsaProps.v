(** What the keys do, for every library. *)
From Coq Require Import NArith ZArith Znumtheory List Bool String Lia.
From Coq Require Import ZifyBool ZifyN ZifyNat.
From stdpp Require Import base list.
From Verif.Model Require Import Bytes Secp256k1 Curve Sign Ecdsa.
From Verif.Spec Require Import Secp256k1Spec EcdsaSpec DigitsSpec DemoEcdsa.
From Verif.Proofs Require Import BytesFacts Secp256k1Facts DigitsFacts DerFacts EcdsaFacts.
Local Open Scope Z_scope.

Section Public.
  Context (c : params) (mod_sqrt : Z -> Z -> option Z).
  Notation p := (pa_p c).
  Context (HP : prime p) (HO : Z.odd p = true) (HR : square_roots p mod_sqrt).
  Notation read := (pub_unmarshal mod_sqrt).

  Lemma public_reads_back x y a : p <= 256 ^ Z.of_nat (field_size c) -> 0 <= x < p -> 0 <= y < p -> on_short p (pa_b c) x y ->
    exists bz, pub_bytes {| pk_key := Some (c, (x, y)); pk_address := a |} = Ok bz
      /\ forall pk, exists pk', read bz c (S (field_size c)) pk = Ok pk' /\ pk_key pk' = Some (c, (x, y)).
  Proof.
    intros HF Hx Hy HS. destruct (marshal_reads_back c mod_sqrt HP HO HR x y HF Hx Hy HS) as (bz & EM & HL & EU).
    exists bz. split; [exact EM|]. intros pk. unfold pub_unmarshal. rewrite HL, Nat.eqb_refl, EU. cbn [negb]. eexists. split; [reflexivity|done].
  Qed.
  Lemma public_exact bz expected pk :
    match read bz c expected pk with
    | Ok pk' => length bz = expected
        /\ exists x y odd, pk_key pk' = Some (c, (x, y)) /\ 0 <= x < p /\ 0 <= y < p /\ on_short p (pa_b c) x y
             /\ compressed (field_size c) bz x odd /\ (odd = Z.odd y \/ y = 0)
    | Fail _ => length bz <> expected
        \/ bz <> [] /\ forall x y odd, compressed (field_size c) bz x odd -> 0 <= x < p -> 0 <= y < p -> ~ on_short p (pa_b c) x y
    | Panic => bz = [] /\ expected = 0%nat
    | OutOfFuel => False
    end.
  Proof.
    unfold pub_unmarshal. destruct (Nat.eqb_spec (length bz) expected) as [HL|HL]; cbn [negb]; [|by left].
    destruct (unmarshal_compressed mod_sqrt c bz) as [[x y]|] eqn:EU.
    - split; [done|]. apply (compressed_exact c mod_sqrt HP HO HR) in EU. destruct EU as (Hx & Hy & HS & odd & HC & Ho). exists x, y, odd. auto 10.
    - destruct bz as [|d rest] eqn:Eb; [by cbn in HL|]. rewrite <- Eb in *. right. split; [by rewrite Eb|].
      intros x y odd HC Hx Hy HS. assert (exists y', unmarshal_compressed mod_sqrt c bz = Some (x, y')) as [y' E]; [|congruence].
      destruct (Bool.eqb odd (Z.odd y)) eqn:Ep.
      + apply eqb_prop in Ep. exists y. apply (compressed_reads c mod_sqrt HP HO HR bz x y odd); auto.
      + pose proof (field_order c HP) as H1. exists ((- y) mod p). apply (compressed_reads c mod_sqrt HP HO HR bz x ((- y) mod p) odd); auto.
        * apply Z.mod_pos_bound. lia.
        * unfold on_short in *. apply opposite_root; [lia|done].
        * destruct (Z.eqb_spec y 0) as [-> | H0]; [right; by rewrite Zmod_0_l|]. left. rewrite opposite_parity by (lia || done). by destruct odd, (Z.odd y).
  Qed.
  Lemma public_one_text bz expected pk pk' x y : read bz c expected pk = Ok pk' -> pk_key pk' = Some (c, (x, y)) -> y <> 0 -> pub_bytes pk' = Ok bz.
  Proof.
    unfold pub_unmarshal. destruct (Nat.eqb _ _); [|done]. cbn [negb]. destruct (unmarshal_compressed mod_sqrt c bz) as [q|] eqn:EU; [|by destruct bz].
    intros E. injection E as <-. cbn [pk_key]. intros E. injection E as ->. intros H0. unfold pub_bytes. cbn [pk_key].
    by apply (reads_write_back c mod_sqrt HP HO HR).
  Qed.
End Public.

Section Libraries.
  Context (mod_sqrt : Z -> Z -> option Z) (base_mult : params -> bytes -> Z * Z) (sha256 : bytes -> bytes).
  Context (point_verify : params -> Z * Z -> bytes -> Z -> Z -> bool).
  Context {random : Type} (scalar_sign : params -> Z -> bytes -> random -> option (N * N)).
  Notation address := (pub_address sha256).
  Notation verify := (pub_verify sha256 point_verify).

  Lemma first_address name pk :
    pk_address pk = None ->
    match address name pk with
    | Ok (pk', a) => pk_key pk' = pk_key pk /\ (exists bz, pub_bytes pk = Ok bz /\ a = sha256 (sha256 name ++ bz)) /\ address name pk' = Ok (pk', a)
    | Panic => forall bz, pub_bytes pk <> Ok bz
    | _ => False
    end.
  Proof using Type.
    intros E. unfold pub_address. rewrite E. destruct (pub_bytes pk) as [bz|e| |] eqn:EB; [|exfalso|congruence|exfalso].
    - cbn. split; [done|]. split; [eauto|done].
    - unfold pub_bytes, marshal_compressed, fill_bytes in EB. destruct (pk_key pk) as [[c [x y]]|]; [|done]. by destruct (Z.leb _ _).
    - unfold pub_bytes, marshal_compressed, fill_bytes in EB. destruct (pk_key pk) as [[c [x y]]|]; [|done]. by destruct (Z.leb _ _).
  Qed.
  Lemma address_stays name name' bz c n pk pk1 a pk2 : address name pk = Ok (pk1, a) ->
    address name' pk1 = Ok (pk1, a) /\ (pub_unmarshal mod_sqrt bz c n pk1 = Ok pk2 -> address name' pk2 = Ok (pk2, a)).
  Proof using Type.
    intros E. assert (pk_address pk1 = Some a) as EA.
    { unfold pub_address in E. destruct (pk_address pk) as [a'|] eqn:Ea; [injection E as <- <-; done|]. destruct (pub_bytes pk); try done. by injection E as <- <-. }
    split; [by unfold pub_address; rewrite EA|]. unfold pub_unmarshal. destruct (negb _); [done|]. destruct (unmarshal_compressed _ _ _) as [q|]; [|by destruct bz].
    intros E'. injection E' as <-. by unfold pub_address; cbn [pk_address]; rewrite EA.
  Qed.
  Lemma verify_exact pk msg sig :
    match verify pk msg sig with
    | Ok true => exists c q r s inside after, pk_key pk = Some (c, q) /\ der_pair r s inside after sig /\ point_verify c q (sha256 msg) r s = true
    | Ok false => forall c q r s inside after, pk_key pk = Some (c, q) -> der_pair r s inside after sig -> point_verify c q (sha256 msg) r s = false
    | Panic => pk_key pk = None /\ exists r s inside after, der_pair r s inside after sig
    | _ => False
    end.
  Proof using Type.
    unfold pub_verify. destruct (asn1_signature sig) as [[r s]|] eqn:ES.
    - pose proof ES as ES'. apply asn1_signature_exact in ES'. destruct ES' as (inside & after & HD).
      destruct (pk_key pk) as [[c q]|] eqn:EK; [|eauto 10]. destruct (point_verify c q (sha256 msg) r s) eqn:EV; [eauto 12|].
      intros c' q' r' s' i' a' E HD'. injection E as <- <-.
      assert (asn1_signature sig = Some (r', s')) as E' by (apply asn1_signature_exact; eauto). congruence.
    - intros c q r s i a _ HD. assert (asn1_signature sig = Some (r, s)) as E' by (apply asn1_signature_exact; eauto). congruence.
  Qed.
  Lemma verify_appended pk msg sig more : verify pk msg sig = Ok true -> verify pk msg (sig ++ more) = Ok true.
  Proof using Type.
    unfold pub_verify. destruct (asn1_signature sig) as [v|] eqn:ES; [|done]. by rewrite (read_appended sig more v ES).
  Qed.
  Lemma own_signature sk size msg rand sig :
    (N.of_nat size < 2 ^ 29)%N ->
    (forall h rand r s, scalar_sign (sk_curve sk) (sk_scalar sk) h rand = Some (r, s) ->
       (r < 256 ^ N.of_nat size)%N /\ (s < 256 ^ N.of_nat size)%N
       /\ point_verify (sk_curve sk) (sk_point sk) h (Z.of_N r) (Z.of_N s) = true) ->
    priv_sign sha256 scalar_sign sk msg rand = Ok sig ->
    verify (priv_public sk) msg sig = Ok true /\ exists r s, der_pair (Z.of_N r) (Z.of_N s) [] [] sig.
  Proof using Type.
    intros Hk HS. unfold priv_sign. destruct (scalar_sign _ _ _ rand) as [[r s]|] eqn:E; [|done]. intros E'. injection E' as <-.
    destruct (HS _ _ _ _ E) as (Hr & Hs & HV). pose proof (written_pair r s size Hr Hs Hk) as HD. split; [|eauto].
    unfold pub_verify. assert (asn1_signature (write_signature r s) = Some (Z.of_N r, Z.of_N s)) as -> by (apply asn1_signature_exact; eauto).
    cbn [priv_public pk_key]. by rewrite HV.
  Qed.
  Lemma private_exact bz c expected :
    match priv_unmarshal base_mult bz c expected with
    | Ok sk => length bz = expected /\ sk_curve sk = c /\ sk_scalar sk = Z.of_N (number bz) /\ pk_key (priv_public sk) = Some (c, base_mult c bz)
        /\ (expected = field_size c -> priv_bytes sk = Ok bz)
        /\ (priv_bytes sk = Panic <-> 256 ^ Z.of_nat (field_size c) <= Z.of_N (number bz))
    | Fail _ => length bz <> expected
    | _ => False
    end.
  Proof using Type.
    clear mod_sqrt sha256 point_verify scalar_sign random.
    unfold priv_unmarshal. destruct (Nat.eqb_spec (length bz) expected) as [HL|HL]; cbn [negb]; [|done]. cbn [sk_curve sk_scalar].
    rewrite set_bytes_number. split; [done|]. split; [done|]. split; [done|]. split; [done|]. unfold priv_bytes. cbn [sk_curve sk_scalar].
    pose proof (fill_bytes_exact (Z.of_N (number bz)) (field_size c)) as HF. pose proof (zbound bz) as Hb. split.
    - intros E. destruct (fill_bytes _ _) as [b| | |]; try done.
      + destruct HF as [HL' HN]. f_equal. apply number_inj; [congruence|lia].
      + exfalso. rewrite HL, E in Hb. lia.
    - split; [intros E; rewrite E in HF; lia|]. intros H. destruct (fill_bytes _ _) as [b| | |]; try done.
      destruct HF as [HL' HN]. pose proof (zbound b) as Hz. rewrite HL' in Hz. lia.
  Qed.
  Lemma private_own sk : 0 <= sk_scalar sk < 256 ^ Z.of_nat (field_size (sk_curve sk)) ->
    exists bz, priv_bytes sk = Ok bz /\ length bz = field_size (sk_curve sk)
      /\ exists sk', priv_unmarshal base_mult bz (sk_curve sk) (field_size (sk_curve sk)) = Ok sk' /\ sk_scalar sk' = sk_scalar sk /\ sk_curve sk' = sk_curve sk.
  Proof using Type.
    clear mod_sqrt sha256 point_verify scalar_sign random.
    intros H. unfold priv_bytes. pose proof (fill_bytes_exact (sk_scalar sk) (field_size (sk_curve sk))) as HF.
    destruct (fill_bytes _ _) as [b| | |]; try done; [|lia]. destruct HF as [HL HN]. exists b. split; [done|]. split; [done|].
    unfold priv_unmarshal. rewrite HL, Nat.eqb_refl. cbn [negb]. eexists. split; [reflexivity|]. cbn [sk_scalar sk_curve]. rewrite set_bytes_number. split; [lia|done].
  Qed.
End Libraries.
Lemma written_to text buffer :
  match marshal_to text buffer with
  | Ok (buffer', n) => exists bz, text = Ok bz /\ n = length bz /\ length buffer' = length buffer
      /\ ((length bz <= length buffer)%nat -> take n buffer' = bz /\ drop n buffer' = drop n buffer)
      /\ ((length buffer < length bz)%nat -> buffer' = take (length buffer) bz)
  | _ => forall bz, text <> Ok bz
  end.
Proof.
  unfold marshal_to. destruct text as [bz| | |]; try done. exists bz. split; [done|]. split; [done|].
  destruct (copied buffer bz) as (HL & HT & _ & HS). split; [done|]. split; [|done]. intros H. split; [auto|].
  unfold copy_into. rewrite (take_ge bz) by lia. apply drop_app.
Qed.
Lemma shown name pk t : pub_string name pk = Ok t ->
  exists bz digits, pub_bytes pk = Ok bz /\ t = name ++ str "{" ++ digits ++ str "}" /\ digits_of digits bz.
Proof.
  unfold pub_string. destruct (pub_bytes pk) as [bz| | |]; try done. intros E. injection E as <-. exists bz, (capitals bz).
  split; [done|]. split; [done|]. apply digits_read, capitals_read.
Qed.

(** ** Cases *)
Lemma prime_23 : prime 23.
Proof.
  apply prime_intro; [lia|]. intros n Hn. apply Zgcd_1_rel_prime. assert (n = 1 \/ n = 2 \/ n = 3 \/ n = 4 \/ n = 5 \/ n = 6 \/ n = 7 \/ n = 8 \/ n = 9 \/ n = 10 \/ n = 11 \/ n = 12 \/ n = 13 \/ n = 14 \/ n = 15 \/ n = 16 \/ n = 17 \/ n = 18 \/ n = 19 \/ n = 20 \/ n = 21 \/ n = 22) as H by lia.
  repeat (destruct H as [-> | H]; [reflexivity|]). subst. reflexivity.
Qed.
Lemma search_roots p : 0 < p -> square_roots p search_root.
Proof.
  intros Hp a. unfold search_root. destruct (List.find _ _) as [y|] eqn:E.
  - apply find_some in E. destruct E as [HI HE]. apply in_map_iff in HI. destruct HI as (n & <- & Hn). apply in_seq in Hn. split; [lia|].
    apply Z.eqb_eq in HE. apply Z.mod_divide; [lia|]. by replace (Z.of_nat n ^ 2 - a) with (Z.of_nat n * Z.of_nat n - a) by ring.
  - intros y D. assert (p | (y mod p) ^ 2 - a) as D'.
    { pose proof (Z.div_mod y p ltac:(lia)) as Ey. destruct D as [k Hk]. set (q := y / p) in *. set (m := y mod p) in *.
      exists (k - q * (2 * y - p * q)). assert (m = y - p * q) as -> by lia. nia. }
    pose proof (find_none _ _ E (y mod p)) as HN. cbv beta in HN. pose proof (Z.mod_pos_bound y p Hp) as HB.
    assert (In (y mod p) (map Z.of_nat (seq 0 (Z.to_nat p)))) as HI.
    { apply in_map_iff. exists (Z.to_nat (y mod p)). split; [lia|]. apply in_seq. lia. }
    specialize (HN HI). apply Z.eqb_neq in HN. apply HN. apply Z.mod_divide; [lia|]. by replace (y mod p * (y mod p) - a) with ((y mod p) ^ 2 - a) by ring.
Qed.
Lemma two_texts : exists bz bz' pk', bz <> bz' /\ forall pk, pk_address pk = None ->
  pub_unmarshal search_root bz toy 2 pk = Ok pk' /\ pub_unmarshal search_root bz' toy 2 pk = Ok pk'.
Proof.
  exists [Byte.x02; Byte.x06], [Byte.x03; Byte.x06], {| pk_key := Some (toy, (6, 0)); pk_address := None |}. split; [done|].
  intros [k a] E. cbn [pk_address] in E. subst a. split; vm_compute; reflexivity.
Qed.
Lemma toy_signature :
  priv_sign toy_hash toy_sign toy_private (str "hello") 5%N = Ok [Byte.x30; Byte.x08; Byte.x02; Byte.x02; Byte.x00; Byte.x85; Byte.x02; Byte.x02; Byte.x6f; Byte.x98]
  /\ (forall h rand r s, toy_sign toy (sk_scalar toy_private) h rand = Some (r, s) ->
       (r < 256 ^ N.of_nat 3)%N /\ (s < 256 ^ N.of_nat 3)%N /\ toy_verify toy (sk_point toy_private) h (Z.of_N r) (Z.of_N s) = true)
  /\ pub_verify toy_hash toy_verify (priv_public toy_private) (str "hello") [Byte.x30; Byte.x08; Byte.x02; Byte.x02; Byte.x00; Byte.x85; Byte.x02; Byte.x02; Byte.x6f; Byte.x98; Byte.x01] = Ok true
  /\ pub_verify toy_hash toy_verify (priv_public toy_private) (str "hello") [Byte.x30; Byte.x09; Byte.x02; Byte.x02; Byte.x00; Byte.x85; Byte.x02; Byte.x02; Byte.x6f; Byte.x98; Byte.x01] = Ok true
  /\ pub_verify toy_hash toy_verify (priv_public toy_private) (str "hello") [Byte.x30; Byte.x09; Byte.x02; Byte.x02; Byte.x00; Byte.x85; Byte.x02; Byte.x02; Byte.x6f; Byte.x98] = Ok false
  /\ pub_verify toy_hash toy_verify (priv_public toy_private) (str "hello") [Byte.x30; Byte.x09; Byte.x02; Byte.x03; Byte.x00; Byte.x00; Byte.x85; Byte.x02; Byte.x02; Byte.x6f; Byte.x98] = Ok false.
Proof.
  split; [vm_compute; reflexivity|]. split; [|repeat apply conj; vm_compute; reflexivity].
  intros h rand r s E. unfold toy_sign in E. injection E as <- <-. cbn [toy_private sk_scalar sk_point fst].
  pose proof (number_bound (take 2 h)) as Hb. pose proof (take_length h 2) as HL. pose proof (N.mod_lt rand 128 ltac:(lia)) as Hr.
  assert (256 ^ N.of_nat (length (take 2 h)) <= 256 ^ 2)%N as Hp by (apply N.pow_le_mono_r; lia).
  change (256 ^ 2)%N with 65536%N in Hp. change (256 ^ N.of_nat 3)%N with 16777216%N. rewrite set_bytes_number.
  change (Z.to_N 300 mod 256)%N with 44%N. split; [lia|]. split; [lia|]. unfold toy_verify. rewrite set_bytes_number. apply Z.eqb_eq. cbn [fst].
  change (300 mod 256) with 44. lia.
Qed.
Lemma toy_address : exists pk1 a pk2,
  pub_address toy_hash (str "key") toy_public = Ok (pk1, a) /\ pub_unmarshal search_root [Byte.x03; Byte.x0a] toy 2 pk1 = Ok pk2
  /\ pub_address toy_hash (str "key") {| pk_key := pk_key pk2; pk_address := None |} <> Ok (pk2, a) /\ a <> [].
Proof.
  do 3 eexists. split; [vm_compute; reflexivity|]. split; [vm_compute; reflexivity|]. split; [|done]. vm_compute. discriminate.
Qed.
