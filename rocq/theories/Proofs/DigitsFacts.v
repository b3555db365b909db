(** Text of keys read by encoding/hex. *)
From Coq Require Import NArith ZArith List Bool String Lia.
From stdpp Require Import base list option.
From Verif.Model Require Import Bytes Users Coin Sign.
From Verif.Spec Require Import DigitsSpec.
From Verif.Proofs Require Import BytesFacts.
Local Open Scope N_scope.
Lemma digit_read c n : hex_digit c = Some n <-> digit_of c n.
Proof.
  split.
  - intros H. destruct c; cbv in H; try discriminate H; injection H as <-; (left; reflexivity) || (right; reflexivity).
  - unfold digit_of. intros H.
    assert (HL : (N.to_nat n < 16)%nat) by (destruct H as [H|H]; apply lookup_lt_Some in H; exact H).
    assert (Hn : n ∈ map N.of_nat (seq 0 16)).
    { apply elem_of_list_In, in_map_iff. exists (N.to_nat n). split; [lia|]. apply in_seq. lia. }
    clear HL. cbn in Hn. repeat (apply elem_of_cons in Hn as [->|Hn]; [destruct H as [H|H]; injection H as <-; reflexivity|]).
    by apply elem_of_nil in Hn.
Qed.
Lemma digits_read s : forall b, hex_decode s = Some b <-> digits_of s b.
Proof.
  induction s as [s IH] using (well_founded_induction (Wf_nat.well_founded_ltof _ (@List.length byte))).
  intros b. destruct s as [|c [|d s]].
  - split; [by intros [= <-]; constructor|by inversion 1].
  - split; [discriminate|inversion 1].
  - cbn [hex_decode]. assert (IH' := IH s ltac:(unfold ltof; cbn; lia)). split.
    + destruct (hex_digit c) as [x|] eqn:Hc; [|discriminate]. destruct (hex_digit d) as [y|] eqn:Hd; [|discriminate].
      destruct (hex_decode s) as [r|]; [|discriminate]. intros E. apply (inj Some) in E. subst b.
      assert (x < 16 /\ y < 16) as [Hx Hy].
      { split; [clear Hd; destruct c; cbv in Hc|destruct d; cbv in Hd];
          first [discriminate|injection Hc as <-; lia|injection Hd as <-; lia]. }
      assert (HB : b2N (N2b (16 * x + y)) = 16 * x + y) by (apply b2N_N2b_small; lia).
      assert (HX : (16 * x + y) / 16 = x) by (symmetry; apply (N.div_unique _ _ _ y); lia).
      assert (HY : (16 * x + y) mod 16 = y) by (symmetry; apply (N.mod_unique _ _ x); lia).
      apply two_digits; [apply digit_read; rewrite HB, HX; exact Hc|apply digit_read; rewrite HB, HY; exact Hd|by apply IH'].
    + inversion 1 as [|? ? x ? r H1 H2 H3]; subst. apply digit_read in H1, H2. apply IH' in H3. rewrite H1, H2, H3.
      do 2 f_equal. rewrite <- (N2b_b2N x) at 3. f_equal. pose proof (N.div_mod (b2N x) 16). lia.
Qed.
Lemma sign_digits public_key sign_with key_hex chain from to amount :
  (forall private, digits_of key_hex private ->
     sign public_key sign_with key_hex chain from to amount
     = signed_payment public_key sign_with private chain 0 0 [(str "test", 50%Z)] 5000 from to amount)
  /\ ((forall private, ~ digits_of key_hex private) ->
      exists e, sign public_key sign_with key_hex chain from to amount = Fail e).
Proof.
  unfold sign. split.
  - intros private H. apply digits_read in H. by rewrite H.
  - intros H. destruct (hex_decode key_hex) as [k|] eqn:E; [|by eexists]. by apply digits_read, H in E.
Qed.
Lemma digits_cases : digits_of (str "0aFf") [Byte.x0a; Byte.xff]
  /\ (forall private, ~ digits_of (str "0x") private) /\ (forall private, ~ digits_of (str "0ab") private).
Proof.
  split; [by apply digits_read|]. split; intros private H; apply digits_read in H; discriminate H.
Qed.
