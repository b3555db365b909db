(** The parsers accept exactly the texts of the specification. *)
From Coq Require Import NArith ZArith List Bool String Lia.
From Coq Require Import ZifyBool ZifyN ZifyNat.
From stdpp Require Import base list.
From Verif.Model Require Import Bytes KindEncoder.
From Verif.Spec Require Import TextSpec.
From Verif.Proofs Require Import BytesFacts KindEncoderFacts.
Local Open Scope N_scope.

Lemma b64_val_bound c v : b64_val c = Some v -> v < 64.
Proof.
  unfold b64_val. pose proof (b2N_bound c).
  repeat match goal with |- context [if ?b then _ else _] => destruct b eqn:? end;
    intros H'; inversion H'; lia.
Qed.

Lemma b64_val_char_bits c v : b64_val c = Some v <-> char_bits c v.
Proof.
  unfold char_bits. split.
  - intros H. revert H. destruct c; vm_compute; intros H; inversion H; reflexivity.
  - intros H. assert (v < 64) as Hv.
    { assert (nth_error b64_alphabet (N.to_nat v) <> None) as Hn by congruence.
      apply nth_error_Some in Hn. change (length b64_alphabet) with 64%nat in Hn. lia. }
    assert (Hc : exists n, (n < 64)%nat /\ v = N.of_nat n) by (exists (N.to_nat v); lia).
    destruct Hc as (n & Hn & ->). clear Hv. rewrite Nnat.Nat2N.id in H.
    do 64 (destruct n as [|n]; [vm_compute in H; inversion H; vm_compute; reflexivity|]). lia.
Qed.

Lemma is_newline_line_break c : is_newline c = line_break c.
Proof. destruct c; reflexivity. Qed.

Lemma b64_vals_iff s vs :
  b64_vals s = Some vs <-> Forall2 char_bits (List.filter (fun c => negb (line_break c)) s) vs.
Proof.
  revert vs. induction s as [|c s IH]; intros vs; cbn.
  - split; [intros H; inversion H; constructor|intros H; inversion H; done].
  - rewrite is_newline_line_break. destruct (line_break c); cbn; [apply IH|].
    split.
    + destruct (b64_val c) as [v|] eqn:E; [|discriminate].
      destruct (b64_vals s) as [r|] eqn:E'; [|discriminate].
      intros H; inversion H; subst. constructor; [apply b64_val_char_bits; done|apply IH; done].
    + intros H; inversion H as [|? v ? r H1 H2]; subst.
      apply b64_val_char_bits in H1. apply IH in H2. rewrite H1, H2. done.
Qed.

Lemma N2b_eq_iff n x : n < 256 -> N2b n = x <-> n = b2N x.
Proof.
  intros H. split; [intros <-; rewrite b2N_N2b_small; done|intros ->; apply N2b_b2N].
Qed.

Lemma b64_groups_iff vs b :
  Forall (fun v => v < 64) vs -> b64_groups vs = Some b <-> bits_of vs b.
Proof.
  revert b. assert (HI : forall n vs b, (length vs <= n)%nat -> Forall (fun v => v < 64) vs ->
    b64_groups vs = Some b <-> bits_of vs b); [|intros; eapply HI; eauto].
  induction n as [|n IH]; intros l b Hl HF.
  - destruct l; cbn in *; [|lia]. split; [intros H; inversion H; constructor|intros H; inversion H; done].
  - destruct l as [|a1 [|a2 [|a3 [|a4 r]]]]; cbn.
    + split; [intros H; inversion H; constructor|intros H; inversion H; done].
    + split; [done|intros H; inversion H].
    + inversion HF as [|? ? Ha1 HF1]; inversion HF1 as [|? ? Ha2 _]; subst.
      split.
      * intros H; inversion H; subst. apply bits_two with (junk := a2 mod 16).
        -- rewrite b2N_N2b_small; zify; Z.to_euclidean_division_equations; lia.
        -- apply N.mod_lt. lia.
      * intros H; inversion H as [|? ? x junk E Hj| |]; subst. do 2 f_equal.
        pose proof (b2N_bound x). change (2 ^ 4) with 16 in *. change (2 ^ 6) with 64 in *.
        apply N2b_eq_iff; zify; Z.to_euclidean_division_equations; lia.
    + inversion HF as [|? ? Ha1 HF1]; inversion HF1 as [|? ? Ha2 HF2]; inversion HF2 as [|? ? Ha3 _]; subst.
      split.
      * intros H; inversion H; subst. apply bits_three with (junk := a3 mod 4).
        -- change (2 ^ 12) with 4096. change (2 ^ 6) with 64. change (2 ^ 8) with 256. change (2 ^ 2) with 4.
           rewrite !b2N_N2b_small; zify; Z.to_euclidean_division_equations; lia.
        -- apply N.mod_lt. lia.
      * intros H; inversion H as [| |? ? ? x y junk E Hj|]; subst. 
        pose proof (b2N_bound x). pose proof (b2N_bound y).
        change (2 ^ 12) with 4096 in *. change (2 ^ 6) with 64 in *. change (2 ^ 8) with 256 in *. change (2 ^ 2) with 4 in *.
        f_equal. f_equal; [|f_equal]; apply N2b_eq_iff; zify; Z.to_euclidean_division_equations; lia.
    + inversion HF as [|? ? Ha1 HF1]; inversion HF1 as [|? ? Ha2 HF2];
        inversion HF2 as [|? ? Ha3 HF3]; inversion HF3 as [|? ? Ha4 HF4]; subst.
      cbn in Hl. split.
      * destruct (b64_groups r) as [t|] eqn:E; [|discriminate].
        intros H; inversion H; subst. constructor; [|apply IH; auto; lia].
        change (2 ^ 12) with 4096. change (2 ^ 6) with 64. change (2 ^ 8) with 256. change (2 ^ 18) with 262144. change (2 ^ 16) with 65536.
        rewrite !b2N_N2b_small; zify; Z.to_euclidean_division_equations; lia.
      * intros H; inversion H as [| | |? ? ? ? x y z ? t E Hr]; subst.
        apply IH in Hr; [|lia|done]. rewrite Hr.
        pose proof (b2N_bound x). pose proof (b2N_bound y). pose proof (b2N_bound z).
        change (2 ^ 12) with 4096 in *. change (2 ^ 6) with 64 in *. change (2 ^ 8) with 256 in *. change (2 ^ 18) with 262144 in *. change (2 ^ 16) with 65536 in *.
        f_equal. f_equal; [|f_equal; [|f_equal]]; apply N2b_eq_iff; zify; Z.to_euclidean_division_equations; lia.
Qed.

Lemma b64_decode_iff s b : b64_decode s = Some b <-> base64_text s b.
Proof.
  unfold b64_decode, base64_text. split.
  - destruct (b64_vals s) as [vs|] eqn:E; [|discriminate]. intros H.
    apply b64_vals_iff in E as E'. exists vs. split; [done|]. apply b64_groups_iff; [|done].
    clear -E'. induction E' as [|c v cs vs H _ IH]; constructor; auto.
    apply b64_val_char_bits, b64_val_bound in H. done.
  - intros (vs & H1 & H2). rewrite (proj2 (b64_vals_iff s vs) H1).
    apply b64_groups_iff; [|done]. clear -H1. induction H1 as [|c v cs vs H _ IH]; constructor; auto.
    apply b64_val_char_bits, b64_val_bound in H. done.
Qed.

Lemma existsb_eqb s l : existsb (bytes_eqb s) l = true <-> s ∈ l.
Proof.
  rewrite existsb_exists. split.
  - intros (x & Hx & E). apply bool_decide_eq_true in E as ->. apply elem_of_list_In. done.
  - intros H. exists s. split; [apply elem_of_list_In; done|]. apply bool_decide_eq_true. done.
Qed.

Lemma parse_bool_iff s b : parse_bool s = Some b <-> denotes BoolKind s (VBool b).
Proof.
  unfold parse_bool, denotes.
  destruct (existsb (bytes_eqb s) [str "1"; _; _; _; _; _]) eqn:E1.
  - apply existsb_eqb in E1. destruct b; split; try done.
    intros H. exfalso. revert H. 
    repeat (apply elem_of_cons in E1 as [->|E1]; [vm_compute; intros H;
      repeat (apply elem_of_cons in H as [H|H]; [discriminate|]); inversion H|]). inversion E1.
  - assert (s ∉ [str "1"; str "t"; str "T"; str "TRUE"; str "true"; str "True"]) as N1.
    { rewrite <- existsb_eqb, E1. done. }
    destruct (existsb (bytes_eqb s) [str "0"; _; _; _; _; _]) eqn:E2.
    + apply existsb_eqb in E2. destruct b; split; done.
    + assert (s ∉ [str "0"; str "f"; str "F"; str "FALSE"; str "false"; str "False"]) as N2.
      { rewrite <- existsb_eqb, E2. done. }
      destruct b; split; done.
Qed.

Lemma opt_res_ok {A B} (f : A -> B) o b : opt_res f o = Ok b <-> exists a, o = Some a /\ b = f a.
Proof.
  destruct o; cbn; split; [intros H; inversion H; eauto|intros (x & H & ->); congruence|done|].
  intros (x & H & _); done.
Qed.

Lemma encode_string_denotes k s v :
  new_kind_encoder k = Ok k -> k <> Sint64Kind ->
  encode_string k s = Ok v <-> denotes k s v.
Proof.
  intros Hk Hs. destruct k; try discriminate; try done; cbn [encode_string];
    try rewrite opt_res_ok.
  - split.
    + intros (b & H & ->). apply parse_bool_iff. done.
    + destruct v; try done. intros H. apply parse_bool_iff in H. eauto.
  - split.
    + intros (b & H & ->). apply parse_int_spec in H as [H1 H2]; [|lia]. split; [done|]. exact H2.
    + destruct v; try done. intros [H1 H2]. exists z. split; [|done].
      apply parse_int_spec; [lia|]. split; [done|]. exact H2.
  - split.
    + intros (b & H & ->). apply parse_uint_spec in H. done.
    + destruct v; try done. intros H. exists n. split; [|done]. apply parse_uint_spec. done.
  - split.
    + intros (b & H & ->). apply parse_int_spec in H as [H1 H2]; [|lia]. split; [done|]. exact H2.
    + destruct v; try done. intros [H1 H2]. exists z. split; [|done].
      apply parse_int_spec; [lia|]. split; [done|]. exact H2.
  - split.
    + intros (b & H & ->). apply parse_uint_spec in H. done.
    + destruct v; try done. intros H. exists n. split; [|done]. apply parse_uint_spec. done.
  - split; [intros H; inversion H; done|]. destruct v; try done. cbn. intros ->. done.
  - split.
    + intros (b & H & ->). apply b64_decode_iff in H. done.
    + destruct v; try done. intros H. exists b. split; [|done]. apply b64_decode_iff. done.
Qed.
