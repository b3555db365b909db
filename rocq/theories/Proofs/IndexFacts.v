(** Lemmas about index keys and index lists. *)
From Coq Require Import NArith List Bool String Lia Sorted.
From Coq Require Import ZifyBool ZifyN ZifyNat.
From stdpp Require Import base list gmap.
From Verif.Model Require Import Bytes Wire KV KindEncoder Desc Schema Objects Indexes.
From Verif.Proofs Require Import BytesFacts KindEncoderFacts KVFacts.
Local Open Scope N_scope.

Definition le64_read (l : bytes) : N :=
  match l with
  | [b0; b1; b2; b3; b4; b5; b6; b7] => le64_decode b0 b1 b2 b3 b4 b5 b6 b7
  | _ => 0
  end.

Lemma le64_read_le64 v : v < two64 -> le64_read (le64 v) = v.
Proof.
  intros H. pose proof (le64_roundtrip v H) as R. unfold le64_read.
  destruct (le64 v) as [|b0 [|b1 [|b2 [|b3 [|b4 [|b5 [|b6 [|b7 [|? ?]]]]]]]]]; done.
Qed.

Lemma le64_inj a b : a < two64 -> b < two64 -> le64 a = le64 b -> a = b.
Proof.
  intros Ha Hb H. rewrite <- (le64_read_le64 a Ha), <- (le64_read_le64 b Hb), H. done.
Qed.

Lemma length_prefixed_inj_app a b r s :
  blen a < two64 -> blen b < two64 ->
  length_prefixed a ++ r = length_prefixed b ++ s -> a = b /\ r = s.
Proof.
  unfold length_prefixed. intros Ha Hb H. rewrite <- !app_assoc in H.
  apply app_inj_1 in H as [H1 H2]; [|rewrite !le64_length; done].
  apply le64_inj in H1; auto. apply app_inj_1 in H2; auto.
  unfold blen in H1. lia.
Qed.

Lemma blen_length_prefixed a : blen (length_prefixed a) = 8 + blen a.
Proof. unfold length_prefixed. rewrite blen_app. reflexivity. Qed.

Lemma ik_marshal_len k :
  blen (ik_marshal k)
  = 25 + blen (ik_object k) + blen (ik_index k) + blen (ik_value k) + blen (ik_primary k).
Proof.
  unfold ik_marshal. 
  change (?x :: ?l) with ([x] ++ l). rewrite !blen_app, !blen_length_prefixed.
  change (blen [indexers_prefix]) with 1. lia.
Qed.

Lemma ik_marshal_inj_small a b :
  blen (ik_marshal a) < two64 -> blen (ik_marshal b) < two64 ->
  ik_marshal a = ik_marshal b -> a = b.
Proof.
  rewrite !ik_marshal_len. intros Ha Hb H. unfold ik_marshal in H.
  apply (f_equal tail) in H. cbn [tail] in H. rename H into H'.
  apply length_prefixed_inj_app in H' as [E1 H']; [|lia..].
  apply length_prefixed_inj_app in H' as [E2 H']; [|lia..].
  apply length_prefixed_inj_app in H' as [E3 H']; [|lia..].
  destruct a, b; cbn in *; congruence.
Qed.

(** The key without primary key, used as scan prefix. *)
Definition ik_prefix (k : index_key) : index_key :=
  {| ik_object := ik_object k; ik_index := ik_index k; ik_value := ik_value k; ik_primary := [] |}.

Lemma ik_marshal_split k : ik_marshal k = ik_marshal (ik_prefix k) ++ ik_primary k.
Proof.
  unfold ik_marshal, ik_prefix. cbn [ik_object ik_index ik_value ik_primary app].
  rewrite app_nil_r. f_equal. rewrite <- !app_assoc. reflexivity.
Qed.

Lemma ik_marshal_prefix_of p pk :
  ik_primary p = [] ->
  ik_marshal p ++ pk
  = ik_marshal {| ik_object := ik_object p; ik_index := ik_index p;
                  ik_value := ik_value p; ik_primary := pk |}.
Proof.
  intros E. unfold ik_marshal. cbn [ik_object ik_index ik_value ik_primary app].
  rewrite E, app_nil_r. f_equal. rewrite <- !app_assoc. reflexivity.
Qed.

Lemma consume_length_prefixed_app v r :
  blen v < 9223372036854775800 ->
  consume_length_prefixed (length_prefixed v ++ r) = Ok (v, r).
Proof.
  intros Hv. unfold length_prefixed.
  assert (blen v < two64) as H64 by (unfold two64; lia).
  pose proof (le64_read_le64 _ H64) as R. pose proof (le64_length (blen v)) as L.
  destruct (le64 (blen v)) as [|b0 [|b1 [|b2 [|b3 [|b4 [|b5 [|b6 [|b7 [|? ?]]]]]]]]]; try done.
  unfold le64_read in R. cbn [app]. unfold consume_length_prefixed. rewrite R.
  replace (9223372036854775800 <=? blen v) with false by lia.
  set (buf := b0 :: _).
  assert (blen buf = 8 + blen v + blen r) as ->.
  { subst buf. unfold blen. cbn [length]. rewrite app_length. lia. }
  replace (8 + blen v + blen r <? 8 + blen v) with false by lia.
  replace (N.to_nat (blen v)) with (length v) by (unfold blen; lia).
  rewrite take_app, drop_app. done.
Qed.

Lemma ik_roundtrip k :
  blen (ik_marshal k) < 2 ^ 63 -> ik_unmarshal (ik_marshal k) = Ok k.
Proof.
  rewrite ik_marshal_len. change (2 ^ 63) with 9223372036854775808. intros H.
  unfold ik_marshal, ik_unmarshal.
  rewrite consume_length_prefixed_app by lia.
  rewrite consume_length_prefixed_app by lia.
  rewrite consume_length_prefixed_app by lia.
  destruct k; done.
Qed.

(** ** Index lists *)
Lemma index_list_loop_spec l acc fuel rest :
  (length (concat (map append_bytes l)) <= fuel)%nat ->
  Forall (fun b => blen b < two64) l ->
  index_list_loop (fuel + length rest) (N.of_nat (length l)) (concat (map append_bytes l) ++ rest) acc
  = Ok (inr (rev acc ++ l, rest)).
Proof.
  revert acc fuel. induction l as [|b l IH]; intros acc fuel Hf HF.
  - cbn. rewrite app_nil_r. destruct (fuel + length rest)%nat; done.
  - inversion HF; subst. cbn [map concat length] in *.
    rewrite app_length in Hf.
    assert (1 <= length (append_bytes b))%nat as Hb.
    { pose proof (append_bytes_nonempty b). destruct (append_bytes b); [done|cbn; lia]. }
    destruct fuel as [|fuel]; [lia|]. cbn [Nat.add index_list_loop].
    replace (N.of_nat (S (length l)) =? 0) with false by lia.
    rewrite <- app_assoc.
    destruct (append_bytes b ++ concat (map append_bytes l) ++ rest) eqn:E.
    { destruct (append_bytes b); [cbn in Hb; lia|done]. }
    rewrite <- E, consume_bytes_append by done.
    replace (N.of_nat (S (length l)) - 1) with (N.of_nat (length l)) by lia.
    rewrite IH by (auto; lia). cbn [rev]. rewrite <- app_assoc. done.
Qed.

Lemma index_list_roundtrip l :
  l <> [] -> Forall (fun b => blen b < two64) l -> N.of_nat (length l) <= 11728124029610 ->
  index_list_unmarshal (index_list_marshal l) = Ok l.
Proof.
  intros Hl HF HN. destruct l as [|b0 l0]; [done|]. cbn [index_list_marshal].
  remember (b0 :: l0) as l eqn:El. clear El b0 l0 Hl.
  unfold index_list_unmarshal.
  rewrite consume_varint_append by (unfold two64; lia).
  replace (11728124029610 <? N.of_nat (length l)) with false by lia.
  pose proof (index_list_loop_spec l [] (length (concat (map append_bytes l))) [] ltac:(lia) HF) as H.
  rewrite Nat.add_0_r, app_nil_r in H. rewrite H. done.
Qed.
