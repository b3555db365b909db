(** [utf8_valid] accepts exactly the UTF-8 form of code points. *)
From Coq Require Import NArith ZArith List Bool Lia.
From stdpp Require Import base list.
From Verif.Model Require Import Bytes Proto.
From Verif.Spec Require Import TxSpec.
From Verif.Proofs Require Import BytesFacts.
Local Open Scope N_scope.
Ltac Zify.zify_post_hook ::= Z.div_mod_to_equations.

Lemma in_range_true lo hi b : in_range lo hi b = true <-> lo <= b2N b <= hi.
Proof. unfold in_range. rewrite andb_true_iff, !N.leb_le. reflexivity. Qed.
Lemma in_range_false lo hi b : ~ (lo <= b2N b <= hi) -> in_range lo hi b = false.
Proof. intros H. destruct (in_range lo hi b) eqn:E; [|reflexivity]. apply in_range_true in E. contradiction. Qed.
Ltac yes := rewrite (proj2 (in_range_true _ _ _)) by (rewrite ?b2N_N2b_small; lia).
Ltac no := rewrite in_range_false by (rewrite ?b2N_N2b_small; lia).
Ltac by_ranges := repeat first [yes | no]; cbn [andb].

Lemma utf8_char_valid c r : scalar c -> utf8_valid (utf8_char c ++ r) = utf8_valid r.
Proof.
  intros Hc. unfold scalar in Hc. unfold utf8_char.
  destruct (decide (c < 0x80)); [cbn [app utf8_valid]; yes; reflexivity|].
  destruct (decide (c < 0x800)).
  { cbn [app utf8_valid]. unfold continuation. no. yes. yes. reflexivity. }
  destruct (decide (c < 0x10000)).
  { cbn [app utf8_valid]. unfold continuation. no. no.
    destruct (N.eq_dec (c / 4096) 0) as [E|E]; [rewrite E; yes; yes; yes; reflexivity|]. no.
    destruct (N.eq_dec (c / 4096) 13) as [E'|E']; [rewrite E'; yes; yes; yes; reflexivity|]. no. yes. yes. yes. reflexivity. }
  cbn [app utf8_valid]. unfold continuation. no. no. no. no. no.
  destruct (N.eq_dec (c / 262144) 0) as [E|E]; [rewrite E; yes; yes; yes; yes; reflexivity|]. no.
  destruct (N.eq_dec (c / 262144) 4) as [E'|E']; [rewrite E'; no; yes; yes; yes; yes; reflexivity|]. yes. yes. yes. yes. reflexivity.
Qed.
Lemma utf8_complete cs : Forall scalar cs -> utf8_valid (concat (map utf8_char cs)) = true.
Proof.
  induction 1 as [|c cs Hc _ IH]; [reflexivity|]. cbn [map concat]. rewrite utf8_char_valid by exact Hc. exact IH.
Qed.

Lemma byte_is x n : b2N x = n -> N2b n = x.
Proof. intros <-. apply N2b_b2N. Qed.
Lemma utf8_one x : b2N x < 128 -> utf8_char (b2N x) = [x].
Proof. intros H. unfold utf8_char. rewrite decide_True by exact H. by rewrite N2b_b2N. Qed.
Lemma utf8_two x y : 194 <= b2N x <= 223 -> 128 <= b2N y <= 191 ->
  exists c, scalar c /\ utf8_char c = [x; y].
Proof.
  intros Hx Hy. exists ((b2N x - 192) * 64 + (b2N y - 128)). split; [left; lia|].
  unfold utf8_char. rewrite decide_False, decide_True by lia. f_equal; [apply byte_is; lia|]. f_equal. apply byte_is. lia.
Qed.
Lemma utf8_three x y z : 224 <= b2N x <= 239 -> 128 <= b2N y <= 191 -> 128 <= b2N z <= 191 ->
  (b2N x = 224 -> 160 <= b2N y) -> (b2N x = 237 -> b2N y <= 159) ->
  exists c, scalar c /\ utf8_char c = [x; y; z].
Proof.
  intros Hx Hy Hz H1 H2. exists ((b2N x - 224) * 4096 + (b2N y - 128) * 64 + (b2N z - 128)).
  split; [unfold scalar; lia|].
  unfold utf8_char. rewrite decide_False, decide_False, decide_True by lia.
  f_equal; [apply byte_is; lia|]. f_equal; [apply byte_is; lia|]. f_equal. apply byte_is. lia.
Qed.
Lemma utf8_four x y z w : 240 <= b2N x <= 244 -> 128 <= b2N y <= 191 -> 128 <= b2N z <= 191 -> 128 <= b2N w <= 191 ->
  (b2N x = 240 -> 144 <= b2N y) -> (b2N x = 244 -> b2N y <= 143) ->
  exists c, scalar c /\ utf8_char c = [x; y; z; w].
Proof.
  intros Hx Hy Hz Hw H1 H2. exists ((b2N x - 240) * 262144 + (b2N y - 128) * 4096 + (b2N z - 128) * 64 + (b2N w - 128)).
  split; [unfold scalar; lia|].
  unfold utf8_char. rewrite decide_False, decide_False, decide_False by lia.
  f_equal; [apply byte_is; lia|]. f_equal; [apply byte_is; lia|]. f_equal; [apply byte_is; lia|]. f_equal. apply byte_is. lia.
Qed.
Lemma utf8_text_more c b : scalar c -> utf8_text b -> utf8_text (utf8_char c ++ b).
Proof. intros Hc (cs & Hcs & ->). exists (c :: cs). split; [by apply Forall_cons|reflexivity]. Qed.
Ltac split_valid := repeat match goal with
  | H : _ && _ = true |- _ => apply andb_true_iff in H as [? H]
  | H : in_range _ _ _ = true |- _ => apply in_range_true in H
  end.
Lemma utf8_sound n : forall b, (length b < n)%nat -> utf8_valid b = true -> utf8_text b.
Proof.
  induction n as [|n IH]; intros [|x r] Hl H; cbn [length] in Hl; try lia; [exists []; split; [apply Forall_nil; exact I|reflexivity]|].
  cbn [utf8_valid] in H. unfold continuation in H.
  destruct (in_range 0 127 x) eqn:E1.
  { apply in_range_true in E1. change (x :: r) with ([x] ++ r). rewrite <- (utf8_one x) by lia.
    apply utf8_text_more; [left; lia|]. apply IH; [lia|exact H]. }
  destruct r as [|y r]; [discriminate H|]. cbn [length] in Hl.
  destruct (in_range 194 223 x) eqn:E2.
  { split_valid. destruct (utf8_two x y) as (c & Hc & Ec); [lia|lia|]. change (x :: y :: r) with ([x; y] ++ r). rewrite <- Ec.
    apply utf8_text_more; [exact Hc|]. apply IH; [lia|exact H]. }
  destruct r as [|z r]; [discriminate H|]. cbn [length] in Hl.
  assert (forall c, scalar c -> utf8_char c = [x; y; z] -> utf8_valid r = true -> utf8_text (x :: y :: z :: r)) as H3.
  { intros c Hc Ec Hr. change (x :: y :: z :: r) with ([x; y; z] ++ r). rewrite <- Ec. apply utf8_text_more; [exact Hc|].
    apply IH; [lia|exact Hr]. }
  destruct (in_range 224 224 x) eqn:E3.
  { split_valid. destruct (utf8_three x y z) as (c & Hc & Ec); [lia..|]. exact (H3 c Hc Ec H). }
  destruct (in_range 237 237 x) eqn:E4.
  { split_valid. destruct (utf8_three x y z) as (c & Hc & Ec); [lia..|]. exact (H3 c Hc Ec H). }
  destruct (in_range 225 239 x) eqn:E5.
  { assert (b2N x <> 237) by (intros Ex; unfold in_range in E4; rewrite Ex in E4; discriminate E4).
    split_valid. destruct (utf8_three x y z) as (c & Hc & Ec); [lia..|]. exact (H3 c Hc Ec H). }
  destruct r as [|w r]; [discriminate H|]. cbn [length] in Hl.
  assert (forall c, scalar c -> utf8_char c = [x; y; z; w] -> utf8_valid r = true -> utf8_text (x :: y :: z :: w :: r)) as H4.
  { intros c Hc Ec Hr. change (x :: y :: z :: w :: r) with ([x; y; z; w] ++ r). rewrite <- Ec. apply utf8_text_more; [exact Hc|].
    apply IH; [lia|exact Hr]. }
  destruct (in_range 240 240 x) eqn:E6.
  { split_valid. destruct (utf8_four x y z w) as (c & Hc & Ec); [lia..|]. exact (H4 c Hc Ec H). }
  destruct (in_range 241 243 x) eqn:E7.
  { split_valid. destruct (utf8_four x y z w) as (c & Hc & Ec); [lia..|]. exact (H4 c Hc Ec H). }
  split_valid. destruct (utf8_four x y z w) as (c & Hc & Ec); [lia..|]. exact (H4 c Hc Ec H).
Qed.
Lemma utf8_valid_spec b : utf8_valid b = true <-> utf8_text b.
Proof.
  split; [apply (utf8_sound (S (length b))); lia|]. intros (cs & H & ->). by apply utf8_complete.
Qed.
