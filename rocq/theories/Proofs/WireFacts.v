(** The reader of messages accepts exactly the wire format. *)
From Coq Require Import NArith ZArith List Bool Lia.
From stdpp Require Import base list option.
From Verif.Model Require Import Bytes Wire Proto Authn.
From Verif.Spec Require Import WireSpec.
From Verif.Proofs Require Import BytesFacts KindEncoderFacts ProtoFacts.
Local Open Scope N_scope.

(** ** Numbers *)
Lemma pow_step i : 2 ^ (7 * N.of_nat (S i)) = 128 * 2 ^ (7 * N.of_nat i).
Proof. replace (7 * N.of_nat (S i)) with (7 + 7 * N.of_nat i) by lia. rewrite N.pow_add_r. reflexivity. Qed.
Lemma base128_length b v : base128 b v -> (1 <= length b)%nat.
Proof. destruct 1; cbn [length]; lia. Qed.
Lemma consume_at_sound b : forall i acc v r, (i <= 9)%nat -> consume_varint_at i acc b = inl (v, r) ->
  exists t w, b = t ++ r /\ base128 t w /\ (length t + i <= 10)%nat /\ v = acc + w * 2 ^ (7 * N.of_nat i)
    /\ ((length t + i = 10)%nat -> w < 2 ^ (64 - 7 * N.of_nat i)).
Proof.
  induction b as [|x b IH]; intros i acc v r Hi; cbn [consume_varint_at]; [discriminate|].
  destruct (Nat.leb_spec 9 i) as [H9|H9].
  - assert (i = 9%nat) as -> by lia. destruct (N.ltb_spec (b2N x) 2) as [Hx|]; [|discriminate]. intros [= <- <-].
    exists [x], (b2N x). split; [reflexivity|]. split; [apply b128_last; lia|]. split; [cbn; lia|]. split; [reflexivity|].
    intros _. replace (64 - 7 * N.of_nat 9) with 1 by reflexivity. exact Hx.
  - destruct (N.ltb_spec (b2N x) 128) as [Hx|Hx].
    + intros [= <- <-]. exists [x], (b2N x). split; [reflexivity|]. split; [apply b128_last; exact Hx|].
      split; [cbn; lia|]. split; [reflexivity|]. cbn [length]. intros; lia.
    + intros H. destruct (IH (S i) _ v r ltac:(lia) H) as (t & w & -> & Hb & Hl & -> & Hw).
      exists (x :: t), (b2N x - 128 + 128 * w). split; [reflexivity|]. split; [apply b128_more; assumption|].
      split; [cbn [length]; lia|]. split.
      * rewrite pow_step. lia.
      * cbn [length]. intros Hl'. specialize (Hw ltac:(lia)).
        pose proof (b2N_bound x) as Hb'.
        replace (64 - 7 * N.of_nat i) with (7 + (64 - 7 * N.of_nat (S i))) by lia. rewrite N.pow_add_r.
        change (2 ^ 7) with 128. nia.
Qed.
Lemma base128_bound b v : base128 b v -> v < 2 ^ (7 * N.of_nat (length b)).
Proof.
  induction 1 as [x Hx|x b v Hx _ IH]; [exact Hx|]. cbn [length]. rewrite pow_step. pose proof (b2N_bound x). lia.
Qed.
Lemma consume_at_complete t w : base128 t w -> forall i acc r, (length t + i <= 10)%nat ->
  ((length t + i = 10)%nat -> w < 2 ^ (64 - 7 * N.of_nat i)) ->
  consume_varint_at i acc (t ++ r) = inl (acc + w * 2 ^ (7 * N.of_nat i), r).
Proof.
  induction 1 as [x Hx|x b v Hx Hb IH]; intros i acc r Hl Hw; cbn [app consume_varint_at length] in *.
  - destruct (Nat.leb_spec 9 i) as [H9|H9].
    + assert (i = 9%nat) as -> by lia. specialize (Hw eq_refl). change (2 ^ (64 - 7 * N.of_nat 9)) with 2 in Hw.
      destruct (N.ltb_spec (b2N x) 2); [reflexivity|lia].
    + destruct (N.ltb_spec (b2N x) 128); [reflexivity|lia].
  - pose proof (base128_length _ _ Hb) as Hn.
    destruct (Nat.leb_spec 9 i) as [H9|H9]; [lia|]. destruct (N.ltb_spec (b2N x) 128); [lia|].
    rewrite IH; [f_equal; f_equal; rewrite pow_step; lia|lia|].
    intros Hl'. specialize (Hw ltac:(lia)).
    replace (64 - 7 * N.of_nat i) with (7 + (64 - 7 * N.of_nat (S i))) in Hw by lia. rewrite N.pow_add_r in Hw.
    change (2 ^ 7) with 128 in Hw. lia.
Qed.
Lemma consume_varint_spec b v r : consume_varint b = inl (v, r) <-> exists t, b = t ++ r /\ number_text t v.
Proof.
  unfold consume_varint. split.
  - intros H. destruct (consume_at_sound b 0 0 v r ltac:(lia) H) as (t & w & -> & Hb & Hl & -> & Hw).
    exists t. split; [reflexivity|]. change (2 ^ (7 * N.of_nat 0)) with 1. rewrite N.add_0_l, N.mul_1_r.
    split; [exact Hb|]. split; [lia|]. change (64 - 7 * N.of_nat 0) with 64 in Hw.
    destruct (Nat.eq_dec (length t + 0)%nat 10%nat) as [E|E]; [exact (Hw E)|].
    refine (N.lt_le_trans _ _ _ (base128_bound _ _ Hb) _). apply N.pow_le_mono_r; lia.
  - intros (t & -> & Hb & Hl & Hv). rewrite (consume_at_complete t v Hb 0 0 r ltac:(lia)).
    + change (2 ^ (7 * N.of_nat 0)) with 1. rewrite N.add_0_l, N.mul_1_r. reflexivity.
    + intros _. exact Hv.
Qed.
Lemma number_text_inj t u v w r s : number_text t v -> number_text u w -> t ++ r = u ++ s -> t = u /\ r = s /\ v = w.
Proof.
  intros Ht Hu E. assert (consume_varint (t ++ r) = inl (v, r)) as H1 by (apply consume_varint_spec; eauto).
  assert (consume_varint (u ++ s) = inl (w, s)) as H2 by (apply consume_varint_spec; eauto).
  rewrite E, H2 in H1. injection H1 as -> ->. apply app_inv_tail in E. auto.
Qed.
Lemma consume_tag_spec b n ty r : consume_tag b = Some (n, ty, r) <-> exists t, b = t ++ r /\ tag_text t n ty.
Proof.
  unfold consume_tag. split.
  - destruct (consume_varint b) as [[v r']|] eqn:E; [|discriminate]. apply consume_varint_spec in E as (t & -> & Ht).
    destruct (N.ltb_spec (v / 8) 1); [discriminate|]. destruct (N.leb_spec (2 ^ 29) (v / 8)); [discriminate|].
    cbn [orb]. intros [= <- <- <-]. exists t. split; [reflexivity|]. split; [|split; [lia|apply N.mod_lt; lia]].
    replace (v / 8 * 8 + v mod 8) with v; [exact Ht|]. pose proof (N.div_mod v 8 ltac:(lia)). lia.
  - intros (t & -> & Ht & Hn & Hty). assert (consume_varint (t ++ r) = inl (n * 8 + ty, r)) as -> by (apply consume_varint_spec; eauto).
    assert ((n * 8 + ty) / 8 = n) as -> by (rewrite N.add_comm, N.div_add by lia; rewrite N.div_small; lia).
    assert ((n * 8 + ty) mod 8 = ty) as -> by (rewrite N.add_comm, N.mod_add by lia; apply N.mod_small; lia).
    destruct (N.ltb_spec n 1); [lia|]. destruct (N.leb_spec (2 ^ 29) n); [lia|]. reflexivity.
Qed.
Lemma consume_fixed_spec n b v r : consume_fixed n b = Some (v, r) <-> b = v ++ r /\ length v = n.
Proof.
  unfold consume_fixed. destruct (Nat.ltb_spec (length b) n) as [H|H].
  - split; [discriminate|]. intros [-> <-]. rewrite app_length in H. lia.
  - split.
    + intros [= <- <-]. split; [symmetry; apply take_drop|]. rewrite take_length. lia.
    + intros [-> <-]. rewrite take_app, drop_app. reflexivity.
Qed.
Lemma consume_bytes_spec b v r : consume_bytes b = inl (v, r) <-> exists l, b = l ++ v ++ r /\ number_text l (blen v).
Proof.
  unfold consume_bytes. split.
  - destruct (consume_varint b) as [[m r']|] eqn:E; [|discriminate]. apply consume_varint_spec in E as (t & -> & Ht).
    destruct (N.ltb_spec (blen r') m) as [|Hm]; [discriminate|]. intros [= <- <-]. exists t.
    rewrite take_drop. split; [reflexivity|]. replace (blen (take (N.to_nat m) r')) with m; [exact Ht|].
    unfold blen in *. rewrite take_length. lia.
  - intros (l & -> & Hl). assert (consume_varint (l ++ v ++ r) = inl (blen v, v ++ r)) as -> by (apply consume_varint_spec; eauto).
    destruct (N.ltb_spec (blen (v ++ r)) (blen v)) as [H|_]; [rewrite blen_app in H; lia|].
    unfold blen. rewrite Nat2N.id, take_app, drop_app. reflexivity.
Qed.

(** ** Fields *)
(** Values that are no groups. *)
Inductive value_text : N -> bytes -> wvalue -> Prop :=
| vt_number b v : number_text b v -> value_text 0 b (WVarint v)
| vt_fixed64 b : length b = 8%nat -> value_text 1 b (WFixed64 b)
| vt_bytes l b : number_text l (blen b) -> value_text 2 (l ++ b) (WBytes b)
| vt_fixed32 b : length b = 4%nat -> value_text 5 b (WFixed32 b).
Lemma consume_value_spec ty b v r : consume_value ty b = Some (v, r) <-> exists t, b = t ++ r /\ value_text ty t v.
Proof.
  split.
  - unfold consume_value. destruct ty as [|[[[]|[]|]|[[]|[]|]|]]; try discriminate.
    + destruct (consume_varint b) as [[w r']|] eqn:E; [|discriminate]. intros [= <- <-].
      apply consume_varint_spec in E as (t & -> & Ht). exists t. split; [reflexivity|]. by constructor.
    + destruct (consume_fixed 4 b) as [[w r']|] eqn:E; [|discriminate]. intros [= <- <-].
      apply consume_fixed_spec in E as [-> Hl]. exists w. split; [reflexivity|]. by constructor.
    + destruct (consume_bytes b) as [[w r']|] eqn:E; [|discriminate]. intros [= <- <-].
      apply consume_bytes_spec in E as (l & -> & Hl). exists (l ++ w). split; [apply app_assoc|]. by constructor.
    + destruct (consume_fixed 8 b) as [[w r']|] eqn:E; [|discriminate]. intros [= <- <-].
      apply consume_fixed_spec in E as [-> Hl]. exists w. split; [reflexivity|]. by constructor.
  - intros (t & -> & Ht). destruct Ht as [b v H|b H|l b H|b H]; cbn [consume_value].
    + assert (consume_varint (b ++ r) = inl (v, r)) as -> by (apply consume_varint_spec; eauto). reflexivity.
    + assert (consume_fixed 8 (b ++ r) = Some (b, r)) as -> by (apply consume_fixed_spec; eauto). reflexivity.
    + assert (consume_bytes ((l ++ b) ++ r) = inl (b, r)) as ->; [|reflexivity].
      apply consume_bytes_spec. exists l. rewrite <- app_assoc. auto.
    + assert (consume_fixed 4 (b ++ r) = Some (b, r)) as -> by (apply consume_fixed_spec; eauto). reflexivity.
Qed.
Lemma plain_field t ty n b v : tag_text t n ty -> value_text ty b v -> field_text (t ++ b) (n, v).
Proof.
  intros Ht Hv. destruct Hv; [by apply ft_number|by apply ft_fixed64|by apply ft_bytes|by apply ft_fixed32].
Qed.
Lemma tag_text_nonempty t n ty : tag_text t n ty -> (1 <= length t)%nat.
Proof. intros [[H _] _]. exact (base128_length _ _ H). Qed.

(** What closes the groups that are open. *)
Inductive closing : list N -> bytes -> Prop :=
| cl_none : closing [] []
| cl_group n open g gs e b : message_text g gs -> tag_text e n 4 -> closing open b -> closing (n :: open) (g ++ e ++ b).
Lemma message_text_app a fs b gs : message_text a fs -> message_text b gs -> message_text (a ++ b) (fs ++ gs).
Proof.
  induction 1 as [|x f a fs Hf _ IH]; intros Hb; [exact Hb|]. cbn [app]. rewrite <- app_assoc. apply mt_field; [exact Hf|exact (IH Hb)].
Qed.
Lemma message_text_one a f : field_text a f -> message_text a [f].
Proof. intros H. rewrite <- (app_nil_r a). apply mt_field; [exact H|apply mt_none]. Qed.
Lemma closing_more open t b f : closing open b -> open <> [] -> field_text t f -> closing open (t ++ b).
Proof.
  intros H Ho Hf. destruct H as [|n open g gs e b Hg He Hc]; [done|].
  replace (t ++ g ++ e ++ b) with ((t ++ g) ++ e ++ b) by (by rewrite <- app_assoc).
  apply (cl_group _ _ _ (f :: gs)); [by apply mt_field|exact He|exact Hc].
Qed.
Lemma skip_groups_sound fuel : forall open b r, skip_groups fuel open b = Some r -> exists t, b = t ++ r /\ closing open t.
Proof.
  induction fuel as [|fuel IH]; intros [|num outer] b r; cbn [skip_groups]; try discriminate.
  1,2: intros [= <-]; exists []; split; [reflexivity|apply cl_none].
  destruct (consume_tag b) as [[[n ty] r1]|] eqn:Et; [|discriminate]. apply consume_tag_spec in Et as (t & -> & Ht).
  destruct (N.eqb_spec ty 4) as [->|H4].
  { destruct (N.eqb_spec n num) as [->|]; [|discriminate]. intros H. destruct (IH _ _ _ H) as (u & -> & Hu).
    exists (t ++ u). split; [apply app_assoc|]. exact (cl_group num outer [] [] t u mt_none Ht Hu). }
  destruct (N.eqb_spec ty 3) as [->|H3].
  { intros H. destruct (IH _ _ _ H) as (u & -> & Hu). inversion Hu as [|? ? g gs e b' Hg He Hc]; subst.
    exists (t ++ g ++ e ++ b'). split; [by rewrite <- !app_assoc|].
    replace (t ++ g ++ e ++ b') with ((t ++ g ++ e) ++ b') by (by rewrite <- !app_assoc).
    apply (closing_more _ _ _ (n, WGroup)); [exact Hc|done|]. by apply ft_group with gs. }
  destruct (consume_value ty r1) as [[v r2]|] eqn:Ev; [|discriminate]. apply consume_value_spec in Ev as (u & -> & Hu).
  intros H. destruct (IH _ _ _ H) as (w & -> & Hw). exists ((t ++ u) ++ w). split; [by rewrite <- !app_assoc|].
  apply (closing_more _ _ _ (n, v)); [exact Hw|done|exact (plain_field _ _ _ _ _ Ht Hu)].
Qed.

(** Reading on after a message inside a group. *)
Lemma skip_tag t n ty r : tag_text t n ty -> consume_tag (t ++ r) = Some (n, ty, r).
Proof. intros H. apply consume_tag_spec. eauto. Qed.
Lemma skip_value ty b v r : value_text ty b v -> consume_value ty (b ++ r) = Some (v, r).
Proof. intros H. apply consume_value_spec. eauto. Qed.
Lemma value_type ty b v : value_text ty b v -> (ty =? 4) = false /\ (ty =? 3) = false.
Proof. destruct 1; auto. Qed.

Scheme field_text_mut := Minimality for field_text Sort Prop
with message_text_mut := Minimality for message_text Sort Prop.
Combined Scheme text_mut from field_text_mut, message_text_mut.

Definition skips (a : bytes) : Prop := forall open fuel b, open <> [] -> (length a + length b <= fuel)%nat ->
  exists fuel', (length b <= fuel')%nat /\ skip_groups fuel open (a ++ b) = skip_groups fuel' open b.
Lemma skips_value t n ty b v : tag_text t n ty -> value_text ty b v -> skips (t ++ b).
Proof.
  intros Ht Hv open fuel r Ho Hl. destruct open as [|num outer]; [done|]. rewrite app_length in Hl.
  pose proof (tag_text_nonempty _ _ _ Ht). destruct fuel as [|fuel]; [lia|]. cbn [skip_groups].
  rewrite <- app_assoc, (skip_tag _ _ _ _ Ht). destruct (value_type _ _ _ Hv) as [-> ->].
  rewrite (skip_value _ _ _ _ Hv). exists fuel. split; [lia|reflexivity].
Qed.
Lemma texts_skip : (forall a f, field_text a f -> skips a) /\ (forall a fs, message_text a fs -> skips a).
Proof.
  apply text_mut.
  - intros t b n v Ht Hb. eapply skips_value; [exact Ht|by constructor].
  - intros t b n Ht Hb. eapply skips_value; [exact Ht|by constructor].
  - intros t l b n Ht Hb. eapply skips_value; [exact Ht|by constructor].
  - intros t g e n gs Ht _ IH He open fuel r Ho Hl. destruct open as [|num outer]; [done|].
    rewrite !app_length in Hl. pose proof (tag_text_nonempty _ _ _ Ht). pose proof (tag_text_nonempty _ _ _ He).
    destruct fuel as [|fuel]; [lia|]. cbn [skip_groups]. rewrite <- !app_assoc, (skip_tag _ _ _ _ Ht). cbn [N.eqb Pos.eqb].
    destruct (IH (n :: num :: outer) fuel (e ++ r) ltac:(done) ltac:(rewrite app_length; lia)) as (fuel' & Hf & ->).
    rewrite app_length in Hf. destruct fuel' as [|fuel']; [lia|]. cbn [skip_groups]. rewrite (skip_tag _ _ _ _ He).
    cbn [N.eqb Pos.eqb]. rewrite N.eqb_refl. exists fuel'. split; [lia|reflexivity].
  - intros t b n Ht Hb. eapply skips_value; [exact Ht|by constructor].
  - intros open fuel b Ho Hl. exists fuel. split; [cbn in Hl; lia|reflexivity].
  - intros a f b fs _ IHa _ IHb open fuel r Ho Hl. rewrite app_length in Hl. rewrite <- app_assoc.
    destruct (IHa open fuel (b ++ r) Ho ltac:(rewrite app_length; lia)) as (f1 & H1 & ->). rewrite app_length in H1.
    exact (IHb open f1 r Ho H1).
Qed.
Lemma field_text_nonempty a f : field_text a f -> (1 <= length a)%nat.
Proof.
  destruct 1; rewrite app_length;
    match goal with H : tag_text ?t _ _ |- context [length ?t] => pose proof (tag_text_nonempty _ _ _ H); lia end.
Qed.
Lemma consume_field_complete a f r : field_text a f -> consume_field (a ++ r) = Some (f, r).
Proof.
  intros H. unfold consume_field. destruct H as [t b n v Ht Hb|t b n Ht Hb|t l b n Ht Hb|t g e n gs Ht Hg He|t b n Ht Hb];
    rewrite <- ?app_assoc, (skip_tag _ _ _ _ Ht); cbn [N.eqb Pos.eqb].
  - rewrite (skip_value 0 b (WVarint v)); [reflexivity|by constructor].
  - rewrite (skip_value 1 b (WFixed64 b)); [reflexivity|by constructor].
  - rewrite app_assoc, (skip_value 2 (l ++ b) (WBytes b)); [reflexivity|by constructor].
  - destruct (proj2 texts_skip g gs Hg [n] (length (g ++ e ++ r)) (e ++ r) ltac:(done) ltac:(rewrite !app_length; lia)) as (f1 & H1 & ->).
    rewrite app_length in H1. pose proof (tag_text_nonempty _ _ _ He). destruct f1 as [|f1]; [lia|]. cbn [skip_groups].
    rewrite (skip_tag _ _ _ _ He). cbn [N.eqb Pos.eqb]. rewrite N.eqb_refl. destruct f1; reflexivity.
  - rewrite (skip_value 5 b (WFixed32 b)); [reflexivity|by constructor].
Qed.
Lemma consume_field_sound b f r : consume_field b = Some (f, r) -> exists t, b = t ++ r /\ field_text t f.
Proof.
  unfold consume_field. destruct (consume_tag b) as [[[n ty] r1]|] eqn:Et; [|discriminate].
  apply consume_tag_spec in Et as (t & -> & Ht). destruct (N.eqb_spec ty 3) as [->|H3].
  - destruct (skip_groups (length r1) [n] r1) as [r2|] eqn:Es; [|discriminate]. intros [= <- <-].
    apply skip_groups_sound in Es as (u & -> & Hu). inversion Hu as [|? ? g gs e b' Hg He Hc]; subst. inversion Hc; subst.
    exists (t ++ g ++ e). rewrite app_nil_r, <- !app_assoc. split; [reflexivity|]. by apply ft_group with gs.
  - destruct (consume_value ty r1) as [[v r2]|] eqn:Ev; [|discriminate]. intros [= <- <-].
    apply consume_value_spec in Ev as (u & -> & Hu). exists (t ++ u). split; [apply app_assoc|].
    exact (plain_field _ _ _ _ _ Ht Hu).
Qed.
Lemma parse_from_complete b fs : message_text b fs -> forall fuel, (length b <= fuel)%nat -> parse_from fuel b = Some fs.
Proof.
  induction 1 as [|a f b fs Hf _ IH]; intros fuel Hl; [destruct fuel; reflexivity|].
  pose proof (field_text_nonempty _ _ Hf) as Hn. rewrite app_length in Hl. destruct fuel as [|fuel]; [lia|].
  destruct a as [|x a]; [cbn in Hn; lia|]. cbn [parse_from app].
  rewrite app_comm_cons, (consume_field_complete _ _ b Hf), IH; [reflexivity|cbn [length] in Hl; lia].
Qed.
Lemma parse_from_sound fuel : forall b fs, parse_from fuel b = Some fs -> message_text b fs.
Proof.
  induction fuel as [|fuel IH]; intros [|x b] fs; cbn [parse_from]; try discriminate.
  1,2: intros [= <-]; apply mt_none.
  destruct (consume_field (x :: b)) as [[f r]|] eqn:E; [|discriminate].
  apply consume_field_sound in E as (t & -> & Ht). destruct (parse_from fuel r) as [l|] eqn:E; [|discriminate].
  intros [= <-]. apply mt_field; [exact Ht|exact (IH _ _ E)].
Qed.
Lemma parse_fields_spec b fs : parse_fields b = Some fs <-> message_text b fs.
Proof.
  split; [apply parse_from_sound|]. intros H. apply parse_from_complete; [exact H|reflexivity].
Qed.
Lemma message_text_unique b fs gs : message_text b fs -> message_text b gs -> fs = gs.
Proof. intros H1 H2. apply parse_fields_spec in H1, H2. congruence. Qed.

(** ** Bytes to sign *)
Lemma sign_bytes_fields body auth chain n :
  direct_sign_bytes body auth chain n = encode_fields (f_bytes 1 body ++ f_bytes 2 auth ++ f_bytes 3 chain ++ f_uint 4 n).
Proof.
  unfold direct_sign_bytes. rewrite !encode_fields_app. unfold bytes_field, uint_field, f_bytes, f_uint.
  f_equal; [|f_equal; [|f_equal]]; [destruct body|destruct auth|destruct chain|destruct (n =? 0)];
    cbn [encode_fields map concat encode_field]; rewrite ?app_nil_r; reflexivity.
Qed.
Lemma wf_bytes_short n b : 1 <= n < 2 ^ 29 -> blen b < two64 -> Forall wf (f_bytes n b).
Proof.
  intros Hn Hb. unfold f_bytes. destruct b; [apply List.Forall_nil|]. apply List.Forall_cons; [|apply List.Forall_nil]. by split.
Qed.
Lemma sign_bytes_inj body auth chain n body' auth' chain' n' :
  blen body < 2 ^ 64 -> blen auth < 2 ^ 64 -> blen chain < 2 ^ 64 -> n < 2 ^ 64 ->
  blen body' < 2 ^ 64 -> blen auth' < 2 ^ 64 -> blen chain' < 2 ^ 64 -> n' < 2 ^ 64 ->
  direct_sign_bytes body auth chain n = direct_sign_bytes body' auth' chain' n' ->
  body = body' /\ auth = auth' /\ chain = chain' /\ n = n'.
Proof.
  intros H1 H2 H3 H4 H5 H6 H7 H8 E. rewrite !sign_bytes_fields in E.
  assert (HP : forall a b c k, blen a < 2 ^ 64 -> blen b < 2 ^ 64 -> blen c < 2 ^ 64 -> k < 2 ^ 64 ->
    parse_fields (encode_fields (f_bytes 1 a ++ f_bytes 2 b ++ f_bytes 3 c ++ f_uint 4 k)) = Some (f_bytes 1 a ++ f_bytes 2 b ++ f_bytes 3 c ++ f_uint 4 k)).
  { intros a b c k Ha Hb Hc Hk. apply parse_encode.
    apply List.Forall_app; split; [apply wf_bytes_short; [lia|exact Ha]|].
    apply List.Forall_app; split; [apply wf_bytes_short; [lia|exact Hb]|].
    apply List.Forall_app; split; [apply wf_bytes_short; [lia|exact Hc]|apply wf_uint; [lia|exact Hk]]. }
  pose proof (HP body auth chain n H1 H2 H3 H4) as P. rewrite E, (HP body' auth' chain' n' H5 H6 H7 H8) in P. injection P as P.
  clear - P. assert (forall k, payloads k (f_bytes 1 body' ++ f_bytes 2 auth' ++ f_bytes 3 chain' ++ f_uint 4 n')
    = payloads k (f_bytes 1 body ++ f_bytes 2 auth ++ f_bytes 3 chain ++ f_uint 4 n)) as Q by (intros k; by rewrite P).
  assert (varints 4 (f_bytes 1 body' ++ f_bytes 2 auth' ++ f_bytes 3 chain' ++ f_uint 4 n')
    = varints 4 (f_bytes 1 body ++ f_bytes 2 auth ++ f_bytes 3 chain ++ f_uint 4 n)) as R by (by rewrite P).
  pose proof (Q 1) as Q1. pose proof (Q 2) as Q2. pose proof (Q 3) as Q3. clear Q P.
  rewrite !payloads_app, !payloads_bytes, !payloads_uint in Q1, Q2, Q3. rewrite !varints_app, !varints_bytes, !varints_uint in R.
  cbn [N.eqb Pos.eqb app] in *. rewrite !app_nil_r in Q1, Q2, Q3.
  repeat split.
  - rewrite <- (last_nonempty body), <- (last_nonempty body'). by rewrite Q1.
  - rewrite <- (last_nonempty auth), <- (last_nonempty auth'). by rewrite Q2.
  - rewrite <- (last_nonempty chain), <- (last_nonempty chain'). by rewrite Q3.
  - rewrite <- (last_nonzero n), <- (last_nonzero n'). by rewrite R.
Qed.
