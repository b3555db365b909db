(** The readers of state objects and state transitions accept exactly the texts of
    Spec/MessageSpec.v. *)
From Coq Require Import NArith ZArith List Bool String Lia.
From stdpp Require Import base list option gmap.
From Verif.Model Require Import Bytes Wire Proto KindEncoder Desc Schema Module Universe Marshal Users Prog Authn Bech32 TxDecoder.
From Verif.Spec Require Import WireSpec MessageSpec.
From Verif.Proofs Require Import BytesFacts ProtoFacts WireFacts Utf8Facts DecoderFacts KVFacts.
Local Open Scope N_scope.

(** ** Fields *)
Lemma every_payloads n fs : every n fs = payloads n fs.
Proof.
  unfold every, payloads, values. induction fs as [|[m v] fs IH]; [reflexivity|]. cbn [omap list_omap fst snd List.filter].
  destruct (N.eqb_spec m n) as [->|Hm]; cbn [map concat fst snd].
  - destruct v; rewrite ?decide_True by reflexivity; cbn [app]; rewrite <- IH; reflexivity.
  - destruct v; rewrite ?decide_False by exact Hm; exact IH.
Qed.
Lemma every_number_varints n fs : every_number n fs = varints n fs.
Proof.
  unfold every_number, varints, values. induction fs as [|[m v] fs IH]; [reflexivity|]. cbn [omap list_omap fst snd List.filter].
  destruct (N.eqb_spec m n) as [->|Hm]; cbn [map concat fst snd].
  - destruct v; rewrite ?decide_True by reflexivity; cbn [app]; rewrite <- IH; reflexivity.
  - destruct v; rewrite ?decide_False by exact Hm; exact IH.
Qed.
Lemma last_default {A} (d : A) l : default d (last l) = List.last l d.
Proof. induction l as [|x [|y l] IH]; [reflexivity|reflexivity|exact IH]. Qed.
Lemma final_bytes n fs : final n fs = g_bytes n fs.
Proof. unfold final, g_bytes. by rewrite last_default, every_payloads. Qed.
Lemma final_uint n fs : final_number n fs = g_uint n fs.
Proof. unfold final_number, g_uint. by rewrite last_default, every_number_varints. Qed.
Lemma forallb_Forall {A} (f : A -> bool) (P : A -> Prop) l : (forall a, f a = true <-> P a) -> forallb f l = true <-> Forall P l.
Proof.
  intros H. rewrite forallb_forall, List.Forall_forall. split; intros HA a Ha; apply H, HA, Ha.
Qed.
Lemma texts_valid n fs : texts n fs <-> forallb utf8_valid (payloads n fs) = true.
Proof. unfold texts. rewrite every_payloads. symmetry. apply forallb_Forall, utf8_valid_spec. Qed.
Lemma g_text_spec n fs b : g_text n fs = Some b <-> texts n fs /\ b = final n fs.
Proof.
  rewrite texts_valid, final_bytes. unfold g_text, g_texts, g_bytes. destruct (forallb utf8_valid (payloads n fs)).
  - split; [intros [= <-]; auto|intros [_ ->]; reflexivity].
  - split; [discriminate|intros [H _]; discriminate H].
Qed.
(** ** Messages *)
Definition reads {A} (dec : list wfield -> option A) (b : bytes) (a : A) : Prop :=
  exists fs, message_text b fs /\ dec fs = Some a.
Lemma read_spec {A} (dec : list wfield -> option A) b a : read dec b = Some a <-> reads dec b a.
Proof.
  unfold read, reads. split.
  - destruct (parse_fields b) as [fs|] eqn:E; [|discriminate]. apply parse_fields_spec in E. eauto.
  - intros (fs & Hb & Ha). apply parse_fields_spec in Hb. by rewrite Hb.
Qed.
Lemma g_messages_spec {A} (dec : list wfield -> option A) n fs l :
  g_messages dec n fs = Some l <-> Forall2 (reads dec) (every n fs) l.
Proof.
  unfold g_messages. rewrite mapM_Some, every_payloads. split; intros H; (eapply Forall2_impl; [exact H|]); intros b a; apply read_spec.
Qed.
Lemma mapM_total {A B} (f : A -> option B) l : (exists k, mapM f l = Some k) <-> forall a, a ∈ l -> exists b, f a = Some b.
Proof.
  split.
  - intros [k Hk] a Ha. apply mapM_Some in Hk. apply elem_of_list_lookup in Ha as [i Hi].
    destruct (Forall2_lookup_l _ _ _ _ _ Hk Hi) as (b & _ & Hb). eauto.
  - intros H. destruct (mapM f l) as [k|] eqn:E; [eauto|]. exfalso. apply mapM_None in E. apply Exists_exists in E as (a & Ha & E).
    destruct (H a Ha) as [b Hb]. congruence.
Qed.
Lemma g_message_some {A} (dec : list wfield -> option A) n fs a :
  g_message dec n fs = Some (Some a) <-> merged (reads dec) (every n fs) a.
Proof.
  unfold g_message, merged. rewrite every_payloads. destruct (payloads n fs) as [|b l]; [split; [discriminate|intros [H _]; done]|].
  split.
  - destruct (mapM (read dec) (b :: l)) as [k|] eqn:E; [|discriminate]. destruct (read dec (concat (b :: l))) as [x|] eqn:Ex; [|discriminate].
    intros [= <-]. split; [done|]. split; [|by apply read_spec].
    intros c Hc. destruct (proj1 (mapM_total (read dec) (b :: l)) (ex_intro _ _ E) c Hc) as [y Hy]. exists y. by apply read_spec.
  - intros (_ & H1 & H2). destruct (proj2 (mapM_total (read dec) (b :: l))) as [k ->].
    { intros c Hc. destruct (H1 c Hc) as [y Hy]. exists y. by apply read_spec. }
    apply read_spec in H2. by rewrite H2.
Qed.
Lemma merged_iff {A} (is is' : bytes -> A -> Prop) l a : (forall b a, is b a <-> is' b a) -> merged is l a <-> merged is' l a.
Proof.
  intros H. unfold merged. rewrite H. split; intros (H1 & H2 & H3); (split; [exact H1|]; split; [|exact H3]);
    intros b Hb; destruct (H2 b Hb) as [y Hy]; exists y; first [exact (proj1 (H _ _) Hy)|exact (proj2 (H _ _) Hy)].
Qed.
Lemma any_reads b a : reads dec_any b a <-> any_text b a.
Proof.
  unfold reads, any_text, dec_any. split; intros (fs & Hb & H); exists fs; (split; [exact Hb|]).
  - destruct (g_text 1 fs) as [u|] eqn:E; [|discriminate]. apply g_text_spec in E as [Ht ->]. injection H as <-.
    split; [exact Ht|]. split; [reflexivity|]. by rewrite (final_bytes 2 fs).
  - destruct H as (Ht & Hu & Hv). rewrite (proj2 (g_text_spec 1 fs (final 1 fs)) (conj Ht eq_refl)). cbn.
    rewrite <- (final_bytes 2 fs). destruct a. cbn in Hu, Hv. by subst.
Qed.
Lemma coin_reads b c : reads dec_coin b c <-> coin_text b c.
Proof.
  unfold reads, coin_text, dec_coin. split; intros (fs & Hb & H); exists fs; (split; [exact Hb|]).
  - destruct (g_text 1 fs) as [u|] eqn:E; [|discriminate]. apply g_text_spec in E as [Ht ->]. cbn in H.
    destruct (g_text 2 fs) as [u|] eqn:E; [|discriminate]. apply g_text_spec in E as [Ht' ->]. cbn in H. injection H as <-. auto.
  - destruct H as (Ht & Ht' & Hu & Hv). rewrite (proj2 (g_text_spec 1 fs (final 1 fs)) (conj Ht eq_refl)). cbn.
    rewrite (proj2 (g_text_spec 2 fs (final 2 fs)) (conj Ht' eq_refl)). cbn. destruct c. cbn in Hu, Hv. by subst.
Qed.

(** ** Fields, each read as the specification says *)
Lemma g_text_at n fs b : g_text n fs = Some b <-> text_at n fs b.
Proof. exact (g_text_spec n fs b). Qed.
Lemma g_texts_at n fs l : g_texts n fs = Some l <-> texts_at n fs l.
Proof.
  unfold texts_at. rewrite texts_valid, every_payloads. unfold g_texts. destruct (forallb utf8_valid (payloads n fs)).
  - split; [intros [= <-]; auto|intros [_ ->]; reflexivity].
  - split; [discriminate|intros [H _]; discriminate H].
Qed.
Section Nested.
  Context {A} (dec : list wfield -> option A) (is : bytes -> A -> Prop).
  Hypothesis Hd : forall b a, reads dec b a <-> is b a.
  Lemma g_messages_at n fs l : g_messages dec n fs = Some l <-> messages_at is n fs l.
  Proof.
    rewrite g_messages_spec. unfold messages_at. split; intros H; (eapply Forall2_impl; [exact H|]); intros b a; apply Hd.
  Qed.
  Lemma g_message_none n fs : g_message dec n fs = Some None <-> every n fs = [].
  Proof.
    unfold g_message. rewrite every_payloads. destruct (payloads n fs) as [|b l]; [split; reflexivity|].
    destruct (mapM (read dec) (b :: l)); [destruct (read dec (concat (b :: l)))|]; split; discriminate.
  Qed.
  Lemma g_message_at n fs o : g_message dec n fs = Some o <-> message_at is n fs o.
  Proof.
    destruct o as [a|]; cbn [message_at]; [|exact (g_message_none n fs)].
    rewrite g_message_some. exact (merged_iff _ _ _ _ Hd).
  Qed.
  Lemma g_message_empty e n fs a : dec [] = Some e ->
    (exists o, g_message dec n fs = Some o /\ default e o = a) <-> message_or_empty is n fs a.
  Proof.
    intros He. unfold message_or_empty. split.
    - intros (o & H & <-). destruct o as [x|]; cbn [default].
      + right. exact (proj1 (g_message_at n fs (Some x)) H).
      + left. split; [by apply g_message_none|]. apply Hd. exists []. split; [apply mt_none|exact He].
    - intros [[H Hs]|H].
      + exists None. split; [by apply g_message_none|]. apply Hd in Hs as (gs & Hg & Ha). inversion Hg; [|].
        * subst. cbn. congruence.
        * exfalso. match goal with H : field_text ?x _, E : ?x ++ _ = [] |- _ => apply app_eq_nil in E as [-> _]; revert H end.
          clear. intros H. inversion H; match goal with
            | T : tag_text ?t _ _, E : ?t ++ _ = [] |- _ => apply app_eq_nil in E as [-> _]; destruct T as [[T _] _]; inversion T end.
      + exists (Some a). split; [by apply (g_message_at n fs (Some a))|reflexivity].
  Qed.
End Nested.
Lemma field_bound b n v : field_text b (n, WVarint v) -> v < 2 ^ 64.
Proof. intros H. inversion H as [? ? ? ? _ (_ & _ & Hv)| | | |]. exact Hv. Qed.
Lemma numbers_bound b fs : message_text b fs -> forall n v, v ∈ every_number n fs -> v < 2 ^ 64.
Proof.
  induction 1 as [|a [m w] b fs Hf _ IH]; intros n v Hv; [by apply elem_of_nil in Hv|].
  unfold every_number in Hv. cbn [omap list_omap fst snd] in Hv.
  destruct w as [x| | | |]; try exact (IH n v Hv). destruct (decide (m = n)); [|exact (IH n v Hv)].
  apply elem_of_cons in Hv as [->|Hv]; [exact (field_bound a m x Hf)|exact (IH n v Hv)].
Qed.
Lemma final_bound b fs n : message_text b fs -> final_number n fs < 2 ^ 64.
Proof.
  intros H. unfold final_number. destruct (last (every_number n fs)) as [v|] eqn:E; [|reflexivity].
  apply (numbers_bound b fs H n). by apply last_Some_elem_of.
Qed.
Lemma g_int_at b n fs z : message_text b fs -> z = g_int n fs <-> signed_at 64 n fs z.
Proof.
  intros H. pose proof (final_bound b fs n H) as Hv. unfold signed_at. rewrite final_uint in *. unfold g_int.
  set (v := g_uint n fs) in *. clearbody v. change (64 - 1)%Z with 63%Z.
  assert (Z.of_N v < 2 ^ 64)%Z as Hz by (clear - Hv; lia).
  rewrite (Z.mod_small (Z.of_N v)) by (clear - Hz; lia). split.
  - destruct (N.ltb_spec v (2 ^ 63)) as [L|L]; intros ->.
    + split; [clear - L; lia|]. apply Z.mod_small. clear - L; lia.
    + split; [clear - L Hz; lia|]. symmetry. apply (Z.mod_unique _ _ (-1)); clear - L Hz; lia.
  - intros [Hr E]. destruct (Z_lt_le_dec z 0) as [Hn|Hp].
    + assert (z mod 2 ^ 64 = z + 2 ^ 64)%Z as E' by (symmetry; apply (Z.mod_unique _ _ (-1)); clear - Hr Hn; lia).
      rewrite E' in E. destruct (N.ltb_spec v (2 ^ 63)) as [L|L]; clear - E L Hr Hn; lia.
    + rewrite Z.mod_small in E by (clear - Hr Hp; lia). destruct (N.ltb_spec v (2 ^ 63)) as [L|L]; clear - E L Hr Hp; lia.
Qed.
Lemma g_int32_at n fs z : z = g_int32 n fs <-> signed_at 32 n fs z.
Proof.
  unfold signed_at. rewrite final_uint in *. unfold g_int32.
  assert (Z.of_N (g_uint n fs) mod 2 ^ 32 = Z.of_N (g_uint n fs mod 2 ^ 32))%Z as -> by (rewrite N2Z.inj_mod; reflexivity).
  pose proof (N.mod_lt (g_uint n fs) (2 ^ 32) ltac:(discriminate)) as Hv.
  set (v := g_uint n fs mod 2 ^ 32) in *. clearbody v. change (32 - 1)%Z with 31%Z. split.
  - destruct (N.ltb_spec v (2 ^ 31)) as [L|L]; intros ->.
    + split; [clear - L; lia|]. apply Z.mod_small. clear - L; lia.
    + split; [clear - L Hv; lia|]. symmetry. apply (Z.mod_unique _ _ (-1)); clear - L Hv; lia.
  - intros [Hr E]. destruct (Z_lt_le_dec z 0) as [Hn|Hp].
    + assert (z mod 2 ^ 32 = z + 2 ^ 32)%Z as E' by (symmetry; apply (Z.mod_unique _ _ (-1)); clear - Hr Hn; lia).
      rewrite E' in E. destruct (N.ltb_spec v (2 ^ 31)) as [L|L]; clear - E L Hr Hn; lia.
    + rewrite Z.mod_small in E by (clear - Hr Hp; lia). destruct (N.ltb_spec v (2 ^ 31)) as [L|L]; clear - E L Hr Hp; lia.
Qed.
Lemma g_bool_at n fs b : b = g_bool n fs <-> truth_at n fs b.
Proof.
  unfold truth_at, g_bool. rewrite final_uint. destruct (N.eqb_spec (g_uint n fs) 0) as [E|E]; destruct b; cbn; intuition congruence.
Qed.

(** ** The messages *)
Lemma shape {A} (dec : list wfield -> option A) (P : list wfield -> A -> Prop) :
  (forall b fs a, message_text b fs -> dec fs = Some a <-> P fs a) ->
  forall b a, reads dec b a <-> exists fs, message_text b fs /\ P fs a.
Proof. intros H b a. split; intros (fs & Hb & Hd); exists fs; (split; [exact Hb|]); by apply (H b). Qed.
Ltac take H := repeat (let E := fresh "E" in apply bind_Some in H as (? & E & H)); injection H as <-.
Ltac conjuncts := repeat match goal with |- _ /\ _ => split end.
Ltac give := repeat match goal with H : _ /\ _ |- _ => destruct H as [? H] end.
Ltac step tac := apply bind_Some; eexists; split; [tac|].

Lemma role_reads b r : reads dec_role b r <-> role_text b r.
Proof.
  revert b r. unfold role_text. apply shape. intros b fs r _. unfold dec_role. split.
  - intros H. take H. conjuncts; first [by apply g_text_at|by apply g_texts_at].
  - intros H. give. repeat step ltac:(first [apply g_text_at; eassumption|apply g_texts_at; eassumption]). by destruct r.
Qed.
Lemma account_reads b a : reads dec_account b a <-> account_text b a.
Proof.
  revert b a. unfold account_text. apply shape. intros b fs a _. unfold dec_account. split.
  - intros H. take H. conjuncts; [by apply g_text_at|by apply (g_message_at _ _ any_reads)|symmetry; apply final_uint..].
  - intros (H1 & H2 & H3 & H4). rewrite final_uint in H3, H4. step ltac:(apply g_text_at; exact H1). step ltac:(apply (g_message_at _ _ any_reads); exact H2).
    rewrite <- H3, <- H4. by destruct a.
Qed.
Lemma params_reads b p : reads dec_auth_params b p <-> params_text b p.
Proof.
  revert b p. unfold params_text. apply shape. intros b fs p _. unfold dec_auth_params. rewrite !final_uint. split.
  - intros [= <-]. auto.
  - intros (H1 & H2 & H3 & H4 & H5). rewrite <- H1, <- H2, <- H3, <- H4, <- H5. by destruct p.
Qed.
Lemma header_reads b h : reads dec_header b h <-> header_text b h.
Proof.
  revert b h. unfold header_text. apply shape. intros b fs h Hb. unfold dec_header. rewrite <- (g_int_at b 3 fs h Hb). split; congruence.
Qed.
Lemma begin_block_reads b r : reads dec_begin_block b r <-> begin_block_text b r.
Proof.
  revert b r. unfold begin_block_text. apply shape. intros b fs r _. unfold dec_begin_block. rewrite final_bytes. split.
  - intros H. take H. split; [reflexivity|]. by apply (g_message_at _ _ header_reads).
  - intros [H1 H2]. step ltac:(apply (g_message_at _ _ header_reads); exact H2). rewrite <- H1. by destruct r.
Qed.
Lemma check_tx_reads b r : reads dec_check_tx b r <-> check_tx_text b r.
Proof.
  revert b r. unfold check_tx_text. apply shape. intros b fs r _. unfold dec_check_tx. rewrite final_bytes, <- g_int32_at. split.
  - intros [= <-]. auto.
  - intros [H1 H2]. rewrite <- H1, <- H2. by destruct r.
Qed.
Lemma deliver_tx_reads b t : reads dec_deliver_tx b t <-> deliver_tx_text b t.
Proof.
  revert b t. unfold deliver_tx_text. apply shape. intros b fs t _. unfold dec_deliver_tx. rewrite final_bytes. split; congruence.
Qed.
Lemma end_block_reads b h : reads dec_end_block b h <-> end_block_text b h.
Proof.
  revert b h. unfold end_block_text. apply shape. intros b fs h Hb. unfold dec_end_block. rewrite <- (g_int_at b 1 fs h Hb). split; congruence.
Qed.
Lemma pub_key_reads b t : reads dec_key b t <-> pub_key_text b t.
Proof.
  revert b t. unfold pub_key_text. apply shape. intros b fs t _. unfold dec_key. rewrite final_bytes. split; congruence.
Qed.
Lemma update_reads b u : reads dec_update b u <-> update_text b u.
Proof.
  revert b u. unfold update_text. apply shape. intros b fs u Hb. unfold dec_update.
  rewrite <- (g_int_at b 2 fs (vu_power u) Hb), <- (g_message_empty _ _ pub_key_reads [] 1 fs (vu_key u) eq_refl). split.
  - intros H. take H. eauto.
  - intros [(o & H1 & H2) H3]. step ltac:(exact H1). rewrite H2, <- H3. by destruct u.
Qed.
Lemma info_reads b c : reads (g_text 1) b c <-> info_text b c.
Proof. revert b c. unfold info_text. apply shape. intros b fs c _. apply g_text_at. Qed.
Lemma api_reads b d : reads dec_api b d <-> api_text b d.
Proof.
  revert b d. unfold api_text. apply shape. intros b fs d _. unfold dec_api. split.
  - intros H. take H. split; [by apply g_text_at|]. split; [by apply g_text_at|]. exists (g_int32 3 fs). split; [by apply g_int32_at|]. apply Z.eqb_eq.
  - intros (H1 & H2 & z & H3 & H4). apply g_int32_at in H3. subst z. step ltac:(apply g_text_at; exact H1). step ltac:(apply g_text_at; exact H2).
    destruct d as [g k t]. cbn in *. f_equal. f_equal. destruct (Z.eqb_spec (g_int32 3 fs) 1) as [E|E]; destruct t; intuition congruence.
Qed.
Lemma definition_reads b d : reads dec_definition b d <-> definition_text b d.
Proof.
  revert b d. unfold definition_text. apply shape. intros b fs d _. unfold dec_definition. rewrite <- g_bool_at. split.
  - intros H. take H. split; [reflexivity|]. split; [by apply g_text_at|by apply g_texts_at].
  - intros (H1 & H2 & H3). step ltac:(apply g_text_at; exact H2). step ltac:(apply g_texts_at; exact H3). rewrite <- H1. by destruct d.
Qed.
Lemma acl_reads b e : reads dec_acl b e <-> acl_text b e.
Proof. revert b e. unfold acl_text. apply shape. intros b fs e _. unfold dec_acl. rewrite <- g_bool_at. split; congruence. Qed.
Lemma options_reads b o : reads dec_options b o <-> options_text b o.
Proof. revert b o. unfold options_text. apply shape. intros b fs o _. exact (g_message_at _ _ acl_reads _ fs o). Qed.
Lemma file_message_reads b m : reads dec_file_message b m <-> file_message_text b m.
Proof.
  revert b m. unfold file_message_text. apply shape. intros b fs m _. unfold dec_file_message.
  rewrite <- (g_message_empty _ _ options_reads None 7 fs (snd m) eq_refl). split.
  - intros H. take H. split; [by apply g_text_at|]. eauto.
  - intros [H1 (o & H2 & H3)]. step ltac:(apply g_text_at; exact H1). step ltac:(exact H2). rewrite H3. by destruct m.
Qed.
Lemma file_reads b f : reads dec_file b f <-> file_text b f.
Proof. revert b f. unfold file_text. apply shape. intros b fs f _. exact (g_messages_at _ _ file_message_reads _ fs f). Qed.
Lemma state_object_reads b o : reads dec_raw_object b o <-> state_object_text b o.
Proof.
  revert b o. unfold state_object_text. apply shape. intros b fs o _. unfold dec_raw_object.
  rewrite <- (g_message_empty _ _ api_reads no_api 1 fs (rw_api o) eq_refl),
    <- (g_message_empty _ _ definition_reads no_definition 2 fs (rw_schema o) eq_refl). split.
  - intros H. take H. split; eexists; split; [eassumption|reflexivity|eassumption|reflexivity].
  - intros [(x & H1 & H2) (y & H3 & H4)]. step ltac:(exact H1). step ltac:(exact H3). rewrite H2, H4. by destruct o.
Qed.
Lemma state_transition_reads b t : reads dec_transition b t <-> state_transition_text b t.
Proof.
  revert b t. unfold state_transition_text. apply shape. intros b fs t _. unfold dec_transition.
  rewrite <- (g_message_empty _ _ api_reads no_api 1 fs (tt_api t) eq_refl). split.
  - intros H. take H. split; [eauto|]. split; [by apply g_text_at|by apply (g_messages_at _ _ file_reads)].
  - intros [(x & H1 & H2) [H3 H4]]. step ltac:(exact H1). step ltac:(apply g_text_at; exact H3).
    step ltac:(apply (g_messages_at _ _ file_reads); exact H4). rewrite H2. by destruct t.
Qed.
Lemma dependency_reads b d : reads dec_need b d <-> dependency_text b d.
Proof.
  revert b d. unfold dependency_text. apply shape. intros b fs d _. unfold dec_need.
  rewrite <- (g_message_empty _ _ api_reads no_api 1 fs d eq_refl). split.
  - intros H. take H. eauto.
  - intros (x & H1 & H2). step ltac:(exact H1). by rewrite H2.
Qed.
Lemma descriptor_reads b d : reads dec_descriptor b d <-> descriptor_text b d.
Proof.
  revert b d. unfold descriptor_text. apply shape. intros b fs d _. unfold dec_descriptor. split.
  - intros H. take H. conjuncts; [by apply g_text_at|by apply (g_messages_at _ _ state_object_reads)
      |by apply (g_messages_at _ _ state_transition_reads)|by apply (g_messages_at _ _ dependency_reads)].
  - intros (H1 & H2 & H3 & H4). step ltac:(apply g_text_at; exact H1). step ltac:(apply (g_messages_at _ _ state_object_reads); exact H2).
    step ltac:(apply (g_messages_at _ _ state_transition_reads); exact H3). step ltac:(apply (g_messages_at _ _ dependency_reads); exact H4).
    by destruct d.
Qed.
Lemma stage_reads n fs s : stage_of (g_int32 n fs) = s <-> stage_at n fs s.
Proof.
  unfold stage_at. split.
  - intros <-. exists (g_int32 n fs). split; [by apply g_int32_at|]. generalize (g_int32 n fs). intros z.
    destruct (decide (0 <= z < 8)%Z) as [H|H].
    + left. split; [lia|]. assert (z = 0 \/ z = 1 \/ z = 2 \/ z = 3 \/ z = 4 \/ z = 5 \/ z = 6 \/ z = 7)%Z as K by lia.
      repeat destruct K as [->|K]; [..|subst z]; reflexivity.
    + right. split; [lia|]. destruct z as [|p|p]; [lia| |reflexivity].
      destruct p as [[[p|p|]|[p|p|]|]|[[p|p|]|[p|p|]|]|]; first [reflexivity|lia|destruct p; first [reflexivity|lia]].
  - intros (z & Hz & H). apply g_int32_at in Hz. rewrite <- Hz. clear Hz. destruct H as [[Hp H]|[H ->]].
    + assert (z < 8)%Z as Hl by (apply lookup_lt_Some in H; cbn in H; lia).
      assert (z = 0 \/ z = 1 \/ z = 2 \/ z = 3 \/ z = 4 \/ z = 5 \/ z = 6 \/ z = 7)%Z as K by lia.
      repeat destruct K as [->|K]; [..|subst z]; cbn in H; injection H as <-; reflexivity.
    + destruct z as [|p|p]; [lia| |reflexivity].
      destruct p as [[[p|p|]|[p|p|]|]|[[p|p|]|[p|p|]|]|]; first [reflexivity|lia|destruct p; first [reflexivity|lia]].
Qed.

(** ** Objects and transitions *)
Ltac by_type H ty Hb := repeat match type of H with
  | (if bytes_eqb ty ?t then _ else _) = _ =>
      let E := fresh "E" in destruct (bytes_eqb ty t) eqn:E;
      [apply bytes_eqb_spec in E; subst ty; clear - Hb H|clear E]
  end.
Ltac name_of := repeat match goal with
  | |- context [bytes_eqb ?n ?t] => let b := eval vm_compute in (bytes_eqb n t) in change (bytes_eqb n t) with b; cbv iota
  end.
Lemma object_texts ty b o : reads (dec_object ty) b o <-> object_text ty b o.
Proof.
  split.
  - intros (fs & Hb & H). unfold dec_object in H. by_type H ty Hb; [..|discriminate H].
    + take H. eapply ob_modules; [exact Hb|]. by apply (g_messages_at _ _ descriptor_reads).
    + injection H as <-. eapply ob_stage; [exact Hb|]. by apply stage_reads.
    + take H. eapply ob_begin_block; [exact Hb|]. by apply (g_message_at _ _ begin_block_reads).
    + take H. eapply ob_check_tx; [exact Hb|]. by apply (g_message_at _ _ check_tx_reads).
    + take H. eapply ob_deliver_tx; [exact Hb|]. by apply (g_message_at _ _ deliver_tx_reads).
    + take H. apply ob_info. exists fs. split; [exact Hb|]. by apply g_text_at.
    + take H. eapply ob_end_block; [exact Hb|]. by apply (g_message_at _ _ end_block_reads).
    + injection H as <-. rewrite <- final_uint. by apply ob_current_block.
    + take H. eapply ob_updates; [exact Hb|]. by apply (g_messages_at _ _ update_reads).
    + take H. apply ob_account. apply account_reads. by exists fs.
    + take H. apply ob_params. apply params_reads. by exists fs.
    + injection H as <-. rewrite <- final_uint. by apply ob_account_number.
    + take H. apply ob_role. apply role_reads. by exists fs.
    + take H. eapply ob_binding; [exact Hb|by apply g_text_at..].
    + injection H as <-. by apply (ob_rbac_params b fs).
    + take H. eapply ob_balance; [exact Hb|by apply g_text_at|by apply (g_messages_at _ _ coin_reads)].
  - intros H. unfold reads, dec_object.
    destruct H as [b fs l Hb H|b fs s Hb H|b fs r Hb H|b fs r Hb H|b fs r Hb H|b c H|b fs r Hb H|b fs Hb|b fs l Hb H|b a H|b p H
      |b fs Hb|b r H|b fs s r Hb H1 H2|b fs Hb|b fs a c Hb H1 H2]; name_of.
    + exists fs. split; [exact Hb|]. by rewrite (proj2 (g_messages_at _ _ descriptor_reads 1 fs l) H).
    + exists fs. split; [exact Hb|]. by rewrite (proj2 (stage_reads 1 fs s) H).
    + exists fs. split; [exact Hb|]. by rewrite (proj2 (g_message_at _ _ begin_block_reads 1 fs r) H).
    + exists fs. split; [exact Hb|]. by rewrite (proj2 (g_message_at _ _ check_tx_reads 1 fs r) H).
    + exists fs. split; [exact Hb|]. by rewrite (proj2 (g_message_at _ _ deliver_tx_reads 1 fs r) H).
    + destruct H as (fs & Hb & H). exists fs. split; [exact Hb|]. by rewrite (proj2 (g_text_at 1 fs c) H).
    + exists fs. split; [exact Hb|]. by rewrite (proj2 (g_message_at _ _ end_block_reads 1 fs r) H).
    + exists fs. split; [exact Hb|]. by rewrite final_uint.
    + exists fs. split; [exact Hb|]. by rewrite (proj2 (g_messages_at _ _ update_reads 1 fs l) H).
    + apply account_reads in H as (fs & Hb & H). exists fs. split; [exact Hb|]. by rewrite H.
    + apply params_reads in H as (fs & Hb & H). exists fs. split; [exact Hb|]. by rewrite H.
    + exists fs. split; [exact Hb|]. by rewrite final_uint.
    + apply role_reads in H as (fs & Hb & H). exists fs. split; [exact Hb|]. by rewrite H.
    + exists fs. split; [exact Hb|]. by rewrite (proj2 (g_text_at 1 fs s) H1), (proj2 (g_text_at 2 fs r) H2).
    + exists fs. split; [exact Hb|reflexivity].
    + exists fs. split; [exact Hb|]. by rewrite (proj2 (g_text_at 1 fs a) H1), (proj2 (g_messages_at _ _ coin_reads 2 fs c) H2).
Qed.
Lemma transition_texts ty b m : reads (dec_msg ty) b m <-> transition_text ty b m.
Proof.
  split.
  - intros (fs & Hb & H). unfold dec_msg in H. by_type H ty Hb; [..|discriminate H]; take H.
    + eapply tr_descriptors; [exact Hb|]. by apply (g_messages_at _ _ descriptor_reads).
    + eapply tr_init_chain; [exact Hb|]. by apply (g_message_at _ _ info_reads).
    + eapply tr_check_tx; [exact Hb|]. by apply (g_message_at _ _ check_tx_reads).
    + eapply tr_begin_block; [exact Hb|]. by apply (g_message_at _ _ begin_block_reads).
    + eapply tr_deliver_tx; [exact Hb|]. by apply (g_message_at _ _ deliver_tx_reads).
    + eapply tr_end_block; [exact Hb|]. by apply (g_message_at _ _ end_block_reads).
    + eapply tr_updates; [exact Hb|]. by apply (g_messages_at _ _ update_reads).
    + eapply tr_create_account; [exact Hb|]. by apply (g_message_at _ _ account_reads).
    + eapply tr_update_account; [exact Hb|]. by apply (g_message_at _ _ account_reads).
    + eapply tr_delete_account; [exact Hb|]. by apply (g_message_at _ _ account_reads).
    + eapply tr_create_role; [exact Hb|]. by apply (g_message_at _ _ role_reads).
    + eapply tr_bind_role; [exact Hb|by apply g_text_at..].
    + eapply tr_send_coins; [exact Hb|by apply g_text_at|by apply g_text_at|by apply (g_messages_at _ _ coin_reads)].
    + eapply tr_set_balance; [exact Hb|by apply g_text_at|by apply (g_messages_at _ _ coin_reads)].
  - intros H. unfold reads, dec_msg.
    destruct H as [b fs l Hb H|b fs o Hb H|b fs o Hb H|b fs o Hb H|b fs o Hb H|b fs o Hb H|b fs l Hb H|b fs o Hb H|b fs o Hb H
      |b fs o Hb H|b fs o Hb H|b fs r s Hb H1 H2|b fs f t c Hb H1 H2 H3|b fs a c Hb H1 H2]; name_of; exists fs; (split; [exact Hb|]).
    + by rewrite (proj2 (g_messages_at _ _ descriptor_reads 1 fs l) H).
    + by rewrite (proj2 (g_message_at _ _ info_reads 1 fs o) H).
    + by rewrite (proj2 (g_message_at _ _ check_tx_reads 1 fs o) H).
    + by rewrite (proj2 (g_message_at _ _ begin_block_reads 1 fs o) H).
    + by rewrite (proj2 (g_message_at _ _ deliver_tx_reads 1 fs o) H).
    + by rewrite (proj2 (g_message_at _ _ end_block_reads 1 fs o) H).
    + by rewrite (proj2 (g_messages_at _ _ update_reads 1 fs l) H).
    + by rewrite (proj2 (g_message_at _ _ account_reads 1 fs o) H).
    + by rewrite (proj2 (g_message_at _ _ account_reads 2 fs o) H).
    + by rewrite (proj2 (g_message_at _ _ account_reads 2 fs o) H).
    + by rewrite (proj2 (g_message_at _ _ role_reads 1 fs o) H).
    + by rewrite (proj2 (g_text_at 1 fs r) H1), (proj2 (g_text_at 2 fs s) H2).
    + by rewrite (proj2 (g_text_at 1 fs f) H1), (proj2 (g_text_at 2 fs t) H2), (proj2 (g_messages_at _ _ coin_reads 3 fs c) H3).
    + by rewrite (proj2 (g_text_at 1 fs a) H1), (proj2 (g_messages_at _ _ coin_reads 2 fs c) H2).
Qed.
(** What reads and writes objects. *)
Lemma unmarshal_exactly ty b o : cd_unmarshal protobuf ty b = Some o <-> object_text ty b o.
Proof. cbn [protobuf cd_unmarshal]. rewrite read_spec. apply object_texts. Qed.
Lemma marshal_text o b : cd_marshal protobuf o = Some b -> object_text (object_group o ++ str "." ++ object_kind o) b o.
Proof. intros H. apply unmarshal_exactly. exact (protobuf_ok o b H). Qed.
