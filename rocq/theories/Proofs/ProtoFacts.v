(** Messages read back as they were written. *)
From Coq Require Import NArith ZArith List Bool String Lia.
From stdpp Require Import base list option.
From Verif.Model Require Import Bytes Wire Proto KindEncoder Desc Schema Module Universe Marshal.
From Verif.Spec Require Import StoreSpec.
From Verif.Proofs Require Import BytesFacts KindEncoderFacts.
Local Open Scope N_scope.

(** ** Fields *)
Definition wf (f : wfield) : Prop :=
  1 <= fst f < 2 ^ 29 /\ match snd f with WVarint v => v < two64 | WBytes b => blen b < two64 | _ => False end.

Lemma consume_tag_append n ty r : 1 <= n < 2 ^ 29 -> ty < 8 ->
  consume_tag (append_varint (n * 8 + ty) ++ r) = Some (n, ty, r).
Proof.
  intros Hn Ht. unfold consume_tag. rewrite consume_varint_append by (unfold two64; lia).
  assert ((n * 8 + ty) / 8 = n) as -> by (rewrite N.add_comm, N.div_add by lia; rewrite N.div_small; lia).
  assert ((n * 8 + ty) mod 8 = ty) as -> by (rewrite N.add_comm, N.mod_add by lia; apply N.mod_small; lia).
  destruct (N.ltb_spec n 1); [lia|]. destruct (N.leb_spec (2 ^ 29) n); [lia|]. reflexivity.
Qed.
Lemma consume_field_encode f r : wf f -> consume_field (encode_field f ++ r) = Some (f, r).
Proof.
  destruct f as [n [v|b|b| |b]]; intros [Hn Hv]; cbn [fst snd] in Hn, Hv; try contradiction;
    unfold consume_field, encode_field; rewrite <- app_assoc.
  - rewrite <- (N.add_0_r (n * 8)), consume_tag_append by lia. cbn [N.eqb consume_value].
    rewrite consume_varint_append by exact Hv. reflexivity.
  - rewrite consume_tag_append by lia. cbn [N.eqb Pos.eqb consume_value].
    rewrite consume_bytes_append by exact Hv. reflexivity.
Qed.
Lemma encode_field_nonempty f : encode_field f <> [].
Proof.
  destruct f as [n [v|b|b| |b]]; unfold encode_field; intros E; apply app_eq_nil in E; destruct E as [E _];
    exact (varint_bytes_nonempty _ _ E).
Qed.
Lemma encode_fields_cons f fs : encode_fields (f :: fs) = encode_field f ++ encode_fields fs.
Proof. reflexivity. Qed.
Lemma encode_fields_app fs gs : encode_fields (fs ++ gs) = encode_fields fs ++ encode_fields gs.
Proof. unfold encode_fields. rewrite map_app. apply concat_app. Qed.
Lemma parse_from_encode fs : Forall wf fs -> forall fuel, (length (encode_fields fs) <= fuel)%nat ->
  parse_from fuel (encode_fields fs) = Some fs.
Proof.
  induction 1 as [|f fs Hf _ IH]; intros fuel Hl; [destruct fuel; reflexivity|].
  rewrite encode_fields_cons in Hl |- *. rewrite app_length in Hl.
  destruct (encode_field f) as [|x b] eqn:E; [destruct (encode_field_nonempty f E)|].
  cbn [length] in Hl. destruct fuel as [|fuel]; [lia|].
  cbn [parse_from app]. rewrite app_comm_cons, <- E, (consume_field_encode f (encode_fields fs) Hf).
  rewrite IH by lia. reflexivity.
Qed.
Lemma parse_encode fs : Forall wf fs -> parse_fields (encode_fields fs) = Some fs.
Proof. intros H. apply parse_from_encode; [exact H|lia]. Qed.

Lemma payload_small n b fs : (n, WBytes b) ∈ fs -> blen b <= blen (encode_fields fs).
Proof.
  induction fs as [|f fs IH]; intros H; [destruct (not_elem_of_nil _ H)|].
  rewrite encode_fields_cons, blen_app. apply elem_of_cons in H as [<-|H]; [|specialize (IH H); lia].
  cbn [encode_field]. unfold append_bytes. rewrite !blen_app. lia.
Qed.

(** ** Reading fields out of a message *)
Lemma values_app n a b : values n (a ++ b) = values n a ++ values n b.
Proof. unfold values. rewrite List.filter_app, map_app. reflexivity. Qed.
Lemma payloads_app n a b : payloads n (a ++ b) = payloads n a ++ payloads n b.
Proof. unfold payloads. rewrite values_app, map_app, concat_app. reflexivity. Qed.
Lemma varints_app n a b : varints n (a ++ b) = varints n a ++ varints n b.
Proof. unfold varints. rewrite values_app, map_app, concat_app. reflexivity. Qed.
Lemma values_each n m l : values n (f_each m l) = if m =? n then map WBytes l else [].
Proof.
  unfold values, f_each. induction l as [|x l IH]; cbn [map List.filter fst]; [destruct (m =? n); reflexivity|].
  destruct (m =? n); cbn [map snd]; [rewrite IH; reflexivity|exact IH].
Qed.
Lemma f_bytes_each n b : f_bytes n b = f_each n (match b with [] => [] | _ => [b] end).
Proof. destruct b; reflexivity. Qed.
Lemma payloads_each n m l : payloads n (f_each m l) = if m =? n then l else [].
Proof.
  unfold payloads. rewrite values_each. destruct (m =? n); [|reflexivity].
  induction l as [|x l IH]; [reflexivity|]. cbn [map concat app]. rewrite IH. reflexivity.
Qed.
Lemma varints_each n m l : varints n (f_each m l) = [].
Proof.
  unfold varints. rewrite values_each. destruct (m =? n); [|reflexivity].
  induction l as [|x l IH]; [reflexivity|]. cbn [map concat app]. exact IH.
Qed.
Lemma payloads_bytes n m b : payloads n (f_bytes m b) = if m =? n then match b with [] => [] | _ => [b] end else [].
Proof. rewrite f_bytes_each, payloads_each. reflexivity. Qed.
Lemma varints_bytes n m b : varints n (f_bytes m b) = [].
Proof. rewrite f_bytes_each. apply varints_each. Qed.
Lemma payloads_uint n m v : payloads n (f_uint m v) = [].
Proof. unfold f_uint, payloads, values. destruct (v =? 0); [reflexivity|]. cbn. destruct (m =? n); reflexivity. Qed.
Lemma varints_uint n m v : varints n (f_uint m v) = if m =? n then (if v =? 0 then [] else [v]) else [].
Proof.
  unfold f_uint, varints, values. destruct (v =? 0); [cbn; destruct (m =? n); reflexivity|].
  cbn [List.filter fst]. destruct (m =? n); reflexivity.
Qed.
Lemma last_nonempty (b : bytes) : List.last (match b with [] => [] | _ => [b] end) [] = b.
Proof. destruct b; reflexivity. Qed.
Lemma last_nonzero (v : N) : List.last (if v =? 0 then [] else [v]) 0 = v.
Proof. destruct (N.eqb_spec v 0) as [->|]; reflexivity. Qed.

(** ** Messages *)
Definition faithful {A} (ok : A -> bool) (enc : A -> list wfield) (dec : list wfield -> option A) : Prop :=
  forall a, ok a = true -> blen (encode_fields (enc a)) < two64 -> Forall wf (enc a) /\ dec (enc a) = Some a.
Lemma read_encode {A} (ok : A -> bool) enc dec a : faithful ok enc dec -> ok a = true ->
  blen (encode_fields (enc a)) < two64 -> read dec (encode_fields (enc a)) = Some a.
Proof. intros HF Ho Hs. destruct (HF a Ho Hs) as [Hw Hd]. unfold read. rewrite (parse_encode _ Hw). exact Hd. Qed.
Lemma read_each {A} (ok : A -> bool) enc dec l : faithful ok enc dec -> forallb ok l = true ->
  (forall a, a ∈ l -> blen (encode_fields (enc a)) < two64) ->
  mapM (read dec) (map (fun x => encode_fields (enc x)) l) = Some l.
Proof.
  intros HF. induction l as [|a l IH]; intros Ho Hs; [reflexivity|].
  apply andb_true_iff in Ho as [Ha Ho]. cbn [map mapM].
  rewrite (read_encode ok enc dec a HF Ha (Hs a (elem_of_list_here _ _))). cbn.
  rewrite IH; [reflexivity|exact Ho|]. intros b Hb. apply Hs. right. exact Hb.
Qed.

Lemma small_app fs gs n : blen (encode_fields (fs ++ gs)) < n ->
  blen (encode_fields fs) < n /\ blen (encode_fields gs) < n.
Proof. rewrite encode_fields_app, blen_app. lia. Qed.
Lemma wf_each n l : 1 <= n < 2 ^ 29 -> blen (encode_fields (f_each n l)) < two64 -> Forall wf (f_each n l).
Proof.
  intros Hn Hs. apply List.Forall_forall. intros f Hf. apply elem_of_list_In in Hf. unfold f_each in Hf.
  pose proof Hf as Hf'. apply elem_of_list_fmap in Hf' as (b & -> & Hb).
  split; [exact Hn|]. cbn [snd]. exact (N.le_lt_trans _ _ _ (payload_small _ _ _ Hf) Hs).
Qed.
Lemma wf_bytes n b : 1 <= n < 2 ^ 29 -> blen (encode_fields (f_bytes n b)) < two64 -> Forall wf (f_bytes n b).
Proof. rewrite f_bytes_each. apply wf_each. Qed.
Lemma wf_uint n v : 1 <= n < 2 ^ 29 -> v < two64 -> Forall wf (f_uint n v).
Proof.
  intros Hn Hv. unfold f_uint. destruct (v =? 0); [apply List.Forall_nil|].
  apply List.Forall_cons; [split; [exact Hn|exact Hv]|apply List.Forall_nil].
Qed.
Lemma each_small {A} (enc : A -> list wfield) n l a : blen (encode_fields (f_messages enc n l)) < two64 -> a ∈ l ->
  blen (encode_fields (enc a)) < two64.
Proof.
  intros Hs Ha. refine (N.le_lt_trans _ _ _ (payload_small n _ _ _) Hs). unfold f_messages, f_each.
  apply elem_of_list_fmap. eexists. split; [reflexivity|]. apply elem_of_list_fmap. exists a. split; [reflexivity|exact Ha].
Qed.
Lemma mapM_one {A B} (f : A -> option B) a b : f a = Some b -> mapM f [a] = Some [b].
Proof. intros E. cbn. rewrite E. reflexivity. Qed.

Lemma g_texts_ok n fs l : payloads n fs = l -> forallb utf8_valid l = true -> g_texts n fs = Some l.
Proof. intros E H. unfold g_texts. rewrite E, H. reflexivity. Qed.
Lemma g_text_ok n fs b : payloads n fs = match b with [] => [] | _ => [b] end -> utf8_valid b = true -> g_text n fs = Some b.
Proof.
  intros E H. unfold g_text. rewrite (g_texts_ok n fs _ E); [rewrite last_nonempty; reflexivity|].
  destruct b; [reflexivity|]. cbn [forallb]. rewrite H. reflexivity.
Qed.
Lemma g_bytes_ok n fs b : payloads n fs = match b with [] => [] | _ => [b] end -> g_bytes n fs = b.
Proof. intros E. unfold g_bytes. rewrite E. apply last_nonempty. Qed.
Lemma g_uint_ok n fs v : varints n fs = (if v =? 0 then [] else [v]) -> g_uint n fs = v.
Proof. intros E. unfold g_uint. rewrite E. apply last_nonzero. Qed.
Lemma g_bool_ok n fs b : varints n fs = (if (if b : bool then 1 else 0) =? 0 then [] else [if b then 1 else 0]) -> g_bool n fs = b.
Proof. intros E. unfold g_bool. rewrite (g_uint_ok n fs _ E). destruct b; reflexivity. Qed.
Lemma g_int_ok n fs z : fits_int64 z = true ->
  varints n fs = (if Z.to_N (z mod 2 ^ 64) =? 0 then [] else [Z.to_N (z mod 2 ^ 64)]) -> g_int n fs = z.
Proof.
  intros H E. unfold g_int. rewrite (g_uint_ok n fs _ E). unfold fits_int64 in H.
  apply andb_true_iff in H as [H1 H2]. apply Z.leb_le in H1. apply Z.ltb_lt in H2.
  destruct (Z_lt_le_dec z 0) as [Hn|Hp].
  - assert (z mod 2 ^ 64 = z + 2 ^ 64)%Z as -> by (symmetry; apply (Z.mod_unique _ _ (-1)); lia).
    destruct (N.ltb_spec (Z.to_N (z + 2 ^ 64)) (2 ^ 63)); lia.
  - rewrite Z.mod_small by lia. destruct (N.ltb_spec (Z.to_N z) (2 ^ 63)); lia.
Qed.
Lemma fits_int32_64 z : fits_int32 z = true -> fits_int64 z = true.
Proof. unfold fits_int32, fits_int64. rewrite !andb_true_iff, !Z.leb_le, !Z.ltb_lt. lia. Qed.
Lemma g_int32_ok n fs z : fits_int32 z = true ->
  varints n fs = (if Z.to_N (z mod 2 ^ 64) =? 0 then [] else [Z.to_N (z mod 2 ^ 64)]) -> g_int32 n fs = z.
Proof.
  intros H E. unfold g_int32. rewrite (g_uint_ok n fs _ E). unfold fits_int32 in H.
  apply andb_true_iff in H as [H1 H2]. apply Z.leb_le in H1. apply Z.ltb_lt in H2.
  assert (Z.to_N (z mod 2 ^ 64) mod 2 ^ 32 = Z.to_N (z mod 2 ^ 32)) as ->.
  { pose proof (Z.mod_pos_bound z (2 ^ 64) ltac:(lia)). pose proof (Z.mod_pos_bound z (2 ^ 32) ltac:(lia)).
    apply N2Z.inj. rewrite N2Z.inj_mod, !Z2N.id by lia. change (Z.of_N (2 ^ 32)) with (2 ^ 32)%Z.
    symmetry. apply Znumtheory.Zmod_div_mod; [lia|lia|]. exists (2 ^ 32)%Z. reflexivity. }
  destruct (Z_lt_le_dec z 0) as [Hn|Hp].
  - assert (z mod 2 ^ 32 = z + 2 ^ 32)%Z as -> by (symmetry; apply (Z.mod_unique _ _ (-1)); lia).
    destruct (N.ltb_spec (Z.to_N (z + 2 ^ 32)) (2 ^ 31)); lia.
  - rewrite Z.mod_small by lia. destruct (N.ltb_spec (Z.to_N z) (2 ^ 31)); lia.
Qed.
Lemma g_messages_ok {A} (ok : A -> bool) enc dec n fs l : faithful ok enc dec ->
  payloads n fs = map (fun x => encode_fields (enc x)) l -> forallb ok l = true ->
  (forall a, a ∈ l -> blen (encode_fields (enc a)) < two64) -> g_messages dec n fs = Some l.
Proof. intros HF E Ho Hs. unfold g_messages. rewrite E. exact (read_each ok enc dec l HF Ho Hs). Qed.
Lemma g_message_ok {A} (ok : A -> bool) enc dec n fs o : faithful ok enc dec ->
  payloads n fs = map (fun x => encode_fields (enc x)) (option_list o) -> forallb ok (option_list o) = true ->
  (forall a, a ∈ option_list o -> blen (encode_fields (enc a)) < two64) -> g_message dec n fs = Some o.
Proof.
  intros HF E Ho Hs. unfold g_message. pose proof (read_each ok enc dec (option_list o) HF Ho Hs) as R.
  destruct o as [a|]; [change (option_list (Some a)) with [a] in *|rewrite E; reflexivity].
  cbn [map] in E, R. rewrite E.
  rewrite R. cbn [concat]. rewrite app_nil_r.
  rewrite (read_encode ok enc dec a HF); [reflexivity| |apply Hs; left].
  cbn in Ho. apply andb_true_iff in Ho as [Ho _]. exact Ho.
Qed.

(** ** The messages of the application *)
Ltac fields := unfold f_message, f_messages, f_int, f_bool; rewrite ?payloads_app, ?varints_app, ?payloads_each, ?varints_each, ?payloads_bytes, ?varints_bytes,
  ?payloads_uint, ?varints_uint; cbn [N.eqb Pos.eqb app]; rewrite ?app_nil_r; reflexivity.
Ltac smalls := repeat match goal with H : blen (encode_fields (_ ++ _)) < _ |- _ => apply small_app in H as [? H] end.
Ltac oks := repeat match goal with H : _ && _ = true |- _ => apply andb_true_iff in H as [? H] end.
Ltac bound := unfold fits64 in *; repeat match goal with H : (_ <? _) = true |- _ => apply N.ltb_lt in H end; exact ltac:(lia).
Lemma z_bound z : Z.to_N (z mod 2 ^ 64) < two64.
Proof. apply two_compl_bound. Qed.
Lemma fits64_bound v : fits64 v = true -> v < two64.
Proof. apply N.ltb_lt. Qed.
Ltac given := match goal with
  | H : blen (encode_fields ?x) < _ |- blen (encode_fields ?x) < _ => exact H
  | H : ?x = true |- ?x = true => exact H
  end.
Ltac nested := let x := fresh in let Hx := fresh in intros x Hx;
  match goal with
  | H : blen (encode_fields (f_messages ?e ?n ?l)) < _ |- blen (encode_fields (?e _)) < _ => exact (each_small e n l x H Hx)
  | H : blen (encode_fields (f_message ?e ?n ?o)) < _ |- blen (encode_fields (?e _)) < _ => exact (each_small e n (option_list o) x H Hx)
  end.
Ltac wfs := repeat match goal with |- Forall wf (_ ++ _) => apply Forall_app_2 end;
  match goal with
  | |- Forall wf (f_bytes _ _) => apply wf_bytes; [split; [discriminate|reflexivity]|given]
  | |- Forall wf (f_each _ _) => apply wf_each; [split; [discriminate|reflexivity]|given]
  | |- Forall wf (f_messages _ _ _) => apply wf_each; [split; [discriminate|reflexivity]|given]
  | |- Forall wf (f_message _ _ _) => apply wf_each; [split; [discriminate|reflexivity]|given]
  | |- Forall wf (f_int _ _) => apply wf_uint; [split; [discriminate|reflexivity]|apply z_bound]
  | |- Forall wf (f_bool _ ?b) => apply wf_uint; [split; [discriminate|reflexivity]|destruct b; reflexivity]
  | |- Forall wf (f_uint _ _) => apply wf_uint; [split; [discriminate|reflexivity]|apply fits64_bound; given]
  end.

Lemma any_faithful : faithful ok_any enc_any dec_any.
Proof.
  intros [u v] Ho Hs. unfold enc_any, ok_any in *. cbn [any_url any_value] in *. smalls. split; [wfs|].
  unfold dec_any. rewrite (g_text_ok 1 _ u); [|fields|exact Ho]. rewrite (g_bytes_ok 2 _ v); [reflexivity|fields].
Qed.
Lemma coin_faithful : faithful ok_coin enc_coin dec_coin.
Proof.
  intros [u v] Ho Hs. unfold enc_coin, ok_coin in *. cbn [co_denom co_amount] in *. smalls. oks. split; [wfs|].
  unfold dec_coin. rewrite (g_text_ok 1 _ u); [|fields|given]. rewrite (g_text_ok 2 _ v); [reflexivity|fields|given].
Qed.
Lemma role_faithful : faithful ok_role enc_role dec_role.
Proof.
  intros [i g l c u d x] Ho Hs. unfold enc_role, ok_role in *. cbn [rl_id rl_gets rl_lists rl_creates rl_updates rl_deletes rl_delivers] in *.
  smalls. oks. split; [wfs|].
  unfold dec_role. rewrite (g_text_ok 1 _ i); [|fields|given]. cbn [mbind option_bind].
  rewrite (g_texts_ok 2 _ g); [|fields|given]. cbn [mbind option_bind].
  rewrite (g_texts_ok 3 _ l); [|fields|given]. cbn [mbind option_bind].
  rewrite (g_texts_ok 4 _ c); [|fields|given]. cbn [mbind option_bind].
  rewrite (g_texts_ok 5 _ u); [|fields|given]. cbn [mbind option_bind].
  rewrite (g_texts_ok 6 _ d); [|fields|given]. cbn [mbind option_bind].
  rewrite (g_texts_ok 7 _ x); [|fields|given]. reflexivity.
Qed.

(** A message of any number of fields: each goal [g_x n fs = ..] in turn. *)
Ltac next := cbn [mbind option_bind].
Lemma account_faithful : faithful ok_account enc_account dec_account.
Proof.
  intros [a k n q] Ho Hs. unfold enc_account, ok_account in *. cbn [ac_address ac_pubkey ac_number ac_sequence] in *.
  smalls. oks. split; [wfs|].
  unfold dec_account. rewrite (g_text_ok 1 _ a); [|fields|given]. next.
  rewrite (g_message_ok ok_any enc_any dec_any 2 _ k any_faithful); [|fields|given|].
  2: { nested. }
  next. rewrite (g_uint_ok 3 _ n); [|fields]. rewrite (g_uint_ok 4 _ q); [|fields]. reflexivity.
Qed.
Lemma auth_params_faithful : faithful ok_auth_params enc_auth_params dec_auth_params.
Proof.
  intros [a b c d e] Ho Hs. unfold enc_auth_params, ok_auth_params in *.
  cbn [pr_max_memo pr_sig_limit pr_size_cost pr_ed25519_cost pr_secp256k1_cost] in *.
  smalls. oks. split; [wfs|]. unfold dec_auth_params.
  rewrite (g_uint_ok 1 _ a); [|fields]. rewrite (g_uint_ok 2 _ b); [|fields]. rewrite (g_uint_ok 3 _ c); [|fields].
  rewrite (g_uint_ok 4 _ d); [|fields]. rewrite (g_uint_ok 5 _ e); [|fields]. reflexivity.
Qed.
Lemma header_faithful : faithful fits_int64 enc_header dec_header.
Proof.
  intros z Ho Hs. unfold enc_header, dec_header in *. split; [wfs|].
  rewrite (g_int_ok 3 _ z); [reflexivity|exact Ho|fields].
Qed.
Lemma begin_block_faithful : faithful ok_begin_block enc_begin_block dec_begin_block.
Proof.
  intros [h r] Ho Hs. unfold enc_begin_block, ok_begin_block in *. cbn [bb_height bb_rest] in *.
  smalls. split; [wfs|]. unfold dec_begin_block.
  rewrite (g_message_ok fits_int64 enc_header dec_header 2 _ h header_faithful); [|fields|exact Ho|].
  2: { nested. }
  next. rewrite (g_bytes_ok 1 _ r); [reflexivity|fields].
Qed.
Lemma check_tx_faithful : faithful ok_check_tx enc_check_tx dec_check_tx.
Proof.
  intros [t z] Ho Hs. unfold enc_check_tx, ok_check_tx in *. cbn [ct_tx ct_type] in *. smalls. split; [wfs|].
  unfold dec_check_tx. rewrite (g_bytes_ok 1 _ t); [|fields].
  rewrite (g_int32_ok 2 _ z); [reflexivity|exact Ho|fields].
Qed.
Lemma deliver_tx_faithful : faithful (fun _ => true) enc_deliver_tx dec_deliver_tx.
Proof.
  intros t _ Hs. unfold enc_deliver_tx, dec_deliver_tx in *. split; [wfs|]. rewrite (g_bytes_ok 1 _ t); [reflexivity|fields].
Qed.
Lemma end_block_faithful : faithful fits_int64 enc_end_block dec_end_block.
Proof.
  intros z Ho Hs. unfold enc_end_block, dec_end_block in *. split; [wfs|].
  rewrite (g_int_ok 1 _ z); [reflexivity|exact Ho|fields].
Qed.
Lemma key_faithful : faithful (fun _ => true) enc_key dec_key.
Proof.
  intros k _ Hs. change (enc_key k) with (f_each 1 [k]) in *. split; [wfs|].
  unfold dec_key, g_bytes. rewrite payloads_each. reflexivity.
Qed.
Lemma update_faithful : faithful ok_update enc_update dec_update.
Proof.
  intros [k p] Ho Hs. unfold enc_update, ok_update in *. cbn [vu_key vu_power] in *. smalls. split; [wfs|].
  unfold dec_update. rewrite (g_message_ok (fun _ => true) enc_key dec_key 1 _ (Some k) key_faithful); [|fields|reflexivity|].
  2: { nested. }
  next. rewrite (g_int_ok 2 _ p); [reflexivity|exact Ho|fields].
Qed.
Lemma api_faithful : faithful ok_api enc_api dec_api.
Proof.
  intros [g k b] Ho Hs. unfold enc_api, ok_api in *. cbn [ad_group ad_kind ad_transition] in *. smalls. oks. split; [wfs|].
  unfold dec_api. rewrite (g_text_ok 1 _ g); [|fields|given]. next.
  rewrite (g_text_ok 2 _ k); [|fields|given]. next.
  assert (g_int32 3 (f_bytes 1 g ++ f_bytes 2 k ++ f_bool 3 b) = if b then 1%Z else 0%Z) as ->.
  { apply g_int32_ok; [destruct b; reflexivity|]. destruct b; fields. }
  destruct b; reflexivity.
Qed.
Lemma definition_faithful : faithful ok_definition enc_definition dec_definition.
Proof.
  intros [b p s] Ho Hs. unfold enc_definition, ok_definition in *. cbn [def_singleton def_primary_key def_secondary_keys] in *.
  smalls. oks. split; [wfs|].
  unfold dec_definition. rewrite (g_text_ok 2 _ p); [|fields|given]. next.
  rewrite (g_texts_ok 3 _ s); [|fields|given]. next.
  rewrite (g_bool_ok 1 _ b); [reflexivity|fields].
Qed.
Lemma acl_faithful : faithful (fun _ => true) enc_acl dec_acl.
Proof.
  intros b _ Hs. unfold enc_acl, dec_acl in *. split; [wfs|]. rewrite (g_bool_ok 1 _ b); [reflexivity|fields].
Qed.
Lemma forallb_true {A} (l : list A) : forallb (fun _ => true) l = true.
Proof. induction l; [reflexivity|exact IHl]. Qed.
Lemma options_faithful : faithful (fun _ => true) enc_options dec_options.
Proof.
  intros o _ Hs. unfold enc_options, dec_options in *. split; [wfs|].
  rewrite (g_message_ok (fun _ => true) enc_acl dec_acl 12000000 _ o acl_faithful); [reflexivity|fields|apply forallb_true|].
  nested.
Qed.
Lemma file_message_faithful : faithful ok_file_message enc_file_message dec_file_message.
Proof.
  intros [n o] Ho Hs. unfold enc_file_message, ok_file_message in *. cbn [fst snd] in *. smalls. split; [wfs|].
  unfold dec_file_message.
  assert (g_text 1 (f_each 1 [n] ++ f_message enc_options 7 (option_map Some o)) = Some n) as ->.
  { unfold g_text. rewrite (g_texts_ok 1 _ [n]); [reflexivity|fields|]. cbn [forallb]. rewrite Ho. reflexivity. }
  next. rewrite (g_message_ok (fun _ => true) enc_options dec_options 7 _ (option_map Some o) options_faithful);
    [destruct o; reflexivity|fields|apply forallb_true|].
  nested.
Qed.
Lemma file_faithful : faithful ok_file enc_file dec_file.
Proof.
  intros l Ho Hs. unfold enc_file, ok_file, dec_file in *. split; [wfs|].
  apply (g_messages_ok ok_file_message enc_file_message dec_file_message 4 _ l file_message_faithful); [fields|exact Ho|].
  nested.
Qed.
Lemma raw_object_faithful : faithful ok_raw_object enc_raw_object dec_raw_object.
Proof.
  intros [a d] Ho Hs. unfold enc_raw_object, ok_raw_object in *. cbn [rw_api rw_schema] in *. smalls. oks. split; [wfs|].
  unfold dec_raw_object.
  rewrite (g_message_ok ok_api enc_api dec_api 1 _ (Some a) api_faithful); [|fields|cbn; rewrite andb_true_r; given|].
  2: { nested. }
  next. rewrite (g_message_ok ok_definition enc_definition dec_definition 2 _ (Some d) definition_faithful); [reflexivity|fields|cbn; rewrite andb_true_r; given|].
  nested.
Qed.
Lemma transition_faithful : faithful ok_transition enc_transition dec_transition.
Proof.
  intros [a s l] Ho Hs. unfold enc_transition, ok_transition in *. cbn [tt_api tt_short tt_files] in *. smalls. oks. split; [wfs|].
  unfold dec_transition.
  rewrite (g_message_ok ok_api enc_api dec_api 1 _ (Some a) api_faithful); [|fields|cbn; rewrite andb_true_r; given|].
  2: { nested. }
  next. rewrite (g_text_ok 2 _ s); [|fields|given]. next.
  rewrite (g_messages_ok ok_file enc_file dec_file 3 _ l file_faithful); [reflexivity|fields|given|].
  nested.
Qed.
Lemma need_faithful : faithful ok_api enc_need dec_need.
Proof.
  intros d Ho Hs. unfold enc_need, dec_need in *. split; [wfs|].
  rewrite (g_message_ok ok_api enc_api dec_api 1 _ (Some d) api_faithful); [reflexivity|fields|cbn; rewrite andb_true_r; given|].
  nested.
Qed.
Lemma descriptor_faithful : faithful ok_descriptor enc_descriptor dec_descriptor.
Proof.
  intros [n o t d] Ho Hs. unfold enc_descriptor, ok_descriptor in *. cbn [rd_name rd_objects rd_transitions rd_needs] in *.
  smalls. oks. split; [wfs|]. unfold dec_descriptor.
  rewrite (g_text_ok 1 _ n); [|fields|given]. next.
  rewrite (g_messages_ok ok_raw_object enc_raw_object dec_raw_object 2 _ o raw_object_faithful); [|fields|given|].
  2: { nested. }
  next. rewrite (g_messages_ok ok_transition enc_transition dec_transition 3 _ t transition_faithful); [|fields|given|].
  2: { nested. }
  next. rewrite (g_messages_ok ok_api enc_need dec_need 4 _ d need_faithful); [reflexivity|fields|given|].
  nested.
Qed.

(** ** The state objects *)
Ltac typed := unfold dec_object; repeat match goal with
  | |- context [bytes_eqb (obj_name (app_ops protobuf) ?o) ?ty] =>
      let b := eval vm_compute in (bytes_eqb (object_group o ++ str "." ++ object_kind o) ty) in
      change (bytes_eqb (obj_name (app_ops protobuf) o) ty) with b
  end; cbv iota.
Lemma object_faithful o : ok_object o = true -> blen (encode_fields (enc_object o)) < two64 ->
  Forall wf (enc_object o) /\ dec_object (obj_name (app_ops protobuf) o) (enc_object o) = Some o.
Proof.
  intros Ho Hs.
  destruct o as [l|s|b|c|t|id|h|n|l|a|p|n|r|s r| |a c]; cbn [enc_object ok_object] in *; typed.
  - split; [wfs|].
    rewrite (g_messages_ok ok_descriptor enc_descriptor dec_descriptor 1 _ l descriptor_faithful); [reflexivity|fields|given|nested].
  - split; [apply wf_uint; [split; [discriminate|reflexivity]|destruct s; reflexivity]|]. destruct s; reflexivity.
  - split; [wfs|].
    rewrite (g_message_ok ok_begin_block enc_begin_block dec_begin_block 1 _ b begin_block_faithful); [reflexivity|fields|given|nested].
  - split; [wfs|].
    rewrite (g_message_ok ok_check_tx enc_check_tx dec_check_tx 1 _ c check_tx_faithful); [reflexivity|fields|given|nested].
  - split; [wfs|].
    rewrite (g_message_ok (fun _ => true) enc_deliver_tx dec_deliver_tx 1 _ t deliver_tx_faithful);
      [reflexivity|fields|apply forallb_true|nested].
  - split; [wfs|]. rewrite (g_text_ok 1 _ id); [reflexivity|fields|given].
  - split; [wfs|].
    rewrite (g_message_ok fits_int64 enc_end_block dec_end_block 1 _ h end_block_faithful); [reflexivity|fields|given|nested].
  - split; [wfs|]. rewrite (g_uint_ok 1 _ n); [reflexivity|fields].
  - split; [wfs|].
    rewrite (g_messages_ok ok_update enc_update dec_update 1 _ l update_faithful); [reflexivity|fields|given|nested].
  - destruct (account_faithful a Ho Hs) as [W D]. split; [exact W|]. rewrite D. reflexivity.
  - destruct (auth_params_faithful p Ho Hs) as [W D]. split; [exact W|]. rewrite D. reflexivity.
  - split; [wfs|]. rewrite (g_uint_ok 2 _ n); [reflexivity|fields].
  - destruct (role_faithful r Ho Hs) as [W D]. split; [exact W|]. rewrite D. reflexivity.
  - smalls. oks. split; [wfs|]. rewrite (g_text_ok 1 _ s); [|fields|given]. next.
    rewrite (g_text_ok 2 _ r); [reflexivity|fields|given].
  - split; [apply List.Forall_nil|reflexivity].
  - smalls. oks. split; [wfs|]. rewrite (g_text_ok 1 _ a); [|fields|given]. next.
    rewrite (g_messages_ok ok_coin enc_coin dec_coin 2 _ c coin_faithful); [reflexivity|fields|given|nested].
Qed.
Lemma protobuf_ok : codec_ok (app_ops protobuf).
Proof.
  intros o b. cbn [app_ops oo_marshal oo_unmarshal protobuf cd_marshal cd_unmarshal].
  destruct (ok_object o) eqn:Ho; [|discriminate]. cbn [andb].
  destruct (N.ltb_spec (blen (encode_fields (enc_object o))) (2 ^ 63)) as [Hs|]; [|discriminate]. intros [= <-].
  destruct (object_faithful o Ho) as [W D]; [refine (N.lt_trans _ _ _ Hs _); reflexivity|].
  unfold read. rewrite (parse_encode _ W). exact D.
Qed.
(** Everything Go can write is written. *)
Lemma protobuf_total o : ok_object o = true -> blen (encode_fields (enc_object o)) < 2 ^ 63 ->
  cd_marshal protobuf o = Some (encode_fields (enc_object o)).
Proof. intros Ho Hs. cbn [protobuf cd_marshal]. rewrite Ho. apply N.ltb_lt in Hs. rewrite Hs. reflexivity. Qed.
