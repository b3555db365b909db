(** What can be stored: with any codec, and with protobuf, where only the size of
    an object can be in the way. *)
From Coq Require Import NArith ZArith List Bool String Lia.
From stdpp Require Import base list gmap.
From Verif.Model Require Import Bytes KindEncoder Desc Schema Orm Users Prog Runtime Services Module Builder
  Universe Coin CoreModules Rbac Bank Authn Distribution TestApp Abci Wire Proto Marshal TxDecoder.
From Verif.Spec Require Import StoreSpec WireSpec TextSpec CoinSpec ChainSpec LiveSpec.
From Verif.Proofs Require Import BytesFacts KindEncoderFacts RegistryFacts OrmFacts AppFacts CoinFacts ProtoFacts Utf8Facts WireFacts DecoderFacts
  ChainInv ChainWp MapExec TotalExec TotalRun.
Local Open Scope N_scope.

(** ** Any codec *)
Lemma keeps_all C bits : keeps C bits (fun _ => True).
Proof. split; auto. Qed.
Lemma cannot_store_intro C bits verify o :
  storable (app_ops C) (schema_of o) o = false /\ True -> cannot_store C bits verify o.
Proof.
  intros [H _]. exists (schema_of o). split; [|exact H].
  rewrite (obj_name_ty C o). exact (tl_schema _ _ _ (test_app_like bits verify) o).
Qed.
Lemma stopped_mono (P Q : object -> Prop) x : (forall o, P o -> Q o) -> stopped_writing P x -> stopped_writing Q x.
Proof. intros H (b & o & us & Ho & Ht). exists b, o, us. split; [by apply H|done]. Qed.
Lemma answers_mono {A} (P Q : object -> Prop) (y : res A * node) : (forall o, P o -> Q o) -> answers P y -> answers Q y.
Proof. intros H [Hy|[Hd Hy]]; [by left|right]. split; [done|]. by eapply stopped_mono. Qed.
Lemma succeeds_mono {A} (P Q : object -> Prop) (y : res A * node) : (forall o, P o -> Q o) -> succeeds P y -> succeeds Q y.
Proof. intros H [Hy|[Hd Hy]]; [by left|right]. split; [done|]. by eapply stopped_mono. Qed.

(** ** ASCII texts are UTF-8 *)
Lemma ascii_valid b : Forall (fun x => b2N x < 128) b -> utf8_valid b = true.
Proof.
  induction 1 as [|x b Hx _ IH]; [reflexivity|]. cbn [utf8_valid].
  replace (in_range 0 127 x) with true; [exact IH|]. symmetry. apply in_range_true. lia.
Qed.
Lemma denomination_valid d : denomination d -> utf8_valid d = true.
Proof.
  intros (c & r & -> & Hc & _ & Hr). apply ascii_valid. constructor; [destruct Hc; lia|].
  eapply Forall_impl; [exact Hr|]. unfold letter. cbn. intros; lia.
Qed.
Lemma decimal_valid s n : decimal_text s n -> utf8_valid s = true.
Proof.
  intros (ds & _ & Hd & -> & _). apply ascii_valid. apply Forall_map. eapply Forall_impl; [exact Hd|].
  cbn. intros d H. unfold digit_char. rewrite b2N_N2b_small; lia.
Qed.
Lemma coin_set_ok l a : coin_set l a -> forallb ok_coin l = true.
Proof.
  intros (ns & H & _). induction H as [|c n l ns [H1 H2] _ IH]; [reflexivity|]. cbn [forallb].
  rewrite IH. unfold ok_coin. by rewrite (denomination_valid _ H1), (decimal_valid _ _ H2).
Qed.
Lemma result_ok bits a b r : safe_add bits a b = Ok r \/ safe_sub bits a b = Ok r -> forallb ok_coin r = true.
Proof. intros H. destruct (safe_result_normal bits a b r H) as [R [HR _]]. by eapply coin_set_ok. Qed.

(** ** protobuf *)
Definition sized (o : object) : bool :=
  ((blen (sch_name (schema_of o)) + 1 + blen (pk_of (app_ops protobuf) (schema_of o) o) <=? 65000)
  && forallb (fun ix =>
        (25 + blen (sch_name (schema_of o)) + blen (ix_name ix) + blen (field_code (app_ops protobuf) ix o)
         + blen (pk_of (app_ops protobuf) (schema_of o) o) <=? 65000)) (sch_indexes (schema_of o)))%bool.
Definition fits (o : object) : Prop := ok_object o = true /\ sized o = true.
Lemma storable_sized o : storable (app_ops protobuf) (schema_of o) o
  = (ok_object o && (blen (encode_fields (enc_object o)) <? 2 ^ 63) && sized o)%bool.
Proof.
  unfold storable, sized. cbn [oo_marshal app_ops cd_marshal protobuf]. rewrite <- andb_assoc. f_equal.
  destruct (ok_object o && (blen (encode_fields (enc_object o)) <? 2 ^ 63))%bool; reflexivity.
Qed.
Lemma fits_oversized o : storable (app_ops protobuf) (schema_of o) o = false /\ fits o -> oversized o.
Proof.
  rewrite storable_sized. intros [H [H1 H2]]. rewrite H1, H2, andb_true_r in H. cbn [andb] in H.
  unfold oversized. by apply N.ltb_ge in H.
Qed.
Lemma sized_pk o : pk_of (app_ops protobuf) (schema_of o) o = key_of o.
Proof. apply app_pk. Qed.
Lemma varint_bytes_length k : forall v, (length (varint_bytes k v) <= S k)%nat.
Proof.
  induction k as [|k IH]; intros v; cbn [varint_bytes]; [cbn; lia|]. destruct (_ <? _); cbn [length]; [lia|].
  specialize (IH (v / 128)). lia.
Qed.
Lemma varint_length v : blen (append_varint v) <= 10.
Proof. unfold append_varint, blen. pose proof (varint_bytes_length 9 v). lia. Qed.
Lemma sized_account a : sized (OAccount a)
  = ((blen ty_account + 1 + blen (string_key (ac_address a)) <=? 65000)
     && ((25 + blen ty_account + blen (str "accountNumber") + blen (append_varint (ac_number a mod 2 ^ 64)) + blen (string_key (ac_address a)) <=? 65000) && true))%bool.
Proof. reflexivity. Qed.
Lemma sized_binding a r : sized (OBinding a r)
  = ((blen ty_binding + 1 + blen (string_key a) <=? 65000)
     && ((25 + blen ty_binding + blen (str "roleRef") + blen (string_key r) + blen (string_key a) <=? 65000) && true))%bool.
Proof. reflexivity. Qed.
Lemma sized_balance a c : sized (OBalance a c) = ((blen ty_balance + 1 + blen (string_key a) <=? 65000) && true)%bool.
Proof. reflexivity. Qed.
Lemma names_short : blen ty_account < 100 /\ blen ty_binding < 100 /\ blen ty_balance < 100
  /\ blen (str "accountNumber") < 100 /\ blen (str "roleRef") < 100 /\ blen (string_key external_role_id) < 100.
Proof. repeat split; reflexivity. Qed.
Lemma account_sized a : blen (ac_address a) < 128 -> sized (OAccount a) = true.
Proof.
  intros H. pose proof names_short as (N1 & N2 & N3 & N4 & N5 & N6). rewrite sized_account, string_key_small by exact H.
  pose proof (varint_length (ac_number a mod 2 ^ 64)). repeat (apply andb_true_intro; split); [..|reflexivity]; apply N.leb_le; lia.
Qed.
Lemma binding_sized a : blen a < 128 -> sized (OBinding a external_role_id) = true.
Proof.
  intros H. pose proof names_short as (N1 & N2 & N3 & N4 & N5 & N6). rewrite sized_binding, (string_key_small a) by exact H.
  repeat (apply andb_true_intro; split); [..|reflexivity]; apply N.leb_le; lia.
Qed.
Lemma balance_sized a c : blen a < 128 -> sized (OBalance a c) = true.
Proof.
  intros H. pose proof names_short as (N1 & N2 & N3 & N4 & N5 & N6). rewrite sized_balance, (string_key_small a) by exact H.
  apply andb_true_intro; split; [|reflexivity]; apply N.leb_le; lia.
Qed.

Lemma fits64_mod n : fits64 (n mod 2 ^ 64) = true.
Proof. unfold fits64. apply N.ltb_lt. apply N.mod_lt. discriminate. Qed.
Lemma keeps_protobuf bits : keeps protobuf bits fits.
Proof.
  split.
  - intros o. rewrite storable_sized. intros H. apply andb_prop in H as [H H2]. apply andb_prop in H as [H1 _]. by split.
  - intros ac [H1 H2]. split; [|exact H2]. cbn [ok_object] in *. unfold ok_account in *. cbn [next_sequence ac_address ac_pubkey ac_number ac_sequence].
    apply andb_prop in H1 as [H1 _]. rewrite H1. apply fits64_mod.
  - intros n _. split; [apply fits64_mod|reflexivity].
  - intros x c c2 amt c1 [H1 H2] Hc. split; [|exact H2]. cbn [ok_object] in *. apply andb_prop in H1 as [H1 _]. rewrite H1.
    by apply (result_ok bits c amt); right.
  - intros x c c2 amt c1 [H1 H2] Hc. split; [|exact H2]. cbn [ok_object] in *. apply andb_prop in H1 as [H1 _]. rewrite H1.
    by apply (result_ok bits c amt); left.
Qed.
Lemma fits_new a : ok_account a = true -> blen (ac_address a) < 128 -> good_new fits a.
Proof.
  intros H Hl. unfold ok_account in H. apply andb_prop in H as [H _]. apply andb_prop in H as [H _]. split.
  - intros n [Hn _]. split; [|by apply account_sized]. cbn [ok_object] in *. unfold ok_account.
    cbn [numbered ac_address ac_pubkey ac_number ac_sequence]. by rewrite H, Hn.
  - split; [|by apply binding_sized]. cbn [ok_object]. apply andb_prop in H as [H _]. rewrite H. reflexivity.
Qed.
Lemma fits_to to amt : utf8_valid to = true -> forallb ok_coin amt = true -> blen to < 128 -> good_to fits to amt.
Proof.
  intros H1 H2 Hl. split; [split; [cbn [ok_object]; by rewrite H1, H2|by apply balance_sized]|].
  apply fits_new; [|exact Hl]. unfold ok_account. cbn [fresh_account ac_address ac_pubkey ac_number ac_sequence]. by rewrite H1.
Qed.

(** ** What the decoder reads is what can be written *)
Lemma text_valid n fs b : g_text n fs = Some b -> utf8_valid b = true.
Proof.
  unfold g_text, g_texts. destruct (forallb utf8_valid (payloads n fs)) eqn:E; [|discriminate]. intros [= <-].
  induction (payloads n fs) as [|x l IH]; [reflexivity|]. cbn [forallb] in E. apply andb_prop in E as [E1 E2].
  destruct l as [|y l]; [exact E1|]. exact (IH E2).
Qed.
Local Ltac take H := repeat (let E := fresh "E" in apply bind_Some in H as (? & E & H)); injection H as <-.
Lemma coin_read_ok fs c : dec_coin fs = Some c -> ok_coin c = true.
Proof.
  unfold dec_coin. intros H. take H. unfold ok_coin. cbn. by rewrite (text_valid _ _ _ E), (text_valid _ _ _ E0).
Qed.
Lemma messages_read {A} (dec : list wfield -> option A) (ok : A -> bool) n fs l :
  (forall gs x, dec gs = Some x -> ok x = true) -> g_messages dec n fs = Some l -> forallb ok l = true.
Proof.
  intros Hd. unfold g_messages. intros H. apply mapM_Some in H. induction H as [|p x ps l Hp _ IH]; [reflexivity|].
  cbn [forallb]. rewrite IH, andb_true_r. unfold read in Hp. destruct (parse_fields p) as [gs|]; [|discriminate]. by eapply Hd.
Qed.
Lemma coins_read_ok n fs l : g_messages dec_coin n fs = Some l -> forallb ok_coin l = true.
Proof. apply messages_read. exact coin_read_ok. Qed.
Lemma uint_read_ok b fs n : parse_fields b = Some fs -> fits64 (g_uint n fs) = true.
Proof.
  intros H. apply parse_fields_spec in H. apply N.ltb_lt. unfold g_uint.
  assert (Forall (fun v => v < 2 ^ 64) (varints n fs)) as Hf.
  { induction H as [|a f b fs Hf _ IH]; [by apply Forall_nil|]. change (f :: fs) with ([f] ++ fs). rewrite varints_app. apply Forall_app. split; [|exact IH].
    unfold varints, values. cbn. destruct Hf as [t c m v Ht Hv| | | |]; cbn; destruct (_ =? n); try (by apply Forall_nil).
    cbn. constructor; [|by apply Forall_nil]. by destruct Hv as (_ & _ & ?). }
  induction Hf as [|x l Hx Hl IH]; [reflexivity|]. destruct l; [exact Hx|exact IH].
Qed.
Lemma any_read_ok fs a : dec_any fs = Some a -> ok_any a = true.
Proof. unfold dec_any. intros H. take H. exact (text_valid _ _ _ E). Qed.
Lemma message_read {A} (dec : list wfield -> option A) n fs o : g_message dec n fs = Some (Some o) ->
  exists b gs, parse_fields b = Some gs /\ dec gs = Some o.
Proof.
  unfold g_message. destruct (payloads n fs) as [|p l]; [discriminate|]. destruct (mapM _ _); [|discriminate].
  unfold read. destruct (parse_fields _) as [gs|] eqn:E; [|discriminate]. destruct (dec gs) eqn:E2; [|discriminate]. intros [= <-]. eauto.
Qed.
Lemma account_read_ok b fs a : parse_fields b = Some fs -> dec_account fs = Some a -> ok_account a = true.
Proof.
  intros Hb. unfold dec_account. intros H. take H. unfold ok_account. cbn [ac_address ac_pubkey ac_number ac_sequence].
  rewrite (text_valid _ _ _ E), !(uint_read_ok b fs _ Hb). destruct x0 as [k|]; [|reflexivity].
  destruct (message_read _ _ _ _ E0) as (b' & gs & _ & Ha). cbn. by rewrite (any_read_ok _ _ Ha).
Qed.

Definition short_written (m : msg) : Prop :=
  match m with
  | MsgCreateAccount (Some a) => (length (ac_address a) < 128)%nat
  | MsgSendCoins _ to _ => (length to < 128)%nat
  | _ => True
  end.
Lemma short_addresses_written m : short_addresses m -> short_written m.
Proof. destruct m as [| | | | | | |[]| | | | | |]; cbn; try done. by intros [_ ?]. Qed.
Lemma msg_read ty fs m : dec_msg ty fs = Some m -> short_written m -> good_msg fits m.
Proof.
  unfold dec_msg. intros H.
  repeat (destruct (bytes_eqb ty _); [take H; try (intros _; exact I)|]); try discriminate.
  - destruct x as [a|]; [|intros _; exact I]. cbn [short_written good_msg]. intros Hs.
    destruct (message_read _ _ _ _ E) as (b & gs & Hb & Ha). apply fits_new; [by eapply account_read_ok|unfold blen; lia].
  - cbn [short_written good_msg]. intros Hs.
    apply fits_to; [by eapply text_valid|by eapply coins_read_ok|unfold blen; lia].
Qed.
Lemma transitions_read l ms : transitions_of l = Ok ms -> Forall (fun m => short_written m -> good_msg fits m) ms.
Proof.
  revert ms. induction l as [|a l IH]; cbn [transitions_of]; intros ms.
  - intros [= <-]. by apply Forall_nil.
  - destruct (transition_of a) as [m|e| |] eqn:E; try discriminate. cbn [res_bind].
    destruct (transitions_of l) as [ms'|e| |] eqn:E2; try discriminate. intros [= <-]. constructor; [|by apply IH].
    unfold transition_of in E. destruct (bytes_eqb _ _); [discriminate|]. unfold read in E.
    destruct (parse_fields _) as [fs|]; [|discriminate]. destruct (dec_msg _ fs) eqn:E3; [|discriminate].
    injection E as <-. by eapply msg_read.
Qed.
Lemma decoded_good hash160 raw t : decode_tx hash160 raw = Ok t ->
  good_to fits fee_collector (tx_fee t) /\ Forall (fun m => short_written m -> good_msg fits m) (tx_msgs t).
Proof.
  intros H. destruct (decode_parts hash160 raw t H) as (w & body & auth & f & msgs & ps & _ & _ & _ & _ & _ & Ha & Hf & _ & Hm & _ & ->).
  cbn [tx_fee tx_msgs]. split.
  - assert (forallb ok_coin (fe_amount f) = true) as Hc.
    { unfold read_known in Ha. destruct (parse_fields _) as [fs|]; [|discriminate]. destruct (dec_auth_info fs) eqn:E; [|discriminate].
      destruct (all_known _ _); [|discriminate]. injection Ha as ->. unfold dec_auth_info in E. take E. cbn in Hf. subst.
      destruct (message_read _ _ _ _ E1) as (b & gs & _ & Hg). unfold dec_fee in Hg. take Hg. cbn. by eapply coins_read_ok. }
    apply fits_to; [reflexivity|exact Hc|reflexivity].
  - unfold get_transitions in Hm. destruct (tb_messages body); [discriminate|]. by eapply transitions_read.
Qed.
Lemma tame_short v l : forall used, tame v used l -> Forall short_addresses l.
Proof.
  induction l as [|m l IH]; intros used H; [by apply Forall_nil|]. destruct H as [H1 H2]. constructor; [exact H1|].
  destruct m as [| | | | | | |[a|]| | | | | |]; try exact (IH _ H2); try (destruct H2; fail).
  - destruct H2 as (_ & _ & _ & _ & H2). exact (IH _ H2).
  - destruct H2 as (_ & _ & _ & H2). exact (IH _ H2).
Qed.
