(** What testapp/module/sign.go writes is read by the decoder as the transfer. *)
From Coq Require Import NArith ZArith List Bool String Lia.
From stdpp Require Import base list option.
From Verif.Model Require Import Bytes Wire Proto KindEncoder Desc Schema Users Module Universe Marshal Coin Prog Authn Bech32 TxDecoder Strings Sign.
From Verif.Spec Require Import TextSpec WireSpec TxSpec SignSpec.
From Verif.Proofs Require Import BytesFacts ProtoFacts Utf8Facts CoinFacts TextFacts WireFacts LiveProto.
Local Open Scope N_scope.

Lemma sign_doc_direct body auth chain n : sign_doc body auth chain n = direct_sign_bytes body auth chain n.
Proof. unfold sign_doc. symmetry. apply sign_bytes_fields. Qed.

Lemma decimal_ascii n : Forall (fun x => b2N x < 128) (decimal n).
Proof.
  rewrite <- itoa_decimal. unfold itoa. generalize (S (N.to_nat (N.log2 n))). intros f.
  assert (Forall (fun x => b2N x < 128) ([] : bytes)) as H0 by constructor. revert n H0. generalize ([] : bytes).
  induction f as [|f IH]; intros acc n Ha; cbn [itoa_fuel]; [exact Ha|].
  assert (b2N (N2b (48 + n mod 10)) < 128) as Hd.
  { assert (n mod 10 < 10) by (apply N.mod_lt; discriminate). rewrite b2N_N2b_small by lia. lia. }
  destruct (n <? 10); [by constructor|]. apply IH. by constructor.
Qed.
Lemma to_coins_ok (l : sdk_coins) : coin_texts l -> forallb ok_coin (to_coins l) = true.
Proof.
  intros H. induction H as [|[d z] l Hd _ IH]; [reflexivity|]. cbn [to_coins map forallb]. apply andb_true_iff. split; [|exact IH].
  unfold ok_coin. cbn [co_denom co_amount fst snd] in *. apply andb_true_iff. split; [by apply utf8_valid_spec|].
  apply ascii_valid. rewrite itoa_decimal. destruct (z <? 0)%Z; [|apply decimal_ascii]. cbn. constructor; [reflexivity|apply decimal_ascii].
Qed.

(** Messages one by one. *)
Lemma send_faithful from to amount : utf8_text from -> utf8_text to -> coin_texts amount ->
  blen (encode_fields (enc_send (from, to, amount))) < two64 ->
  read (dec_msg (tt_name t_send_coins)) (encode_fields (enc_send (from, to, amount))) = Some (MsgSendCoins from to (to_coins amount)).
Proof.
  intros H1 H2 H3 Hs. apply utf8_valid_spec in H1, H2. apply to_coins_ok in H3.
  assert (Forall wf (enc_send (from, to, amount))) as Hw.
  { unfold enc_send in *. cbn [fst snd] in *. smalls. wfs. }
  unfold read. rewrite (parse_encode _ Hw).
  assert (forall fs, dec_msg (tt_name t_send_coins) fs
    = (f ← g_text 1 fs; t ← g_text 2 fs; c ← g_messages dec_coin 3 fs; Some (MsgSendCoins f t c))) as E by (intros fs; reflexivity).
  rewrite E. clear E. unfold enc_send in *. cbn [fst snd] in *. smalls.
  rewrite (g_text_ok 1 _ from); [|fields|exact H1]. cbn [mbind option_bind].
  rewrite (g_text_ok 2 _ to); [|fields|exact H2]. cbn [mbind option_bind].
  rewrite (g_messages_ok ok_coin enc_coin dec_coin 3 _ (to_coins amount) coin_faithful); [reflexivity|fields|exact H3|nested].
Qed.
Lemma key_read key : blen (encode_fields (f_bytes 1 key)) < two64 -> parse_fields (encode_fields (f_bytes 1 key)) = Some (f_bytes 1 key).
Proof. intros H. apply parse_encode. wfs. Qed.
Lemma key_resolves key : blen (encode_fields (f_bytes 1 key)) < two64 -> resolve_key (sdk_key key) = Ok key.
Proof.
  intros H. unfold resolve_key. cbn [any_url any_value sdk_key].
  replace (existsb _ key_urls) with true by (vm_compute; reflexivity). rewrite (key_read key H). rewrite (g_bytes_ok 1 _ key); [reflexivity|fields].
Qed.
Lemma mode_payload l : payloads 2 (f_messages enc_mode_info 2 l) = map (fun x => encode_fields (enc_mode_info x)) l.
Proof. fields. Qed.
Lemma mode_read fs : payloads 2 fs = [encode_fields (enc_mode_info 1)] -> g_message dec_mode 2 fs = Some (Some (Some 1%Z)).
Proof. intros E. unfold g_message. rewrite E. vm_compute. reflexivity. Qed.
Lemma signer_read key s : blen (encode_fields (enc_signer_info (key, s))) < two64 -> s < two64 ->
  Forall wf (enc_signer_info (key, s)) /\ dec_signer_info (enc_signer_info (key, s))
    = Some {| si_key := Some (sdk_key key); si_mode := Some (Some 1%Z); si_sequence := s |}.
Proof.
  intros Hs Hq. assert (fits64 s = true) as Hf by (by apply N.ltb_lt). unfold enc_signer_info in *. cbn [fst snd] in *. smalls. split; [wfs|].
  unfold dec_signer_info.
  rewrite (g_message_ok ok_any enc_any dec_any 1 _ (Some (sdk_key key)) any_faithful); [|fields|reflexivity|].
  2:{ intros a Ha. apply (each_small enc_any 1 [sdk_key key]); [given|exact Ha]. }
  cbn [mbind option_bind]. rewrite mode_read by fields. cbn [mbind option_bind].
  rewrite (g_uint_ok 3 _ s); [reflexivity|fields].
Qed.
Lemma fee_read fee gas : coin_texts fee -> gas < two64 -> blen (encode_fields (enc_sdk_fee (fee, gas))) < two64 ->
  Forall wf (enc_sdk_fee (fee, gas)) /\ dec_fee (enc_sdk_fee (fee, gas)) = Some {| fe_amount := to_coins fee; fe_payer := [] |}.
Proof.
  intros Hc Hg Hs. assert (fits64 gas = true) as Hf by (by apply N.ltb_lt). apply to_coins_ok in Hc. unfold enc_sdk_fee in *. cbn [fst snd] in *. smalls. split; [wfs|].
  unfold dec_fee. rewrite (g_messages_ok ok_coin enc_coin dec_coin 1 _ (to_coins fee) coin_faithful); [|fields|exact Hc|nested].
  cbn [mbind option_bind]. rewrite (g_text_ok 3 _ []); [|fields|reflexivity]. cbn [mbind option_bind].
  rewrite (g_text_ok 4 _ []); [reflexivity|fields|reflexivity].
Qed.

Lemma read_one {A} (dec : list wfield -> option A) fs a : Forall wf fs -> dec fs = Some a -> read dec (encode_fields fs) = Some a.
Proof. intros Hw Hd. unfold read. by rewrite (parse_encode _ Hw). Qed.
Lemma message_one {A} (dec : list wfield -> option A) n fs b a : payloads n fs = [b] -> read dec b = Some a -> g_message dec n fs = Some (Some a).
Proof.
  intros E H. unfold g_message. rewrite E. rewrite (mapM_one _ _ _ H). cbn [concat]. rewrite app_nil_r. rewrite H. reflexivity.
Qed.

Lemma body_read from to amount : utf8_text from -> utf8_text to -> coin_texts amount -> blen (send_body from to amount) < two64 ->
  read_known tx_body_fields dec_tx_body (send_body from to amount)
  = Ok {| tb_messages := [send_any from to amount]; tb_memo := []; tb_timeout := 0 |}
  /\ transition_of (send_any from to amount) = Ok (MsgSendCoins from to (to_coins amount)).
Proof.
  intros H1 H2 H3 Hs. unfold send_body in Hs.
  assert (blen (encode_fields (enc_any (send_any from to amount))) < two64) as Ha.
  { apply (each_small enc_any 1 [send_any from to amount]); [exact Hs|left]. }
  assert (blen (encode_fields (enc_send (from, to, amount))) < two64) as Hv.
  { unfold enc_any in Ha. smalls. cbn [any_value send_any] in *.
    destruct (encode_fields (enc_send (from, to, amount))) as [|x r] eqn:E; [reflexivity|]. rewrite <- E in *.
    eapply N.le_lt_trans; [|exact Ha]. apply (payload_small 2). rewrite E. left. }
  split.
  - unfold read_known, send_body. rewrite parse_encode by wfs.
    assert (dec_tx_body (f_messages enc_any 1 [send_any from to amount]) = Some {| tb_messages := [send_any from to amount]; tb_memo := []; tb_timeout := 0 |}) as ->.
    { unfold dec_tx_body. rewrite (g_messages_ok ok_any enc_any dec_any 1 _ [send_any from to amount] any_faithful); [|fields|reflexivity|].
      2:{ intros a Hin. apply elem_of_list_singleton in Hin as ->. exact Ha. }
      reflexivity. }
    reflexivity.
  - unfold transition_of. cbn [any_url any_value send_any]. replace (bytes_eqb (str "/cosmos.bank.v1beta1.MsgSend") []) with false by reflexivity.
    change (message_name (str "/cosmos.bank.v1beta1.MsgSend")) with (tt_name t_send_coins).
    rewrite (send_faithful from to amount H1 H2 H3 Hv). reflexivity.
Qed.

Lemma auth_read key s fee gas : coin_texts fee -> s < two64 -> gas < two64 -> blen (send_auth key s fee gas) < two64 ->
  read_known auth_info_fields dec_auth_info (send_auth key s fee gas)
  = Ok {| ai_signers := [{| si_key := Some (sdk_key key); si_mode := Some (Some 1%Z); si_sequence := s |}];
          ai_fee := Some {| fe_amount := to_coins fee; fe_payer := [] |} |}
  /\ resolve_key (sdk_key key) = Ok key.
Proof.
  intros Hc Hq Hg Hs. unfold send_auth in Hs. smalls.
  assert (blen (encode_fields (enc_signer_info (key, s))) < two64) as Hi.
  { apply (each_small enc_signer_info 1 [(key, s)]); [given|left]. }
  assert (blen (encode_fields (enc_sdk_fee (fee, gas))) < two64) as Hfe.
  { apply (each_small enc_sdk_fee 2 [(fee, gas)]); [given|left]. }
  destruct (signer_read key s Hi Hq) as [Wi Di]. destruct (fee_read fee gas Hc Hg Hfe) as [Wf Df]. split.
  - unfold read_known, send_auth. rewrite parse_encode by wfs.
    assert (dec_auth_info (f_messages enc_signer_info 1 [(key, s)] ++ f_messages enc_sdk_fee 2 [(fee, gas)])
      = Some {| ai_signers := [{| si_key := Some (sdk_key key); si_mode := Some (Some 1%Z); si_sequence := s |}];
                ai_fee := Some {| fe_amount := to_coins fee; fe_payer := [] |} |}) as ->.
    { unfold dec_auth_info, g_messages.
      replace (payloads 1 _) with [encode_fields (enc_signer_info (key, s))] by (symmetry; fields).
      rewrite (mapM_one _ _ _ (read_one _ _ _ Wi Di)). cbn [mbind option_bind].
      assert (payloads 2 (f_messages enc_signer_info 1 [(key, s)] ++ f_messages enc_sdk_fee 2 [(fee, gas)]) = [encode_fields (enc_sdk_fee (fee, gas))]) as E2 by fields.
      rewrite (message_one dec_fee 2 _ _ _ E2 (read_one _ _ _ Wf Df)). reflexivity. }
    reflexivity.
  - apply key_resolves. unfold enc_signer_info in Hi. cbn [fst snd] in Hi. smalls.
    assert (blen (encode_fields (enc_any (sdk_key key))) < two64) as Ha by (apply (each_small enc_any 1 [sdk_key key]); [given|left]).
    unfold enc_any in Ha. smalls. cbn [any_value sdk_key] in *.
    destruct (encode_fields (f_bytes 1 key)) as [|x r] eqn:E; [reflexivity|]. rewrite <- E in *.
    eapply N.le_lt_trans; [|exact Ha]. apply (payload_small 2). rewrite E. left.
Qed.

Lemma each_nonempty {A} (enc : A -> list wfield) n a r : encode_fields (f_messages enc n [a] ++ r) <> [].
Proof.
  unfold f_messages, f_each. cbn [map app]. rewrite encode_fields_cons. intros E. apply app_eq_nil in E as [E _].
  revert E. apply encode_field_nonempty.
Qed.

Lemma payment_decodes hash160 public_key sign_with private chain number sequence fee gas from to amount raw :
  signed_payment public_key sign_with private chain number sequence fee gas from to amount = Ok raw ->
  writable raw from to sequence gas fee amount -> fee <> [] -> length (public_key private) = 33%nat ->
  exists t, decode_tx hash160 raw = Ok t
    /\ pays hash160 (fun m s => sign_with private m = Ok s) t (public_key private) chain number sequence (to_coins fee) from to (to_coins amount).
Proof.
  unfold signed_payment. set (key := public_key private). set (body := send_body from to amount). set (auth := send_auth key sequence fee gas).
  destruct (sign_with private (sign_doc body auth chain number)) as [signature| | |] eqn:Es; try discriminate. cbn [res_bind].
  intros [= <-] [Hs [Hf Ht] [Hc Ha] [Hq Hg]] Hne Hk. unfold raw_tx in Hs. change (2 ^ 64) with two64 in *.
  assert (body <> []) as Nb by apply (each_nonempty enc_any 1 _ []).
  assert (auth <> []) as Na by apply (each_nonempty enc_signer_info 1).
  assert (blen (encode_fields (f_bytes 1 body)) < two64 /\ blen (encode_fields (f_bytes 2 auth)) < two64
    /\ blen (encode_fields (f_each 3 [signature])) < two64) as (S1 & S2 & S3).
  { clear - Hs. smalls. auto. }
  assert (blen body < two64) as Sb.
  { eapply N.le_lt_trans; [|exact S1]. apply (payload_small 1). unfold f_bytes. destruct body; [congruence|left]. }
  assert (blen auth < two64) as Sa.
  { eapply N.le_lt_trans; [|exact S2]. apply (payload_small 2). unfold f_bytes. destruct auth; [congruence|left]. }
  destruct (body_read from to amount Hf Ht Ha Sb) as [Rb Rm]. destruct (auth_read key sequence fee gas Hc Hq Hg Sa) as [Ra Rk].
  fold body in Rb. fold auth in Ra.
  exists {| tx_body_bytes := body; tx_auth_bytes := auth; tx_memo := []; tx_timeout := 0; tx_fee := to_coins fee;
            tx_payer := address_of_key hash160 key; tx_users := users_from_string [address_of_key hash160 key];
            tx_signers := [{| sg_address := address_of_key hash160 key; sg_key := key; sg_signature := signature; sg_sequence := sequence |}];
            tx_msgs := [MsgSendCoins from to (to_coins amount)] |}.
  split.
  - unfold decode_tx.
    assert (read_known tx_raw_fields dec_tx_raw (raw_tx body auth signature)
      = Ok {| tw_body := body; tw_auth := auth; tw_signatures := [signature] |}) as ->.
    { unfold read_known, raw_tx. rewrite parse_encode by wfs.
      assert (all_known tx_raw_fields (f_bytes 1 body ++ f_bytes 2 auth ++ f_each 3 [signature]) = true) as ->.
      { unfold f_bytes. destruct body; [congruence|]. destruct auth; [congruence|]. reflexivity. }
      unfold dec_tx_raw. rewrite (g_bytes_ok 1 _ body) by fields. rewrite (g_bytes_ok 2 _ auth) by fields.
      replace (payloads 3 _) with [signature] by (symmetry; fields). reflexivity. }
    cbn [res_bind tw_body tw_auth tw_signatures].
    replace (bytes_eqb body []) with false by (symmetry; unfold bytes_eqb; by apply bool_decide_eq_false_2).
    replace (bytes_eqb auth []) with false by (symmetry; unfold bytes_eqb; by apply bool_decide_eq_false_2).
    rewrite Rb, Ra. cbn [res_bind ai_fee fe_amount tb_messages ai_signers fe_payer].
    destruct (to_coins fee) as [|c r] eqn:Ef; [destruct fee; [congruence|discriminate]|]. rewrite <- Ef.
    unfold get_transitions, transitions_of. rewrite Rm. cbn [res_bind].
    unfold signers_and_payer. cbn [length Nat.eqb signers_of]. unfold signer_of. cbn [si_key si_mode si_sequence Z.eqb Pos.eqb].
    rewrite Rk. cbn [res_bind]. unfold key_address.
    replace (blen key =? 33) with true by (symmetry; apply N.eqb_eq; unfold blen; rewrite Hk; reflexivity).
    reflexivity.
  - assert (sign_with private (direct_sign_bytes body auth chain number) = Ok signature) as Ed by (rewrite <- sign_doc_direct; exact Es).
    clearbody body auth key. split; [exists signature; split; [reflexivity|exact Ed]|reflexivity..|split; reflexivity].
Qed.
