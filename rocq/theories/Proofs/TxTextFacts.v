(** The decoder of transactions accepts exactly [tx_text]. *)
From Coq Require Import NArith ZArith List Bool String Lia.
From stdpp Require Import base list option gmap.
From Verif.Model Require Import Bytes Wire Proto KindEncoder Desc Schema Module Universe Marshal Users Prog Authn Bech32 TxDecoder.
From Verif.Spec Require Import WireSpec TxSpec AddressSpec.
From Verif.Proofs Require Import BytesFacts ProtoFacts WireFacts Utf8Facts UserFacts DecoderFacts AddressFacts.
From Verif.Proofs Require Export MessageFacts.
Local Open Scope N_scope.

(** ** Fields *)
Lemma only_known bs ns types fs : (forall n v, known types (n, v) = true <->
    match v with WBytes _ => n ∈ bs | WVarint _ => n ∈ ns | _ => False end) ->
  all_known types fs = true <-> only bs ns fs.
Proof.
  intros H. unfold all_known, only. apply forallb_Forall. intros [n v]. exact (H n v).
Qed.
Lemma raw_known n v : known tx_raw_fields (n, v) = true <->
  match v with WBytes _ => n ∈ [1; 2; 3] | WVarint _ => n ∈ ([] : list N) | _ => False end.
Proof.
  unfold known, tx_raw_fields. cbn [existsb fst snd]. rewrite !orb_true_iff, !andb_true_iff, !N.eqb_eq.
  destruct v; cbn [is_bytes]; rewrite ?elem_of_cons, ?elem_of_nil; intuition (try discriminate; congruence).
Qed.
Lemma body_known n v : known tx_body_fields (n, v) = true <->
  match v with WBytes _ => n ∈ [1; 2; 1023; 2047] | WVarint _ => n ∈ [3] | _ => False end.
Proof.
  unfold known, tx_body_fields. cbn [existsb fst snd]. rewrite !orb_true_iff, !andb_true_iff, !N.eqb_eq.
  destruct v; cbn [is_bytes is_varint]; rewrite ?elem_of_cons, ?elem_of_nil; intuition (try discriminate; congruence).
Qed.
Lemma auth_known n v : known auth_info_fields (n, v) = true <->
  match v with WBytes _ => n ∈ [1; 2] | WVarint _ => n ∈ ([] : list N) | _ => False end.
Proof.
  unfold known, auth_info_fields. cbn [existsb fst snd]. rewrite !orb_true_iff, !andb_true_iff, !N.eqb_eq.
  destruct v; cbn [is_bytes]; rewrite ?elem_of_cons, ?elem_of_nil; intuition (try discriminate; congruence).
Qed.

(** ** Messages *)
Lemma fee_reads b f : reads dec_fee b f <-> fee_text b (fe_amount f, fe_payer f).
Proof.
  unfold reads, fee_text, dec_fee. cbn [fst snd]. split; intros (fs & Hb & H); exists fs; (split; [exact Hb|]).
  - destruct (g_messages dec_coin 1 fs) as [l|] eqn:E1; [|discriminate]. cbn in H.
    destruct (g_text 3 fs) as [p|] eqn:E3; [|discriminate]. cbn in H. destruct (g_text 4 fs) as [g|] eqn:E4; [|discriminate].
    cbn in H. injection H as <-. cbn [fe_amount fe_payer]. apply g_messages_spec in E1. apply g_text_spec in E3 as [E3 ->], E4 as [E4 _].
    split; [|auto]. eapply Forall2_impl; [exact E1|]. intros x y. apply coin_reads.
  - destruct H as (H1 & H3 & H4 & Hp). assert (g_messages dec_coin 1 fs = Some (fe_amount f)) as ->.
    { apply g_messages_spec. eapply Forall2_impl; [exact H1|]. intros x y. apply coin_reads. }
    cbn. rewrite (proj2 (g_text_spec 3 fs (final 3 fs)) (conj H3 eq_refl)). cbn.
    rewrite (proj2 (g_text_spec 4 fs (final 4 fs)) (conj H4 eq_refl)). cbn. rewrite <- Hp. by destruct f.
Qed.

(** ** Modes *)
Lemma is_message_spec b : is_message b = true <-> any_message b.
Proof.
  unfold is_message, any_message. destruct (parse_fields b) as [fs|] eqn:E.
  - apply parse_fields_spec in E. split; eauto.
  - split; [discriminate|]. intros [fs H]. apply parse_fields_spec in H. congruence.
Qed.
Lemma payload_shorter b fs : message_text b fs -> forall n c, c ∈ every n fs -> (length c < length b)%nat.
Proof.
  induction 1 as [|a f b fs Hf _ IH]; intros n c Hc; [by apply elem_of_nil in Hc|]. rewrite app_length.
  assert (every n (f :: fs) = every n [f] ++ every n fs) as E.
  { rewrite !every_payloads. change (f :: fs) with ([f] ++ fs) at 1. apply payloads_app. }
  rewrite E in Hc. apply elem_of_app in Hc as [Hc|Hc]; [|specialize (IH n c Hc); lia].
  destruct Hf as [| |t l x m Ht Hl| |]; cbn in Hc; try (by apply elem_of_nil in Hc).
  destruct (decide (m = n)); [|by apply elem_of_nil in Hc]. apply elem_of_list_singleton in Hc as ->.
  pose proof (tag_text_nonempty _ _ _ Ht). rewrite !app_length. lia.
Qed.
Lemma readable_sound fuel : forall b fs, message_text b fs -> mode_readable fuel fs = true -> mode_text b.
Proof.
  induction fuel as [|fuel IH]; intros b fs Hb H; [discriminate|]. cbn [mode_readable] in H.
  apply andb_true_iff in H as [H1 H2]. rewrite forallb_forall in H1, H2.
  apply (mo_text b fs Hb).
  - intros s Hs. rewrite every_payloads in Hs. apply is_message_spec, H1, elem_of_list_In, Hs.
  - intros m Hm. rewrite every_payloads in Hm. apply elem_of_list_In in Hm. specialize (H2 m Hm).
    destruct (parse_fields m) as [gs|] eqn:E; [|discriminate]. apply parse_fields_spec in E.
    apply andb_true_iff in H2 as [H3 H4]. rewrite forallb_forall in H3, H4. apply (mu_text m gs E).
    + intros s Hs. rewrite every_payloads in Hs. apply is_message_spec, H3, elem_of_list_In, Hs.
    + intros c Hc. rewrite every_payloads in Hc. apply elem_of_list_In in Hc. specialize (H4 c Hc).
      destruct (parse_fields c) as [hs|] eqn:E'; [|discriminate]. apply parse_fields_spec in E'. exact (IH _ _ E' H4).
Qed.
Lemma readable_complete fuel : forall b fs, message_text b fs -> (forall c, c ∈ every 2 fs -> (length c < fuel)%nat) -> (0 < fuel)%nat ->
  mode_text b -> mode_readable fuel fs = true.
Proof.
  induction fuel as [|fuel IH]; intros b fs Hb Hl H0 H; [lia|]. cbn [mode_readable].
  inversion H as [? fs' Hb' H1 H2]; subst. assert (fs' = fs) as -> by (eapply message_text_unique; eassumption).
  apply andb_true_iff. split; rewrite forallb_forall.
  - intros s Hs. apply is_message_spec, H1. rewrite every_payloads. by apply elem_of_list_In.
  - intros m Hm. apply elem_of_list_In in Hm. rewrite <- every_payloads in Hm. specialize (H2 m Hm). specialize (Hl m Hm).
    inversion H2 as [? gs Hg H3 H4]; subst. rewrite (proj2 (parse_fields_spec m gs) Hg).
    apply andb_true_iff. split; rewrite forallb_forall.
    + intros s Hs. apply is_message_spec, H3. rewrite every_payloads. by apply elem_of_list_In.
    + intros c Hc. apply elem_of_list_In in Hc. rewrite <- every_payloads in Hc. specialize (H4 c Hc).
      pose proof (payload_shorter _ _ Hg _ _ Hc) as Hlc. inversion H4 as [? hs Hh _ _]; subst.
      rewrite (proj2 (parse_fields_spec c hs) Hh). apply (IH c hs Hh); [|lia|exact H4].
      intros d Hd. pose proof (payload_shorter _ _ Hh _ _ Hd). lia.
Qed.
Lemma mode_readable_spec b fs : message_text b fs -> mode_readable (S (length (encode_fields fs))) fs = true <-> mode_text b.
Proof.
  intros Hb. split; [apply readable_sound, Hb|]. apply (readable_complete _ b fs Hb); [|lia].
  intros c Hc. rewrite every_payloads in Hc. assert ((2, WBytes c) ∈ fs) as Hi.
  { unfold payloads, values in Hc. apply elem_of_list_In in Hc. apply in_concat in Hc as (x & Hx & Hc).
    apply in_map_iff in Hx as (v & <- & Hv). apply in_map_iff in Hv as ([m v'] & Ev & Hv). cbn in Ev. subst v'.
    apply filter_In in Hv as [Hv Em]. cbn in Em. apply N.eqb_eq in Em as ->.
    destruct v; cbn in Hc; try contradiction. destruct Hc as [->|[]]. by apply elem_of_list_In. }
  apply payload_small in Hi. unfold blen in Hi. lia.
Qed.

(** The single mode that is left. *)
Lemma single_of_none acc fs : every 2 fs = [] -> single_of acc fs = match every 1 fs with [] => acc | l => Some (default [] acc ++ concat l) end.
Proof.
  revert acc. induction fs as [|[n v] fs IH]; intros acc H; [reflexivity|].
  cbn [every omap list_omap fst snd] in H |- *. cbn [single_of].
  destruct v as [|  |b| |]; try exact (IH acc H).
  destruct (decide (n = 2)) as [->|H2]; [discriminate H|]. fold (every 2 fs) in H.
  destruct (N.eqb_spec n 1) as [->|H1].
  - rewrite decide_True by reflexivity. rewrite (IH _ H). fold (every 1 fs).
    change (omap _ fs) with (every 1 fs). destruct (every 1 fs) as [|c l]; cbn [concat default]; rewrite ?app_nil_r, ?app_assoc; reflexivity.
  - rewrite decide_False by exact H1. destruct (N.eqb_spec n 2); [contradiction|]. exact (IH acc H).
Qed.
Lemma single_of_app acc fs gs : single_of acc (fs ++ gs) = single_of (single_of acc fs) gs.
Proof.
  revert acc. induction fs as [|[n v] fs IH]; intros acc; [reflexivity|]. cbn [app single_of].
  destruct v; try apply IH. destruct (n =? 1); [apply IH|]. destruct (n =? 2); apply IH.
Qed.
Lemma split_multi fs : exists pre post, fs = pre ++ post /\ (pre = [] \/ exists pre' m, pre = pre' ++ [(2, WBytes m)]) /\ every 2 post = [].
Proof.
  induction fs as [|f fs IH]; [exists [], []; auto|]. destruct IH as (pre & post & -> & Hp & He).
  destruct Hp as [->|(pre' & m & ->)].
  - destruct (every 2 [f]) as [|c l] eqn:E.
    + exists [], (f :: post). split; [reflexivity|]. split; [auto|].
      rewrite every_payloads in E, He |- *. change (f :: post) with ([f] ++ post). by rewrite payloads_app, E, He.
    + destruct f as [n v]. exists [(n, v)], post. split; [reflexivity|]. split; [|exact He]. right.
      destruct v as [| |b| |]; try discriminate E. cbn in E. destruct (decide (n = 2)) as [->|]; [|discriminate E]. exists [], b. reflexivity.
  - exists (f :: pre' ++ [(2, WBytes m)]), post. split; [reflexivity|]. split; [|exact He]. right. exists (f :: pre'), m. reflexivity.
Qed.
Lemma single_after pre post : (pre = [] \/ exists pre' m, pre = pre' ++ [(2, WBytes m)]) -> every 2 post = [] ->
  single_of None (pre ++ post) = match every 1 post with [] => None | l => Some (concat l) end.
Proof.
  intros Hp He. rewrite single_of_app. assert (single_of None pre = None) as ->.
  { destruct Hp as [->|(pre' & m & ->)]; [reflexivity|]. by rewrite single_of_app. }
  rewrite single_of_none by exact He. by destruct (every 1 post).
Qed.
Lemma g_int32_direct fs : g_int32 1 fs = 1%Z <-> final_number 1 fs mod 2 ^ 32 = 1.
Proof.
  rewrite final_uint. unfold g_int32. destruct (N.ltb_spec (g_uint 1 fs mod 2 ^ 32) (2 ^ 31)); [lia|].
  pose proof (N.mod_lt (g_uint 1 fs) (2 ^ 32) ltac:(lia)). lia.
Qed.
Lemma mode_reads b : (exists o, reads dec_mode b o) <-> mode_text b.
Proof.
  unfold reads, dec_mode. split.
  - intros (o & fs & Hb & H). destruct (mode_readable (S (length (encode_fields fs))) fs) eqn:E; [|discriminate H].
    by apply (mode_readable_spec b fs Hb).
  - intros H. inversion H as [? fs Hb H1 H2]; subst. pose proof (proj2 (mode_readable_spec b fs Hb) H) as E.
    destruct (split_multi fs) as (pre & post & -> & Hp & He).
    assert (exists o, match single_of None (pre ++ post) with
      | Some c => match parse_fields c with Some gs => Some (Some (g_int32 1 gs)) | None => None end | None => Some None end = Some o) as [o Ho].
    { rewrite (single_after pre post Hp He). destruct (every 1 post) as [|c l] eqn:Ep; [eauto|].
      assert (any_message (concat (c :: l))) as [gs Hg].
      { rewrite <- Ep. assert (forall s, s ∈ every 1 post -> any_message s) as HA.
        { intros s Hs. apply H1. rewrite every_payloads in *. rewrite payloads_app. apply elem_of_app. by right. }
        clear - HA. induction (every 1 post) as [|s k IH]; [exists []; apply mt_none|].
        destruct (HA s (elem_of_list_here _ _)) as [g1 G1]. destruct IH as [g2 G2]; [intros x Hx; apply HA; by right|].
        exists (g1 ++ g2). by apply message_text_app. }
      apply parse_fields_spec in Hg. rewrite Hg. eauto. }
    exists o, (pre ++ post). split; [exact Hb|]. by rewrite E.
Qed.
Lemma direct_reads b : reads dec_mode b (Some 1%Z) <-> mode_text b /\ direct_text b.
Proof.
  split.
  - intros H. split; [apply mode_reads; eauto|]. destruct H as (fs & Hb & H). unfold dec_mode in H.
    destruct (mode_readable (S (length (encode_fields fs))) fs); [|discriminate H].
    destruct (split_multi fs) as (pre & post & -> & Hp & He). rewrite (single_after pre post Hp He) in H.
    destruct (every 1 post) as [|c l] eqn:Ep; [discriminate H|].
    destruct (parse_fields (concat (c :: l))) as [gs|] eqn:Eg; [|discriminate H]. injection H as H.
    apply parse_fields_spec in Eg. exists pre, post, gs. rewrite Ep. split; [exact Hb|]. split; [exact Hp|]. split; [exact He|].
    split; [done|]. split; [exact Eg|]. by apply g_int32_direct.
  - intros [Hm (pre & post & gs & Hb & Hp & He & Hn & Hg & H1)]. exists (pre ++ post). split; [exact Hb|].
    unfold dec_mode. rewrite (proj2 (mode_readable_spec b _ Hb) Hm), (single_after pre post Hp He).
    destruct (every 1 post) as [|c l]; [done|]. apply parse_fields_spec in Hg. rewrite Hg. apply g_int32_direct in H1. by rewrite H1.
Qed.

Lemma every_app n fs gs : every n (fs ++ gs) = every n fs ++ every n gs.
Proof. rewrite !every_payloads. apply payloads_app. Qed.
Lemma mode_text_concat l : (forall m, m ∈ l -> mode_text m) -> mode_text (concat l).
Proof.
  induction l as [|m l IH]; intros H.
  - apply (mo_text [] [] mt_none); intros s Hs; by apply elem_of_nil in Hs.
  - assert (mode_text m) as Hm by (apply H; left). assert (mode_text (concat l)) as Hl by (apply IH; intros x Hx; apply H; by right).
    inversion Hm as [? fs H1 H2 H3]; inversion Hl as [? gs H4 H5 H6]; subst. cbn [concat].
    apply (mo_text _ (fs ++ gs)); [by apply message_text_app|..]; intros s Hs; rewrite every_app in Hs;
      apply elem_of_app in Hs as [Hs|Hs]; auto.
Qed.

(** ** The type of a message *)
Lemma after_slash_none url : Byte.x2f ∉ url -> forall acc, after_slash acc url = acc.
Proof.
  induction url as [|x url IH]; intros H acc; [reflexivity|]. cbn [after_slash]. apply not_elem_of_cons in H as [Hx H].
  rewrite decide_False by congruence. exact (IH H acc).
Qed.
Lemma after_slash_last pre ty acc : Byte.x2f ∉ ty -> after_slash acc (pre ++ Byte.x2f :: ty) = ty.
Proof.
  intros H. revert acc. induction pre as [|x pre IH]; intros acc; cbn [app after_slash].
  - rewrite decide_True by reflexivity. by apply after_slash_none.
  - destruct (decide (x = Byte.x2f)); apply IH.
Qed.
Lemma slash_split url : Byte.x2f ∉ url \/ exists pre ty, url = pre ++ Byte.x2f :: ty /\ Byte.x2f ∉ ty.
Proof.
  induction url as [|x url [IH|(pre & ty & -> & H)]]; [left; apply not_elem_of_nil|..].
  - destruct (decide (x = Byte.x2f)) as [->|Hx]; [right; exists [], url; auto|]. left. apply not_elem_of_cons. split; [congruence|exact IH].
  - right. exists (x :: pre), ty. auto.
Qed.
Lemma url_name_spec url ty : url_name url = ty <-> Byte.x2f ∉ ty /\ (url = ty \/ exists pre, url = pre ++ Byte.x2f :: ty).
Proof.
  unfold url_name. split.
  - intros <-. destruct (slash_split url) as [H|(pre & ty & -> & H)].
    + rewrite after_slash_none by exact H. auto.
    + rewrite after_slash_last by exact H. eauto.
  - intros [H [->|[pre ->]]]; [by apply after_slash_none|by apply after_slash_last].
Qed.
Lemma message_name_spec url ty : message_name url = ty <-> type_of_url url ty.
Proof.
  unfold message_name, type_of_url, bytes_eqb. case_bool_decide as E.
  - rewrite decide_True by exact E. split; [intros <-; vm_compute; reflexivity|intros ->; vm_compute; reflexivity].
  - rewrite decide_False by exact E. apply url_name_spec.
Qed.
Lemma transition_spec a m : transition_of a = Ok m <->
  any_url a <> [] /\ exists ty, type_of_url (any_url a) ty /\ transition_text ty (any_value a) m.
Proof.
  unfold transition_of, bytes_eqb. case_bool_decide as E; [split; [discriminate|intros [H _]; contradiction]|].
  destruct (read (dec_msg (message_name (any_url a))) (any_value a)) as [m'|] eqn:Er.
  - split.
    + intros [= <-]. split; [exact E|]. exists (message_name (any_url a)). split; [by apply message_name_spec|].
      by apply transition_texts, read_spec.
    + intros (_ & ty & Ht & Hm). apply message_name_spec in Ht. subst ty. apply transition_texts, read_spec in Hm. congruence.
  - split; [discriminate|]. intros (_ & ty & Ht & Hm). apply message_name_spec in Ht. subst ty.
    apply transition_texts, read_spec in Hm. congruence.
Qed.
Lemma transitions_spec l ms : transitions_of l = Ok ms <-> Forall2 (fun a m => transition_of a = Ok m) l ms.
Proof.
  revert ms. induction l as [|a l IH]; intros ms; cbn [transitions_of].
  - split; [intros [= <-]; apply List.Forall2_nil|intros H; inversion H; reflexivity].
  - split.
    + destruct (transition_of a) as [m| | |] eqn:Em; try discriminate. cbn [res_bind].
      destruct (transitions_of l) as [k| | |] eqn:Ek; try discriminate. cbn [res_bind]. intros [= <-].
      apply List.Forall2_cons; [exact Em|by apply IH].
    + intros H. inversion H as [|? m ? k Hm Hk]; subst. rewrite Hm. cbn [res_bind]. by rewrite (proj2 (IH k) Hk).
Qed.
Lemma Forall2_through {A B C} (P : A -> B -> Prop) (Q : B -> C -> Prop) l m :
  (exists k, Forall2 P l k /\ Forall2 Q k m) <-> Forall2 (fun a c => exists b, P a b /\ Q b c) l m.
Proof.
  split.
  - intros (k & H1 & H2). revert m H2. induction H1 as [|a b l k Hab _ IH]; intros m H2; inversion H2; subst;
      [apply List.Forall2_nil|apply List.Forall2_cons; eauto].
  - induction 1 as [|a c l m (b & Hp & Hq) _ (k & H1 & H2)]; [exists []; split; apply List.Forall2_nil|].
    exists (b :: k). split; by apply List.Forall2_cons.
Qed.
Lemma Forall2_iff' {A B} (P Q : A -> B -> Prop) l m : (forall a b, P a b <-> Q a b) -> Forall2 P l m <-> Forall2 Q l m.
Proof. intros H. split; intros HF; (eapply Forall2_impl; [exact HF|]); intros a b; apply H. Qed.
Lemma msgs_spec l ms : (exists anys, Forall2 (reads dec_any) l anys /\ get_transitions anys = Ok ms)
  <-> Forall2 msg_text l ms /\ ms <> [].
Proof.
  assert (Forall2 msg_text l ms <-> exists anys, Forall2 (reads dec_any) l anys /\ transitions_of anys = Ok ms) as E.
  { rewrite (Forall2_iff' msg_text (fun b m => exists a, reads dec_any b a /\ transition_of a = Ok m)).
    - rewrite <- Forall2_through. split; intros (k & H1 & H2); exists k; (split; [exact H1|]); by apply transitions_spec.
    - intros b m. unfold msg_text. split.
      + intros (a & ty & Ha & Hn & H). exists a. split; [by apply any_reads|]. apply transition_spec. eauto.
      + intros (a & Ha & Hm). apply any_reads in Ha. apply transition_spec in Hm as (Hn & ty & H). exists a, ty. auto. }
  rewrite E. unfold get_transitions. split.
  - intros (anys & H1 & H2). destruct anys as [|a anys]; [discriminate H2|]. split; [eauto|].
    apply transitions_spec in H2. inversion H2. discriminate.
  - intros [(anys & H1 & H2) Hn]. exists anys. split; [exact H1|]. destruct anys; [|exact H2]. cbn in H2. congruence.
Qed.

(** ** Signers *)
Section Signers.
  Context (hash160 : bytes -> bytes).
  Lemma key_names_urls u : u ∈ key_names <-> existsb (bytes_eqb u) key_urls = true.
  Proof.
    rewrite existsb_exists. change key_names with key_urls. rewrite elem_of_list_In. unfold bytes_eqb. split.
    - intros H. exists u. split; [exact H|]. by apply bool_decide_eq_true.
    - intros (v & H & E). apply bool_decide_eq_true in E. by subst.
  Qed.
  Lemma info_spec fs si : dec_signer_info fs = Some si <->
    (g_message dec_any 1 fs = Some (si_key si)) /\ g_message dec_mode 2 fs = Some (si_mode si) /\ si_sequence si = final_number 3 fs.
  Proof.
    unfold dec_signer_info. rewrite final_uint. split.
    - destruct (g_message dec_any 1 fs) as [k|]; [|discriminate]. cbn. destruct (g_message dec_mode 2 fs) as [m|]; [|discriminate].
      cbn. intros [= <-]. auto.
    - intros (-> & -> & E). cbn. rewrite <- E. by destruct si.
  Qed.
  Lemma signer_spec b s : (exists si, reads dec_signer_info b si /\ signer_of hash160 si (sg_signature s) = Ok s) <-> signer_text hash160 b s.
  Proof.
    split.
    - intros (si & (fs & Hb & Hi) & Hs). apply info_spec in Hi as (Hk & Hm & Hq).
      destruct (signer_of_ok _ _ _ _ Hs) as (Hl & Ha & _ & Hseq & Hmode & k & ks & Ek & Hu & Hp & Hkey).
      rewrite Ek in Hk. apply g_message_some in Hk. rewrite Hmode in Hm. apply g_message_some in Hm as (Hn & Hall & Hd).
      apply direct_reads in Hd as [_ Hd]. apply parse_fields_spec in Hp.
      split; [|unfold blen in Hl; lia|exact Ha|].
      + exists fs, k, ks. split; [exact Hb|]. split; [|split; [exact Hu|split; [exact Hp|by rewrite final_bytes]]].
        revert Hk. apply merged_iff. intros; symmetry; apply any_reads.
      + exists fs. split; [exact Hb|]. split; [exact Hn|]. split; [|split; [exact Hd|congruence]].
        apply List.Forall_forall. intros m Hi. apply elem_of_list_In in Hi. apply mode_reads. exact (Hall m Hi).
    - intros [(fs & k & ks & Hb & Hk & Hu & Hp & Hkey) Hl Ha (fs' & Hb' & Hn & Hall & Hd & Hq)].
      assert (fs' = fs) as -> by (eapply message_text_unique; eassumption).
      exists {| si_key := Some k; si_mode := Some (Some 1%Z); si_sequence := final_number 3 fs |}. split.
      + exists fs. split; [exact Hb|]. apply info_spec. cbn [si_key si_mode si_sequence]. split; [|split; [|reflexivity]].
        * apply g_message_some. revert Hk. apply merged_iff. intros; apply any_reads.
        * apply g_message_some. split; [exact Hn|]. rewrite List.Forall_forall in Hall. split.
          -- intros m Hm. apply mode_reads, Hall, elem_of_list_In, Hm.
          -- apply direct_reads. split; [|exact Hd]. apply mode_text_concat. intros m Hm. apply Hall, elem_of_list_In, Hm.
      + unfold signer_of. cbn [si_key si_mode si_sequence]. cbn [Z.eqb Pos.eqb]. unfold resolve_key.
        rewrite (proj1 (key_names_urls _) Hu), (proj2 (parse_fields_spec _ _) Hp). cbn [res_bind]. unfold key_address.
        rewrite <- final_bytes, <- Hkey. replace (blen (sg_key s) =? 33) with true by (symmetry; apply N.eqb_eq; unfold blen; lia).
        cbn [res_bind]. rewrite <- Ha, <- Hq. by destruct s.
  Qed.
  Lemma signers_of_intro sis l : Forall2 (fun si x => signer_of hash160 si (sg_signature x) = Ok x) sis l ->
    signers_of hash160 sis (map sg_signature l) = Ok l.
  Proof.
    induction 1 as [|si x sis l Hx _ IH]; [reflexivity|]. cbn [map signers_of]. rewrite Hx. cbn [res_bind]. rewrite IH. reflexivity.
  Qed.
  Lemma signers_spec bs l : (exists sis, Forall2 (reads dec_signer_info) bs sis
      /\ length (map sg_signature l) = length sis /\ signers_of hash160 sis (map sg_signature l) = Ok l)
    <-> Forall2 (signer_text hash160) bs l.
  Proof.
    rewrite (Forall2_iff' (signer_text hash160) (fun b s => exists si, reads dec_signer_info b si /\ signer_of hash160 si (sg_signature s) = Ok s))
      by (intros b s; symmetry; apply signer_spec).
    rewrite <- Forall2_through. split; intros (sis & H1 & H2); exists sis; (split; [exact H1|]).
    - destruct H2 as [Hl H2]. exact (proj1 (signers_of_ok _ _ _ _ Hl H2)).
    - split; [rewrite map_length; symmetry; exact (Forall2_length _ _ _ H2)|by apply signers_of_intro].
  Qed.

  (** ** Transactions *)
  Lemma read_known_spec {A} types (dec : list wfield -> option A) b a :
    read_known types dec b = Ok a <-> exists fs, message_text b fs /\ dec fs = Some a /\ all_known types fs = true.
  Proof.
    unfold read_known. split.
    - destruct (parse_fields b) as [fs|] eqn:E; [|discriminate]. destruct (dec fs) as [x|] eqn:Ed; [|discriminate].
      destruct (all_known types fs) eqn:Ek; [|discriminate]. intros [= <-]. apply parse_fields_spec in E. eauto.
    - intros (fs & Hb & Hd & Hk). apply parse_fields_spec in Hb. by rewrite Hb, Hd, Hk.
  Qed.
  Lemma body_spec fs body : dec_tx_body fs = Some body <->
    Forall2 (reads dec_any) (every 1 fs) (tb_messages body) /\ texts 2 fs /\ tb_memo body = final 2 fs /\ tb_timeout body = final_number 3 fs
    /\ forall b, b ∈ every 1023 fs ++ every 2047 fs -> exists a, any_text b a.
  Proof.
    unfold dec_tx_body. rewrite final_uint.
    assert (forall n, (exists l, g_messages dec_any n fs = Some l) <-> forall b, b ∈ every n fs -> exists a, any_text b a) as HM.
    { intros n. unfold g_messages. rewrite mapM_total, every_payloads. split; intros H b Hb; destruct (H b Hb) as [a Ha]; exists a;
        [by apply any_reads, read_spec|by apply read_spec, any_reads]. }
    split.
    - destruct (g_messages dec_any 1 fs) as [m|] eqn:E1; [|discriminate]. cbn. apply g_messages_spec in E1.
      destruct (g_text 2 fs) as [memo|] eqn:E2; [|discriminate]. cbn. apply g_text_spec in E2 as [E2 ->].
      destruct (g_messages dec_any 1023 fs) as [x|] eqn:E3; [|discriminate]. cbn.
      destruct (g_messages dec_any 2047 fs) as [y|] eqn:E4; [|discriminate]. cbn. intros [= <-]. cbn [tb_messages tb_memo tb_timeout].
      split; [exact E1|]. split; [exact E2|]. split; [reflexivity|]. split; [reflexivity|].
      intros b Hb. apply elem_of_app in Hb as [Hb|Hb]; [exact (proj1 (HM 1023) (ex_intro _ _ E3) b Hb)|exact (proj1 (HM 2047) (ex_intro _ _ E4) b Hb)].
    - intros (H1 & H2 & H3 & H4 & H5). rewrite (proj2 (g_messages_spec dec_any 1 fs _) H1). cbn.
      rewrite (proj2 (g_text_spec 2 fs (final 2 fs)) (conj H2 eq_refl)). cbn.
      destruct (proj2 (HM 1023)) as [x ->]; [intros b Hb; apply H5, elem_of_app; by left|]. cbn.
      destruct (proj2 (HM 2047)) as [y ->]; [intros b Hb; apply H5, elem_of_app; by right|]. cbn.
      rewrite <- H3, <- H4. by destruct body.
  Qed.
  Lemma auth_spec fs auth : dec_auth_info fs = Some auth <->
    Forall2 (reads dec_signer_info) (every 1 fs) (ai_signers auth) /\ g_message dec_fee 2 fs = Some (ai_fee auth).
  Proof.
    unfold dec_auth_info. split.
    - destruct (g_messages dec_signer_info 1 fs) as [l|] eqn:E1; [|discriminate]. cbn. apply g_messages_spec in E1.
      destruct (g_message dec_fee 2 fs) as [f|]; [|discriminate]. cbn. intros [= <-]. auto.
    - intros [H1 H2]. rewrite (proj2 (g_messages_spec dec_signer_info 1 fs _) H1). cbn. rewrite H2. cbn. by destruct auth.
  Qed.
  Lemma users_of_names (us : users) names : (forall a, us !! a = if decide (a ∈ names) then Some (default_user a) else None) ->
    us = users_from_string names.
  Proof. intros H. apply map_eq. intros a. by rewrite H, from_string_lookup. Qed.

  Lemma decode_text raw t : decode_tx hash160 raw = Ok t <-> tx_text hash160 raw t.
  Proof.
    split.
    - intros H. destruct (decode_parts _ _ _ H) as (w & body & auth & f & msgs & ps & Hw & Hnb & Hna & Hns & Hb & Ha & Hf & Hnf & Hm & Hp & ->). clear H.
      apply read_known_spec in Hw as (rs & Hr & Ew & Kw). unfold dec_tx_raw in Ew. injection Ew as <-. cbn [tw_body tw_auth tw_signatures] in *.
      apply read_known_spec in Hb as (bs & Hb & Eb & Kb). apply body_spec in Eb as (Eb & Htm & Hmemo & Hto & Hopt).
      apply read_known_spec in Ha as (as_ & Ha & Ea & Ka). apply auth_spec in Ea as (Es & Ef).
      destruct (payer_ok _ _ _ _ _ Hp) as (Hl & Hn & Hs & Hpay). destruct (signers_of_ok _ _ _ _ Hl Hs) as [H2 Hsig].
      split; cbn [tx_body_bytes tx_auth_bytes tx_memo tx_timeout tx_fee tx_payer tx_users tx_signers tx_msgs].
      + exists rs. split; [exact Hr|]. split; [exact (proj1 (only_known _ _ _ _ raw_known) Kw)|]. rewrite !final_bytes, every_payloads. auto.
      + split; [exact Hnb|]. split; [exact Hna|]. intros E. rewrite E in H2. inversion H2. congruence.
      + exists bs. split; [exact Hb|]. split; [exact (proj1 (only_known _ _ _ _ body_known) Kb)|].
        assert (Forall2 msg_text (every 1 bs) msgs /\ msgs <> []) as [Hmt Hmn] by (apply msgs_spec; eauto).
        split; [exact Hmt|]. split; [exact Hmn|]. auto.
      + exists as_. split; [exact Ha|]. split; [exact (proj1 (only_known _ _ _ _ auth_known) Ka)|]. split.
        * apply signers_spec. exists (ai_signers auth). rewrite Hsig. auto.
        * exists (fe_payer f). split; [|split; [exact Hnf|exact Hpay]]. rewrite Hf in Ef. apply g_message_some in Ef.
          destruct Ef as (E1 & E2 & E3). split; [exact E1|]. split; [|by apply fee_reads].
          intros b Hi. destruct (E2 b Hi) as [f' Hf']. exists (fe_amount f', fe_payer f'). by apply fee_reads.
      + intros a. apply from_string_lookup.
    - intros [(rs & Hr & Kr & E1 & E2 & E3) (Hnb & Hna & Hns) (bs & Hb & Kb & Hm & Hnm & Htm & Hmemo & Hto & Hopt)
        (as_ & Ha & Ka & Hs & payer & Hfee & Hnf & Hpay) Hu].
      unfold decode_tx. rewrite (proj2 (read_known_spec tx_raw_fields dec_tx_raw raw
        {| tw_body := tx_body_bytes t; tw_auth := tx_auth_bytes t; tw_signatures := map sg_signature (tx_signers t) |})).
      2: { exists rs. split; [exact Hr|]. split; [|exact (proj2 (only_known _ _ _ _ raw_known) Kr)].
           unfold dec_tx_raw. by rewrite E1, E2, E3, !final_bytes, every_payloads. }
      cbn [res_bind tw_body tw_auth tw_signatures]. unfold bytes_eqb. rewrite bool_decide_eq_false_2, bool_decide_eq_false_2 by assumption.
      destruct (map sg_signature (tx_signers t)) as [|s0 sigs] eqn:Esig; [destruct (tx_signers t); [contradiction|discriminate Esig]|]. rewrite <- Esig.
      destruct (proj2 (msgs_spec _ _) (conj Hm Hnm)) as (anys & Hanys & Htr).
      rewrite (proj2 (read_known_spec tx_body_fields dec_tx_body (tx_body_bytes t)
        {| tb_messages := anys; tb_memo := tx_memo t; tb_timeout := tx_timeout t |})).
      2: { exists bs. split; [exact Hb|]. split; [|exact (proj2 (only_known _ _ _ _ body_known) Kb)]. apply body_spec. auto. }
      cbn [res_bind]. destruct (proj2 (signers_spec _ _) Hs) as (sis & Hsis & Hl & Hso).
      assert (merged (reads dec_fee) (every 2 as_) {| fe_amount := tx_fee t; fe_payer := payer |}) as Hf.
      { destruct Hfee as (F1 & F2 & F3). split; [exact F1|]. split; [|by apply fee_reads].
        intros b Hi. destruct (F2 b Hi) as [[c p] Hf]. exists {| fe_amount := c; fe_payer := p |}. by apply fee_reads. }
      rewrite (proj2 (read_known_spec auth_info_fields dec_auth_info (tx_auth_bytes t)
        {| ai_signers := sis; ai_fee := Some {| fe_amount := tx_fee t; fe_payer := payer |} |})).
      2: { exists as_. split; [exact Ha|]. split; [|exact (proj2 (only_known _ _ _ _ auth_known) Ka)]. apply auth_spec.
           split; [exact Hsis|by apply g_message_some]. }
      cbn [res_bind ai_fee ai_signers fe_amount fe_payer tb_messages tb_memo tb_timeout].
      destruct (tx_fee t) as [|c0 cs] eqn:Efee; [contradiction|]. rewrite <- Efee. rewrite Htr. cbn [res_bind].
      unfold signers_and_payer. destruct sis as [|si sis]; [destruct (tx_signers t); [contradiction|discriminate Hl]|].
      rewrite (proj2 (Nat.eqb_eq _ _) Hl), Hso. cbn [res_bind fst snd].
      rewrite <- Hpay, <- (users_of_names _ _ Hu). rewrite Efee. destruct t. cbn in *. by subst.
  Qed.

  (** ** Other bytes *)
  Definition ok_or_fail {A} (r : res A) : Prop := match r with Ok _ | Fail _ => True | _ => False end.
  Lemma read_known_total {A} types (dec : list wfield -> option A) b : ok_or_fail (read_known types dec b).
  Proof. unfold read_known. destruct (parse_fields b); [|exact I]. destruct (dec l); [|exact I]. by destruct (all_known types l). Qed.
  Lemma transitions_total l : ok_or_fail (transitions_of l).
  Proof.
    induction l as [|a l IH]; [exact I|]. cbn [transitions_of].
    assert (ok_or_fail (transition_of a)) as Ha.
    { unfold transition_of. destruct (bytes_eqb (any_url a) []); [exact I|]. by destruct (read _ _). }
    destruct (transition_of a); try contradiction; [|exact I]. cbn [res_bind]. by destruct (transitions_of l).
  Qed.
  Lemma signer_of_panics si sig : ok_or_fail (signer_of hash160 si sig)
    \/ signer_of hash160 si sig = Panic /\ exists k ks, si_key si = Some k /\ any_url k ∈ key_names /\ message_text (any_value k) ks /\ length (final 1 ks) <> 33%nat.
  Proof.
    unfold signer_of. destruct (si_key si) as [k|]; [|left; exact I]. destruct (si_mode si) as [[m|]|]; [|left; exact I..].
    destruct (Z.eqb m 1); [|left; exact I]. unfold resolve_key. destruct (existsb (bytes_eqb (any_url k)) key_urls) eqn:Eu; [|left; exact I].
    destruct (parse_fields (any_value k)) as [ks|] eqn:Ep; [|left; exact I]. cbn [res_bind]. unfold key_address.
    destruct (N.eqb_spec (blen (g_bytes 1 ks)) 33) as [E|E]; [left; exact I|]. right. split; [reflexivity|].
    exists k, ks. split; [reflexivity|]. split; [by apply key_names_urls|]. split; [by apply parse_fields_spec|].
    rewrite final_bytes. unfold blen in E. lia.
  Qed.
  Lemma signers_of_panics l : forall sigs, ok_or_fail (signers_of hash160 l sigs)
    \/ signers_of hash160 l sigs = Panic
       /\ exists si k ks, si ∈ l /\ si_key si = Some k /\ any_url k ∈ key_names /\ message_text (any_value k) ks /\ length (final 1 ks) <> 33%nat.
  Proof.
    induction l as [|si l IH]; intros [|sig sigs]; cbn [signers_of]; try (left; exact I).
    destruct (signer_of_panics si sig) as [H|(-> & k & ks & H)].
    - destruct (signer_of hash160 si sig); try contradiction; [|left; exact I]. cbn [res_bind].
      destruct (IH sigs) as [H'|(-> & si' & k & ks & Hi & H')].
      + left. by destruct (signers_of hash160 l sigs).
      + right. split; [reflexivity|]. exists si', k, ks. split; [by right|exact H'].
    - right. split; [reflexivity|]. exists si, k, ks. split; [left|exact H].
  Qed.
  Lemma decode_others raw : (exists t, decode_tx hash160 raw = Ok t) \/ (exists e, decode_tx hash160 raw = Fail e)
    \/ decode_tx hash160 raw = Panic /\ wrong_key_size raw.
  Proof.
    unfold decode_tx. pose proof (read_known_total tx_raw_fields dec_tx_raw raw) as Hw.
    destruct (read_known tx_raw_fields dec_tx_raw raw) as [w|e| |] eqn:Ew; try contradiction; [|by eauto]. cbn [res_bind]. clear Hw.
    destruct (bytes_eqb (tw_body w) []); [by eauto|]. destruct (bytes_eqb (tw_auth w) []); [by eauto|].
    destruct (tw_signatures w) as [|s0 sigs]; [by eauto|].
    pose proof (read_known_total tx_body_fields dec_tx_body (tw_body w)) as Hb.
    destruct (read_known tx_body_fields dec_tx_body (tw_body w)) as [body|e| |]; try contradiction; [|by eauto]. cbn [res_bind]. clear Hb.
    pose proof (read_known_total auth_info_fields dec_auth_info (tw_auth w)) as Ha.
    destruct (read_known auth_info_fields dec_auth_info (tw_auth w)) as [auth|e| |] eqn:Ea; try contradiction; [|by eauto]. cbn [res_bind]. clear Ha.
    destruct (ai_fee auth) as [f|]; [|by eauto]. destruct (fe_amount f); [by eauto|].
    assert (ok_or_fail (get_transitions (tb_messages body))) as Ht.
    { unfold get_transitions. destruct (tb_messages body); [exact I|]. apply transitions_total. }
    destruct (get_transitions (tb_messages body)) as [ms|e| |]; try contradiction; [|by eauto]. cbn [res_bind]. clear Ht.
    unfold signers_and_payer. destruct (ai_signers auth) as [|si0 sis] eqn:Es; [by eauto|]. rewrite <- Es.
    destruct (Nat.eqb (length (s0 :: sigs)) (length (ai_signers auth))); [|by eauto].
    destruct (signers_of_panics (ai_signers auth) (s0 :: sigs)) as [H|(-> & si & k & ks & Hi & Hk & Hu & Hm & Hl)].
    - destruct (signers_of hash160 (ai_signers auth) (s0 :: sigs)); try contradiction; cbn [res_bind]; by eauto.
    - right. right. split; [reflexivity|]. apply read_known_spec in Ew as (rs & Hr & Ew & _). unfold dec_tx_raw in Ew. injection Ew as <-.
      cbn [tw_auth] in Ea. apply read_known_spec in Ea as (as_ & Ha & Ea & _). apply auth_spec in Ea as [Ef _].
      apply elem_of_list_lookup in Hi as [i Hi]. destruct (Forall2_lookup_r _ _ _ _ _ Ef Hi) as (b & Hb & fs & Hf & Hsi).
      apply info_spec in Hsi as (Hsk & _). rewrite Hk in Hsk. apply g_message_some in Hsk.
      exists rs, as_, b, (final 1 ks). rewrite (final_bytes 2 rs). split; [exact Hr|]. split; [exact Ha|].
      split; [by eapply elem_of_list_lookup_2|]. split; [|exact Hl]. exists fs, k, ks.
      split; [exact Hf|]. split; [|auto]. revert Hsk. apply merged_iff. intros; symmetry; apply any_reads.
  Qed.
  Lemma other_bytes raw : (forall t, ~ tx_text hash160 raw t) -> ~ wrong_key_size raw -> exists e, decode_tx hash160 raw = Fail e.
  Proof.
    intros H1 H2. destruct (decode_others raw) as [[t Ht]|[H|[_ H]]]; [|exact H|contradiction].
    apply decode_text in Ht. destruct (H1 t Ht).
  Qed.
End Signers.

(** ** Bytes to sign *)
Lemma sign_bytes_read body auth chain n :
  blen body < 2 ^ 64 -> blen auth < 2 ^ 64 -> blen chain < 2 ^ 64 -> n < 2 ^ 64 ->
  exists fs, message_text (direct_sign_bytes body auth chain n) fs
    /\ final 1 fs = body /\ final 2 fs = auth /\ final 3 fs = chain /\ final_number 4 fs = n.
Proof.
  intros H1 H2 H3 H4. exists (f_bytes 1 body ++ f_bytes 2 auth ++ f_bytes 3 chain ++ f_uint 4 n).
  split.
  { apply parse_fields_spec. rewrite sign_bytes_fields. apply parse_encode.
    apply List.Forall_app; split; [apply wf_bytes_short; [lia|exact H1]|].
    apply List.Forall_app; split; [apply wf_bytes_short; [lia|exact H2]|].
    apply List.Forall_app; split; [apply wf_bytes_short; [lia|exact H3]|apply wf_uint; [lia|exact H4]]. }
  rewrite !final_bytes, final_uint. unfold g_bytes, g_uint.
  rewrite !payloads_app, !payloads_bytes, !payloads_uint, !varints_app, !varints_bytes, !varints_uint.
  cbn [N.eqb Pos.eqb app]. rewrite !app_nil_r, !last_nonempty, last_nonzero. auto.
Qed.

(** ** Addresses of signers *)
Lemma decoded_signers hash160 raw t : decode_tx hash160 raw = Ok t ->
  Forall (fun s => length (sg_key s) = 33%nat /\ sg_address s = bech32 (str "test") (hash160 (sg_key s))) (tx_signers t).
Proof.
  intros H. apply decode_text in H. destruct (tt_auth _ _ _ H) as (fs & _ & _ & HF & _). revert HF. generalize (every 1 fs). intros l HF.
  induction HF as [|b s l l' Hs _ IH]; [apply List.Forall_nil|]. apply List.Forall_cons; [|exact IH].
  split; [exact (st_size _ _ _ Hs)|exact (st_address _ _ _ Hs)].
Qed.
Lemma signer_addresses hash160 raw t : decode_tx hash160 raw = Ok t ->
  Forall (fun s => bech32_text (str "test") (hash160 (sg_key s)) (sg_address s)) (tx_signers t).
Proof.
  intros H. eapply List.Forall_impl; [|exact (decoded_signers hash160 raw t H)]. intros s [_ ->]. apply bech32_spec.
Qed.
Lemma signer_address_length hash160 raw t : (forall k, length k = 33%nat -> length (hash160 k) = 20%nat) -> decode_tx hash160 raw = Ok t ->
  Forall (fun s => length (sg_address s) = 43%nat) (tx_signers t).
Proof.
  intros Hh H. eapply List.Forall_impl; [|exact (decoded_signers hash160 raw t H)]. intros s [Hk ->].
  by rewrite bech32_length, (Hh _ Hk).
Qed.
Lemma signer_addresses_differ hash160 raw raw' t t' s s' : (forall k, length k = 33%nat -> length (hash160 k) = 20%nat) ->
  decode_tx hash160 raw = Ok t -> decode_tx hash160 raw' = Ok t' -> s ∈ tx_signers t -> s' ∈ tx_signers t' ->
  sg_address s = sg_address s' -> hash160 (sg_key s) = hash160 (sg_key s').
Proof.
  intros Hh H H' Hs Hs' E. pose proof (decoded_signers _ _ _ H) as F. pose proof (decoded_signers _ _ _ H') as F'.
  rewrite List.Forall_forall in F, F'. apply elem_of_list_In in Hs, Hs'. destruct (F _ Hs) as [Hk Ha]. destruct (F' _ Hs') as [Hk' Ha'].
  rewrite Ha, Ha' in E. apply bech32_inj in E; [exact E|]. by rewrite (Hh _ Hk), (Hh _ Hk').
Qed.
