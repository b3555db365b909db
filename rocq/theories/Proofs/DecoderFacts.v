(** What the decoder of transactions returns. *)
From Coq Require Import NArith ZArith List Bool String Lia.
From stdpp Require Import base list option gmap.
From Verif.Model Require Import Bytes Wire Proto KindEncoder Desc Schema Module Universe Marshal Users Prog Authn
  Bech32 TestApp TxDecoder.
From Verif.Spec Require Import UserSpec StoreSpec ChainSpec.
From Verif.Proofs Require Import BytesFacts ProtoFacts.
Local Open Scope N_scope.

(** ** Addresses *)

Lemma bech32_prefix data : exists r, bech32 (str "test") data = str "test1" ++ r.
Proof. eexists. unfold bech32. rewrite app_assoc. reflexivity. Qed.
Lemma not_module r : str "test1" ++ r ∉ modules_of_app.
Proof.
  intros H. unfold modules_of_app, app_modules in H. cbn [map mo_name] in H.
  repeat (apply elem_of_cons in H as [H|H]; [discriminate H|]). exact (not_elem_of_nil _ H).
Qed.

(** ** Signers *)
Section Decoder.
  Context (hash160 : bytes -> bytes).
  Lemma signer_of_ok si s x : signer_of hash160 si s = Ok x ->
    blen (sg_key x) = 33 /\ sg_address x = bech32 (str "test") (hash160 (sg_key x))
    /\ sg_signature x = s /\ sg_sequence x = si_sequence si
    /\ si_mode si = Some (Some 1%Z)
    /\ exists k fs, si_key si = Some k /\ any_url k ∈ key_urls /\ parse_fields (any_value k) = Some fs /\ sg_key x = g_bytes 1 fs.
  Proof.
    unfold signer_of. destruct (si_key si) as [k|] eqn:Ek; [|discriminate].
    destruct (si_mode si) as [[mode|]|] eqn:Em; [|discriminate|discriminate].
    destruct (Z.eqb_spec mode 1) as [->|]; [|discriminate].
    unfold resolve_key. destruct (existsb (bytes_eqb (any_url k)) key_urls) eqn:Eu; [|discriminate].
    destruct (parse_fields (any_value k)) as [fs|] eqn:Ep; [|discriminate]. cbn [res_bind].
    unfold key_address. destruct (N.eqb_spec (blen (g_bytes 1 fs)) 33) as [El|]; [|discriminate].
    cbn [res_bind]. intros [= <-]. cbn [sg_key sg_address sg_signature sg_sequence].
    repeat split; try assumption. exists k, fs. repeat split; try assumption.
    apply existsb_exists in Eu as (u & Hu & E). unfold bytes_eqb in E. apply bool_decide_eq_true in E. subst u.
    apply elem_of_list_In. exact Hu.
  Qed.
  Lemma signers_of_ok l : forall sigs xs, length sigs = length l -> signers_of hash160 l sigs = Ok xs ->
    Forall2 (fun si x => signer_of hash160 si (sg_signature x) = Ok x) l xs /\ map sg_signature xs = sigs.
  Proof.
    induction l as [|si l IH]; intros [|s sigs] xs Hl; try discriminate Hl; cbn [signers_of].
    - intros [= <-]. split; [apply List.Forall2_nil|reflexivity].
    - destruct (signer_of hash160 si s) as [x|e| |] eqn:Ex; try discriminate. cbn [res_bind].
      destruct (signers_of hash160 l sigs) as [ys|e| |] eqn:Ey; try discriminate. cbn [res_bind]. intros [= <-].
      destruct (IH sigs ys) as [H1 H2]; [injection Hl as Hl; exact Hl|exact Ey|].
      destruct (signer_of_ok _ _ _ Ex) as (_ & _ & Es & _).
      split; [apply List.Forall2_cons; [rewrite Es; exact Ex|exact H1]|]. cbn [map]. rewrite Es, H2. reflexivity.
  Qed.

  Lemma decode_parts raw t : decode_tx hash160 raw = Ok t ->
    exists w body auth f msgs ps,
      read_known tx_raw_fields dec_tx_raw raw = Ok w /\ tw_body w <> [] /\ tw_auth w <> [] /\ tw_signatures w <> []
      /\ read_known tx_body_fields dec_tx_body (tw_body w) = Ok body
      /\ read_known auth_info_fields dec_auth_info (tw_auth w) = Ok auth
      /\ ai_fee auth = Some f /\ fe_amount f <> []
      /\ get_transitions (tb_messages body) = Ok msgs
      /\ signers_and_payer hash160 (ai_signers auth) (fe_payer f) (tw_signatures w) = Ok ps
      /\ t = {| tx_body_bytes := tw_body w; tx_auth_bytes := tw_auth w;
                tx_memo := tb_memo body; tx_timeout := tb_timeout body;
                tx_fee := fe_amount f; tx_payer := fst ps;
                tx_users := users_from_string (map sg_address (snd ps));
                tx_signers := snd ps; tx_msgs := msgs |}.
  Proof.
    unfold decode_tx. destruct (read_known tx_raw_fields dec_tx_raw raw) as [w|e| |] eqn:Ew; try discriminate. cbn [res_bind].
    unfold bytes_eqb. case_bool_decide as Hb; [discriminate|]. case_bool_decide as Ha; [discriminate|].
    destruct (tw_signatures w) as [|s0 sigs] eqn:Es; [discriminate|]. rewrite <- Es.
    destruct (read_known tx_body_fields dec_tx_body (tw_body w)) as [body|e| |] eqn:Eb; try discriminate. cbn [res_bind].
    destruct (read_known auth_info_fields dec_auth_info (tw_auth w)) as [auth|e| |] eqn:Ea; try discriminate. cbn [res_bind].
    destruct (ai_fee auth) as [f|] eqn:Ef; [|discriminate]. destruct (fe_amount f) as [|c0 cs] eqn:Ec; [discriminate|]. rewrite <- Ec.
    destruct (get_transitions (tb_messages body)) as [msgs|e| |] eqn:Em; try discriminate. cbn [res_bind].
    destruct (signers_and_payer hash160 (ai_signers auth) (fe_payer f) (tw_signatures w)) as [ps|e| |] eqn:Ep; try discriminate.
    cbn [res_bind]. intros [= <-]. exists w, body, auth, f, msgs, ps.
    repeat split; try assumption; try reflexivity; [rewrite Es; discriminate|rewrite Ec; discriminate].
  Qed.
  Lemma payer_ok sis payer sigs ps : signers_and_payer hash160 sis payer sigs = Ok ps ->
    length sigs = length sis /\ sis <> [] /\ signers_of hash160 sis sigs = Ok (snd ps)
    /\ fst ps = match payer, snd ps with [], s :: _ => sg_address s | _, _ => payer end.
  Proof.
    unfold signers_and_payer. destruct sis as [|si sis]; [discriminate|].
    destruct (Nat.eqb_spec (length sigs) (length (si :: sis))) as [El|]; [|discriminate].
    destruct (signers_of hash160 (si :: sis) sigs) as [l|e| |] eqn:E; try discriminate. cbn [res_bind]. intros [= <-].
    cbn [fst snd]. repeat split; try assumption. discriminate.
  Qed.

  (** Decoded transactions are proper. *)
  Lemma decode_proper raw t : decode_tx hash160 raw = Ok t -> proper t.
  Proof.
    intros H. destruct (decode_parts raw t H) as (w & body & auth & f & msgs & ps & _ & _ & _ & _ & _ & _ & _ & _ & _ & Hp & ->).
    destruct (payer_ok _ _ _ _ Hp) as (Hl & Hne & Hs & Hf).
    destruct (signers_of_ok _ _ _ Hl Hs) as [H2 _].
    assert (Ha : Forall (fun s => exists r, sg_address s = str "test1" ++ r) (snd ps)).
    { clear - H2. induction H2 as [|si x l xs Hx _ IH]; [apply List.Forall_nil|].
      apply List.Forall_cons; [|exact IH]. destruct (signer_of_ok _ _ _ Hx) as (_ & -> & _). apply bech32_prefix. }
    assert (Hn : snd ps <> []).
    { intros E. rewrite E in H2. inversion H2 as [E'|]. apply Hne. symmetry. exact E'. }
    split; cbn [tx_signers tx_users tx_payer].
    - exact Hn.
    - reflexivity.
    - eapply List.Forall_impl; [|exact Ha]. intros s (r & ->). discriminate.
    - eapply List.Forall_impl; [|exact Ha]. intros s (r & ->). apply not_module.
    - rewrite Hf. destruct (fe_payer f); [|discriminate]. destruct (snd ps) as [|s l]; [contradiction|].
      inversion Ha as [|? ? (r & E) _]. rewrite E. discriminate.
  Qed.
End Decoder.

(** The codec and the decoder of the application have what the theorems about
    the chain ask for. *)
Lemma protobuf_sound hash160 enum : (forall tr, fair_order (enum tr)) ->
  sound protobuf enum (decode_tx hash160).
Proof.
  intros HE. exact {| so_codec := protobuf_ok; so_order := HE; so_decoder := decode_proper hash160 |}.
Qed.
