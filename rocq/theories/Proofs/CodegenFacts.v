(** The code generator. *)
From Coq Require Import NArith ZArith List Bool String Lia.
From stdpp Require Import base list option gmap.
From Verif.Model Require Import Bytes Wire KindEncoder Desc Schema Codegen.
From Verif.Spec Require Import DescSpec CodegenSpec.
From Verif.Proofs Require Import BytesFacts KVFacts DescFacts KindEncoderFacts.

Lemma and_then_ok r1 r2 l : and_then r1 r2 = Ok l <-> exists l1 l2, r1 = Ok l1 /\ r2 = Ok l2 /\ l = l1 ++ l2.
Proof.
  split.
  - destruct r1, r2; cbn; intros H; try discriminate. injection H as <-. eauto.
  - intros (l1 & l2 & -> & -> & ->). reflexivity.
Qed.
Lemma all_ok {A} (f : A -> res (list declaration)) xs l :
  fold_right (fun x r => and_then (f x) r) (Ok []) xs = Ok l ->
  (forall x, x ∈ xs -> exists l', f x = Ok l') /\ (forall c, c ∈ l <-> exists x l', x ∈ xs /\ f x = Ok l' /\ c ∈ l').
Proof.
  revert l. induction xs as [|x xs IH]; intros l H; cbn [fold_right] in H.
  - injection H as <-. split; [intros x Hx; by apply elem_of_nil in Hx|]. intros c. split; [intros Hc; by apply elem_of_nil in Hc|].
    intros (x & _ & Hx & _). by apply elem_of_nil in Hx.
  - apply and_then_ok in H as (l1 & l2 & H1 & H2 & ->). destruct (IH _ H2) as [K1 K2]. split.
    + intros y Hy. apply elem_of_cons in Hy as [->|Hy]; eauto.
    + intros c. rewrite elem_of_app, K2. split.
      * intros [Hc|(y & l' & Hy & E & Hc)]; [exists x, l1|exists y, l']; (split; [|done]); apply elem_of_cons; auto.
      * intros (y & l' & Hy & E & Hc). apply elem_of_cons in Hy as [->|Hy]; [left; congruence|right; eauto].
Qed.
Lemma all_ok_intro {A} (f : A -> res (list declaration)) xs :
  (forall x, x ∈ xs -> exists l', f x = Ok l') -> exists l, fold_right (fun x r => and_then (f x) r) (Ok []) xs = Ok l.
Proof.
  induction xs as [|x xs IH]; intros H; cbn [fold_right]; [by eexists|].
  destruct (H x) as [l1 E1]; [by apply elem_of_list_here|]. destruct IH as [l2 E2].
  { intros y Hy. apply H. by apply elem_of_list_further. }
  exists (l1 ++ l2). apply and_then_ok. eauto.
Qed.

(** ** Which messages are accepted *)
Lemma go_type_kinds k : (exists t, go_type k = Some t) <-> k ∈ generated_kinds.
Proof.
  split.
  - intros [t H]. destruct k; try discriminate; apply (bool_decide_unpack _); vm_compute; exact I.
  - intros H. unfold generated_kinds in H. rewrite !elem_of_cons, elem_of_nil in H.
    destruct H as [->|[->|[->|[->|[->|[->|[->|[->|[]]]]]]]]]; by eexists.
Qed.
Lemma by_json_in d name fd : by_json_name d name = Some fd -> fd ∈ md_fields d /\ fd_json fd = name.
Proof. intros H. apply List.find_some in H as [H1 H2]. apply bytes_eqb_spec in H2. split; [by apply elem_of_list_In|done]. Qed.
Lemma by_json_some d fd : json_unique d -> fd ∈ md_fields d -> by_json_name d (fd_json fd) = Some fd.
Proof.
  unfold json_unique, by_json_name. intros Hu Hin. induction (md_fields d) as [|f fs IH]; [by apply elem_of_nil in Hin|].
  cbn [map List.find] in *. apply NoDup_cons in Hu as [Hn Hu]. apply elem_of_cons in Hin as [->|Hin].
  - replace (bytes_eqb (fd_json f) (fd_json f)) with true by (symmetry; by apply bytes_eqb_spec). done.
  - destruct (bytes_eqb (fd_json f) (fd_json fd)) eqn:E; [|by apply IH]. apply bytes_eqb_spec in E. destruct Hn. rewrite E.
    apply elem_of_list_In, in_map, elem_of_list_In. done.
Qed.
Lemma save_info_ok m d : json_unique (gm_desc m) ->
  (exists i, parse_save_info m d = Ok i) <-> (so_singleton d = false ->
    so_primary_key d <> [] /\ exists fd, fd ∈ md_fields (gm_desc m) /\ fd_json fd = so_primary_key d /\ fd_kind fd ∈ generated_kinds).
Proof.
  intros Hu. unfold parse_save_info. destruct (so_singleton d); [split; [discriminate|by eexists]|].
  destruct (bytes_eqb (so_primary_key d) []) eqn:E.
  { apply bytes_eqb_spec in E. split; [by intros [i Hi]|]. intros H. by destruct (H eq_refl) as [H1 _]. }
  split.
  - intros [i H] _. split; [intros E'; apply bytes_eqb_spec in E'; congruence|].
    destruct (by_json_name (gm_desc m) (so_primary_key d)) as [fd|] eqn:Ef; [|discriminate].
    apply by_json_in in Ef as [H1 H2]. destruct (go_type (fd_kind fd)) eqn:Et; [|discriminate].
    exists fd. split; [done|]. split; [done|]. apply go_type_kinds. eauto.
  - intros H. destruct (H eq_refl) as (_ & fd & H1 & H2 & H3). rewrite <- H2, (by_json_some _ _ Hu H1).
    apply go_type_kinds in H3 as [t ->]. by eexists.
Qed.
Lemma client_ok m d : (exists l, gen_object_client m d = Ok l) <-> exists i, parse_save_info m d = Ok i.
Proof.
  unfold gen_object_client. destruct (parse_save_info m d) as [[[? ?]|]|e| |]; split; intros [? H]; try discriminate; by eexists.
Qed.
Lemma object_code m d : gm_object m = Some d ->
  (exists l, gen_message_code m = Ok l) <-> gm_package m <> [] /\ gm_transition m = false /\ exists i, parse_save_info m d = Ok i.
Proof.
  intros Hd. rewrite <- client_ok. unfold gen_message_code, gen_state_object, gen_api. rewrite Hd.
  destruct (bytes_eqb (gm_package m) []) eqn:Ep.
  { apply bytes_eqb_spec in Ep. split; [|by intros [? _]]. intros [l H]. apply and_then_ok in H as (? & ? & H & _). discriminate. }
  assert (gm_package m <> []) as Hp by (intros E; apply bytes_eqb_spec in E; congruence).
  destruct (gm_transition m).
  { split; [|by intros (_ & ? & _)]. intros [l H]. apply and_then_ok in H as (? & ? & H & _). discriminate. }
  split.
  - intros [l H]. apply and_then_ok in H as (l1 & ? & H & _). destruct (gen_object_client m d); try discriminate. eauto.
  - intros (_ & _ & l & ->). by eexists.
Qed.
Lemma message_code m : json_unique (gm_desc m) -> (exists l, gen_message_code m = Ok l) <-> generatable m.
Proof.
  intros Hu. destruct (gm_object m) as [d|] eqn:Hd.
  - rewrite (object_code m d Hd), (save_info_ok m d Hu). split.
    + intros (H1 & H2 & H3). split; [done|done|]. intros d' Hd' Hs. rewrite Hd in Hd'. injection Hd' as <-. by apply H3.
    + intros [H1 H2 H3]. split; [apply H1; left; by rewrite Hd|]. split; [apply H2; by rewrite Hd|]. by apply H3.
  - unfold gen_message_code, gen_state_transition, gen_api. rewrite Hd. destruct (gm_transition m) eqn:Ht.
    + destruct (bytes_eqb (gm_package m) []) eqn:Ep.
      * apply bytes_eqb_spec in Ep. split; [intros [l [=]]|]. intros [H1 _ _]. destruct (H1 (or_intror Ht) Ep).
      * split; [|by eexists]. intros _. split; [|by rewrite Hd|by rewrite Hd]. intros _ E. apply bytes_eqb_spec in E. congruence.
    + split; [|by eexists]. intros _. split; [rewrite Hd, Ht; intros [?|?]; done|by rewrite Hd|by rewrite Hd].
Qed.
Lemma schema_ok m d : gm_object m = Some d -> (exists l, gen_message_code m = Ok l) -> exists l, gen_schema m d = Ok l.
Proof.
  intros Hd H. apply (object_code m d Hd) in H as (_ & _ & i & H). unfold gen_schema. unfold parse_save_info in H.
  destruct (so_singleton d); [rewrite andb_false_r; by eexists|]. destruct (bytes_eqb (so_primary_key d) []); [discriminate|by eexists].
Qed.
Lemma objects_in ms m d : (m, d) ∈ objects_of ms <-> m ∈ ms /\ gm_object m = Some d.
Proof.
  unfold objects_of. rewrite elem_of_list_omap. split.
  - intros (m' & H1 & H2). destruct (gm_object m') eqn:E; [|discriminate]. injection H2 as -> ->. done.
  - intros [H1 H2]. exists m. rewrite H2. done.
Qed.
Lemma accepts ms : Forall (fun m => json_unique (gm_desc m)) ms -> (exists code, gen_file ms = Ok code) <-> Forall generatable ms.
Proof.
  rewrite !Forall_forall. intros Hu. unfold gen_file. destruct (meets_requirements ms) eqn:Em.
  - split.
    + intros [code H] m Hm. apply and_then_ok in H as (l1 & l2 & H1 & _). apply all_ok in H1 as [H1 _].
      apply message_code; [by apply Hu|by apply H1].
    + intros H. destruct (all_ok_intro gen_message_code ms) as [l1 E1].
      { intros m Hm. apply message_code; [by apply Hu|by apply H]. }
      destruct (all_ok_intro (fun x : gen_message * object_options => gen_schema (fst x) (snd x)) (objects_of ms)) as [l2 E2].
      { intros [m d] Hx. apply objects_in in Hx as [Hm Hd]. apply (schema_ok m d Hd). apply message_code; [by apply Hu|by apply H]. }
      eexists. apply and_then_ok. exists l1. eexists. split; [exact E1|]. split; [|reflexivity]. apply and_then_ok. exists l2. eexists.
      split; [exact E2|]. split; reflexivity.
  - split; [|by eexists]. intros _ m Hm. unfold meets_requirements in Em.
    assert (gm_object m = None /\ gm_transition m = false) as [H1 H2].
    { destruct (gm_object m) as [d|] eqn:E1; [|destruct (gm_transition m) eqn:E2; [|done]];
        (assert (existsb (fun m => match gm_object m with Some _ => true | None => gm_transition m end) ms = true); [|congruence]);
        apply existsb_exists; exists m; (split; [by apply elem_of_list_In|]); rewrite E1; done. }
    split; [rewrite H1, H2; intros [?|?]; done|by rewrite H1|by rewrite H1].
Qed.

(** ** What is written *)
Definition set_code (c : declaration) : bool :=
  match c with GInterface _ _ | GFunc _ | GStruct _ _ | GMethod _ _ _ => true | _ => false end.
Lemma set_codes os ts c : c ∈ gen_client_set os ts -> set_code c = true.
Proof.
  unfold gen_client_set. rewrite !elem_of_app, !elem_of_cons, elem_of_nil. intros [[->|[->|[->|[]]]]|[H|H]]; try done;
    apply elem_of_list_fmap in H as (y & -> & _); done.
Qed.
Lemma code_in ms code c : gen_file ms = Ok code -> set_code c = false ->
  c ∈ code <-> (exists m l, m ∈ ms /\ gen_message_code m = Ok l /\ c ∈ l)
            \/ (exists m d l, m ∈ ms /\ gm_object m = Some d /\ gen_schema m d = Ok l /\ c ∈ l).
Proof.
  unfold gen_file. intros H Hc. destruct (meets_requirements ms) eqn:Em.
  - apply and_then_ok in H as (l1 & l' & H1 & H & ->). apply and_then_ok in H as (l2 & l3 & H2 & [= <-] & ->).
    apply all_ok in H1 as [_ H1]. apply all_ok in H2 as [_ H2]. rewrite !elem_of_app, H1, H2. split.
    + intros [H|[([m d] & l & Hx & H)|H]]; [by left| |apply set_codes in H; congruence].
      right. apply objects_in in Hx as [Hx Hd]. exists m, d, l. done.
    + intros [H|(m & d & l & Hm & Hd & H)]; [by left|]. right. left. exists (m, d), l. split; [by apply objects_in|done].
  - injection H as <-. split; [intros H; by apply elem_of_nil in H|].
    assert (forall m, m ∈ ms -> gm_object m = None /\ gm_transition m = false) as HN.
    { intros m Hm. unfold meets_requirements in Em. destruct (gm_object m) as [d|] eqn:E1; [|destruct (gm_transition m) eqn:E2; [|done]];
        (assert (existsb (fun m => match gm_object m with Some _ => true | None => gm_transition m end) ms = true); [|congruence]);
        apply existsb_exists; exists m; (split; [by apply elem_of_list_In|]); rewrite E1; done. }
    intros [(m & l & Hm & E & Hl)|(m & d & l & Hm & Hd & _)].
    + destruct (HN m Hm) as [E1 E2]. unfold gen_message_code in E. rewrite E1, E2 in E. injection E as <-. done.
    + destruct (HN m Hm). congruence.
Qed.
Lemma client_code m d l c : gen_object_client m d = Ok l -> c ∈ l -> set_code c = true.
Proof.
  unfold gen_object_client. intros H Hc. destruct (parse_save_info m d) as [[[? ?]|]|e| |]; try discriminate; injection H as <-;
    rewrite ?elem_of_app, ?elem_of_cons, ?elem_of_nil in Hc;
    repeat match goal with H : _ \/ _ |- _ => destruct H as [->|H]; [reflexivity|] | H : False |- _ => destruct H end;
    rewrite ?elem_of_app, ?elem_of_cons, ?elem_of_nil in Hc; naive_solver.
Qed.
Lemma message_api m l typ g k tr : gen_message_code m = Ok l ->
  GApi typ g k tr ∈ l <-> typ = gm_go m /\ g = gm_parent m /\ k = gm_name m
    /\ if tr then gm_transition m = true else gm_object m <> None.
Proof.
  unfold gen_message_code, gen_state_object, gen_state_transition, gen_api. intros H.
  apply and_then_ok in H as (l1 & l2 & H1 & H2 & ->). destruct (gm_object m) as [d|] eqn:Hd, (gm_transition m) eqn:Ht; try discriminate.
  - destruct (bytes_eqb (gm_package m) []); [discriminate|]. destruct (gen_object_client m d) as [l| | |] eqn:E; try discriminate.
    injection H1 as <-. injection H2 as <-. rewrite app_nil_r. cbn [app]. rewrite !elem_of_cons. split.
    + intros [[= -> -> -> ->]|[[=]|Hc]]; [done|]. pose proof (client_code _ _ _ _ E Hc). discriminate.
    + intros (-> & -> & -> & Htr). destruct tr; [discriminate|]. by left.
  - destruct (bytes_eqb (gm_package m) []); [discriminate|]. injection H1 as <-. injection H2 as <-. cbn [app].
    rewrite !elem_of_cons, !elem_of_nil. split.
    + intros [[= -> -> -> ->]|[[=]|[]]]; done.
    + intros (-> & -> & -> & Htr). destruct tr; [by left|done].
  - injection H1 as <-. injection H2 as <-. split; [intros Hc; by apply elem_of_nil in Hc|]. intros (_ & _ & _ & Htr). by destruct tr.
Qed.
Lemma message_schema m l name x : gen_message_code m = Ok l -> GSchema name x ∉ l.
Proof.
  unfold gen_message_code, gen_state_object, gen_state_transition, gen_api. intros H Hc.
  apply and_then_ok in H as (l1 & l2 & H1 & H2 & ->). destruct (gm_object m) as [d|] eqn:Hd, (gm_transition m) eqn:Ht; try discriminate.
  - destruct (bytes_eqb (gm_package m) []); [discriminate|]. destruct (gen_object_client m d) as [l| | |] eqn:E; try discriminate.
    injection H1 as <-. injection H2 as <-. rewrite app_nil_r in Hc. cbn [app] in Hc. rewrite !elem_of_cons in Hc.
    destruct Hc as [[=]|[[=]|Hc]]. pose proof (client_code _ _ _ _ E Hc). discriminate.
  - destruct (bytes_eqb (gm_package m) []); [discriminate|]. injection H1 as <-. injection H2 as <-. cbn [app] in Hc.
    rewrite !elem_of_cons, !elem_of_nil in Hc. destruct Hc as [[=]|[[=]|[]]].
  - injection H1 as <-. injection H2 as <-. by apply elem_of_nil in Hc.
Qed.
Lemma api_written ms code : gen_file ms = Ok code -> forall typ g k tr,
  GApi typ g k tr ∈ code <-> exists m, m ∈ ms /\ typ = gm_go m /\ g = gm_parent m /\ k = gm_name m
    /\ if tr then gm_transition m = true else gm_object m <> None.
Proof.
  intros H typ g k tr. rewrite (code_in ms code _ H) by reflexivity. split.
  - intros [(m & l & Hm & E & Hc)|(m & d & l & Hm & Hd & E & Hc)].
    + exists m. split; [done|]. by apply (message_api m l).
    + unfold gen_schema in E. destruct (_ && _); [discriminate|]. injection E as <-. rewrite elem_of_cons, elem_of_nil in Hc.
      destruct Hc as [[=]|[]].
  - intros (m & Hm & HC). left.
    assert (exists l, gen_message_code m = Ok l) as [l E].
    { unfold gen_file in H. destruct (meets_requirements ms) eqn:Em.
      - apply and_then_ok in H as (l1 & l' & H1 & _). apply all_ok in H1 as [H1 _]. by apply H1.
      - exfalso. assert (meets_requirements ms = true); [|congruence]. unfold meets_requirements. apply existsb_exists. exists m.
        split; [by apply elem_of_list_In|]. destruct HC as (_ & _ & _ & HC). destruct tr; [rewrite HC; by destruct (gm_object m)|].
        by destruct (gm_object m). }
    exists m, l. split; [done|]. split; [done|]. by apply (message_api m l).
Qed.
Lemma schema_written ms code : gen_file ms = Ok code -> forall name x,
  GSchema name x ∈ code <-> exists m d, m ∈ ms /\ gm_object m = Some d /\ name = gm_go m ++ str "Schema" /\ x = definition_of d.
Proof.
  intros H name x. rewrite (code_in ms code _ H) by reflexivity. split.
  - intros [(m & l & Hm & E & Hc)|(m & d & l & Hm & Hd & E & Hc)].
    + by destruct (message_schema _ _ _ _ E Hc).
    + exists m, d. unfold gen_schema in E. destruct (_ && _); [discriminate|]. injection E as <-. rewrite elem_of_cons, elem_of_nil in Hc.
      destruct Hc as [[= -> ->]|[]]. done.
  - intros (m & d & Hm & Hd & -> & ->). right. exists m, d.
    assert (exists l, gen_schema m d = Ok l) as [l E].
    { unfold gen_file in H. destruct (meets_requirements ms) eqn:Em.
      - apply and_then_ok in H as (l1 & l' & _ & H & _). apply and_then_ok in H as (l2 & l3 & H2 & _). apply all_ok in H2 as [H2 _].
        apply (H2 (m, d)). by apply objects_in.
      - exfalso. assert (meets_requirements ms = true); [|congruence]. unfold meets_requirements. apply existsb_exists. exists m.
        split; [by apply elem_of_list_In|]. by rewrite Hd. }
    exists l. split; [done|]. split; [done|]. split; [done|]. unfold gen_schema in E. destruct (_ && _); [discriminate|]. injection E as <-.
    apply elem_of_list_here.
Qed.

(** ** Keys *)
Lemma prefix_none s : drop1 (append_bytes s) = s <-> (blen s < 128)%N.
Proof.
  split; [|apply drop1_append_bytes_small]. intros H. destruct (N.lt_ge_cases (blen s) 128) as [?|Hb]; [done|].
  by destruct (drop1_append_bytes_big s Hb).
Qed.
Lemma parse_pk fuel D m d s : parse_object_schema fuel D (type_of m) (definition_of d) = Ok s ->
  sch_singleton s = so_singleton d
  /\ (so_singleton d = false -> exists fd, by_json_name (gm_desc m) (so_primary_key d) = Some fd /\ sch_pk s = Some (so_primary_key d, fd_kind fd)).
Proof.
  unfold parse_object_schema. intros H. destruct (negb _); [discriminate|]. destruct (has_map _ _ _) as [[]| | |]; try discriminate.
  destruct (has_kinds _ _ _ _) as [[]| | |]; try discriminate. cbn [def_singleton def_primary_key def_secondary_keys definition_of type_of ot_desc] in H.
  destruct (so_singleton d) eqn:Es.
  - destruct (negb _); [discriminate|]. destruct (Nat.eqb _ _); [|discriminate]. injection H as <-. split; [done|discriminate].
  - destruct (by_json_name (gm_desc m) (so_primary_key d)) as [fd|] eqn:Ef; [|discriminate].
    destruct (new_kind_encoder (fd_kind fd)) as [k| | |] eqn:Ek; try discriminate.
    assert (k = fd_kind fd) as -> by (destruct (fd_kind fd); try discriminate; by injection Ek).
    assert (sch_singleton s = false /\ sch_pk s = Some (so_primary_key d, fd_kind fd)) as [H1 H2].
    { destruct (Nat.eqb _ _); [injection H as <-; done|]. destruct (new_indexers _ _); try discriminate. injection H as <-. done. }
    split; [done|]. intros _. exists fd. done.
Qed.
Lemma get_written ms code m d : gen_file ms = Ok code -> m ∈ ms -> gm_object m = Some d ->
  exists i, parse_save_info m d = Ok i /\ GMethod (client_of m) (str "Get")
    (BGet match i with None => IdSingleton | Some (_, t) => IdOf (id_constructor t) end (gm_go m)) ∈ code.
Proof.
  intros H Hm Hd. unfold gen_file in H. destruct (meets_requirements ms) eqn:Em.
  - apply and_then_ok in H as (l1 & l' & H1 & _ & ->). apply all_ok in H1 as [H0 H1]. destruct (H0 m Hm) as [l E].
    destruct (proj1 (object_code m d Hd) (H0 m Hm)) as (_ & _ & i & Ei). exists i. split; [done|]. apply elem_of_app. left. apply H1.
    exists m, l. split; [done|]. split; [done|]. unfold gen_message_code, gen_state_object in E. rewrite Hd in E.
    apply and_then_ok in E as (l2 & l3 & E & _ & ->). destruct (gen_api m); try discriminate.
    unfold gen_object_client in E. rewrite Ei in E. apply elem_of_app. left.
    destruct i as [[? t]|]; injection E as <-; apply elem_of_app; right; cbn [app]; do 3 apply elem_of_list_further; apply elem_of_list_here.
  - exfalso. assert (meets_requirements ms = true); [|congruence]. unfold meets_requirements. apply existsb_exists. exists m.
    split; [by apply elem_of_list_In|]. by rewrite Hd.
Qed.

Section Get.
  Context {Obj : Type} (O : objops Obj).
  Lemma keyed_get fuel D ms code m d s : gen_file ms = Ok code -> m ∈ ms -> gm_object m = Some d -> so_singleton d = false ->
    parse_object_schema fuel D (type_of m) (definition_of d) = Ok s ->
    exists k c, sch_pk s = Some (so_primary_key d, k) /\ GMethod (client_of m) (str "Get") (BGet (IdOf c) (gm_go m)) ∈ code
    /\ forall o, value_ok k (oo_get O o (so_primary_key d)) = true ->
       match go_id c (oo_get O o (so_primary_key d)) with
       | Some id => (k = StringKind \/ k = BytesKind) /\ (encode_primary_key O s o = Ok id <-> (blen id < 128)%N)
       | None => k <> StringKind /\ k <> BytesKind
       end.
  Proof.
    intros H Hm Hd Hs Hp. apply parse_pk in Hp as [P1 P2]. destruct (P2 Hs) as (fd & Ef & Ek). rewrite Hs in P1.
    destruct (get_written ms code m d H Hm Hd) as (i & Ei & Hg).
    unfold parse_save_info in Ei. rewrite Hs in Ei. destruct (bytes_eqb (so_primary_key d) []); [discriminate|]. rewrite Ef in Ei.
    destruct (go_type (fd_kind fd)) as [t|] eqn:Et; [|discriminate]. injection Ei as <-.
    exists (fd_kind fd), (id_constructor t). split; [done|]. split; [done|]. intros o Hv.
    unfold encode_primary_key. rewrite P1, Ek.
    destruct (fd_kind fd); try discriminate Et; injection Et as <-; destruct (oo_get O o (so_primary_key d)) as [| | | | | | |]; try discriminate Hv.
    all: cbn -[blen drop1 append_bytes]; first [split; discriminate | idtac].
    all: (split; [auto|]); rewrite <- prefix_none; split; [by intros [= ->]|by intros ->].
  Qed.
  Lemma singleton_get fuel D ms code m d s : gen_file ms = Ok code -> m ∈ ms -> gm_object m = Some d -> so_singleton d = true ->
    parse_object_schema fuel D (type_of m) (definition_of d) = Ok s ->
    GMethod (client_of m) (str "Get") (BGet IdSingleton (gm_go m)) ∈ code /\ forall o, encode_primary_key O s o = Ok singleton_id.
  Proof.
    intros H Hm Hd Hs Hp. apply parse_pk in Hp as [P1 _]. destruct (get_written ms code m d H Hm Hd) as (i & Ei & Hg).
    unfold parse_save_info in Ei. rewrite Hs in Ei. injection Ei as <-. split; [done|]. intros o. unfold encode_primary_key. by rewrite P1, Hs.
  Qed.
End Get.

(** ** Names *)
Lemma ends_spec name : ends_with_s name = true <-> exists s, name = s ++ str "s".
Proof.
  unfold ends_with_s. destruct name as [|c0 name] using rev_ind.
  - split; [discriminate|]. intros [s H]. by destruct s.
  - rewrite rev_app_distr. cbn [rev app]. rewrite bool_decide_eq_true. split.
    + intros ->. by exists name.
    + intros [s H]. apply app_inj_tail in H as [_ ->]. reflexivity.
Qed.
Lemma accessors_meet m1 d1 m2 d2 : gm_go m1 <> gm_go m2 -> accessor m1 d1 = accessor m2 d2 <-> plural m1 d1 m2 \/ plural m2 d2 m1.
Proof.
  intros Hn. unfold accessor, plural.
  assert (forall m, ends_with_s (gm_go m) = false <-> forall s, gm_go m <> s ++ str "s") as HE.
  { intros m. split; [intros H s E|intros H].
    - assert (ends_with_s (gm_go m) = true) by (apply ends_spec; by exists s). congruence.
    - destruct (ends_with_s (gm_go m)) eqn:E; [|done]. apply ends_spec in E as [s E]. by destruct (H s). }
  rewrite <- !HE. destruct (ends_with_s (gm_go m1)) eqn:E1, (so_singleton d1) eqn:S1, (ends_with_s (gm_go m2)) eqn:E2, (so_singleton d2) eqn:S2;
    cbn [orb]; split; try (intros; naive_solver).
  all: try (intros H; apply app_inj_tail in H as [H _]; done).
  all: intros [(?&?&Hx)|(?&?&Hx)]; try congruence.
  all: exfalso; rewrite Hx in *; match goal with H : ends_with_s (?a ++ str "s") = false |- _ => assert (ends_with_s (a ++ str "s") = true) by (apply ends_spec; by eexists); congruence end.
Qed.

(** ** Files of one package *)
Lemma client_set_declared ms code : gen_file ms = Ok code -> code <> [] ->
  forall n, n ∈ [str "ClientSet"; str "NewClientSet"; str "clientSet"] -> exists c, c ∈ code /\ top_name c = Some n.
Proof.
  unfold gen_file. intros H Hn n Hin. destruct (meets_requirements ms); [|injection H as <-; done].
  apply and_then_ok in H as (l1 & l' & H1 & H & ->). apply and_then_ok in H as (l2 & l3 & H2 & [= <-] & ->).
  rewrite !elem_of_cons, elem_of_nil in Hin.
  destruct Hin as [->|[->|[->|[]]]]; eexists; (split; [apply elem_of_app; right; apply elem_of_app; right; unfold gen_client_set; cbn [app]|]);
    [apply elem_of_list_here|reflexivity|apply elem_of_list_further, elem_of_list_here|reflexivity
    |do 2 apply elem_of_list_further; apply elem_of_list_here|reflexivity].
Qed.

Lemma accessor_method m d name : set_method m d name <-> name = accessor m d.
Proof.
  unfold set_method, accessor. destruct (ends_with_s (gm_go m)) eqn:Ee; cbn [orb].
  - apply ends_spec in Ee as [s Es]. split; [|intros ->; left; eauto]. intros [[_ H]|(_ & H & _)]; [done|]. by destruct (H s).
  - assert (forall s, gm_go m <> s ++ str "s") as HN.
    { intros s Es. assert (ends_with_s (gm_go m) = true) by (apply ends_spec; eauto). congruence. }
    destruct (so_singleton d); split.
    + intros [[_ H]|(H & _)]; done.
    + intros ->. left. eauto.
    + intros [[[H|[s Es]] _]|(_ & _ & H)]; [done|by destruct (HN s)|done].
    + intros ->. right. eauto.
Qed.
Lemma transitions_in ms m : m ∈ transitions_of ms <-> m ∈ ms /\ gm_transition m = true.
Proof. unfold transitions_of. by rewrite !elem_of_list_In, filter_In. Qed.
Lemma client_set ms code : gen_file ms = Ok code -> code <> [] ->
  (exists methods, GInterface (str "ClientSet") methods ∈ code
     /\ forall name, name ∈ methods <-> exists m, m ∈ ms
          /\ ((exists d, gm_object m = Some d /\ set_method m d name) \/ gm_transition m = true /\ name = str "Exec" ++ gm_go m))
  /\ (forall m d name, m ∈ ms -> gm_object m = Some d -> set_method m d name -> GMethod (str "clientSet") name (BField (client_of m)) ∈ code)
  /\ (forall m, m ∈ ms -> gm_transition m = true -> GMethod (str "clientSet") (str "Exec" ++ gm_go m) BDeliver ∈ code).
Proof.
  unfold gen_file. intros H Hn. destruct (meets_requirements ms); [|injection H as <-; done].
  apply and_then_ok in H as (l1 & l' & H1 & H & ->). apply and_then_ok in H as (l2 & l3 & H2 & [= <-] & ->).
  assert (forall c, c ∈ gen_client_set (objects_of ms) (transitions_of ms) -> c ∈ l1 ++ l2 ++ gen_client_set (objects_of ms) (transitions_of ms)) as HI.
  { intros c Hc. apply elem_of_app. right. apply elem_of_app. by right. }
  split; [|split].
  - eexists. split; [apply HI; unfold gen_client_set; cbn [app]; apply elem_of_list_here|]. intros name.
    rewrite elem_of_app, !elem_of_list_fmap. split.
    + intros [([m d] & -> & Hm)|(m & -> & Hm)].
      * apply objects_in in Hm as [Hm Hd]. exists m. split; [done|]. left. exists d. split; [done|]. by apply accessor_method.
      * apply transitions_in in Hm as [Hm Ht]. exists m. split; [done|]. by right.
    + intros (m & Hm & [(d & Hd & Hs)|[Ht ->]]).
      * left. exists (m, d). apply accessor_method in Hs. split; [done|]. by apply objects_in.
      * right. exists m. split; [done|]. by apply transitions_in.
  - intros m d name Hm Hd Hs. apply accessor_method in Hs as ->. apply HI. unfold gen_client_set. rewrite !elem_of_app. right. left.
    apply elem_of_list_fmap. exists (m, d). split; [done|]. by apply objects_in.
  - intros m Hm Ht. apply HI. unfold gen_client_set. rewrite !elem_of_app. right. right. apply elem_of_list_fmap. exists m. split; [done|]. by apply transitions_in.
Qed.
(** The methods of the client for the objects of a message. *)
Lemma client_methods ms code m d : gen_file ms = Ok code -> m ∈ ms -> gm_object m = Some d ->
  GMethod (client_of m) (str "Create") BCreate ∈ code /\ GMethod (client_of m) (str "Update") BUpdate ∈ code
  /\ GMethod (client_of m) (str "Delete") BDelete ∈ code
  /\ (so_singleton d = false -> GMethod (client_of m) (str "List") (BList (gm_go m) (lower_camel (gm_go m) ++ str "Iterator")) ∈ code).
Proof.
  intros H Hm Hd. unfold gen_file in H. destruct (meets_requirements ms) eqn:Em.
  - apply and_then_ok in H as (l1 & l' & H1 & _ & ->). apply all_ok in H1 as [H0 H1]. destruct (H0 m Hm) as [l E].
    destruct (proj1 (object_code m d Hd) (H0 m Hm)) as (_ & _ & i & Ei).
    assert (forall c, c ∈ l -> c ∈ l1 ++ l') as HI. { intros c Hc. apply elem_of_app. left. apply H1. eauto. }
    unfold gen_message_code, gen_state_object in E. rewrite Hd in E.
    apply and_then_ok in E as (l2 & l3 & E & _ & ->). destruct (gen_api m); try discriminate.
    assert (so_singleton d = false -> i <> None) as Hi.
    { intros Hs ->. unfold parse_save_info in Ei. rewrite Hs in Ei. destruct (bytes_eqb _ _); [discriminate|].
      destruct (by_json_name _ _) as [fd|]; [|discriminate]. destruct (go_type _); discriminate. }
    unfold gen_object_client in E. rewrite Ei in E.
    destruct i as [[? t]|]; injection E as <-; (split; [|split; [|split]]); try (intros Hs; try (by destruct (Hi Hs))); apply HI; apply elem_of_app; left; apply elem_of_app; right;
      unfold client_of; rewrite ?elem_of_app, ?elem_of_cons; tauto.
  - exfalso. assert (meets_requirements ms = true); [|congruence]. unfold meets_requirements. apply existsb_exists. exists m.
    split; [by apply elem_of_list_In|]. by rewrite Hd.
Qed.
