(** The API server on the running chain. *)
From Coq Require Import NArith ZArith List Bool String Sorted Lia.
From stdpp Require Import base list gmap.
From Verif.Model Require Import Bytes KindEncoder Desc Schema Indexes Orm Users Prog Runtime Services Module Builder Universe
  Authn TestApp Abci Strings Query ApiServer ApiService.
From Verif.Spec Require Import TextSpec StoreSpec QuerySpec ApiSpec ChainSpec ServiceSpec.
From Verif.Proofs Require Import BytesFacts KVFacts RegistryFacts OrmFacts AppFacts ChainInv ChainView ApiFacts.

(** ** The objects *)
Definition app_served : list (schema * definition) :=
  Eval vm_compute in match service_modules app_messages 1 no_descs app_raw with Ok l => l | _ => [] end.
Definition app_objects : list (objtype * definition) := flat_map mo_objects (app_modules 0 (fun _ _ _ => false)).

Lemma app_service : service_modules app_messages 1 no_descs app_raw = Ok app_served.
Proof. vm_compute. reflexivity. Qed.
Lemma objects_agree f g fuel D l : (forall o, o ∈ l -> f (api_name (ad_group (rw_api o)) (ad_kind (rw_api o))) = g (api_name (ad_group (rw_api o)) (ad_kind (rw_api o)))) ->
  service_objects f fuel D l = service_objects g fuel D l.
Proof.
  induction l as [|o l IH]; intros H; cbn [service_objects]; [done|]. rewrite (H o) by left.
  rewrite IH; [done|]. intros o' Ho. apply H. by right.
Qed.
Lemma modules_agree f g fuel D l : (forall m o, m ∈ l -> o ∈ rd_objects m -> f (api_name (ad_group (rw_api o)) (ad_kind (rw_api o))) = g (api_name (ad_group (rw_api o)) (ad_kind (rw_api o)))) ->
  service_modules f fuel D l = service_modules g fuel D l.
Proof.
  induction l as [|m l IH]; intros H; cbn [service_modules]; [done|].
  rewrite (objects_agree f g fuel D (rd_objects m)) by (intros o Ho; apply (H m); [left|done]).
  rewrite IH; [done|]. intros m' o Hm Ho. apply (H m'); [by right|done].
Qed.
Lemma linked_all : map (fun x => app_messages (api_name (ot_group x.1) (ot_kind x.1))) app_objects = map (fun x => Some x.1) app_objects.
Proof. vm_compute. reflexivity. Qed.
Lemma map_agree {A B} (f g : A -> B) l x : map f l = map g l -> x ∈ l -> f x = g x.
Proof. intros H Hx. revert H. induction Hx as [x l|x y l _ IH]; cbn [map]; intros [= H1 H2]; auto. Qed.
Lemma linked_app : linked app_messages.
Proof.
  intros m t d Hm Ht.
  apply (map_agree (fun x => app_messages (api_name (ot_group x.1) (ot_kind x.1))) (fun x => Some x.1) app_objects (t, d) linked_all).
  unfold app_objects. apply elem_of_list_In, in_flat_map. exists m. by rewrite <- !elem_of_list_In.
Qed.
Lemma linked_service f : linked f -> service_modules f 1 no_descs app_raw = Ok app_served.
Proof.
  intros HL. rewrite <- app_service. apply modules_agree. intros m o Hm Ho.
  apply elem_of_list_fmap in Hm as (m' & -> & Hm). cbn [raw rd_objects] in Ho.
  apply elem_of_list_fmap in Ho as ([t d] & -> & Ht). cbn.
  transitivity (Some t); [exact (HL m' t d Hm Ht)|symmetry; exact (linked_app m' t d Hm Ht)].
Qed.

Definition app_kinds : list object :=
  [OModules []; OStage StUnknown; OBeginBlock None; ODeliverTx None; OCheckTx None; OInitChainInfo []; OEndBlock None;
   OCurrentBlock 0; OUpdates []; OAccount genesis_account; OAuthParams initial_params; OAccountNumber 0; ORole external_role;
   OBinding [] []; ORbacParams; OBalance [] []].
Lemma served_schemas : map fst app_served = map schema_of app_kinds.
Proof. vm_compute. reflexivity. Qed.
Lemma schema_of_name o : sch_name (schema_of o) = ty_of o.
Proof. destruct o; vm_compute; reflexivity. Qed.
Lemma served_registered bits verify s d : (s, d) ∈ app_served -> rg_schemas (app_registry bits verify) !! sch_name s = Some s.
Proof.
  intros H. assert (s ∈ map schema_of app_kinds) as Hs.
  { rewrite <- served_schemas. apply elem_of_list_fmap. by exists (s, d). }
  apply elem_of_list_fmap in Hs as (o & -> & _). rewrite schema_of_name. exact (app_schema bits verify o).
Qed.
Definition app_object_list : list (objtype * definition) := Eval vm_compute in app_objects.
Lemma served_parsed : Forall2 (fun x y => parse_object_schema 1 no_descs x.1 x.2 = Ok y.1 /\ x.2 = y.2) app_object_list app_served.
Proof. unfold app_object_list, app_served. repeat constructor. Qed.
Lemma nodup_inj {A B} (f : A -> B) l x y : NoDup (map f l) -> x ∈ l -> y ∈ l -> f x = f y -> x = y.
Proof.
  intros H Hx Hy E. apply elem_of_list_lookup in Hx as [i Hi], Hy as [j Hj].
  assert (map f l !! i = Some (f x)) as H1 by (rewrite list_lookup_fmap, Hi; done).
  assert (map f l !! j = Some (f x)) as H2 by (rewrite list_lookup_fmap, Hj, E; done).
  assert (i = j) as -> by (by eapply NoDup_lookup). congruence.
Qed.
Lemma many_distinct : NoDup (map many_path app_served).
Proof. apply (bool_decide_unpack _). vm_compute. exact I. Qed.
Lemma keys_distinct : NoDup (map (fun x => key_path x []) app_served).
Proof. apply (bool_decide_unpack _). vm_compute. exact I. Qed.
Definition part_ok (t : bytes) : bool :=
  negb (existsb (fun c => bool_decide (c = slash)) t) && negb (bytes_eqb t []) && negb (bytes_eqb t (str ".")) && negb (bytes_eqb t (str "..")).
Lemma part_ok_path t : part_ok t = true -> path_part t.
Proof.
  unfold part_ok. rewrite !andb_true_iff, !negb_true_iff. intros [[[H1 H2] H3] H4].
  split; [|split; [by apply bytes_eqb_false|split; by apply bytes_eqb_false]].
  intros Hi. assert (existsb (fun c => bool_decide (c = slash)) t = true) as H; [|congruence].
  apply existsb_exists. exists slash. split; [done|]. by apply bool_decide_eq_true.
Qed.
Lemma parts_proper : forallb (fun x => part_ok (api_group x) && part_ok (api_kind x)) app_served = true.
Proof. vm_compute. reflexivity. Qed.
Lemma app_served_by bits verify : served_by 1 no_descs (app_registry bits verify) app_served.
Proof.
  split.
  - intros s d H. split; [by eapply served_registered|].
    apply elem_of_list_lookup in H as [i Hi]. destruct (Forall2_lookup_r _ _ _ _ _ served_parsed Hi) as ([t d'] & _ & H1 & H2).
    cbn [fst snd] in *. subst d'. by exists t.
  - intros x Hx. pose proof parts_proper as H. rewrite forallb_forall in H. specialize (H x (proj1 (elem_of_list_In _ _) Hx)).
    apply andb_true_iff in H as [H1 H2]. split; by apply part_ok_path.
  - intros x y Hx Hy E. exact (nodup_inj _ _ x y many_distinct Hx Hy E).
  - intros x y Hx Hy _ _ E. exact (nodup_inj _ _ x y keys_distinct Hx Hy E).
Qed.

(** ** The tables *)
Definition served_at (ty : bytes) : option (schema * definition) := List.find (fun x => bytes_eqb (sch_name x.1) ty) app_served.
Lemma served_at_in ty s d : served_at ty = Some (s, d) -> (s, d) ∈ app_served /\ sch_name s = ty.
Proof.
  intros H. apply List.find_some in H as [H1 H2]. split; [by apply elem_of_list_In|]. by apply bytes_eqb_spec.
Qed.
Lemma forall_check {A} (P : A -> bool) l x : forallb P l = true -> x ∈ l -> P x = true.
Proof. intros H Hx. rewrite forallb_forall in H. apply H. by apply elem_of_list_In. Qed.
Definition single_at (x : bytes * bytes) : bool :=
  match served_at x.1 with Some y => def_singleton y.2 && bytes_eqb (many_path y) x.2 | None => false end.
Lemma single_check : forallb single_at single_paths = true.
Proof. vm_compute. reflexivity. Qed.
Lemma single_table ty path : (ty, path) ∈ single_paths ->
  exists s d, (s, d) ∈ app_served /\ sch_name s = ty /\ def_singleton d = true /\ many_path (s, d) = path.
Proof.
  intros H. pose proof (forall_check _ _ _ single_check H) as Hx. unfold single_at in Hx. cbn [fst snd] in Hx.
  destruct (served_at ty) as [[s d]|] eqn:E; [|discriminate Hx]. apply served_at_in in E as [H1 H2].
  apply andb_true_iff in Hx as [H3 H4]. apply bytes_eqb_spec in H4. exists s, d. auto.
Qed.
Definition pk_is (s : schema) (f : bytes) : bool :=
  match sch_pk s with Some (g, StringKind) => bytes_eqb g f | _ => false end.
Definition keyed_at (x : bytes * bytes * bytes) : bool :=
  match served_at x.1.1 with
  | Some y => negb (def_singleton y.2) && bytes_eqb (many_path y) (x.1.2 ++ str "s") && bytes_eqb (key_path y []) (x.1.2 ++ str "/")
      && bytes_eqb (def_primary_key y.2) x.2 && pk_is y.1 x.2 && bytes_eqb (to_lower x.2) x.2
  | None => false
  end.
Lemma keyed_check : forallb keyed_at keyed_paths = true.
Proof. vm_compute. reflexivity. Qed.
Lemma key_path_app x t : key_path x t = key_path x [] ++ t.
Proof. unfold key_path, path_of. cbn [join]. rewrite !app_nil_r. by rewrite <- !app_assoc. Qed.
Lemma keyed_table ty path key : (ty, path, key) ∈ keyed_paths ->
  exists s d, (s, d) ∈ app_served /\ sch_name s = ty /\ def_singleton d = false /\ many_path (s, d) = path ++ str "s"
    /\ (forall t, key_path (s, d) t = path ++ str "/" ++ t) /\ def_primary_key d = key /\ sch_pk s = Some (key, StringKind) /\ to_lower key = key.
Proof.
  intros H. pose proof (forall_check _ _ _ keyed_check H) as Hx. unfold keyed_at in Hx. cbn [fst snd] in Hx.
  destruct (served_at ty) as [[s d]|] eqn:E; [|discriminate Hx]. apply served_at_in in E as [H1 H2]. cbn [fst snd] in Hx.
  rewrite !andb_true_iff, !bytes_eqb_spec in Hx. destruct Hx as [[[[[H3 H4] H5] H6] H7] H8].
  exists s, d. split; [done|]. split; [done|]. split; [by destruct (def_singleton d)|]. split; [done|].
  split; [intros t; by rewrite key_path_app, H5, <- app_assoc|]. split; [done|]. split; [|done].
  unfold pk_is in H7. destruct (sch_pk s) as [[g k]|]; [|discriminate H7]. destruct k; try discriminate H7.
  apply bytes_eqb_spec in H7 as ->. done.
Qed.
Definition served_ok (x : schema * definition) : bool :=
  if def_singleton x.2 then existsb (fun y => bytes_eqb (sch_name x.1) y.1 && bytes_eqb (many_path x) y.2) single_paths
  else existsb (fun y => bytes_eqb (sch_name x.1) y.1.1 && bytes_eqb (many_path x) (y.1.2 ++ str "s") && bytes_eqb (key_path x []) (y.1.2 ++ str "/")
                 && bytes_eqb (def_primary_key x.2) y.2) keyed_paths.
Lemma served_check : forallb served_ok app_served = true.
Proof. vm_compute. reflexivity. Qed.
Lemma served_table s d : (s, d) ∈ app_served ->
  def_singleton d = true /\ (sch_name s, many_path (s, d)) ∈ single_paths
  \/ def_singleton d = false /\ exists path, (sch_name s, path, def_primary_key d) ∈ keyed_paths /\ many_path (s, d) = path ++ str "s"
       /\ forall t, key_path (s, d) t = path ++ str "/" ++ t.
Proof.
  intros H. pose proof (forall_check _ _ _ served_check H) as Hx. unfold served_ok in Hx. cbn [fst snd] in Hx.
  destruct (def_singleton d); [left|right]; (split; [done|]); apply existsb_exists in Hx as (y & Hy & Hx); rewrite !andb_true_iff, !bytes_eqb_spec in Hx.
  - destruct Hx as [-> ->]. destruct y. by apply elem_of_list_In.
  - destruct Hx as [[[-> ->] H5] ->]. destruct y as [[ty path] key]. cbn [fst snd] in *. exists path. split; [by apply elem_of_list_In|].
    split; [done|]. intros t. by rewrite key_path_app, H5, <- app_assoc.
Qed.
Lemma index_table : Forall (fun x : schema * definition => forall f k, {| ix_name := f; ix_kind := k |} ∈ sch_indexes x.1 <-> listed_by (sch_name x.1) f k) app_served.
Proof.
  assert (forall ty f k, listed_by ty f k <-> ({| ix_name := f; ix_kind := k |} ∈
     if bytes_eqb ty ty_account then [{| ix_name := str "accountNumber"; ix_kind := Uint64Kind |}]
     else if bytes_eqb ty ty_binding then [{| ix_name := str "roleRef"; ix_kind := StringKind |}] else [])) as HH.
  { intros ty f k. unfold listed_by. destruct (bytes_eqb ty ty_account) eqn:E1; [|destruct (bytes_eqb ty ty_binding) eqn:E2].
    - apply bytes_eqb_spec in E1 as ->. rewrite elem_of_list_singleton. split.
      + intros [(_ & -> & ->)|[H _]]; [done|discriminate H].
      + intros [= -> ->]. by left.
    - apply bytes_eqb_spec in E2 as ->. rewrite elem_of_list_singleton. split.
      + intros [[H _]|(_ & -> & ->)]; [discriminate H|done].
      + intros [= -> ->]. by right.
    - rewrite elem_of_nil. split; [|done]. intros [[-> _]|[-> _]]; discriminate. }
  assert (map (fun x : schema * definition => sch_indexes x.1) app_served = map (fun x : schema * definition =>
     if bytes_eqb (sch_name x.1) ty_account then [{| ix_name := str "accountNumber"; ix_kind := Uint64Kind |}]
     else if bytes_eqb (sch_name x.1) ty_binding then [{| ix_name := str "roleRef"; ix_kind := StringKind |}] else []) app_served) as E by (vm_compute; reflexivity).
  apply Forall_forall. intros x Hx f k. rewrite HH. rewrite <- (map_agree _ _ app_served x E Hx). done.
Qed.

(** ** The running node *)
Section Node.
  Context (C : codec) (bits : N) (verify : bytes -> bytes -> bytes -> bool).
  Context (enum : list (event object msg) -> users -> list user) (fuel : nat) (decode : bytes -> res tx).
  Context (HS : sound C enum decode) (find_message : bytes -> option objtype) (HL : linked find_message) (renders : object -> bool).
  Notation O := (app_ops C).
  Notation R := (ap_registry (test_app bits verify)).
  Notation running := (running C bits verify enum fuel decode).
  Notation gets := (gets C bits verify).
  Notation starts := (starts C bits verify find_message).
  Notation serving := (serving C bits verify enum fuel decode find_message).
  Notation http := (http C bits verify renders).
  Notation reads_with := (reads_with C bits verify).
  Notation reads_all := (reads_all C bits verify).
  Implicit Types (x : node) (rq : request).

  Lemma running_shown id cs x : running id cs x -> exists S, shown C bits verify x S /\ inv S.
  Proof using HS. intros H. destruct (running_tracked C bits verify enum fuel decode HS id cs x H) as (S & [H1 H2 _] & _). by exists S. Qed.
  Lemma service_starts id cs x : running id cs x -> starts x = Ok app_served.
  Proof using HS HL.
    intros H. destruct (running_shown id cs x H) as (S & H1 & H2). unfold ServiceSpec.starts, service_start. rewrite client_get_orm.
    assert (gets x ty_modules singleton_id (OModules app_raw)) as E.
    { apply (reads_iff C bits verify enum decode HS x S ty_modules singleton_id (OModules app_raw) H1); [|exact (iv_modules S H2)].
      apply (bool_decide_unpack _). vm_compute. exact I. }
    unfold ChainSpec.gets in E. rewrite E. by apply linked_service.
  Qed.
  Lemma serving_served id objects : serving id objects -> objects = app_served.
  Proof using HS HL. intros (cs & x & H & E). rewrite (service_starts id cs x H) in E. by injection E. Qed.

  Lemma served_known s d : (s, d) ∈ app_served -> sch_name s ∈ all_types.
  Proof using bits verify. intros H. apply (served_registered bits verify) in H. exact (schema_known bits verify _ _ H). Qed.
  Lemma reads_stored x S ty f v o : shown C bits verify x S -> ty ∈ all_types -> stored_with O S ty f v o <-> reads_with x ty f v o.
  Proof using HS.
    intros HR Ht. unfold stored_with, ServiceSpec.reads_with. split; intros (i & H1 & H2); exists i; (split; [|exact H2]);
      by apply (reads_iff C bits verify enum decode HS x S ty i o HR Ht).
  Qed.
  Lemma reads_listed x S ty f v l : shown C bits verify x S -> ty ∈ all_types -> lists_stored O S ty f v l -> reads_all x ty f v l.
  Proof using HS.
    intros HR Ht (ids & H1 & H2 & H3). exists ids. split; [exact H1|]. split.
    - eapply Forall2_impl; [exact H2|]. cbv beta. intros i o [H4 H5]. split; [|exact H5]. by apply (reads_iff C bits verify enum decode HS x S ty i o HR Ht).
    - intros i o H4 H5. apply (H3 i o); [|exact H5]. by apply (reads_iff C bits verify enum decode HS x S ty i o HR Ht).
  Qed.

  Lemma chain_one id objects cs x ty path key t rq : serving id objects -> running id cs x -> (ty, path, key) ∈ keyed_paths ->
    rq_path rq = path ++ str "/" ++ t -> path_part t -> (blen t < 2 ^ 63)%N -> height_text (rq_height rq) ->
    match http objects rq x with
    | HObject o => renders o = true /\ reads_with x ty key (VString t) o
    | HNotFound => forall o, ~ reads_with x ty key (VString t) o
    | HAborted => exists o, reads_with x ty key (VString t) o /\ renders o = false
    | _ => False
    end.
  Proof using HS HL.
    intros HV HX Hk Hp Ht Hb Hh. rewrite (serving_served id objects HV). destruct (running_shown id cs x HX) as (S & H1 & _).
    destruct (keyed_table _ _ _ Hk) as (s & d & Hx & <- & Hd & _ & H2 & <- & H3 & H4).
    pose proof (http_get (Msg := msg) O 1 no_descs R renders app_served (w_store (rt_world x)) S (so_codec _ _ _ HS) (app_registry_ok bits verify) H1
      (app_served_by bits verify) s d StringKind t rq Hx Hd H3 H4 (conj (eq_trans Hp (eq_sym (H2 t))) Ht) Hb Hh) as HG.
    unfold ServiceSpec.http, the_app. pose proof (served_known s d Hx) as HK. revert HG.
    generalize (serve (Msg := msg) O R renders app_served rq (w_store (rt_world x))). intros r HG.
    assert (forall v, denotes StringKind t v -> v = VString t) as HD by (intros v Hv; destruct v; cbn in Hv; try done; by subst).
    destruct r as [o|l| | | |]; [|exact HG| | |exact HG| ].
    - destruct HG as (HG1 & v & Hv & HG2). rewrite (HD v Hv) in HG2. split; [exact HG1|]. apply (reads_stored x S _ _ _ _ H1 HK). exact HG2.
    - exact (HG (VString t) eq_refl).
    - destruct HG as (v & Hv & HG). rewrite (HD v Hv) in HG. intros o Ho. apply (HG o). apply (reads_stored x S _ _ _ _ H1 HK). exact Ho.
    - destruct HG as (v & o & Hv & HG1 & HG2). rewrite (HD v Hv) in HG1. exists o. split; [|exact HG2]. apply (reads_stored x S _ _ _ _ H1 HK). exact HG1.
  Qed.
  Lemma chain_single id objects cs x ty path rq : serving id objects -> running id cs x -> (ty, path) ∈ single_paths -> rq_path rq = path ->
    match http objects rq x with
    | HObject o => height_text (rq_height rq) /\ renders o = true /\ gets x ty (str "unique") o
    | HNotFound => height_text (rq_height rq) /\ forall o, ~ gets x ty (str "unique") o
    | HBadRequest => ~ height_text (rq_height rq)
    | HAborted => height_text (rq_height rq) /\ exists o, gets x ty (str "unique") o /\ renders o = false
    | _ => False
    end.
  Proof using HS HL.
    intros HV HX Hk Hp. rewrite (serving_served id objects HV). destruct (running_shown id cs x HX) as (S & H1 & _).
    destruct (single_table _ _ Hk) as (s & d & Hx & <- & Hd & H2).
    pose proof (http_singleton (Msg := msg) O 1 no_descs R renders app_served (w_store (rt_world x)) S (so_codec _ _ _ HS) (app_registry_ok bits verify) H1
      (app_served_by bits verify) s d rq Hx Hd (eq_trans Hp (eq_sym H2))) as HG.
    unfold ServiceSpec.http, the_app. pose proof (served_known s d Hx) as HK. revert HG.
    generalize (serve (Msg := msg) O R renders app_served rq (w_store (rt_world x))). intros r HG.
    pose proof (fun o => reads_iff C bits verify enum decode HS x S (sch_name s) (str "unique") o H1 HK) as HI.
    destruct r as [o|l| | | |]; [|exact HG| | |exact HG| ].
    - destruct HG as (HG1 & HG2 & HG3). split; [exact HG1|]. split; [exact HG2|]. apply HI; exact HG3.
    - exact HG.
    - destruct HG as [HG1 HG2]. split; [exact HG1|]. intros o Ho. apply HI in Ho. rewrite HG2 in Ho. discriminate Ho.
    - destruct HG as (HG1 & o & HG2 & HG3). split; [exact HG1|]. exists o. split; [apply HI; exact HG2|exact HG3].
  Qed.
  Lemma good_well_formed s d rq : (s, d) ∈ app_served -> good_query s rq <-> well_formed (sch_name s) rq.
  Proof using.
    intros Hx. pose proof index_table as HT. rewrite Forall_forall in HT. specialize (HT (s, d) Hx). cbn [fst] in HT.
    unfold good_query, well_formed, selection. split; intros (H1 & H2 & H3 & H4); (split; [exact H1|]); (split; [exact H2|]); (split; [exact H3|]);
      intros text Ht; destruct (H4 text Ht) as (f & k & t & v & H).
    - destruct H as [[H5 H6] H7]. exists f, k, t, v. split; [exact H5|]. split; [by apply HT|exact H7].
    - destruct H as (H5 & H6 & H7). exists f, k, t, v. split; [split; [exact H5|by apply HT]|exact H7].
  Qed.
  Lemma first_of s d rq text more f k t v : (s, d) ∈ app_served -> rq_query rq (str "selectField") = text :: more -> selection s text f k t -> denotes k t v ->
    first_selection (sch_name s) rq f v.
  Proof using.
    intros Hx Hq [H5 H6] Hv. pose proof index_table as HT. rewrite Forall_forall in HT. specialize (HT (s, d) Hx). cbn [fst] in HT.
    exists text, more, k, t. split; [exact Hq|]. split; [exact H5|]. split; [by apply HT|exact Hv].
  Qed.
  Lemma chain_list id objects cs x ty path key rq : serving id objects -> running id cs x -> (ty, path, key) ∈ keyed_paths -> rq_path rq = path ++ str "s" ->
    Forall (fun t => (blen t < 2 ^ 63)%N) (rq_query rq (str "selectField")) ->
    match http objects rq x with
    | HObjects l => well_formed ty rq /\ l <> [] /\ (forall o, o ∈ l -> renders o = true)
        /\ exists f v, first_selection ty rq f v /\ reads_all x ty f v l
    | HBadRequest => well_formed ty rq -> exists f v, first_selection ty rq f v /\ forall o, ~ reads_with x ty f v o
    | HAborted => well_formed ty rq /\ exists f v o, first_selection ty rq f v /\ reads_with x ty f v o /\ renders o = false
    | _ => False
    end.
  Proof using HS HL.
    intros HV HX Hk Hp Hb. rewrite (serving_served id objects HV). destruct (running_shown id cs x HX) as (S & H1 & _).
    destruct (keyed_table _ _ _ Hk) as (s & d & Hx & <- & Hd & H2 & _).
    pose proof (http_list (Msg := msg) O 1 no_descs R renders app_served (w_store (rt_world x)) S (so_codec _ _ _ HS) (app_registry_ok bits verify) H1
      (app_served_by bits verify) s d rq Hx Hd (eq_trans Hp (eq_sym H2)) Hb) as HG.
    unfold ServiceSpec.http, the_app. pose proof (served_known s d Hx) as HK. revert HG.
    generalize (serve (Msg := msg) O R renders app_served rq (w_store (rt_world x))). intros r HG.
    destruct r as [o|l| | | |]; [exact HG| | |exact HG|exact HG| ].
    - destruct HG as (G1 & G2 & G3 & text & more & f & k & t & v & G4 & G5 & G6 & G7). split; [apply (good_well_formed s d rq Hx); exact G1|].
      split; [exact G2|]. split; [exact G3|]. exists f, v. split; [exact (first_of s d rq text more f k t v Hx G4 G5 G6)|]. exact (reads_listed x S _ _ _ _ H1 HK G7).
    - intros G1. apply (good_well_formed s d rq Hx) in G1. destruct (HG G1) as (text & more & f & k & t & v & G4 & G5 & G6 & G7).
      exists f, v. split; [exact (first_of s d rq text more f k t v Hx G4 G5 G6)|]. intros o Ho. apply (G7 o). apply (reads_stored x S _ _ _ _ H1 HK). exact Ho.
    - destruct HG as (G1 & text & more & f & k & t & v & o & G4 & G5 & G6 & G7 & G8). split; [apply (good_well_formed s d rq Hx); exact G1|].
      exists f, v, o. split; [exact (first_of s d rq text more f k t v Hx G4 G5 G6)|]. split; [apply (reads_stored x S _ _ _ _ H1 HK); exact G7|exact G8].
  Qed.
  Lemma chain_elsewhere id objects x rq : serving id objects ->
    (forall ty path, (ty, path) ∈ single_paths -> rq_path rq <> path) ->
    (forall ty path key, (ty, path, key) ∈ keyed_paths -> rq_path rq <> path ++ str "s" /\ forall t, path_part t -> rq_path rq <> path ++ str "/" ++ t) ->
    http objects rq x = HNotFound \/ http objects rq x = HRedirect.
  Proof using HS HL.
    intros HV HA HB. rewrite (serving_served id objects HV). unfold ServiceSpec.http, the_app.
    destruct (serve_every (Msg := msg) O R renders 1 no_descs app_served (app_served_by bits verify) rq (w_store (rt_world x)))
      as [H|[H|[(s & d & Hx & Hp & _)|(s & d & t & Hx & Hd & Hp & Ht & _)]]]; [right; exact H|left; exact H|exfalso..].
    - destruct (served_table s d Hx) as [[_ H]|(_ & path & H & H1 & _)].
      + exact (HA _ _ H Hp).
      + apply (proj1 (HB _ _ _ H)). by rewrite Hp.
    - destruct (served_table s d Hx) as [[H _]|(_ & path & H & _ & H1)]; [congruence|].
      apply (proj2 (HB _ _ _ H) t Ht). by rewrite Hp.
  Qed.
  Lemma chain_reach id objects cs x ty path key t o : serving id objects -> running id cs x -> (ty, path, key) ∈ keyed_paths ->
    reads_with x ty key (VString t) o ->
    (exists rq, (blen (rq_path rq) < 2 ^ 63)%N /\ http objects rq x = HObject o)
    <-> renders o = true /\ path_part t /\ (blen (path ++ str "/" ++ t) < 2 ^ 63)%N.
  Proof using HS HL.
    intros HV HX Hk Ho. rewrite (serving_served id objects HV). destruct (running_shown id cs x HX) as (S & H1 & _).
    destruct (keyed_table _ _ _ Hk) as (s & d & Hx & <- & Hd & _ & H2 & <- & H3 & H4).
    apply (reads_stored x S _ _ _ _ H1 (served_known s d Hx)) in Ho.
    pose proof (http_reach (Msg := msg) O 1 no_descs R renders app_served (w_store (rt_world x)) S (so_codec _ _ _ HS) (app_registry_ok bits verify) H1
      (app_served_by bits verify) s d StringKind o (VString t) Hx Hd H3 Ho) as HG.
    etransitivity; [exact HG|]. split.
    - intros (G1 & _ & t' & G2 & G3 & G4). cbn in G4. subst t'. rewrite H2 in G2. auto.
    - intros (G1 & G2 & G3). split; [exact G1|]. split; [exact H4|]. exists t. rewrite H2. split; [exact G3|]. split; [exact G2|reflexivity].
  Qed.
End Node.
