(** Paths and queries. *)
From Coq Require Import NArith ZArith List Bool String Lia.
From stdpp Require Import base list option gmap.
From Verif.Model Require Import Bytes KindEncoder Desc Schema KV Objects Orm Runtime Builder Strings Universe Coin Rbac Authn TestApp Query.
From Verif.Spec Require Import StoreSpec ChainSpec QuerySpec.
From Verif.Proofs Require Import BytesFacts KVFacts RegistryFacts OrmFacts AppFacts RbacFacts CoinFacts.

(** ** Splitting *)
Lemma split_parts sep s : split_on sep s <> [] /\ Forall (fun p => ~ In sep p) (split_on sep s) /\ s = join [sep] (split_on sep s).
Proof.
  induction s as [|c s (H1 & H2 & H3)]; cbn [split_on].
  - split; [discriminate|]. split; [|reflexivity]. apply Forall_cons. split; [intros []|apply List.Forall_nil].
  - destruct (decide (c = sep)) as [->|Hc].
    + split; [discriminate|]. split.
      * apply Forall_cons. split; [intros []|done].
      * destruct (split_on sep s) as [|p l]; [done|]. cbn [join]. rewrite H3. reflexivity.
    + destruct (split_on sep s) as [|p l]; [done|]. apply Forall_cons in H2 as [Hp Hl]. split; [discriminate|]. split.
      * apply Forall_cons. split; [|done]. intros [->|H]; [done|by apply Hp].
      * rewrite H3. destruct l; reflexivity.
Qed.
Lemma split_exact sep s l : split_on sep s = l <-> l <> [] /\ Forall (fun p => ~ In sep p) l /\ s = join [sep] l.
Proof.
  split; [intros <-; apply split_parts|]. intros (H1 & H2 & ->). by apply split_join.
Qed.
Lemma split_path path l : split_on slash path = l <-> l <> [] /\ Forall no_slash l /\ path = path_of l.
Proof. exact (split_exact slash path l). Qed.
Lemma verb_split path v : verb_of path v <-> exists l, split_on slash path = v :: l.
Proof.
  split.
  - intros [Hv [->|[rest ->]]].
    + exists []. apply split_path. split; [done|]. split; [by apply Forall_cons|done].
    + exists (split_on slash rest). apply split_path. destruct (split_parts slash rest) as (H1 & H2 & H3).
      split; [done|]. split; [by apply Forall_cons|].
      unfold path_of. destruct (split_on slash rest) as [|p l]; [done|]. cbn [join]. rewrite H3. reflexivity.
  - intros [l H]. apply split_path in H as (_ & H & ->). apply Forall_cons in H as [H1 H2]. split; [done|].
    destruct l as [|p l]; [by left|right]. by eexists.
Qed.

(** ** The registered kinds *)
Section App.
  Context (C : codec) (bits : N) (verify : bytes -> bytes -> bytes -> bool) (resolves : any -> bool).
  Notation O := (app_ops C).
  Notation R := (app_registry bits verify).
  Implicit Types (o : object) (g k id path : bytes).

  Lemma by_api_of o : registry_get_by_api R (object_group o) (object_kind o) = Ok (schema_of o).
  Proof. destruct o; vm_compute; reflexivity. Qed.
  Lemma schema_of_name o : sch_name (schema_of o) = ty_of o.
  Proof. destruct o; reflexivity. Qed.
  Lemma kind_name o g k : of_kind o g k -> api_name g k = ty_of o.
  Proof. intros [<- <-]. destruct o; reflexivity. Qed.
  Lemma ty_kind o o' : ty_of o = ty_of o' -> of_kind o' (object_group o) (object_kind o).
  Proof. destruct o, o'; intros H; first [split; reflexivity | discriminate H]. Qed.

  Definition some_objects : list object :=
    [OModules []; OStage StUnknown; OBeginBlock None; OCheckTx None; ODeliverTx None; OInitChainInfo []; OEndBlock None;
     OCurrentBlock 0; OUpdates []; OAccount {| ac_address := []; ac_pubkey := None; ac_number := 0; ac_sequence := 0 |};
     OAuthParams {| pr_max_memo := 0; pr_sig_limit := 0; pr_size_cost := 0; pr_ed25519_cost := 0; pr_secp256k1_cost := 0 |};
     OAccountNumber 0; ORole (empty_role []); OBinding [] []; ORbacParams; OBalance [] []].
  Lemma some_object_of o : exists o', In o' some_objects /\ object_group o' = object_group o /\ object_kind o' = object_kind o.
  Proof.
    assert (exists i o', nth_error some_objects i = Some o' /\ object_group o' = object_group o /\ object_kind o' = object_kind o)
      as (i & o' & H & H').
    { destruct o; [exists 0%nat|exists 1%nat|exists 2%nat|exists 3%nat|exists 4%nat|exists 5%nat|exists 6%nat|exists 7%nat|exists 8%nat
        |exists 9%nat|exists 10%nat|exists 11%nat|exists 12%nat|exists 13%nat|exists 14%nat|exists 15%nat];
        eexists; (split; [reflexivity|split; reflexivity]). }
    exists o'. split; [by eapply nth_error_In|done].
  Qed.

  Lemma by_api_kind g k s : registry_get_by_api R g k = Ok s -> exists o, of_kind o g k /\ s = schema_of o.
  Proof.
    unfold registry_get_by_api. intros H. destruct (rg_by_meta R !! g) as [m|] eqn:E; [|discriminate].
    assert (Forall (fun x : bytes * gmap bytes schema => Forall (fun y : bytes * schema =>
       Exists (fun o => object_group o = x.1 /\ object_kind o = y.1) some_objects) (map_to_list x.2)) (map_to_list (rg_by_meta R))) as HF.
    { apply (bool_decide_unpack _). vm_compute. exact I. }
    destruct (m !! k) as [s'|] eqn:E2; [|discriminate]. injection H as ->.
    apply elem_of_map_to_list in E, E2. rewrite Forall_forall in HF. specialize (HF _ E). cbn [fst snd] in HF.
    rewrite Forall_forall in HF. specialize (HF _ E2). cbn [fst] in HF. apply List.Exists_exists in HF as (o & _ & HF).
    exists o. split; [exact HF|]. pose proof (by_api_of o) as Hb. destruct HF as [H1 H2]. rewrite H1, H2 in Hb.
    unfold registry_get_by_api in Hb. apply elem_of_map_to_list in E, E2. rewrite E, E2 in Hb. by injection Hb.
  Qed.
  Lemma by_api_cases g k : (exists s, registry_get_by_api R g k = Ok s) \/ (exists e, registry_get_by_api R g k = Fail e).
  Proof. unfold registry_get_by_api. destruct (rg_by_meta R !! g) as [m|]; [destruct (m !! k)|]; eauto. Qed.

  (** ** Get *)
  Lemma written_repr x : codec_ok O -> written C bits verify x -> exists S, repr O R S (w_store (rt_world x)).
  Proof.
    intros HC (cs & l & H). unfold the_app in H. change (ap_registry (test_app bits verify)) with (app_registry bits verify) in H.
    destruct (run_refines O (app_registry bits verify) cs ∅ orm_empty HC (app_registry_ok bits verify)
      (repr_empty O (app_registry bits verify))) as [H1 H2].
    { apply Forall_forall. intros c _. destruct c; try exact I; apply app_typed. }
    unfold run_model in H. rewrite H in H2. cbn [snd] in H2.
    destruct (run (spec_call O _) cs ∅) as [l' [S|]]; cbn [snd] in H2; [|done]. by exists S.
  Qed.
  Lemma written_get x ty id : codec_ok O -> written C bits verify x -> 
    match orm_get O R ty id (w_store (rt_world x)) with
    | Ok o => ty_of o = ty
    | Fail _ => True
    | _ => False
    end.
  Proof.
    intros HC Hw. destruct (written_repr x HC Hw) as [S HS].
    destruct (get_refines O R S _ ty id HC (app_registry_ok bits verify) HS) as [H1 H2].
    pose proof (repr_wt C R (app_schema bits verify) S _ HS) as HW.
    generalize dependent (orm_get O R ty id (w_store (rt_world x))). intros g H1 H2. unfold spec_get in *.
    destruct (rg_schemas R !! ty); [|by destruct g].
    destruct (decide (id = [])); [by destruct g|].
    destruct (S !! (ty, id)) as [o|] eqn:E; [|by destruct g].
    destruct g; try discriminate. injection H2 as ->. by destruct (HW _ _ _ E).
  Qed.

  Lemma renderable_iff o : object_renders resolves o = true <-> renderable resolves o.
  Proof.
    unfold renderable, object_renders, any_renders. destruct o as [| | | | | | | | |a| | | | | |]; try (split; [intros _ ? ? [=]|done]).
    destruct (ac_pubkey a) as [key|] eqn:E.
    - destruct (bytes_eqb (any_url key) []) eqn:Eu.
      + apply bytes_eqb_spec in Eu. rewrite bytes_eqb_spec. split.
        * intros H a' k [= <-] Ek. rewrite E in Ek. injection Ek as <-. by left.
        * intros H. destruct (H a key eq_refl E) as [[_ H1]|[H1 _]]; [done|by destruct H1].
      + split.
        * intros H a' k [= <-] Ek. rewrite E in Ek. injection Ek as <-. right. split; [|done].
          intros Eq. apply bytes_eqb_spec in Eq. congruence.
        * intros H. destruct (H a key eq_refl E) as [[H1 _]|[_ H1]]; [|done]. apply bytes_eqb_spec in H1. congruence.
    - split; [|done]. intros _ a' k [= <-] Ek. congruence.
  Qed.

  Notation query := (query C bits verify resolves).
  Notation holds := (holds C bits verify).
  Lemma query_get_path x g k id rest path : get_path g k id rest path ->
    query x path = match (match registry_get_by_api R g k with
                          | Ok s => orm_get O R (sch_name s) id (w_store (rt_world x)) | r => res_cast r end) with
                   | Ok o => if object_renders resolves o then Ok (RObject o) else Panic
                   | r => res_cast r end.
  Proof.
    intros [HF ->]. unfold QuerySpec.query, query_handle, query_get. unfold the_app.
    change (ap_registry (test_app bits verify)) with (app_registry bits verify).
    assert (split_on slash (path_of (str "get" :: g :: k :: id :: rest)) = str "get" :: g :: k :: id :: rest) as ->.
    { apply split_path. split; [done|]. split; [|done]. apply Forall_cons. split; [|done].
      unfold no_slash. cbn. intuition discriminate. }
    change (bytes_eqb (str "get") (str "api_resources")) with false. change (bytes_eqb (str "get") (str "get")) with true. cbv iota.
    destruct (registry_get_by_api R g k) as [s|e| |]; cbn [res_cast render]; [|reflexivity..].
    generalize (orm_get O R (sch_name s) id (w_store (rt_world x))). intros [o|e| |]; reflexivity.
  Qed.

  Lemma get_path_split path : verb_of path (str "get") ->
    (exists g k id rest, get_path g k id rest path) \/ (forall x, exists e, query x path = Fail e).
  Proof.
    intros H. apply verb_split in H as [l H]. pose proof H as Hs. apply split_path in H as (_ & HF & Hp).
    destruct l as [|g [|k [|id rest]]].
    4: { left. exists g, k, id, rest. apply Forall_cons in HF as [_ HF]. split; [exact HF|exact Hp]. }
    all: right; intros x; exists EAnon; unfold QuerySpec.query, query_handle, query_get; rewrite Hs;
      change (bytes_eqb (str "get") (str "api_resources")) with false; change (bytes_eqb (str "get") (str "get")) with true; reflexivity.
  Qed.

  Lemma get_query x g k id rest path : codec_ok O -> written C bits verify x -> get_path g k id rest path ->
    (forall o, query x path = Ok (RObject o) <-> holds x g k id o /\ renderable resolves o)
    /\ (query x path = Panic <-> exists o, holds x g k id o /\ ~ renderable resolves o)
    /\ ((exists e, query x path = Fail e) <-> forall o, ~ holds x g k id o).
  Proof.
    intros HC Hw Hp. rewrite (query_get_path x g k id rest path Hp). clear Hp.
    destruct (registry_get_by_api R g k) as [s|e| |] eqn:E.
    - apply by_api_kind in E as (o0 & Hk & ->). rewrite schema_of_name.
      pose proof (written_get x (ty_of o0) id HC Hw) as HT.
      assert (forall o, holds x g k id o <-> orm_get O R (ty_of o0) id (w_store (rt_world x)) = Ok o) as HH.
      { intros o. unfold QuerySpec.holds, gets. rewrite (kind_name o0 g k Hk). unfold the_app.
        change (ap_registry (test_app bits verify)) with (app_registry bits verify). split; [by intros []|].
        intros H. split; [|done]. rewrite H in HT. destruct Hk as [<- <-]. by apply ty_kind. }
      clear Hk. generalize dependent (orm_get O R (ty_of o0) id (w_store (rt_world x))). intros r HT HH.
      destruct r as [o|e| |]; [|..|done|done].
      + assert (forall o', holds x g k id o' <-> o' = o) as H1.
        { intros o'. rewrite HH. split; [by intros [= ->]|by intros ->]. }
        clear HT HH. destruct (object_renders resolves o) eqn:Er.
        * apply renderable_iff in Er. split; [|split].
          -- intros o'. rewrite H1. split; [intros [= <-]; done|by intros [-> _]].
          -- split; [discriminate|]. intros (o' & H & Hn). apply H1 in H as ->. done.
          -- split; [by intros [e He]|]. intros H. destruct (H o). by apply H1.
        * assert (~ renderable resolves o) as Hr by (rewrite <- renderable_iff, Er; discriminate). split; [|split].
          -- intros o'. rewrite H1. split; [discriminate|by intros [-> ?]].
          -- split; [|done]. intros _. exists o. split; [by apply H1|done].
          -- split; [by intros [e He]|]. intros H. destruct (H o). by apply H1.
      + assert (forall o, ~ holds x g k id o) as H1 by (intros o; rewrite HH; discriminate).
        split; [|split].
        * intros o. split; [discriminate|]. intros [H _]. destruct (H1 _ H).
        * split; [discriminate|]. intros (o & H & _). destruct (H1 _ H).
        * split; [done|]. intros _. by exists e.
    - assert (forall o, ~ holds x g k id o) as H1.
      { intros o [[<- <-] _]. rewrite by_api_of in E. discriminate. }
      clear E. cbn [res_cast]. split; [|split].
      + intros o. split; [discriminate|]. intros [H _]. destruct (H1 _ H).
      + split; [discriminate|]. intros (o & H & _). destruct (H1 _ H).
      + split; [done|]. intros _. by exists e.
    - unfold registry_get_by_api in E. destruct (rg_by_meta R !! g) as [m|]; [destruct (m !! k)|]; discriminate.
    - unfold registry_get_by_api in E. destruct (rg_by_meta R !! g) as [m|]; [destruct (m !! k)|]; discriminate.
  Qed.

  (** ** Other verbs *)
  Lemma resources_app : exists l, api_resources R = Ok l /\ NoDup (map fst l) /\ Forall (fun y : bytes * list bytes => NoDup y.2) l
    /\ forall g k, (exists ks, (g, ks) ∈ l /\ k ∈ ks) <-> exists o, of_kind o g k.
  Proof.
    assert (exists l, api_resources R = Ok l /\ NoDup (map fst l) /\ Forall (fun y : bytes * list bytes => NoDup y.2) l
      /\ Forall (fun y : bytes * list bytes => Forall (fun k => Exists (fun o => object_group o = y.1 /\ object_kind o = k) some_objects) y.2) l
      /\ Forall (fun o => Exists (fun y : bytes * list bytes => y.1 = object_group o /\ Exists (fun k => k = object_kind o) y.2) l) some_objects)
      as (l & H1 & H2 & H3 & H4 & H5).
    { eexists. split; [vm_compute; reflexivity|]. repeat apply conj; apply (bool_decide_unpack _); vm_compute; exact I. }
    exists l. split; [done|]. split; [done|]. split; [done|]. intros g k. split.
    - intros (ks & Hg & Hk). rewrite Forall_forall in H4. specialize (H4 _ Hg). cbn [fst snd] in H4.
      rewrite Forall_forall in H4. specialize (H4 _ Hk). apply List.Exists_exists in H4 as (o & _ & H). by exists o.
    - intros [o [<- <-]]. destruct (some_object_of o) as (o' & Hi & E1 & E2). rewrite <- E1, <- E2. clear E1 E2 o.
      rewrite List.Forall_forall in H5. specialize (H5 _ Hi). apply List.Exists_exists in H5 as ([g ks] & Hl & Eg & H). cbn [fst snd] in *.
      apply List.Exists_exists in H as (k & Hk & ->). exists ks. rewrite !elem_of_list_In. rewrite <- Eg. split; [exact Hl|exact Hk].
  Qed.

  Lemma query_verbs x path :
    (verb_of path (str "api_resources") -> exists l, query x path = Ok (RResources l) /\ NoDup (map fst l)
       /\ Forall (fun y : bytes * list bytes => NoDup y.2) l
       /\ forall g k, (exists ks, (g, ks) ∈ l /\ k ∈ ks) <-> exists o, of_kind o g k)
    /\ (verb_of path (str "list") -> query x path = Ok RNothing)
    /\ ((forall v, verb_of path v -> v ∉ [str "get"; str "list"; str "api_resources"]) -> exists e, query x path = Fail e).
  Proof.
    destruct (split_parts slash path) as (Hne & _ & _).
    destruct (split_on slash path) as [|v l] eqn:Hs; [done|].
    assert (forall v', verb_of path v' <-> v' = v) as HV.
    { intros v'. rewrite verb_split, Hs. split; [by intros [? [= ->]]|]. intros ->. by exists l. }
    split; [|split].
    - intros Hv. apply HV in Hv as <-. destruct resources_app as (l' & H1 & H2). exists l'. split; [|exact H2].
      clear H2. unfold QuerySpec.query, query_handle. rewrite Hs. change (bytes_eqb (str "api_resources") (str "api_resources")) with true.
      cbv iota. unfold the_app. change (ap_registry (test_app bits verify)) with (app_registry bits verify). rewrite H1. reflexivity.
    - intros Hv. apply HV in Hv as <-. unfold QuerySpec.query, query_handle. rewrite Hs.
      change (bytes_eqb (str "list") (str "api_resources")) with false. change (bytes_eqb (str "list") (str "get")) with false.
      change (bytes_eqb (str "list") (str "list")) with true. reflexivity.
    - intros H. specialize (H v (proj2 (HV v) eq_refl)). exists EAnon. unfold QuerySpec.query, query_handle. rewrite Hs.
      assert (forall w, w ∈ [str "get"; str "list"; str "api_resources"] -> bytes_eqb v w = false) as Hn.
      { intros w Hw. apply not_true_is_false. intros E. apply bytes_eqb_spec in E as ->. done. }
      rewrite !Hn; [reflexivity|..]; apply (bool_decide_unpack _); vm_compute; exact I.
  Qed.

  (** Every path. *)
  Lemma query_outcomes x path : codec_ok O -> written C bits verify x ->
    match query x path with
    | Ok (RObject o) => exists g k id rest, get_path g k id rest path /\ holds x g k id o /\ renderable resolves o
    | Ok (RResources _) => verb_of path (str "api_resources")
    | Ok RNothing => verb_of path (str "list")
    | Fail _ => forall g k id rest o, get_path g k id rest path -> ~ holds x g k id o
    | Panic => exists g k id rest o, get_path g k id rest path /\ holds x g k id o /\ ~ renderable resolves o
    | OutOfFuel => False
    end.
  Proof.
    intros HC Hw. destruct (split_parts slash path) as (Hne & _ & _).
    destruct (split_on slash path) as [|v l] eqn:Hs; [done|].
    assert (forall v', verb_of path v' <-> v' = v) as HV.
    { intros v'. rewrite verb_split, Hs. split; [by intros [? [= ->]]|]. intros ->. by exists l. }
    assert (forall g k id rest, get_path g k id rest path -> v = str "get") as HG.
    { intros g k id rest [HF Hp]. symmetry. apply HV. apply verb_split. exists (g :: k :: id :: rest). apply split_path.
      split; [done|]. split; [|done]. apply Forall_cons. split; [|done]. unfold no_slash. cbn. intuition discriminate. }
    clear Hs Hne l. destruct (query_verbs x path) as (H1 & H2 & H3).
    destruct (decide (v = str "get")) as [->|Hg].
    - destruct (get_path_split path (proj2 (HV _) eq_refl)) as [(g & k & id & rest & Hp)|He].
      + destruct (get_query x g k id rest path HC Hw Hp) as (K1 & K2 & K3).
        assert (forall g' k' id' rest', get_path g' k' id' rest' path -> g' = g /\ k' = k /\ id' = id) as HU.
        { intros g' k' id' rest' [HF' Hp']. destruct Hp as [HF Hp].
          assert (forall l, Forall no_slash l -> path = path_of (str "get" :: l) -> split_on slash path = str "get" :: l) as Hsp.
          { intros l Hl He. apply split_path. split; [done|]. split; [|done]. apply Forall_cons. split; [|done].
            unfold no_slash. cbn. intuition discriminate. }
          pose proof (Hsp _ HF Hp) as E1. pose proof (Hsp _ HF' Hp') as E2. rewrite E1 in E2. by injection E2 as -> -> ->. }
        pose proof (query_get_path x g k id rest path Hp) as HQ.
        clear H1 H2 H3. generalize dependent (query x path). intros q K1 K2 K3 HQ. destruct q as [[o|rs|]|e| |].
        * exists g, k, id, rest. split; [done|]. by apply K1.
        * exfalso. destruct (match registry_get_by_api R g k with Ok s => _ | _ => _ end) as [o| | |]; cbn [res_cast] in HQ; try discriminate.
          destruct (object_renders resolves o); discriminate.
        * exfalso. destruct (match registry_get_by_api R g k with Ok s => _ | _ => _ end) as [o| | |]; cbn [res_cast] in HQ; try discriminate.
          destruct (object_renders resolves o); discriminate.
        * intros g' k' id' rest' o Hp'. destruct (HU _ _ _ _ Hp') as (-> & -> & ->). apply K3. by exists e.
        * destruct (proj1 K2 eq_refl) as (o & Ho). exists g, k, id, rest, o. exact (conj Hp Ho).
        * clear K1 K2 K3. destruct (by_api_cases g k) as [[s Er]|[e Er]]; rewrite Er in HQ; cbn [res_cast] in HQ; [|discriminate HQ].
          pose proof (written_get x (sch_name s) id HC Hw) as HT. clear Er.
          generalize dependent (orm_get O R (sch_name s) id (w_store (rt_world x))). intros r HQ HT.
          destruct r as [o| | |]; cbn [res_cast] in HQ; [|discriminate HQ|discriminate HQ|exact HT]. destruct (object_renders resolves o); discriminate HQ.
      + destruct (He x) as [e E]. rewrite E. intros g k id rest o [HF Hp] Hh.
        destruct (get_query x g k id rest path HC Hw (conj HF Hp)) as (_ & _ & K3). apply (proj1 K3 (ex_intro _ e E) o Hh).
    - destruct (decide (v = str "list")) as [->|Hl].
      { rewrite H2 by (by apply HV). by apply HV. }
      destruct (decide (v = str "api_resources")) as [->|Ha].
      { destruct H1 as (rs & E & _); [by apply HV|]. rewrite E. by apply HV. }
      destruct H3 as [e E].
      { intros v' Hv'. apply HV in Hv' as ->. rewrite !not_elem_of_cons. repeat apply conj; try done. apply not_elem_of_nil. }
      rewrite E. intros g k id rest o Hp. by apply HG in Hp.
  Qed.
End App.
