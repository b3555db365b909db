(** HTTP requests. *)
From Coq Require Import NArith List Bool String Lia Sorted.
From stdpp Require Import base list gmap.
From Verif.Model Require Import Bytes KindEncoder Desc Schema KV Objects Indexes Orm Users Prog Runtime Client Strings Query ApiServer.
From Verif.Spec Require Import TextSpec DescSpec StoreSpec QuerySpec ApiSpec.
From Verif.Proofs Require Import BytesFacts KindEncoderFacts KVFacts RegistryFacts OrmFacts TextFacts OrmListFacts DescFacts StoreProps QueryFacts.

(** ** Texts *)
Lemma uint_text t : parse_uint 64 t = None <-> forall n, decimal_text t n -> (2 ^ 64 <= n)%N.
Proof.
  split.
  - intros H n Hn. apply N.le_ngt. intros Hl. assert (parse_uint 64 t = Some n) as E by (by apply parse_uint_spec). congruence.
  - intros H. destruct (parse_uint 64 t) as [n|] eqn:E; [|done]. apply parse_uint_spec in E as [E1 E2].
    apply H in E1. apply N.le_ngt in E1. by destruct E1.
Qed.
Lemma decimal_nonempty t n : decimal_text t n -> t <> [].
Proof. intros (ds & H & _ & -> & _). by destruct ds. Qed.
Lemma decimal_unique t n m : decimal_text t n -> decimal_text t m -> n = m.
Proof.
  intros H1 H2. set (b := (n + m + 1)%N).
  assert (forall k, (k < b)%N -> (k < 2 ^ b)%N) as Hb.
  { intros k Hk. eapply N.lt_trans; [exact Hk|]. apply N.pow_gt_lin_r. lia. }
  assert (parse_uint b t = Some n) as E1 by (apply parse_uint_spec; split; [done|apply Hb; unfold b; lia]).
  assert (parse_uint b t = Some m) as E2 by (apply parse_uint_spec; split; [done|apply Hb; unfold b; lia]).
  congruence.
Qed.
Lemma height_exact t :
  match request_height t with
  | Ok h => t = [] /\ h = 0%N \/ decimal_text t h /\ (0 < h < 2 ^ 64)%N
  | Fail _ => ~ height_text t
  | _ => False
  end.
Proof.
  unfold request_height, height_text. destruct (bytes_eqb t []) eqn:E.
  - apply bytes_eqb_spec in E. auto.
  - apply bytes_eqb_false in E. destruct (parse_uint 64 t) as [n|] eqn:P.
    + apply parse_uint_spec in P as [P1 P2]. destruct (N.eqb n 0) eqn:Z.
      * apply N.eqb_eq in Z as ->. intros [?|(m & H1 & H2 & _)]; [done|].
        rewrite (decimal_unique t m 0 H1 P1) in H2. by apply N.lt_irrefl in H2.
      * apply N.eqb_neq in Z. right. split; [done|]. split; [|done]. by apply N.neq_0_lt_0.
    + intros [?|(n & H1 & _ & H2)]; [done|]. assert (parse_uint 64 t = Some n) by (by apply parse_uint_spec). congruence.
Qed.
Lemma height_ok t : height_text t <-> exists h, request_height t = Ok h.
Proof.
  pose proof (height_exact t) as H. destruct (request_height t) as [h|e| |]; try done.
  - split; [eauto|]. intros _. destruct H as [[-> _]|H]; [by left|right; eauto].
  - split; [done|]. intros [h [=]].
Qed.
Lemma bound_exact t d :
  match bound_of t d with
  | Ok n => bound_text t d n
  | Fail _ => forall n, ~ bound_text t d n
  | _ => False
  end.
Proof.
  unfold bound_of, bound_text. destruct (bytes_eqb t []) eqn:E.
  - apply bytes_eqb_spec in E. auto.
  - apply bytes_eqb_false in E. destruct (parse_uint 64 t) as [n|] eqn:P.
    + apply parse_uint_spec in P. auto.
    + intros n [[? _]|(_ & H1 & H2)]; [done|]. assert (parse_uint 64 t = Some n) by (by apply parse_uint_spec). congruence.
Qed.
Lemma bound_unique t d n m : bound_text t d n -> bound_text t d m -> n = m.
Proof.
  intros [[-> ->]|(H1 & H2 & _)] [[E ->]|(H3 & H4 & _)]; try done. by eapply decimal_unique.
Qed.
Lemma params_exact q :
  match list_params_of q with
  | Ok p => bound_text (param q (str "start")) 0 (lp_start p) /\ bound_text (param q (str "end")) 100 (lp_end p)
            /\ lp_select p = q (str "selectField")
  | Fail _ => ~ bounds_text q
  | _ => False
  end.
Proof.
  unfold list_params_of, bounds_text, start_default, end_default.
  pose proof (bound_exact (param q (str "start")) 0) as H1. destruct (bound_of _ 0%N) as [a|e| |]; try done.
  - pose proof (bound_exact (param q (str "end")) 100) as H2. destruct (bound_of _ 100%N) as [b|e| |]; try done.
    cbn [res_cast]. intros [_ [b Hb]]. by apply H2 in Hb.
  - cbn [res_cast]. intros [[a Ha] _]. by apply H1 in Ha.
Qed.

Lemma split_once_exact sep s :
  match split_once sep s with
  | (f, Some v) => ~ In sep f /\ s = f ++ sep :: v
  | (_, None) => ~ In sep s
  end.
Proof.
  induction s as [|c s IH]; cbn [split_once]; [intros []|].
  destruct (decide (c = sep)) as [->|Hc]; [split; [intros []|done]|].
  destruct (split_once sep s) as [x [v|]].
  - destruct IH as [H1 ->]. split; [|done]. intros [->|H]; [done|by apply H1].
  - intros [->|H]; [done|by apply IH].
Qed.
Lemma selects_exact text f v : selects text f v <-> split_once Byte.x3d text = (f, Some v).
Proof.
  pose proof (split_once_exact Byte.x3d text) as H. unfold selects. change (str "=") with [Byte.x3d]. cbn [app]. split.
  - intros [H1 ->]. clear H. induction f as [|c f IH]; cbn [app split_once].
    + by rewrite decide_True.
    + rewrite decide_False; [|intros ->; apply H1; by left]. rewrite IH; [done|]. intros Hi. apply H1. by right.
  - intros E. by rewrite E in H.
Qed.

(** ** Paths *)
Lemma path_part_s t : path_part t -> path_part (t ++ str "s").
Proof.
  intros (H1 & H2 & _). unfold path_part, no_slash. split; [|split; [|split]].
  - rewrite in_app_iff. intros [H|[H|[]]]; [done|discriminate].
  - by destruct t.
  - intros E. apply (f_equal (@rev _)) in E. rewrite rev_app_distr in E. discriminate.
  - intros E. apply (f_equal (@rev _)) in E. rewrite rev_app_distr in E. discriminate.
Qed.
Lemma clean_parts_ok l : Forall path_part l -> clean_parts l = true.
Proof.
  induction 1 as [|p l (_ & H2 & H3 & H4) _ IH]; [done|]. cbn [clean_parts].
  apply bytes_eqb_false in H2, H3, H4. by rewrite H2, H3, H4, IH.
Qed.
Lemma clean_of_parts l : l <> [] -> Forall no_slash l -> clean_path (path_of ([] :: l)) = clean_parts l.
Proof.
  intros H1 H2. destruct l as [|p l]; [done|]. change (path_of ([] :: p :: l)) with (slash :: path_of (p :: l)). unfold clean_path.
  rewrite bool_decide_eq_true_2 by done. cbn [andb]. f_equal. by apply split_path.
Qed.
Lemma path_inj l l' : l <> [] -> l' <> [] -> Forall no_slash l -> Forall no_slash l' -> path_of l = path_of l' -> l = l'.
Proof.
  intros H1 H2 H3 H4 E. assert (split_on slash (path_of l) = l) as <- by (by apply split_path).
  rewrite E. by apply split_path.
Qed.
Lemma no_slash_nil : no_slash [].
Proof. intros []. Qed.
Lemma slash_check v : existsb (fun c => bool_decide (c = slash)) v = false <-> no_slash v.
Proof.
  unfold no_slash. rewrite <- not_true_iff_false, existsb_exists. split.
  - intros H Hi. apply H. exists slash. by rewrite bool_decide_eq_true.
  - intros H (c & Hc & E). apply bool_decide_eq_true in E as ->. done.
Qed.

(** ** Routes *)
Section Server.
  Context {Obj Msg : Type} (O : objops Obj) (R : registry) (renders : Obj -> bool).
  Notation routes_of := (object_routes (Msg := Msg) O R renders).
  Notation serve := (serve (Msg := Msg) O R renders).
  Notation client_get := (client_get (Msg := Msg) O R).
  Notation client_list := (client_list (Msg := Msg) O R).
  Notation get_handler := (get_handler (Msg := Msg) O R renders).
  Notation list_handler := (list_handler (Msg := Msg) O R renders).
  Notation singleton_handler := (singleton_handler (Msg := Msg) O R renders).

  Fixpoint first_answer (rs : list (route (Obj := Obj))) (rq : request) (st : orm) : option (response Obj) :=
    match rs with [] => None | r :: rs' => match r rq st with Some a => Some a | None => first_answer rs' rq st end end.
  Lemma first_route_answer rs rq st : first_route rs rq st = match first_answer rs rq st with Some a => a | None => HNotFound end.
  Proof. induction rs as [|r rs IH]; [done|]. cbn. destruct (r rq st); [done|apply IH]. Qed.
  Lemma first_answer_app rs rs' rq st :
    first_answer (rs ++ rs') rq st = match first_answer rs rq st with Some a => Some a | None => first_answer rs' rq st end.
  Proof. induction rs as [|r rs IH]; [done|]. cbn. destruct (r rq st); [done|apply IH]. Qed.
  Lemma serve_at objects x rq st a : clean_path (rq_path rq) = true ->
    x ∈ objects -> first_answer (routes_of x) rq st = Some a ->
    (forall y b, y ∈ objects -> first_answer (routes_of y) rq st = Some b -> y = x) -> serve objects rq st = a.
  Proof.
    intros HC Hx Ha HU. unfold ApiServer.serve. rewrite HC, first_route_answer.
    assert (first_answer (flat_map routes_of objects) rq st = Some a) as ->; [|done].
    induction objects as [|y l IH]; [inversion Hx|]. cbn [flat_map]. rewrite first_answer_app.
    destruct (first_answer (routes_of y) rq st) as [b|] eqn:E.
    - assert (y = x) as -> by (eapply HU; [left|exact E]). congruence.
    - apply elem_of_cons in Hx as [->|Hx]; [congruence|]. apply IH; [done|]. intros z b Hz. apply HU. by right.
  Qed.
  Lemma serve_cases objects rq st : clean_path (rq_path rq) = true ->
    serve objects rq st = HNotFound /\ (forall y, y ∈ objects -> first_answer (routes_of y) rq st = None)
    \/ exists y, y ∈ objects /\ first_answer (routes_of y) rq st = Some (serve objects rq st).
  Proof.
    intros HC. unfold ApiServer.serve. rewrite HC, first_route_answer.
    induction objects as [|y l IH].
    - left. split; [done|]. intros y Hy. inversion Hy.
    - cbn [flat_map]. rewrite first_answer_app. destruct (first_answer (routes_of y) rq st) as [b|] eqn:E.
      + right. exists y. split; [left|done].
      + destruct IH as [[H1 H2]|(z & H1 & H2)].
        * left. split; [done|]. intros z Hz. apply elem_of_cons in Hz as [->|Hz]; auto.
        * right. exists z. split; [by right|done].
  Qed.

  (** What a route answers. *)
  Lemma routes_exact s d rq st a :
    path_part (api_group (s, d)) -> path_part (api_kind (s, d)) ->
    first_answer (routes_of (s, d)) rq st = Some a <->
      rq_path rq = many_path (s, d) /\ a = (if def_singleton d then singleton_handler s rq st else list_handler s rq st)
      \/ exists t, def_singleton d = false /\ rq_path rq = key_path (s, d) t /\ no_slash t /\ t <> []
           /\ a = get_handler s d [(to_lower (def_primary_key d), t)] rq st.
  Proof.
    intros Hg Hk. unfold object_routes, many_path. cbn [fst snd]. destruct (def_singleton d) eqn:Ed; cbn [first_answer].
    - unfold exact_route. change (str "/" ++ to_lower (sch_group s) ++ str "/" ++ to_lower (sch_kind s))
        with (path_of [[]; api_group (s, d); api_kind (s, d)]).
      destruct (bytes_eqb _ _) eqn:E.
      + apply bytes_eqb_spec in E. split; [intros [= <-]; by left|]. intros [[_ ->]|(t & [=] & _)]. done.
      + apply bytes_eqb_false in E. split; [discriminate|]. intros [[? _]|(t & [=] & _)]. done.
    - unfold variable_route, exact_route.
      change (str "/" ++ to_lower (sch_group s) ++ str "/" ++ to_lower (sch_kind s) ++ str "s")
        with (path_of [[]; api_group (s, d); api_kind (s, d) ++ str "s"]).
      set (p := str "/" ++ to_lower (sch_group s) ++ str "/" ++ to_lower (sch_kind s) ++ str "/").
      assert (forall t, key_path (s, d) t = p ++ t) as HP.
      { intros t. unfold p. rewrite <- !app_assoc. reflexivity. }
      assert (forall t, no_slash t -> path_of [[]; api_group (s, d); api_kind (s, d) ++ str "s"] <> key_path (s, d) t) as HN.
      { intros t Ht E. apply path_inj in E; try done; repeat apply Forall_cons_2; try apply List.Forall_nil; try apply no_slash_nil;
          try done; try apply Hg; try apply Hk. apply (path_part_s _ Hk). }
      assert (forall t, rq_path rq = key_path (s, d) t -> has_prefix p (rq_path rq) = true /\ drop (length p) (rq_path rq) = t) as HD.
      { intros t ->. rewrite HP, drop_app. split; [|done]. apply has_prefix_spec. eauto. }
      destruct (has_prefix p (rq_path rq) && (negb (bytes_eqb (drop (length p) (rq_path rq)) [])
         && negb (existsb (fun c => bool_decide (c = slash)) (drop (length p) (rq_path rq))))) eqn:E.
      + apply andb_prop in E as [E1 E]. rewrite E1, E. apply andb_prop in E as [E2 E3].
        apply has_prefix_spec in E1 as [t Et]. rewrite Et, drop_app in E2, E3 |- *.
        apply negb_true_iff in E2, E3. apply bytes_eqb_false in E2. apply slash_check in E3.
        split.
        * intros [= <-]. right. exists t. by rewrite HP.
        * intros [[E _]|(t' & _ & E & _ & _ & ->)].
          -- exfalso. apply (HN t E3). by rewrite HP.
          -- rewrite HP in E. apply app_inv_head in E as ->. done.
      + match goal with |- context [match ?x with Some a => Some a | None => _ end] => assert (x = None) as -> end.
        { destruct (has_prefix p _); [|done]. cbn [andb] in E. by rewrite E. }
        assert (forall t, rq_path rq = key_path (s, d) t -> no_slash t -> t <> [] -> False) as HX.
        { intros t Ht H1 H2. destruct (HD t Ht) as [D1 D2]. rewrite D1, D2 in E. cbn [andb] in E.
          apply bytes_eqb_false in H2. apply slash_check in H1. rewrite H1, H2 in E. discriminate. }
        clear E HD. destruct (bytes_eqb (rq_path rq) _) eqn:Em.
        * apply bytes_eqb_spec in Em. split; [intros [= <-]; by left|]. intros [[_ ->]|(t & _ & E' & H1 & H2 & _)]; [done|].
          exfalso. by eapply HX.
        * apply bytes_eqb_false in Em. split; [discriminate|]. intros [[? _]|(t & _ & E' & H1 & H2 & _)]; [done|].
          exfalso. by eapply HX.
  Qed.

  Section Objects.
    Context (fuel : nat) (D : descs) (objects : list (schema * definition)) (HB : served_by fuel D R objects).
    Lemma many_clean x : x ∈ objects -> clean_path (many_path x) = true.
    Proof.
      intros Hx. destruct (sb_parts _ _ _ _ HB _ Hx) as [Hg Hk]. pose proof (path_part_s _ Hk) as Hs. unfold many_path.
      rewrite clean_of_parts; [apply clean_parts_ok|done|];
        repeat apply Forall_cons_2; try apply List.Forall_nil; try apply Hg; destruct (def_singleton x.2); try apply Hk; apply Hs.
    Qed.
    Lemma key_clean x t : x ∈ objects -> no_slash t -> t <> [] -> clean_path (key_path x t) = true <-> path_part t.
    Proof.
      intros Hx Ht Hn. destruct (sb_parts _ _ _ _ HB _ Hx) as [Hg Hk]. unfold key_path.
      rewrite clean_of_parts; [|done|repeat apply Forall_cons_2; try apply List.Forall_nil; try apply Hg; try apply Hk; done].
      split; [|intros; apply clean_parts_ok; repeat apply Forall_cons_2; done || apply List.Forall_nil].
      cbn [clean_parts]. intros H. apply andb_prop in H as [_ H]. apply andb_prop in H as [_ H]. apply andb_prop in H as [H _].
      apply negb_true_iff in H. apply orb_false_elim in H as [H _]. apply orb_false_elim in H as [H1 H2].
      apply bytes_eqb_false in H1, H2. done.
    Qed.
    Lemma answers_unique x y rq st a b : x ∈ objects -> y ∈ objects ->
      first_answer (routes_of x) rq st = Some a -> first_answer (routes_of y) rq st = Some b -> y = x.
    Proof.
      intros Hx Hy. destruct x as [s d], y as [s' d']. 
      destruct (sb_parts _ _ _ _ HB _ Hx) as [Hg Hk], (sb_parts _ _ _ _ HB _ Hy) as [Hg' Hk'].
      rewrite !routes_exact by done.
      assert (forall (x y : schema * definition) t, path_part (api_group x) -> path_part (api_kind x) ->
         path_part (api_group y) -> path_part (api_kind y) -> no_slash t -> many_path x <> key_path y t) as HN.
      { intros x y t Hx1 Hx2 Hy1 Hy2 Ht E. pose proof (path_part_s _ Hx2) as Hs. apply path_inj in E; try done;
          repeat apply Forall_cons_2; try apply List.Forall_nil; try apply no_slash_nil; try apply Hx1; try apply Hy1; try apply Hy2; try done.
        destruct (def_singleton _); [apply Hx2|apply Hs]. }
      intros [[E1 _]|(t & E0 & E1 & E2 & E3 & _)] [[E1' _]|(t' & E0' & E1' & E2' & E3' & _)].
      - apply (sb_many _ _ _ _ HB); [done..|congruence].
      - exfalso. apply (HN (s, d) (s', d') t'); try done. congruence.
      - exfalso. apply (HN (s', d') (s, d) t); try done. congruence.
      - rewrite E1 in E1'. unfold key_path in E1'. apply path_inj in E1'; try done;
          try (repeat apply Forall_cons_2; try apply List.Forall_nil; try apply no_slash_nil; try apply Hg; try apply Hg'; try apply Hk; try apply Hk'; done).
        injection E1' as Eg Ek _. apply (sb_keys _ _ _ _ HB); try done. unfold key_path. congruence.
    Qed.
    Lemma serve_key s d t rq st : (s, d) ∈ objects -> def_singleton d = false ->
      rq_path rq = key_path (s, d) t -> path_part t ->
      serve objects rq st = get_handler s d [(to_lower (def_primary_key d), t)] rq st.
    Proof.
      intros Hx Hd Hp (H1 & H2 & H34). assert (path_part t) as HT by done.
      destruct (sb_parts _ _ _ _ HB _ Hx) as [Hg Hk].
      assert (first_answer (routes_of (s, d)) rq st = Some (get_handler s d [(to_lower (def_primary_key d), t)] rq st)) as HA.
      { apply routes_exact; [done..|]. right. eauto 10. }
      eapply serve_at; [|done|exact HA|].
      - rewrite Hp. by apply key_clean.
      - intros y b Hy Hb. by eapply answers_unique.
    Qed.
    Lemma serve_many s d rq st : (s, d) ∈ objects -> rq_path rq = many_path (s, d) ->
      serve objects rq st = if def_singleton d then singleton_handler s rq st else list_handler s rq st.
    Proof.
      intros Hx Hp. destruct (sb_parts _ _ _ _ HB _ Hx) as [Hg Hk].
      assert (first_answer (routes_of (s, d)) rq st = Some (if def_singleton d then singleton_handler s rq st else list_handler s rq st)) as HA.
      { apply routes_exact; [done..|]. by left. }
      eapply serve_at; [|done|exact HA|].
      - rewrite Hp. by apply many_clean.
      - intros y b Hy Hb. by eapply answers_unique.
    Qed.
    (** Every request: redirected, not found, or one of the two. *)
    Lemma serve_every rq st :
      serve objects rq st = HRedirect
      \/ serve objects rq st = HNotFound
      \/ (exists s d, (s, d) ∈ objects /\ rq_path rq = many_path (s, d)
           /\ serve objects rq st = if def_singleton d then singleton_handler s rq st else list_handler s rq st)
      \/ exists s d t, (s, d) ∈ objects /\ def_singleton d = false /\ rq_path rq = key_path (s, d) t /\ path_part t
           /\ serve objects rq st = get_handler s d [(to_lower (def_primary_key d), t)] rq st.
    Proof.
      destruct (clean_path (rq_path rq)) eqn:HC; [|left; unfold ApiServer.serve; by rewrite HC].
      destruct (serve_cases objects rq st HC) as [[H _]|([s d] & Hx & H)]; [by right; left|].
      destruct (sb_parts _ _ _ _ HB _ Hx) as [Hg Hk]. apply routes_exact in H; [|done..].
      destruct H as [[H1 H2]|(t & H1 & H2 & H3 & H4 & H5)].
      - right. right. left. eauto.
      - right. right. right. exists s, d, t. rewrite H2 in HC. apply key_clean in HC; done.
    Qed.
  End Objects.

  (** ** The client *)
  Lemma client_get_orm ty id h st : client_get ty id h st = orm_get O R ty id st.
  Proof. unfold ApiServer.client_get, orm_client. destruct (N.eqb h 0); reflexivity. Qed.
  Lemma selections_options s l opts : selections s l = Ok opts ->
    exists fvs, opts = map (fun fv : bytes * bytes => ListMatchFieldString fv.1 fv.2) fvs
      /\ Forall2 (fun text (fv : bytes * bytes) => selects text fv.1 fv.2 /\ exists ix, ix ∈ sch_indexes s /\ ix_name ix = fv.1) l fvs.
  Proof.
    revert opts. induction l as [|text l IH]; intros opts; cbn [selections].
    - intros [= <-]. exists []. split; [done|constructor].
    - destruct (split_once Byte.x3d text) as [f [v|]] eqn:E; [|discriminate].
      destruct (indexer_of s f) as [ix| | |] eqn:Ei; try discriminate.
      destruct (selections s l) as [opts'| | |]; try discriminate. intros [= <-].
      destruct (IH _ eq_refl) as (fvs & -> & HF). exists ((f, v) :: fvs). split; [done|]. constructor; [|done].
      cbn [fst snd]. split; [by apply selects_exact|]. unfold indexer_of in Ei.
      destruct (List.find _ (rev (sch_indexes s))) as [ix'|] eqn:Ef; [|discriminate]. injection Ei as ->.
      apply List.find_some in Ef as [Hi Hn]. apply bytes_eqb_spec in Hn. exists ix. split; [|done].
      apply elem_of_list_In. by apply in_rev.
  Qed.
  Lemma selections_complete s l fvs :
    Forall2 (fun text (fv : bytes * bytes) => selects text fv.1 fv.2 /\ exists ix, ix ∈ sch_indexes s /\ ix_name ix = fv.1) l fvs ->
    selections s l = Ok (map (fun fv : bytes * bytes => ListMatchFieldString fv.1 fv.2) fvs).
  Proof.
    induction 1 as [|text [f v] l fvs [H1 (ix & Hi & Hn)] _ IH]; [done|]. cbn [selections fst snd map] in *.
    apply selects_exact in H1. rewrite H1. unfold indexer_of.
    destruct (List.find (fun ix => bytes_eqb (ix_name ix) f) (rev (sch_indexes s))) as [ix'|] eqn:Ef.
    - by rewrite IH.
    - exfalso. assert (In ix (rev (sch_indexes s))) as HI by (apply in_rev; rewrite rev_involutive; by apply elem_of_list_In).
      pose proof (List.find_none _ _ Ef ix HI) as H. cbn in H. apply bytes_eqb_false in H. done.
  Qed.
  Lemma options_of_list h a b fvs :
    list_options_of (ListRange a b :: (if N.eqb h 0 then [] else [ListAtHeight h])
                       ++ map (fun fv : bytes * bytes => ListMatchFieldString fv.1 fv.2) fvs)
    = {| lr_height := 0; lr_orm := {| lo_interface := []; lo_string := fvs; lo_start := a; lo_end := b |} |}.
  Proof.
    unfold list_options_of. cbn [fold_left apply_list_option]. rewrite fold_left_app.
    assert (forall r, fold_left apply_list_option (if N.eqb h 0 then [] else [ListAtHeight h]) r = r) as -> by (intros r; by destruct (N.eqb h 0)).
    cbn [lr_height lr_orm lo_interface lo_string].
    assert (forall acc, fold_left apply_list_option (map (fun fv : bytes * bytes => ListMatchFieldString fv.1 fv.2) fvs)
      {| lr_height := 0; lr_orm := {| lo_interface := []; lo_string := acc; lo_start := a; lo_end := b |} |}
      = {| lr_height := 0; lr_orm := {| lo_interface := []; lo_string := acc ++ fvs; lo_start := a; lo_end := b |} |}) as H.
    { induction fvs as [|[f v] fvs IH]; intros acc; [by rewrite app_nil_r|]. cbn [map fold_left apply_list_option fst snd lr_height lr_orm lo_interface lo_string lo_start lo_end].
      rewrite IH. by rewrite <- app_assoc. }
    apply (H []).
  Qed.
  Lemma client_list_orm ty h a b fvs st :
    client_list ty (ListRange a b :: (if N.eqb h 0 then [] else [ListAtHeight h])
                       ++ map (fun fv : bytes * bytes => ListMatchFieldString fv.1 fv.2) fvs) st
    = orm_list R ty {| lo_interface := []; lo_string := fvs; lo_start := a; lo_end := b |} st.
  Proof. unfold ApiServer.client_list, orm_client. cbv zeta. rewrite options_of_list. reflexivity. Qed.
  (** The bounds are not looked at. *)
  Lemma orm_list_bounds ty f t a b a' b' st :
    orm_list R ty {| lo_interface := f; lo_string := t; lo_start := a; lo_end := b |} st
    = orm_list R ty {| lo_interface := f; lo_string := t; lo_start := a'; lo_end := b' |} st.
  Proof. reflexivity. Qed.

  (** ** What is found *)
  Lemma text_cases k t : new_kind_encoder k = Ok k -> k <> Sint64Kind ->
    (exists v, encode_string k t = Ok v /\ denotes k t v)
    \/ (exists e, encode_string k t = Fail e) /\ forall v, ~ denotes k t v.
  Proof.
    intros Hk Hs. destruct (encode_string k t) as [v|e| |] eqn:E.
    - left. exists v. split; [done|]. by apply encode_string_denotes.
    - right. split; [eauto|]. intros v Hv. apply encode_string_denotes in Hv; [congruence|done..].
    - destruct k; cbn in E; unfold opt_res in E; try discriminate; try done;
        match type of E with context [match ?x with _ => _ end] => destruct x end; discriminate.
    - destruct k; cbn in E; unfold opt_res in E; try discriminate; try done;
        match type of E with context [match ?x with _ => _ end] => destruct x end; discriminate.
  Qed.
  Lemma denotes_unique k t v w : new_kind_encoder k = Ok k -> k <> Sint64Kind -> denotes k t v -> denotes k t w -> v = w.
  Proof. intros Hk Hs H1 H2. apply encode_string_denotes in H1, H2; try done. congruence. Qed.

  Context (S : gmap (bytes * bytes) Obj) (st : orm).
  Context (HC : codec_ok O) (HR : registry_ok R) (HP : repr O R S st).
  Lemma entry_of ty id o s : rg_schemas R !! ty = Some s -> S !! (ty, id) = Some o -> wf_entry O R ty id o s.
  Proof.
    intros Hs Ho. destruct (re_wf _ _ _ _ HP _ _ _ Ho) as (s' & HW). pose proof (we_schema _ _ _ _ _ _ HW) as E.
    rewrite Hs in E. injection E as <-. done.
  Qed.
  Lemma get_stored ty s f k v id : rg_schemas R !! ty = Some s -> sch_singleton s = false -> sch_pk s = Some (f, k) ->
    encode_value k v = Ok id -> value_ok k v = true ->
    match orm_get O R ty id st with
    | Ok o => S !! (ty, id) = Some o /\ oo_get O o f = v
    | Fail _ => forall o, ~ stored_with O S ty f v o
    | _ => False
    end.
  Proof.
    intros Hs Hn Hpk He Hv. destruct (get_refines O R S st ty id HC HR HP) as [H1 H2].
    assert (forall o id', S !! (ty, id') = Some o -> oo_get O o f = v -> id' = id) as HI.
    { intros o id' Ho Hf. pose proof (we_pk _ _ _ _ _ _ (entry_of _ _ _ _ Hs Ho)) as Hp. unfold pk_of, code in Hp.
      rewrite Hn, Hpk, Hf, He in Hp. done. }
    unfold spec_get in H1, H2. rewrite Hs in H1, H2.
    destruct (decide (id = [])) as [->|Hne]; cbn [fst snd] in *.
    - destruct (orm_get O R ty [] st) as [o|e| |]; try discriminate. intros o (id' & Ho & Hf).
      pose proof (we_ne _ _ _ _ _ _ (entry_of _ _ _ _ Hs Ho)) as N. by rewrite (HI _ _ Ho Hf) in N.
    - destruct (S !! (ty, id)) as [o|] eqn:Ho; cbn [fst snd] in *.
      + destruct (orm_get O R ty id st) as [o'|e| |]; try discriminate. injection H2 as ->. split; [done|].
        pose proof (entry_of _ _ _ _ Hs Ho) as HW.
        pose proof (we_pk _ _ _ _ _ _ HW) as Hp. unfold pk_of, code in Hp. rewrite Hn, Hpk in Hp.
        destruct (we_typed _ _ _ _ _ _ HW) as [Ht _]. rewrite Hpk in Ht.
        destruct (encode_value_total _ _ Ht) as [b Eb]. rewrite Eb in Hp. subst b.
        by apply (encode_value_inj_ok k _ _ id).
      + destruct (orm_get O R ty id st) as [o'|e| |]; try discriminate.
        intros o (id' & Ho' & Hf). rewrite (HI _ _ Ho' Hf) in Ho'. congruence.
  Qed.
  Lemma get_at ty s id o : rg_schemas R !! ty = Some s -> S !! (ty, id) = Some o -> orm_get O R ty id st = Ok o.
  Proof.
    intros Hs Ho. destruct (get_refines O R S st ty id HC HR HP) as [_ H]. unfold spec_get in H. rewrite Hs in H.
    pose proof (we_ne _ _ _ _ _ _ (entry_of _ _ _ _ Hs Ho)) as N. rewrite decide_False, Ho in H by done. cbn [fst snd] in H.
    destruct (orm_get O R ty id st); congruence.
  Qed.
  Lemma get_singleton ty s : rg_schemas R !! ty = Some s ->
    match orm_get O R ty singleton_id st with
    | Ok o => S !! (ty, singleton_id) = Some o
    | Fail _ => S !! (ty, singleton_id) = None
    | _ => False
    end.
  Proof.
    intros Hs. destruct (get_refines O R S st ty singleton_id HC HR HP) as [H1 H2]. unfold spec_get in H1, H2. rewrite Hs in H1, H2.
    rewrite decide_False in H1, H2 by done. destruct (S !! (ty, singleton_id)); cbn [fst snd] in *;
      destruct (orm_get O R ty singleton_id st); try discriminate; congruence.
  Qed.
  Lemma fetch_all ty s ids : rg_schemas R !! ty = Some s -> (forall id, id ∈ ids -> exists o, S !! (ty, id) = Some o) ->
    exists l, fetch O R ty ids st = Ok l /\ Forall2 (fun id o => S !! (ty, id) = Some o) ids l.
  Proof.
    intros Hs. induction ids as [|id ids IH]; intros H; cbn [fetch].
    - exists []. split; [done|constructor].
    - destruct (H id) as [o Ho]; [left|]. unfold orm_iter_get. rewrite (get_at _ _ _ _ Hs Ho).
      destruct IH as (l & -> & HF); [intros i Hi; apply H; by right|]. exists (o :: l). split; [done|]. by constructor.
  Qed.

  Section Keyed.
    Context (s : schema) (d : definition) (Hs : rg_schemas R !! sch_name s = Some s).
    Lemma get_outcomes k t rq : sch_singleton s = false -> sch_pk s = Some (def_primary_key d, k) ->
      new_kind_encoder k = Ok k -> k <> Sint64Kind ->
      to_lower (def_primary_key d) = def_primary_key d -> (blen t < 2 ^ 63)%N -> height_text (rq_height rq) ->
      match get_handler s d [(to_lower (def_primary_key d), t)] rq st with
      | HObject o => renders o = true /\ exists v, denotes k t v /\ stored_with O S (sch_name s) (def_primary_key d) v o
      | HNotFound => exists v, denotes k t v /\ forall o, ~ stored_with O S (sch_name s) (def_primary_key d) v o
      | HBadRequest => forall v, ~ denotes k t v
      | HAborted => exists v o, denotes k t v /\ stored_with O S (sch_name s) (def_primary_key d) v o /\ renders o = false
      | _ => False
      end.
    Proof.
      intros Hn Hpk Hk Hk' Hl Ht Hh. apply height_ok in Hh as [h Hh]. unfold ApiServer.get_handler. rewrite Hh, Hl. cbn [List.find fst].
      assert (bytes_eqb (def_primary_key d) (def_primary_key d) = true) as -> by (by apply bytes_eqb_spec).
      unfold encode_primary_key_string. rewrite Hn, Hpk.
      destruct (text_cases k t Hk Hk') as [(v & -> & Hv)|[[e ->] Hv]]; [|done].
      assert (value_ok k v = true) as Hok by (by eapply denotes_value_ok).
      destruct (encode_value_total _ _ Hok) as [id E]. rewrite E, client_get_orm.
      pose proof (get_stored _ _ _ _ _ _ Hs Hn Hpk E Hok) as HG.
      destruct (orm_get O R (sch_name s) id st) as [o|e| |]; try done.
      - destruct HG as [HG1 HG2]. unfold write_object. destruct (renders o) eqn:Er.
        + split; [done|]. exists v. split; [done|]. by exists id.
        + exists v, o. split; [done|]. split; [by exists id|done].
      - exists v. done.
    Qed.
    Lemma get_camel t rq : to_lower (def_primary_key d) <> def_primary_key d ->
      get_handler s d [(to_lower (def_primary_key d), t)] rq st = HBadRequest.
    Proof.
      intros Hl. unfold ApiServer.get_handler. destruct (request_height _); try done. cbn [List.find fst].
      apply bytes_eqb_false in Hl. by rewrite Hl.
    Qed.
    Lemma get_bad_height vars rq : ~ height_text (rq_height rq) -> get_handler s d vars rq st = HBadRequest.
    Proof.
      intros H. unfold ApiServer.get_handler. destruct (request_height (rq_height rq)) eqn:E; try done. destruct H. apply height_ok. eauto.
    Qed.
    Lemma singleton_outcomes rq :
      match singleton_handler s rq st with
      | HObject o => height_text (rq_height rq) /\ renders o = true /\ S !! (sch_name s, singleton_id) = Some o
      | HNotFound => height_text (rq_height rq) /\ S !! (sch_name s, singleton_id) = None
      | HBadRequest => ~ height_text (rq_height rq)
      | HAborted => height_text (rq_height rq) /\ exists o, S !! (sch_name s, singleton_id) = Some o /\ renders o = false
      | _ => False
      end.
    Proof.
      unfold ApiServer.singleton_handler. destruct (request_height (rq_height rq)) as [h| | |] eqn:E;
        try (rewrite height_ok; intros [h Hh]; congruence).
      assert (height_text (rq_height rq)) as Hh by (apply height_ok; eauto).
      rewrite client_get_orm. pose proof (get_singleton _ _ Hs) as HG.
      destruct (orm_get O R (sch_name s) singleton_id st) as [o| | |]; try done.
      unfold write_object. destruct (renders o) eqn:Er; eauto.
    Qed.

    (** *** Lists *)
    Lemma select_cases text :
      (exists f k t, selection s text f k t) \/ forall f k t, ~ selection s text f k t.
    Proof.
      destruct (split_once Byte.x3d text) as [f [t|]] eqn:E.
      - destruct (indexer_of s f) as [ix| | |] eqn:Ei.
        + left. apply indexer_of_in in Ei as [Hi Hn]. exists f, (ix_kind ix), t. split; [by apply selects_exact|]. destruct ix. cbn in Hn. by subst.
        + right. intros f' k t' [H1 H2]. apply selects_exact in H1. rewrite E in H1. injection H1 as -> ->.
          pose proof (indexer_of_complete s {| ix_name := f'; ix_kind := k |} (so_nodup s (proj2 (HR _ _ Hs))) H2) as X.
          cbn in X. congruence.
        + unfold indexer_of in Ei. destruct (List.find _ _); discriminate.
        + unfold indexer_of in Ei. destruct (List.find _ _); discriminate.
      - right. intros f' k t' [H1 _]. apply selects_exact in H1. congruence.
    Qed.
    Lemma prefixes_string_cases fvs : Forall (fun ix => ix_kind ix <> Sint64Kind) (sch_indexes s) ->
      Forall (fun fv : bytes * bytes => (blen fv.2 < 2 ^ 63)%N /\ exists k, {| ix_name := fv.1; ix_kind := k |} ∈ sch_indexes s) fvs ->
      (forall fv, fv ∈ fvs -> exists k v, {| ix_name := fv.1; ix_kind := k |} ∈ sch_indexes s /\ denotes k fv.2 v)
        /\ (exists ps, prefixes_string s fvs = Ok ps)
      \/ (exists fv, fv ∈ fvs /\ forall k v, {| ix_name := fv.1; ix_kind := k |} ∈ sch_indexes s -> ~ denotes k fv.2 v)
        /\ exists e, prefixes_string s fvs = Fail e.
    Proof.
      intros HK. pose proof (proj2 (HR _ _ Hs)) as Hok.
      induction 1 as [|[f t] fvs [Hl (k & Hk)] _ IH]; cbn [prefixes_string fst snd] in *.
      - left. split; [|eauto]. intros fv H. inversion H.
      - pose proof (indexer_of_complete s _ (so_nodup s Hok) Hk) as E. cbn [ix_name] in E. rewrite E. unfold ix_encode_string. cbn [ix_kind].
        pose proof (so_indexes s Hok) as HF. rewrite Forall_forall in HF. pose proof (HF _ Hk) as Hk1. cbn in Hk1.
        rewrite Forall_forall in HK. pose proof (HK _ Hk) as Hk2. cbn in Hk2.
        assert (forall k', {| ix_name := f; ix_kind := k' |} ∈ sch_indexes s -> k' = k) as HU.
        { intros k' Hk'. pose proof (indexer_of_complete s _ (so_nodup s Hok) Hk') as E'. cbn [ix_name] in E'. rewrite E in E'. congruence. }
        destruct (text_cases k t Hk1 Hk2) as [(v & -> & Hv)|[[e ->] Hv]].
        + assert (value_ok k v = true) as Hov by (by eapply denotes_value_ok).
          destruct (encode_value_total _ _ Hov) as [b ->].
          destruct IH as [[H1 [ps ->]]|[(fv & H1 & H2) [e ->]]].
          * left. split; [|eauto]. intros fv Hf. apply elem_of_cons in Hf as [->|Hf]; [|auto]. exists k, v. done.
          * right. split; [|eauto]. exists fv. split; [by right|done].
        + right. split; [|eauto]. exists (f, t). split; [left|]. intros k' v Hk' Hd. apply HU in Hk' as ->. by apply (Hv v).
    Qed.
    Lemma list_outcomes rq : Forall (fun ix => ix_kind ix <> Sint64Kind) (sch_indexes s) ->
      Forall (fun t => (blen t < 2 ^ 63)%N) (rq_query rq (str "selectField")) ->
      match list_handler s rq st with
      | HObjects l => good_query s rq /\ l <> [] /\ (forall o, o ∈ l -> renders o = true)
          /\ exists text more f k t v, rq_query rq (str "selectField") = text :: more /\ selection s text f k t /\ denotes k t v
               /\ lists_stored O S (sch_name s) f v l
      | HBadRequest => good_query s rq ->
          exists text more f k t v, rq_query rq (str "selectField") = text :: more /\ selection s text f k t /\ denotes k t v
            /\ forall o, ~ stored_with O S (sch_name s) f v o
      | HAborted => good_query s rq
          /\ exists text more f k t v o, rq_query rq (str "selectField") = text :: more /\ selection s text f k t /\ denotes k t v
               /\ stored_with O S (sch_name s) f v o /\ renders o = false
      | _ => False
      end.
    Proof.
      intros HK HL. pose proof (proj2 (HR _ _ Hs)) as Hok. unfold ApiServer.list_handler.
      destruct (request_height (rq_height rq)) as [h| | |] eqn:E;
        try (intros [Hg _]; apply height_ok in Hg as [h Hh]; congruence).
      assert (height_text (rq_height rq)) as Hh by (apply height_ok; eauto).
      pose proof (params_exact (rq_query rq)) as HPX.
      destruct (list_params_of (rq_query rq)) as [p| | |]; try done; [|intros (_ & Hg & _); done].
      destruct HPX as (HP1 & HP2 & HP3). rewrite HP3.
      assert (bounds_text (rq_query rq)) as Hb by (split; eauto).
      remember (rq_query rq (str "selectField")) as texts eqn:Et.
      assert (good_query s rq -> exists fvs, Forall2 (fun text (fv : bytes * bytes) => selects text fv.1 fv.2 /\ exists ix, ix ∈ sch_indexes s /\ ix_name ix = fv.1) texts fvs) as HG.
      { intros (_ & _ & _ & Hg). rewrite <- Et in Hg. clear -Hg. induction texts as [|text texts IH]; [exists []; constructor|].
        destruct IH as [fvs IH]; [intros x Hx; apply Hg; by right|].
        destruct (Hg text) as (f & k & t & v & [H1 H2] & _); [left|]. exists ((f, t) :: fvs). constructor; [|done]. cbn. eauto. }
      destruct (selections s texts) as [opts| | |] eqn:Es;
        try (intros Hg; destruct (HG Hg) as [fvs HF]; apply selections_complete in HF; congruence).
      destruct (selections_options _ _ _ Es) as (fvs & -> & HF). clear HG Es. rewrite client_list_orm.
      destruct texts as [|text texts].
      { inversion HF. subst fvs. unfold orm_list, registry_get. rewrite Hs. cbn. intros (_ & _ & Hg & _). by rewrite <- Et in Hg. }
      assert (Forall (fun fv : bytes * bytes => (blen fv.2 < 2 ^ 63)%N /\ exists k, {| ix_name := fv.1; ix_kind := k |} ∈ sch_indexes s) fvs) as HFF.
      { clear -HF HL. induction HF as [|x [f t] l l' [[_ Hx] (ix & Hi & Hn)] _ IH]; [apply List.Forall_nil|].
        apply Forall_cons in HL as [HL1 HL2]. apply Forall_cons. split; [|by apply IH]. cbn [fst snd] in *. split.
        - rewrite Hx in HL1. unfold blen in *. rewrite !app_length in HL1. clear -HL1. lia.
        - exists (ix_kind ix). destruct ix. cbn in Hn. by subst. }
      assert (forall x, x ∈ text :: texts -> exists fv, fv ∈ fvs /\ selects x fv.1 fv.2) as HFW.
      { clear -HF. induction HF as [|x fv l l' [H1 _] _ IH]; intros y Hy; [inversion Hy|].
        apply elem_of_cons in Hy as [->|Hy]; [exists fv; split; [left|done]|]. destruct (IH _ Hy) as (fv' & ? & ?). exists fv'. split; [by right|done]. }
      assert (forall fv, fv ∈ fvs -> exists x, x ∈ text :: texts /\ selects x fv.1 fv.2) as HFB.
      { clear -HF. induction HF as [|x fv l l' [H1 _] _ IH]; intros y Hy; [inversion Hy|].
        apply elem_of_cons in Hy as [->|Hy]; [exists x; split; [left|done]|]. destruct (IH _ Hy) as (x' & ? & ?). exists x'. split; [by right|done]. }
      destruct (prefixes_string_cases fvs HK HFF) as [[HA [ps Hps]]|[(fv & Hfv & HN) [e He]]].
      - assert (good_query s rq) as HGQ.
        { split; [done|]. split; [done|]. rewrite <- Et. split; [done|]. intros x Hx. destruct (HFW x Hx) as ([f t] & H1 & H2).
          destruct (HA _ H1) as (k & v & H3 & H4). exists f, k, t, v. done. }
        inversion HF as [|? [f t] ? fvs' [H1 _] HF' Ha Hb']. subst. clear HF.
        destruct (HA (f, t)) as (k & v & H2 & H3); [left|]. cbn [fst snd] in *.
        assert (selection s text f k t) as HSel by done.
        assert (value_ok k v = true) as Hov.
        { apply Forall_cons in HFF as [[HFF _] _]. by eapply denotes_value_ok. }
        destruct (encode_value_total _ _ Hov) as [b Eb].
        assert (list_answers O S (sch_name s) f v (orm_list R (sch_name s)
           {| lo_interface := []; lo_string := (f, t) :: fvs'; lo_start := lp_start p; lo_end := lp_end p |} st)) as HLA.
        { cbn [prefixes_string] in Hps. pose proof (indexer_of_complete s _ (so_nodup s Hok) H2) as Ei. cbn [ix_name] in Ei.
          rewrite Ei in Hps. unfold ix_encode_string in Hps. cbn [ix_kind ix_name] in Hps.
          pose proof (so_indexes s Hok) as HF. rewrite Forall_forall in HF. pose proof (HF _ H2) as Hk1. cbn in Hk1.
          rewrite Forall_forall in HK. pose proof (HK _ H2) as Hk2. cbn in Hk2.
          assert (encode_string k t = Ok v) as Ev by (by apply encode_string_denotes). rewrite Ev, Eb in Hps.
          destruct (prefixes_string s fvs') as [ps'| | |] eqn:Ep; try discriminate. 
          apply (list_scan O R S st (sch_name s) s {| ix_name := f; ix_kind := k |} v b _ ps' HR HP Hs H2 Hov Eb).
          unfold prefixes_to_scan. cbn [prefixes_interface lo_interface lo_string prefixes_string]. rewrite Ei. unfold ix_encode_string. cbn [ix_kind ix_name].
          rewrite Ev, Eb, Ep. done. }
        unfold list_answers in HLA. destruct (orm_list _ _ _ _) as [ids|e| |]; try done.
        + destruct HLA as [Hne [Hsort Hids]].
          destruct (fetch_all (sch_name s) s ids Hs) as (l & -> & HF2).
          { intros id Hid. apply Hids in Hid as (o & Ho & _). eauto. }
          assert (Forall2 (fun id o => S !! (sch_name s, id) = Some o /\ oo_get O o f = v) ids l) as HF3.
          { assert (forall id, id ∈ ids -> exists o, S !! (sch_name s, id) = Some o /\ oo_get O o f = v) as HX by (intros id Hid; by apply Hids).
            clear -HF2 HX. induction HF2 as [|id o ids l H _ IH]; [constructor|].
            constructor; [|apply IH; intros; apply HX; by right]. destruct (HX id) as (o' & E & E'); [left|]. rewrite H in E. by injection E as ->. }
          unfold write_list. destruct (forallb renders l) eqn:Er.
          * split; [done|]. split; [intros ->; inversion HF2; by subst|]. split.
            { intros o Ho. rewrite forallb_forall in Er. apply Er. by apply elem_of_list_In. }
            exists text, texts, f, k, t, v. do 3 (split; [done|]). exists ids. split; [done|]. split; [done|].
            intros id o Ho Hf. apply Hids. eauto.
          * split; [done|]. assert (exists o, o ∈ l /\ renders o = false) as (o & Ho & Hr).
            { clear -Er. induction l as [|o l IH]; [discriminate|]. cbn in Er. destruct (renders o) eqn:Eo.
              - destruct (IH Er) as (x & ? & ?). exists x. split; [by right|done].
              - exists o. split; [left|done]. }
            exists text, texts, f, k, t, v, o. do 3 (split; [done|]). split; [|done].
            apply elem_of_list_lookup in Ho as [i Hi]. destruct (Forall2_lookup_r _ _ _ _ _ HF3 Hi) as (id & _ & Hid). by exists id.
        + intros _. destruct HLA as [_ [_ Hids]]. exists text, texts, f, k, t, v. do 3 (split; [done|]).
          intros o (id & Ho & Hf). assert (id ∈ ([] : list bytes)) as HX by (apply Hids; eauto). inversion HX.
      - assert (exists e, orm_list R (sch_name s) {| lo_interface := []; lo_string := fvs; lo_start := lp_start p; lo_end := lp_end p |} st = Fail e) as [e' ->].
        { unfold orm_list, registry_get. rewrite Hs. unfold indexes_list, prefixes_to_scan. cbn [prefixes_interface lo_interface lo_string].
          rewrite He. cbn [res_cast]. eauto. }
        intros (_ & _ & _ & Hg). rewrite <- Et in Hg. exfalso. destruct (HFB _ Hfv) as (x & Hx & Hsx).
        destruct (Hg x Hx) as (f & k & t & v & [H1 H2] & H3). apply selects_exact in Hsx, H1. rewrite Hsx in H1. injection H1 as E1 E2.
        rewrite <- E1 in H2. rewrite <- E2 in H3. by apply (HN k v H2).
    Qed.
  End Keyed.
End Server.

Lemma parse_pk fuel D t d s : parse_object_schema fuel D t d = Ok s -> def_singleton d = false ->
  exists k, sch_pk s = Some (def_primary_key d, k).
Proof.
  unfold parse_object_schema. destruct (negb (validate d)); [discriminate|].
  destruct (has_map fuel D (ot_desc t)) as [[]| | |]; try discriminate.
  destruct (has_kinds fuel D (ot_desc t) unsupported_kinds) as [[]| | |]; try discriminate.
  intros H Hd. rewrite Hd in H. destruct (by_json_name _ _) as [fd|]; [|discriminate].
  destruct (new_kind_encoder (fd_kind fd)) as [k| | |]; try discriminate. exists k.
  destruct (Nat.eqb _ _).
  - injection H as <-. done.
  - destruct (new_indexers t (def_secondary_keys d)) as [ixs| | |]; try discriminate. injection H as <-. done.
Qed.

Lemma served_repr {Obj} (O : objops Obj) fuel D R cs l st S : codec_ok O -> built fuel D R -> Forall (call_typed O R) cs ->
  run_model O R cs = (l, Some st) -> run_spec O R cs = (l, Some S) -> repr O R S st.
Proof.
  intros HC HB HT HM HS. destruct (run_reach O fuel D R cs l st HC HB HT HM) as (S' & E & HP). rewrite HS in E. by injection E as ->.
Qed.

Section Requests.
  Context {Obj Msg : Type} (O : objops Obj) (fuel : nat) (D : descs) (R : registry) (renders : Obj -> bool)
    (objects : list (schema * definition)).
  Notation serve := (serve (Msg := Msg) O R renders objects).
  Context (st : orm) (S : gmap (bytes * bytes) Obj).
  Context (HC : codec_ok O) (HK : registry_ok R) (HR : repr O R S st) (HO : served_by fuel D R objects).
  Lemma object_facts s d : (s, d) ∈ objects -> rg_schemas R !! sch_name s = Some s /\ sch_singleton s = def_singleton d
    /\ Forall (fun ix => ix_kind ix <> Sint64Kind) (sch_indexes s)
    /\ (def_singleton d = false -> exists k, sch_pk s = Some (def_primary_key d, k) /\ new_kind_encoder k = Ok k /\ k <> Sint64Kind).
  Proof.
    intros Hx. destruct (sb_registered _ _ _ _ HO _ _ Hx) as [Hs [t Ht]]. split; [done|].
    destruct (parse_ok _ _ _ _ _ Ht) as (_ & _ & H1 & _ & _ & _ & H2). split; [done|].
    destruct (parse_kinds _ _ _ _ _ Ht) as [H3 H4]. split.
    { eapply Forall_impl; [exact H3|]. intros ix Hi. by eapply not_sint64. }
    intros Hd. destruct (parse_pk _ _ _ _ _ Ht Hd) as [k Hk]. destruct (H2 Hd) as (f & k' & E & Ek). rewrite Hk in *.
    injection E as <- <-. exists k. split; [done|]. split; [done|]. by eapply not_sint64.
  Qed.

  Lemma http_get s d k t rq : (s, d) ∈ objects -> def_singleton d = false -> sch_pk s = Some (def_primary_key d, k) ->
    to_lower (def_primary_key d) = def_primary_key d -> asks_key (s, d) t rq -> (blen t < 2 ^ 63)%N -> height_text (rq_height rq) ->
    match serve rq st with
    | HObject o => renders o = true /\ exists v, denotes k t v /\ stored_with O S (sch_name s) (def_primary_key d) v o
    | HNotFound => exists v, denotes k t v /\ forall o, ~ stored_with O S (sch_name s) (def_primary_key d) v o
    | HBadRequest => forall v, ~ denotes k t v
    | HAborted => exists v o, denotes k t v /\ stored_with O S (sch_name s) (def_primary_key d) v o /\ renders o = false
    | _ => False
    end.
  Proof.
    intros Hx Hd Hk Hl [Hp Ht] Hb Hh. destruct (object_facts s d Hx) as (H1 & H2 & H3 & H4).
    destruct (H4 Hd) as (k' & E & E1 & E2). rewrite Hk in E. injection E as <-.
    rewrite (serve_key O R renders fuel D objects HO s d t rq st Hx Hd Hp Ht).
    apply (get_outcomes O R renders S st HC HK HR s d H1 k t rq); try done. congruence.
  Qed.
  Lemma http_camel s d t rq : (s, d) ∈ objects -> def_singleton d = false ->
    to_lower (def_primary_key d) <> def_primary_key d -> asks_key (s, d) t rq -> serve rq st = HBadRequest.
  Proof.
    intros Hx Hd Hl [Hp Ht]. rewrite (serve_key O R renders fuel D objects HO s d t rq st Hx Hd Hp Ht). by apply get_camel.
  Qed.
  Lemma http_bad_height s d rq : (s, d) ∈ objects -> asks_many (s, d) rq \/ def_singleton d = false /\ (exists t, asks_key (s, d) t rq) ->
    ~ height_text (rq_height rq) -> serve rq st = HBadRequest.
  Proof.
    intros Hx [Hp|[Hd (t & Hp & Ht)]] Hh.
    - rewrite (serve_many O R renders fuel D objects HO s d rq st Hx Hp).
      assert (forall r, request_height (rq_height rq) = Ok r -> False) as HN by (intros r E; apply Hh, height_ok; eauto).
      destruct (def_singleton d); [unfold singleton_handler|unfold list_handler]; destruct (request_height (rq_height rq)); try done; by destruct (HN a).
    - rewrite (serve_key O R renders fuel D objects HO s d t rq st Hx Hd Hp Ht). by apply get_bad_height.
  Qed.
  Lemma http_singleton s d rq : (s, d) ∈ objects -> def_singleton d = true -> asks_many (s, d) rq ->
    match serve rq st with
    | HObject o => height_text (rq_height rq) /\ renders o = true /\ S !! (sch_name s, str "unique") = Some o
    | HNotFound => height_text (rq_height rq) /\ S !! (sch_name s, str "unique") = None
    | HBadRequest => ~ height_text (rq_height rq)
    | HAborted => height_text (rq_height rq) /\ exists o, S !! (sch_name s, str "unique") = Some o /\ renders o = false
    | _ => False
    end.
  Proof.
    intros Hx Hd Hp. destruct (object_facts s d Hx) as (H1 & _). rewrite (serve_many O R renders fuel D objects HO s d rq st Hx Hp), Hd.
    exact (singleton_outcomes O R renders S st HC HK HR s H1 rq).
  Qed.
  Lemma http_list s d rq : (s, d) ∈ objects -> def_singleton d = false -> asks_many (s, d) rq ->
    Forall (fun t => (blen t < 2 ^ 63)%N) (rq_query rq (str "selectField")) ->
    match serve rq st with
    | HObjects l => good_query s rq /\ l <> [] /\ (forall o, o ∈ l -> renders o = true)
        /\ exists text more f k t v, rq_query rq (str "selectField") = text :: more /\ selection s text f k t /\ denotes k t v
             /\ lists_stored O S (sch_name s) f v l
    | HBadRequest => good_query s rq ->
        exists text more f k t v, rq_query rq (str "selectField") = text :: more /\ selection s text f k t /\ denotes k t v
          /\ forall o, ~ stored_with O S (sch_name s) f v o
    | HAborted => good_query s rq
        /\ exists text more f k t v o, rq_query rq (str "selectField") = text :: more /\ selection s text f k t /\ denotes k t v
             /\ stored_with O S (sch_name s) f v o /\ renders o = false
    | _ => False
    end.
  Proof.
    intros Hx Hd Hp HL. destruct (object_facts s d Hx) as (H1 & _ & H3 & _).
    rewrite (serve_many O R renders fuel D objects HO s d rq st Hx Hp), Hd.
    exact (list_outcomes O R renders S st HC HK HR s H1 rq H3 HL).
  Qed.
  Lemma http_ignored rq rq' : rq_path rq = rq_path rq' -> rq_query rq (str "selectField") = rq_query rq' (str "selectField") ->
    height_text (rq_height rq) -> height_text (rq_height rq') -> bounds_text (rq_query rq) -> bounds_text (rq_query rq') ->
    serve rq st = serve rq' st.
  Proof.
    intros Hp Hq Hh Hh' Hb Hb'. apply height_ok in Hh as [h Hh], Hh' as [h' Hh'].
    assert (forall s, singleton_handler (Msg := Msg) O R renders s rq st = singleton_handler (Msg := Msg) O R renders s rq' st) as E1.
    { intros s. unfold singleton_handler. by rewrite Hh, Hh', !client_get_orm. }
    assert (forall s d v, get_handler (Msg := Msg) O R renders s d v rq st = get_handler (Msg := Msg) O R renders s d v rq' st) as E2.
    { intros s d v. unfold get_handler. rewrite Hh, Hh'. destruct (List.find _ v) as [[name text]|]; [|done].
      destruct (encode_primary_key_string s text); [|done..]. by rewrite !client_get_orm. }
    assert (forall s, list_handler (Msg := Msg) O R renders s rq st = list_handler (Msg := Msg) O R renders s rq' st) as E3.
    { intros s. unfold list_handler. rewrite Hh, Hh'.
      pose proof (params_exact (rq_query rq)) as P1. destruct (list_params_of (rq_query rq)) as [p| | |]; try done.
      pose proof (params_exact (rq_query rq')) as P2. destruct (list_params_of (rq_query rq')) as [p'| | |]; try done.
      destruct P1 as (_ & _ & ->), P2 as (_ & _ & ->). rewrite <- Hq.
      destruct (selections s (rq_query rq (str "selectField"))) as [opts| | |] eqn:Es; try done.
      destruct (selections_options _ _ _ Es) as (fvs & -> & _). by rewrite !client_list_orm. }
    unfold ApiServer.serve. rewrite Hp. destruct (clean_path (rq_path rq')); [|done].
    clear HO. induction objects as [|[s d] os IH]; [done|]. cbn [flat_map]. 
    rewrite !first_route_answer, !first_answer_app in *. 
    assert (first_answer (object_routes (Msg := Msg) O R renders (s, d)) rq st = first_answer (object_routes (Msg := Msg) O R renders (s, d)) rq' st) as ->.
    { unfold object_routes. destruct (def_singleton d); cbn [first_answer]; unfold exact_route, variable_route; rewrite ?Hp, ?E1, ?E3; [done|].
      cbv zeta. by rewrite E2. }
    destruct (first_answer (object_routes (Msg := Msg) O R renders (s, d)) rq' st); [reflexivity|]. exact IH.
  Qed.

  (** The objects that can be read one at a time. *)
  Lemma http_reach s d k o v : (s, d) ∈ objects -> def_singleton d = false -> sch_pk s = Some (def_primary_key d, k) ->
    stored_with O S (sch_name s) (def_primary_key d) v o ->
    (exists rq, (blen (rq_path rq) < 2 ^ 63)%N /\ serve rq st = HObject o)
    <-> renders o = true /\ to_lower (def_primary_key d) = def_primary_key d
        /\ exists t, (blen (key_path (s, d) t) < 2 ^ 63)%N /\ path_part t /\ denotes k t v.
  Proof.
    intros Hx Hd Hk (id & Ho & Hv). destruct (object_facts s d Hx) as (H1 & H2 & H3 & H4).
    destruct (H4 Hd) as (k' & E & E1 & E2). rewrite Hk in E. injection E as <-.
    pose proof (entry_of O R S st HR _ _ _ _ H1 Ho) as HW.
    assert (forall t, (blen t <= blen (key_path (s, d) t))%N) as HLen.
    { intros t. unfold key_path, path_of, blen. cbn [join]. rewrite !app_length. lia. }
    split.
    - intros (rq & Hb & Hr).
      assert (forall s' id', rg_schemas R !! sch_name s' = Some s' -> S !! (sch_name s', id') = Some o -> s' = s) as HU.
      { intros s' id' Hs' Ho'. pose proof (entry_of O R S st HR _ _ _ _ Hs' Ho') as HW'.
        pose proof (we_name _ _ _ _ _ _ HW) as N1. pose proof (we_name _ _ _ _ _ _ HW') as N2. rewrite N1 in N2. rewrite <- N2 in Hs'. congruence. }
      destruct (serve_every (Msg := Msg) O R renders fuel D objects HO rq st) as [H|[H|[(s' & d' & Hx' & Hp & H)|(s' & d' & t & Hx' & Hd' & Hp & Ht & H)]]];
        rewrite Hr in H; try discriminate.
      + destruct (object_facts s' d' Hx') as (H1' & H2' & _). destruct (def_singleton d') eqn:Hd'.
        * exfalso. pose proof (singleton_outcomes (Msg := Msg) O R renders S st HC HK HR s' H1' rq) as HX. rewrite <- H in HX.
          destruct HX as (_ & _ & HX). apply HU in HX as ->; [|done]. congruence.
        * exfalso. unfold list_handler in H. repeat match type of H with _ = match ?x with _ => _ end => destruct x; try discriminate end.
          unfold write_list in H. destruct (forallb _ _); discriminate.
      + destruct (object_facts s' d' Hx') as (H1' & H2' & _ & H4'). destruct (H4' Hd') as (k' & E' & E1' & E2').
        destruct (decide (to_lower (def_primary_key d') = def_primary_key d')) as [Hl|Hl]; [|rewrite get_camel in H by done; discriminate].
        assert (blen t < 2 ^ 63)%N as Hbt.
        { rewrite Hp in Hb. unfold key_path, path_of, blen in Hb |- *. cbn [join] in Hb. rewrite !app_length in Hb. clear -Hb. lia. }
        assert (height_text (rq_height rq)) as Hh.
        { apply height_ok. unfold get_handler in H. destruct (request_height (rq_height rq)); try discriminate. eauto. }
        pose proof (get_outcomes (Msg := Msg) O R renders S st HC HK HR s' d' H1' k' t rq) as HX.
        rewrite <- H in HX. destruct HX as (Hr' & v' & Hv' & (id' & Ho' & Hf')); try done; [congruence|].
        assert (s' = s) as -> by (by eapply HU).
        assert (def_primary_key d' = def_primary_key d /\ k' = k) as [Ep ->] by (rewrite Hk in E'; by injection E' as <- <-).
        rewrite Ep in *. split; [done|]. split; [done|]. exists t. split; [|split; [done|congruence]].
        rewrite Hp in Hb. exact Hb.
    - intros (Hr & Hl & t & Hb & Ht & Hden).
      set (rq := {| rq_path := key_path (s, d) t; rq_height := []; rq_query := fun _ => [] |}). exists rq. split; [done|].
      pose proof (HLen t) as HLt. pose proof (http_get s d k t rq Hx Hd Hk Hl (conj eq_refl Ht) (N.le_lt_trans _ _ _ HLt Hb) (or_introl eq_refl)) as HX.
      assert (forall w, denotes k t w -> w = v) as HD by (intros w Hw; by eapply denotes_unique).
      assert (forall o', stored_with O S (sch_name s) (def_primary_key d) v o' -> o' = o) as HUo.
      { intros o' (id' & Ho' & Hf'). pose proof (entry_of O R S st HR _ _ _ _ H1 Ho') as HW'.
        pose proof (we_pk _ _ _ _ _ _ HW) as P1. pose proof (we_pk _ _ _ _ _ _ HW') as P2. unfold pk_of in P1, P2.
        rewrite H2, Hd, Hk, Hv in P1. rewrite H2, Hd, Hk, Hf' in P2. rewrite P1 in P2. subst id'. congruence. }
      destruct (serve rq st) as [o'| | | | |]; try done.
      + destruct HX as (_ & w & Hw & Hs'). apply HD in Hw as ->. by apply HUo in Hs' as ->.
      + by apply HX in Hden.
      + destruct HX as (w & Hw & HN). apply HD in Hw as ->. destruct (HN o). by exists id.
      + destruct HX as (w & o' & Hw & Hs' & Hr'). apply HD in Hw as ->. apply HUo in Hs' as ->. congruence.
  Qed.
End Requests.
