(** Listing by any criteria. *)
From Coq Require Import NArith ZArith List Bool Lia.
From stdpp Require Import base list gmap.
From Verif.Model Require Import Bytes KindEncoder Desc Schema KV Objects Indexes Orm.
From Verif.Spec Require Import StoreSpec TextSpec DescSpec CriteriaSpec.
From Verif.Proofs Require Import BytesFacts KindEncoderFacts IndexFacts RegistryFacts DescFacts TextFacts OrmFacts OrmListFacts StoreProps.

Definition field_asked (c : criterion) : bytes := match c with ByValue f _ | ByText f _ => f end.
Definition encoded (ix : indexer) (c : criterion) : res bytes :=
  match c with ByValue _ g => ix_encode_interface ix g | ByText _ t => ix_encode_string ix t end.
Definition prefix_key (s : schema) (ix : indexer) (b : bytes) : index_key :=
  {| ik_object := sch_name s; ik_index := ix_name ix; ik_value := b; ik_primary := [] |}.
Definition scan_one (s : schema) (c : criterion) : res index_key :=
  match indexer_of s (field_asked c) with
  | Ok ix => match encoded ix c with
             | Ok b => Ok (prefix_key s ix b)
             | Fail _ => Fail EAnon | Panic => Panic | OutOfFuel => OutOfFuel
             end
  | _ => Fail EAnon
  end.
Fixpoint scan_all (s : schema) (l : list criterion) : res (list index_key) :=
  match l with
  | [] => Ok []
  | c :: l => match scan_one s c with
              | Ok p => match scan_all s l with Ok ps => Ok (p :: ps) | r => r end
              | Fail e => Fail e | Panic => Panic | OutOfFuel => OutOfFuel
              end
  end.

Lemma scan_texts s l : prefixes_string s l = scan_all s (map (fun c => ByText (fst c) (snd c)) l).
Proof.
  induction l as [|[f t] l IH]; [done|]. cbn [prefixes_string map scan_all fst snd]. rewrite IH.
  unfold scan_one. cbn [field_asked encoded]. destruct (indexer_of s f) as [ix| | |]; try done.
  by destruct (ix_encode_string ix t).
Qed.
Lemma scan_asked s opt : prefixes_to_scan s opt = scan_all s (asks opt).
Proof.
  unfold prefixes_to_scan, asks. rewrite scan_texts. generalize (map (fun c => ByText (fst c) (snd c)) (lo_string opt)). intros ts.
  induction (lo_interface opt) as [|[f g] l IH]; [cbn; by destruct (scan_all s ts)|].
  cbn [prefixes_interface map app scan_all fst snd]. rewrite <- IH. unfold scan_one. cbn [field_asked encoded].
  destruct (indexer_of s f) as [ix| | |]; try done. destruct (ix_encode_interface ix g); try done.
  destruct (prefixes_interface s l); try done. by destruct (scan_all s ts).
Qed.

Lemma value_cases k g : k <> Sint64Kind -> in_memory (ByValue [] g) ->
  (exists v, g = go_of v /\ value_ok k v = true /\ encode_interface k g = Ok v)
  \/ (forall v, g = go_of v -> value_ok k v = false) /\ encode_interface k g = Fail EAnon.
Proof.
  intros Hk Hm. destruct (encode_interface k g) as [v|e| |] eqn:E.
  - left. exists v. split; [|split; [|done]]; destruct k, g; cbn in E; try discriminate; injection E as <-; try done;
      cbn [value_ok]; cbn [in_memory] in Hm; rewrite ?andb_true_iff, ?Z.leb_le, ?Z.ltb_lt, ?N.ltb_lt; done.
  - right. split; [|destruct k, g; cbn in E; congruence].
    intros v ->. destruct (value_ok k v) eqn:Hv; [|done]. by rewrite (encode_interface_go k v Hv) in E.
  - exfalso. destruct k, g; cbn in E; congruence.
  - exfalso. destruct k, g; cbn in E; congruence.
Qed.
Lemma text_cases k t : k ∈ key_kinds -> (blen t < 2 ^ 63)%N ->
  (exists v, denotes k t v /\ value_ok k v = true /\ encode_string k t = Ok v)
  \/ (forall v, ~ denotes k t v) /\ exists e, encode_string k t = Fail e.
Proof.
  intros Hk Hl. pose proof (not_sint64 k Hk) as Hn. apply key_kinds_iff in Hk as [Hk _].
  destruct (encode_string k t) as [v|e| |] eqn:E.
  - left. exists v. pose proof E as E'. apply encode_string_denotes in E'; [|done..].
    split; [done|]. split; [by eapply denotes_value_ok|done].
  - right. split; [|eauto]. intros v Hd. apply encode_string_denotes in Hd; [congruence|done..].
  - exfalso. destruct k; cbn in E; unfold opt_res in E; try discriminate; try done;
        match type of E with context [match ?x with _ => _ end] => destruct x end; discriminate.
  - exfalso. destruct k; cbn in E; unfold opt_res in E; try discriminate;
        match type of E with context [match ?x with _ => _ end] => destruct x end; discriminate.
Qed.

Section Listing.
  Context {Obj : Type} (O : objops Obj).

  Lemma one_cases R ty s c : registry_ok R -> rg_schemas R !! ty = Some s ->
    Forall (fun ix => ix_kind ix ∈ key_kinds) (sch_indexes s) -> in_memory c ->
    (exists ix v b, means s c (ix_name ix) v /\ ix ∈ sch_indexes s /\ value_ok (ix_kind ix) v = true
       /\ encode_value (ix_kind ix) v = Ok b /\ scan_one s c = Ok (prefix_key s ix b))
    \/ (forall f v, ~ means s c f v) /\ scan_one s c = Fail EAnon.
  Proof.
    intros HR Hs HK Hm. destruct (HR _ _ Hs) as [En Hok]. unfold scan_one.
    destruct (indexer_of s (field_asked c)) as [ix| | |] eqn:Ei.
    2-4: right; split; [|done]; intros f v (k & Hix & Hc);
      pose proof (indexer_of_complete s {| ix_name := f; ix_kind := k |} (so_nodup s Hok) Hix) as H; cbn [ix_name] in H;
      destruct c; destruct Hc as [-> _]; cbn [field_asked] in Ei; congruence.
    apply indexer_of_in in Ei as [Hix Hf]. rewrite Forall_forall in HK. pose proof (HK ix Hix) as Hk.
    assert (HU : forall f k, {| ix_name := f; ix_kind := k |} ∈ sch_indexes s -> f = ix_name ix -> k = ix_kind ix).
    { intros f k H E. pose proof (indexer_of_complete s _ (so_nodup s Hok) H) as H1.
      pose proof (indexer_of_complete s _ (so_nodup s Hok) Hix) as H2. cbn [ix_name] in H1. rewrite E in H1. rewrite H1 in H2. by injection H2 as <-. }
    destruct c as [f g|f t]; cbn [field_asked encoded] in *; subst f.
    - unfold ix_encode_interface. destruct (value_cases (ix_kind ix) g (not_sint64 _ Hk)) as [(v & Hg & Hv & He)|[Hno He]].
      { by destruct g. }
      + rewrite He. destruct (encode_value_total _ _ Hv) as [b Hb]. left. exists ix, v, b.
        split; [|rewrite Hb; auto]. exists (ix_kind ix). split; [by destruct ix|]. auto.
      + right. rewrite He. split; [|done]. intros f v (k & Hin & <- & Hg & Hv). rewrite (HU _ _ Hin eq_refl) in Hv.
        rewrite (Hno v Hg) in Hv. discriminate.
    - unfold ix_encode_string. destruct (text_cases (ix_kind ix) t Hk Hm) as [(v & Hd & Hv & He)|[Hno [e He]]].
      + rewrite He. destruct (encode_value_total _ _ Hv) as [b Hb]. left. exists ix, v, b.
        split; [|rewrite Hb; auto]. exists (ix_kind ix). split; [by destruct ix|]. auto.
      + right. rewrite He. split; [|done]. intros f v (k & Hin & <- & Hd). rewrite (HU _ _ Hin eq_refl) in Hd. by apply (Hno v).
  Qed.
  Lemma all_cases R ty s l : registry_ok R -> rg_schemas R !! ty = Some s ->
    Forall (fun ix => ix_kind ix ∈ key_kinds) (sch_indexes s) -> Forall in_memory l ->
    (exists ps, scan_all s l = Ok ps) /\ Forall (fun c => exists f v, means s c f v) l
    \/ scan_all s l = Fail EAnon /\ Exists (fun c => forall f v, ~ means s c f v) l.
  Proof.
    intros HR Hs HK. induction 1 as [|c l Hc _ IH]; [left; cbn; eauto|]. cbn [scan_all].
    destruct (one_cases R ty s c HR Hs HK Hc) as [(ix & v & b & Hm & _ & _ & _ & ->)|[Hn ->]].
    - destruct IH as [[[ps ->] Hl]|[-> Hl]]; [left|right]; [split; [eauto|constructor; eauto]|split; [done|by right]].
    - right. split; [done|by left].
  Qed.
  Lemma list_criteria fuel D R cs l st S ty s opt :
    codec_ok O -> built fuel D R -> Forall (call_typed O R) cs ->
    run_model O R cs = (l, Some st) -> run_spec O R cs = (l, Some S) ->
    rg_schemas R !! ty = Some s -> Forall in_memory (asks opt) ->
    (forall c rest f v, asks opt = c :: rest -> Forall (fun c => exists f v, means s c f v) rest -> means s c f v ->
       list_answers O S ty f v (orm_list R ty opt st))
    /\ (asks opt = [] \/ Exists (fun c => forall f v, ~ means s c f v) (asks opt) -> answer_of (orm_list R ty opt st) = AOtherError).
  Proof.
    intros HC HB HT E Es Hs Hm. destruct (run_reach O _ _ _ _ _ _ HC HB HT E) as (S' & Es' & HP).
    rewrite Es in Es'. inversion Es'; subst S'. pose proof (built_ok _ _ _ HB) as HR. destruct (HR _ _ Hs) as [En Hok].
    assert (HK : Forall (fun ix => ix_kind ix ∈ key_kinds) (sch_indexes s)).
    { apply Forall_forall. intros ix Hix. by eapply built_kinds. }
    split.
    - intros c rest f v Ea Hrest Hc. rewrite Ea in Hm. apply Forall_cons in Hm as [Hm1 Hm2].
      destruct (one_cases R ty s c HR Hs HK Hm1) as [(ix & v' & b & Hc' & Hix & Hv & Hb & H1)|[Hn _]]; [|by destruct (Hn f v)].
      assert (f = ix_name ix) as ->.
      { destruct Hc as (k & _ & H), Hc' as (k' & _ & H'). destruct c; destruct H as [<- _], H' as [<- _]; done. }
      assert (v = v') as ->.
      { destruct Hc as (k & Hk & H), Hc' as (k' & Hk' & H').
        pose proof (indexer_of_complete s _ (so_nodup s Hok) Hk) as F1. pose proof (indexer_of_complete s _ (so_nodup s Hok) Hk') as F2.
        cbn [ix_name] in F1, F2. assert (k = k') as -> by congruence. destruct c as [f g|f t].
        - destruct H as (_ & -> & Hv1), H' as (_ & Hg & Hv2). destruct k', v, v'; cbn in Hv1, Hv2; try discriminate; cbn in Hg; congruence.
        - destruct H as (_ & Hd), H' as (_ & Hd'). pose proof Hk' as Hkk. rewrite Forall_forall in HK. apply HK in Hkk. cbn [ix_kind] in Hkk.
          pose proof (not_sint64 _ Hkk) as Hn. apply key_kinds_iff in Hkk as [Hkk _].
          apply encode_string_denotes in Hd; [|done..]. apply encode_string_denotes in Hd'; [|done..]. congruence. }
      destruct (all_cases R ty s rest HR Hs HK Hm2) as [[[ps Hps] _]|[_ Hx]].
      + eapply (list_scan O R S st ty s ix v' b opt ps); eauto. rewrite scan_asked, Ea. cbn [scan_all]. rewrite H1, Hps. done.
      + exfalso. apply Exists_exists in Hx as (c' & Hin & Hx). rewrite Forall_forall in Hrest. destruct (Hrest c' Hin) as (f' & w & Hw). by destruct (Hx f' w).
    - intros Hx. unfold orm_list, registry_get. rewrite Hs. unfold indexes_list. rewrite scan_asked.
      destruct Hx as [->|Hx]; [done|].
      destruct (all_cases R ty s (asks opt) HR Hs HK Hm) as [[_ Hl]|[-> _]]; [|done].
      exfalso. apply Exists_exists in Hx as (c' & Hin & Hx). rewrite Forall_forall in Hl. destruct (Hl c' Hin) as (f' & w & Hw). by destruct (Hx f' w).
  Qed.
End Listing.
