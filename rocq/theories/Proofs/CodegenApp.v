(** The code generated for the application. *)
From Coq Require Import NArith ZArith List Bool String Lia.
From stdpp Require Import base list option gmap.
From Verif.Model Require Import Bytes KindEncoder Desc Schema OpenApi ProtoFiles Module Universe Coin Rbac Authn Builder TestApp Codegen ProtoOptions.
From Verif.Spec Require Import DescSpec QuerySpec CodegenSpec.
From Verif.Proofs Require Import BytesFacts KVFacts AppFacts CoinFacts QueryFacts CodegenFacts.

Definition all_gen : list (filedesc * gen_message) := concat (map (fun f => map (pair f) (gen_messages f)) proto_files).
Lemma all_gen_in f m : (f, m) ∈ all_gen <-> f ∈ proto_files /\ m ∈ gen_messages f.
Proof.
  unfold all_gen. rewrite !elem_of_list_In, in_concat. split.
  - intros (l & Hl & Hm). apply in_map_iff in Hl as (f' & <- & Hf). apply in_map_iff in Hm as (m' & [= -> ->] & Hm). done.
  - intros [Hf Hm]. exists (map (pair f) (gen_messages f)). split; [apply in_map_iff; by exists f|by apply in_map].
Qed.
Lemma all_generated : forall f, f ∈ proto_files -> exists code, gen_file (gen_messages f) = Ok code.
Proof.
  assert (forallb (fun f => is_ok (gen_file (gen_messages f))) proto_files = true) as H by (vm_compute; reflexivity).
  intros f Hf. rewrite forallb_forall in H. specialize (H f). rewrite <- elem_of_list_In in H. specialize (H Hf).
  destruct (gen_file (gen_messages f)); try discriminate. by eexists.
Qed.

(** One message of each kind. *)
Definition some_msgs : list msg :=
  [CreateModuleDescriptors []; MsgSetInitChain None; MsgSetCheckTxState None; MsgSetBeginBlockState None; MsgSetDeliverTxState None;
   MsgSetEndBlockState None; MsgSetValidatorUpdates []; MsgCreateAccount None; MsgUpdateAccount None; MsgDeleteAccount None;
   MsgCreateRole None; MsgBindRole [] []; MsgSendCoins [] [] []; MsgSetBalance [] []].
Definition object_kinds : list (bytes * bytes) := map (fun o => (object_group o, object_kind o)) some_objects.
Definition msg_kinds : list (bytes * bytes) := map msg_api some_msgs.
Lemma some_msg_of t : msg_api t ∈ msg_kinds.
Proof.
  assert (exists i, nth_error msg_kinds i = Some (msg_api t)) as [i H].
  { destruct t; [exists 0%nat|exists 1%nat|exists 2%nat|exists 3%nat|exists 4%nat|exists 5%nat|exists 6%nat|exists 7%nat|exists 8%nat
      |exists 9%nat|exists 10%nat|exists 11%nat|exists 12%nat|exists 13%nat]; reflexivity. }
  apply elem_of_list_In. by eapply nth_error_In.
Qed.
Lemma object_kind_in o : (object_group o, object_kind o) ∈ object_kinds.
Proof.
  destruct (some_object_of o) as (o' & Hi & <- & <-). apply elem_of_list_In. unfold object_kinds.
  apply in_map_iff. by exists o'.
Qed.
Definition named (g k : bytes) (x : filedesc * gen_message) : bool :=
  bytes_eqb (gm_parent (snd x)) g && bytes_eqb (gm_name (snd x)) k && bytes_eqb (gm_go (snd x)) k.
Definition declares (object : bool) (x : filedesc * gen_message) : bool :=
  if object then match gm_object (snd x) with Some _ => true | None => false end else gm_transition (snd x).
Lemma kinds_declared (object : bool) g k : (g, k) ∈ (if object then object_kinds else msg_kinds) ->
  exists f m, f ∈ proto_files /\ m ∈ gen_messages f /\ gm_parent m = g /\ gm_name m = k /\ gm_go m = k /\ declares object (f, m) = true.
Proof.
  assert (forall b : bool, forallb (fun y : bytes * bytes => existsb (fun x => named (fst y) (snd y) x && declares b x) all_gen)
    (if b then object_kinds else msg_kinds) = true) as H by (intros []; vm_compute; reflexivity).
  intros Hi. specialize (H object). rewrite forallb_forall in H. specialize (H (g, k)). rewrite <- elem_of_list_In in H. specialize (H Hi).
  apply existsb_exists in H as ([f m] & Hx & H). apply elem_of_list_In, all_gen_in in Hx as [Hf Hm].
  apply andb_true_iff in H as [H Hd]. unfold named in H. cbn [fst snd] in H. rewrite !andb_true_iff, !bytes_eqb_spec in H.
  exists f, m. tauto.
Qed.
Lemma declared_kinds (object : bool) f m : f ∈ proto_files -> m ∈ gen_messages f -> declares object (f, m) = true ->
  (gm_parent m, gm_name m) ∈ (if object then object_kinds else msg_kinds).
Proof.
  assert (forall b : bool, forallb (fun x : filedesc * gen_message => negb (declares b x)
     || existsb (fun y : bytes * bytes => bytes_eqb (fst y) (gm_parent (snd x)) && bytes_eqb (snd y) (gm_name (snd x)))
         (if b then object_kinds else msg_kinds)) all_gen = true) as H by (intros []; vm_compute; reflexivity).
  intros Hf Hm Hd. specialize (H object). rewrite forallb_forall in H. specialize (H (f, m)). rewrite <- elem_of_list_In, all_gen_in in H.
  specialize (H (conj Hf Hm)). cbn [snd] in H. rewrite Hd in H. cbn [negb orb] in H. apply existsb_exists in H as ([g k] & Hx & H).
  cbn [fst snd] in H. rewrite andb_true_iff, !bytes_eqb_spec in H. destruct H as [<- <-]. by apply elem_of_list_In.
Qed.

Lemma objects_generated o : exists f code, f ∈ proto_files /\ gen_file (gen_messages f) = Ok code
  /\ GApi (object_kind o) (object_group o) (object_kind o) false ∈ code.
Proof.
  destruct (kinds_declared true _ _ (object_kind_in o)) as (f & m & Hf & Hm & E1 & E2 & E3 & Hd).
  destruct (all_generated f Hf) as [code Hc]. exists f, code. split; [done|]. split; [done|]. apply (api_written _ _ Hc).
  exists m. split; [done|]. split; [done|]. split; [done|]. split; [done|]. unfold declares in Hd. cbn [snd] in Hd. by destruct (gm_object m).
Qed.
Lemma transitions_generated t : exists f code, f ∈ proto_files /\ gen_file (gen_messages f) = Ok code
  /\ GApi (snd (msg_api t)) (fst (msg_api t)) (snd (msg_api t)) true ∈ code.
Proof.
  pose proof (some_msg_of t) as Hi. destruct (msg_api t) as [g k]. destruct (kinds_declared false _ _ Hi) as (f & m & Hf & Hm & E1 & E2 & E3 & Hd).
  destruct (all_generated f Hf) as [code Hc]. exists f, code. split; [done|]. split; [done|]. apply (api_written _ _ Hc).
  exists m. done.
Qed.
Lemma nothing_else f code typ g k tr : f ∈ proto_files -> gen_file (gen_messages f) = Ok code -> GApi typ g k tr ∈ code ->
  if tr then exists t, msg_api t = (g, k) else exists o, of_kind o g k.
Proof.
  intros Hf Hc H. apply (api_written _ _ Hc) in H as (m & Hm & -> & -> & -> & H). destruct tr.
  - pose proof (declared_kinds false f m Hf Hm H) as Hi. apply elem_of_list_In, in_map_iff in Hi as (t & Ht & _). by exists t.
  - assert (declares true (f, m) = true) as Hd by (unfold declares; cbn [snd]; by destruct (gm_object m)).
    pose proof (declared_kinds true f m Hf Hm Hd) as Hi. apply elem_of_list_In, in_map_iff in Hi as (o & [= H1 H2] & _). by exists o.
Qed.

(** The schemas of the application. *)
Section Registry.
  Context (bits : N) (verify : bytes -> bytes -> bytes -> bool) (fuel : nat) (D : descs).
  Notation R := (app_registry bits verify).
  Definition same_schema (x : filedesc * gen_message) : Prop :=
    match gm_object (snd x) with
    | Some d => exists s, parse_object_schema (S fuel) D (type_of (snd x)) (definition_of d) = Ok s
                  /\ registry_get_by_api R (gm_parent (snd x)) (gm_name (snd x)) = Ok s
    | None => True
    end.
  Lemma all_same : Forall same_schema all_gen.
  Proof.
    assert (Forall same_schema (List.filter (declares true) all_gen)) as H.
    { let l := eval vm_compute in (List.filter (declares true) all_gen) in change (Forall same_schema l).
      repeat (apply Forall_cons; split; [eexists; split; vm_compute; reflexivity|]). apply List.Forall_nil. }
    rewrite Forall_forall in *. intros x Hx. destruct (declares true x) eqn:E.
    - apply H. apply elem_of_list_In, filter_In. split; [by apply elem_of_list_In|done].
    - unfold declares in E. unfold same_schema. by destruct (gm_object (snd x)).
  Qed.
  Lemma schemas_generated f code m d : f ∈ proto_files -> gen_file (gen_messages f) = Ok code -> m ∈ gen_messages f -> gm_object m = Some d ->
    GSchema (gm_go m ++ str "Schema") (definition_of d) ∈ code
    /\ exists s, parse_object_schema (S fuel) D (type_of m) (definition_of d) = Ok s /\ registry_get_by_api R (gm_parent m) (gm_name m) = Ok s.
  Proof.
    intros Hf Hc Hm Hd. split.
    - apply (schema_written _ _ Hc). by exists m, d.
    - pose proof all_same as H. rewrite Forall_forall in H. specialize (H (f, m)). rewrite all_gen_in in H. specialize (H (conj Hf Hm)).
      unfold same_schema in H. cbn [snd] in H. by rewrite Hd in H.
  Qed.
End Registry.
