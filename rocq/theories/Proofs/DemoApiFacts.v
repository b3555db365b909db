(** The examples of the server. *)
From Coq Require Import NArith List Bool String Lia.
From Coq Require Import ZifyBool ZifyN ZifyNat.
From stdpp Require Import base list gmap.
From Verif.Model Require Import Bytes Wire KindEncoder Desc Schema KV Orm Strings Query ApiServer.
From Verif.Spec Require Import TextSpec StoreSpec QuerySpec ApiSpec Demo DemoApi.
From Verif.Proofs Require Import BytesFacts KVFacts RegistryFacts StoreProps ApiFacts.

Lemma path_part_check t : existsb (fun c => bool_decide (c = slash)) t = false ->
  bytes_eqb t [] || bytes_eqb t (str ".") || bytes_eqb t (str "..") = false -> path_part t.
Proof.
  intros H1 H2. apply slash_check in H1. apply orb_false_elim in H2 as [H2 H4]. apply orb_false_elim in H2 as [H2 H3].
  apply bytes_eqb_false in H2, H3, H4. done.
Qed.
Ltac part := apply path_part_check; vm_compute; reflexivity.
Ltac members H := repeat first [apply elem_of_cons in H as [H|H] | by apply elem_of_nil in H].
Lemma demo_served : served_by 3 demo_descs demo_registry demo_objects.
Proof.
  split.
  - intros s d H. unfold demo_objects in H. members H; injection H as -> ->.
    + split; [exact demo_thing_schema|]. exists thing_type. vm_compute. reflexivity.
    + split; [exact demo_note_schema|]. exists note_type. vm_compute. reflexivity.
    + split; [exact demo_config_schema|]. exists config_type. vm_compute. reflexivity.
  - intros x H. unfold demo_objects in H. members H; subst x; split; part.
  - intros x y H H'. unfold demo_objects in H, H'. members H; members H'; subst x y; try reflexivity; intros E3; vm_compute in E3; discriminate E3.
  - intros x y H H'. unfold demo_objects in H, H'. members H; members H'; subst x y; try reflexivity; intros E1 E2 E3;
      first [discriminate E1|discriminate E2|vm_compute in E3; discriminate E3].
Qed.
Lemma ticket_codec : codec_ok ticket_ops.
Proof.
  intros n b. cbn [oo_marshal oo_unmarshal ticket_ops]. destruct (n <? 2 ^ 64)%N eqn:E; [|intros H; discriminate H]. intros H. injection H as <-.
  rewrite <- (app_nil_r (append_varint n)). rewrite consume_varint_append by (unfold two64; lia). reflexivity.
Qed.
Lemma ticket_built : built 3 demo_descs ticket_registry.
Proof.
  unfold ticket_registry.
  assert (forall l, forallb name_char l = true -> proto_name l) as Hn.
  { intros l H. unfold proto_name. apply List.Forall_forall. apply forallb_forall. done. }
  apply built_add; [apply built_new | apply Hn; vm_compute; reflexivity | constructor | vm_compute; reflexivity].
Qed.
Lemma ticket_served : served_by 3 demo_descs ticket_registry [(ticket_schema, ticket_def)].
Proof.
  split.
  - intros s d H. members H. injection H as -> ->. split; [vm_compute; reflexivity|]. exists ticket_type. vm_compute. reflexivity.
  - intros x H. members H. subst x. split; part.
  - intros x y H H'. members H; members H'; subst x y; reflexivity.
  - intros x y H H'. members H; members H'; subst x y; reflexivity.
Qed.
Lemma ticket_typed n : (n < 2 ^ 64)%N -> call_typed ticket_ops ticket_registry (CCreate n).
Proof.
  intros Hn s. change (rg_schemas ticket_registry !! obj_name ticket_ops n) with (Some ticket_schema). intros [= <-].
  split; [|constructor]. cbn -[N.ltb N.pow]. by apply N.ltb_lt.
Qed.
Lemma slash_key :
  exists st S, run_model demo_ops demo_registry api_history = (replicate 6 (ASuccess, None), Some st)
    /\ run_spec demo_ops demo_registry api_history = (replicate 6 (ASuccess, None), Some S)
    /\ S !! (str "demo.v1.Thing", str "a/b") = Some (Thing (str "a/b") 8 (str "y"))
    /\ forall rq, (blen (rq_path rq) < 2 ^ 63)%N -> demo_serve rq st <> HObject (Thing (str "a/b") 8 (str "y")).
Proof.
  assert ((run_model demo_ops demo_registry api_history).1 = replicate 6 (ASuccess, None)) as E1 by (vm_compute; reflexivity).
  assert (match (run_spec demo_ops demo_registry api_history).2 with
          | Some m => m !! (str "demo.v1.Thing", str "a/b") = Some (Thing (str "a/b") 8 (str "y")) | None => False end) as E2
    by (vm_compute; reflexivity).
  assert (Forall (call_typed demo_ops demo_registry) api_history) as HT by (apply demo_calls_typed; vm_compute; reflexivity).
  assert (match (run_model demo_ops demo_registry api_history).2 with Some _ => True | None => False end) as E3 by (vm_compute; exact I).
  destruct (run_model demo_ops demo_registry api_history) as [l [st|]] eqn:Em; [|destruct E3]. cbn [fst snd] in *. subst l.
  destruct (run_reach demo_ops 3 demo_descs demo_registry _ _ _ demo_codec demo_built HT Em) as (S & Es & _).
  rewrite Es in E2. cbn [fst snd] in E2. exists st, S. split; [done|]. split; [done|]. split; [done|].
  intros rq Hb Hr.
  destruct (http_reach (Msg := unit) demo_ops 3 demo_descs demo_registry demo_renders demo_objects st S
    demo_codec (built_ok _ _ _ demo_built) (served_repr _ _ _ _ _ _ _ _ demo_codec demo_built HT Em Es) demo_served thing_schema thing_def StringKind (Thing (str "a/b") 8 (str "y")) (VString (str "a/b"))) as [HX _].
  - left.
  - reflexivity.
  - reflexivity.
  - exists (str "a/b"). split; [exact E2|reflexivity].
  - destruct HX as (_ & _ & t & _ & [Ht _] & Hd); [exists rq; split; [exact Hb|exact Hr]|]. cbn [denotes] in Hd. apply Ht. rewrite <- Hd. right. left. reflexivity.
Qed.
Lemma capital_key :
  exists st S, run_model ticket_ops ticket_registry [CCreate 7%N] = ([(ASuccess, None)], Some st)
    /\ run_spec ticket_ops ticket_registry [CCreate 7%N] = ([(ASuccess, None)], Some S)
    /\ S !! (str "demo.v1.Ticket", [N2b 7]) = Some 7%N
    /\ forall rq t, asks_key (ticket_schema, ticket_def) t rq ->
         serve (Msg := unit) ticket_ops ticket_registry (fun _ => true) [(ticket_schema, ticket_def)] rq st = HBadRequest.
Proof.
  assert ((run_model ticket_ops ticket_registry [CCreate 7%N]).1 = [(ASuccess, None)]) as E1 by (vm_compute; reflexivity).
  assert (match (run_spec ticket_ops ticket_registry [CCreate 7%N]).2 with
          | Some m => m !! (str "demo.v1.Ticket", [N2b 7]) = Some 7%N | None => False end) as E2 by (vm_compute; reflexivity).
  assert (match (run_model ticket_ops ticket_registry [CCreate 7%N]).2 with Some _ => True | None => False end) as E3 by (vm_compute; exact I).
  assert (Forall (call_typed ticket_ops ticket_registry) [CCreate 7%N]) as HT by (repeat constructor; by apply ticket_typed).
  destruct (run_model ticket_ops ticket_registry [CCreate 7%N]) as [l [st|]] eqn:Em; [|destruct E3]. cbn [fst snd] in *. subst l.
  destruct (run_reach ticket_ops 3 demo_descs ticket_registry _ _ _ ticket_codec ticket_built HT Em) as (S & Es & _).
  rewrite Es in E2. cbn [fst snd] in E2. exists st, S. split; [done|]. split; [done|]. split; [done|].
  intros rq t Ha. eapply (http_camel ticket_ops 3 demo_descs ticket_registry); [exact ticket_served|left|reflexivity| |exact Ha].
  vm_compute. discriminate.
Qed.
