(** Cases for the code generator. *)
From Coq Require Import NArith List Bool String.
From stdpp Require Import base list option gmap.
From Verif.Model Require Import Bytes KindEncoder Desc Schema Codegen.
From Verif.Spec Require Import DescSpec CodegenSpec DemoCodegen.
From Verif.Proofs Require Import CodegenFacts.

(** Whether a declaration is in the code: decided by position. *)
Ltac written := apply elem_of_list_In; vm_compute; repeat (first [left; reflexivity | right]).
Lemma post_code : exists code, gen_file post_file = Ok code
  /\ GApi (str "Post") (str "testmodule.v1") (str "Post") false ∈ code
  /\ GApi (str "MsgCreatePost") (str "testmodule.v1") (str "MsgCreatePost") true ∈ code
  /\ GSchema (str "PostSchema") {| def_singleton := false; def_primary_key := str "id"; def_secondary_keys := [str "creator"] |} ∈ code
  /\ GMethod (str "postClient") (str "Get") (BGet (IdOf (str "NewStringID")) (str "Post")) ∈ code
  /\ GInterface (str "ClientSet") [str "Posts"; str "Params"; str "ExecMsgCreatePost"] ∈ code.
Proof. eexists. split; [vm_compute; reflexivity|]. repeat split; written. Qed.
Lemma misspelt_refused fuel D :
  ~ forall ms code m d, Forall (fun m => json_unique (gm_desc m)) ms -> gen_file ms = Ok code -> m ∈ ms -> gm_object m = Some d ->
      exists s, parse_object_schema (S fuel) D (type_of m) (definition_of d) = Ok s.
Proof.
  intros H. assert (exists code, gen_file [misspelt] = Ok code) as [code Hc] by (eexists; vm_compute; reflexivity).
  destruct (H [misspelt] code misspelt {| so_singleton := false; so_primary_key := str "id"; so_secondary_keys := [str "author"] |}) as [s Hs].
  - apply Forall_cons. split; [|apply List.Forall_nil]. apply (bool_decide_unpack _). vm_compute. exact I.
  - exact Hc.
  - apply elem_of_list_here.
  - reflexivity.
  - vm_compute in Hs. discriminate Hs.
Qed.
Lemma numbered_get : exists code c, gen_file [numbered] = Ok code
  /\ GMethod (client_of numbered) (str "Get") (BGet (IdOf c) (str "Post")) ∈ code /\ forall v, go_id c v = None.
Proof.
  eexists. exists []. split; [vm_compute; reflexivity|]. split; [written|]. intros []; reflexivity.
Qed.
Lemma posts_methods : exists code methods, gen_file [post; posts] = Ok code
  /\ GInterface (str "ClientSet") methods ∈ code /\ ~ NoDup methods.
Proof.
  eexists. exists [str "Posts"; str "Posts"]. split; [vm_compute; reflexivity|]. split; [written|].
  intros H. apply NoDup_cons in H as [H _]. apply H. apply elem_of_list_here.
Qed.
Lemma two_client_sets ms1 ms2 code1 code2 : gen_file ms1 = Ok code1 -> gen_file ms2 = Ok code2 -> code1 <> [] -> code2 <> [] ->
  exists c1 c2, c1 ∈ code1 /\ c2 ∈ code2 /\ top_name c1 = Some (str "ClientSet") /\ top_name c2 = Some (str "ClientSet").
Proof.
  intros H1 H2 N1 N2. destruct (client_set_declared ms1 code1 H1 N1 (str "ClientSet")) as (c1 & K1 & E1); [apply elem_of_list_here|].
  destruct (client_set_declared ms2 code2 H2 N2 (str "ClientSet")) as (c2 & K2 & E2); [apply elem_of_list_here|]. exists c1, c2. done.
Qed.
