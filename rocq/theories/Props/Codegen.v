(** Theorems about the code generator: C73. *)
From Coq Require Import NArith List Bool String.
From stdpp Require Import base list option gmap.
From Verif.Model Require Import Bytes KindEncoder Desc Schema OpenApi ProtoFiles Module Universe Builder TestApp Codegen ProtoOptions.
From Verif.Spec Require Import DescSpec QuerySpec CodegenSpec DemoCodegen.
From Verif.Proofs Require Import AppFacts CodegenFacts CodegenApp CodegenCases.

(** ** C73. A file is accepted exactly if all its messages are. *)
Theorem C73_accepts ms : Forall (fun m => json_unique (gm_desc m)) ms ->
  (exists code, gen_file ms = Ok code) <-> Forall generatable ms.
Proof. exact (accepts ms). Qed.

(** The API definitions and schemas written are exactly those of the objects and
    transitions of the file. *)
Theorem C73_definitions ms code : gen_file ms = Ok code ->
  (forall typ g k tr, GApi typ g k tr ∈ code <-> exists m, m ∈ ms /\ typ = gm_go m /\ g = gm_parent m /\ k = gm_name m
     /\ if tr then gm_transition m = true else gm_object m <> None)
  /\ forall name x, GSchema name x ∈ code <->
     exists m d, m ∈ ms /\ gm_object m = Some d /\ name = gm_go m ++ str "Schema" /\ x = definition_of d.
Proof. intros H. split; [exact (api_written ms code H)|exact (schema_written ms code H)]. Qed.

Section Get.
  Context {Obj : Type} (O : objops Obj) (fuel : nat) (D : descs).
  (** Get of the generated client asks for the ID under which the store keeps the
      object with that key, if the key has less than 128 bytes. For keys that are
      neither text nor bytes there is no constructor of the ID, so that the code
      does not compile. *)
  Theorem C73_get_asks_for_the_key_partial ms code m d s : gen_file ms = Ok code -> m ∈ ms -> gm_object m = Some d -> so_singleton d = false ->
    parse_object_schema fuel D (type_of m) (definition_of d) = Ok s ->
    exists k c, sch_pk s = Some (so_primary_key d, k) /\ GMethod (client_of m) (str "Get") (BGet (IdOf c) (gm_go m)) ∈ code
    /\ forall o, value_ok k (oo_get O o (so_primary_key d)) = true ->
       match go_id c (oo_get O o (so_primary_key d)) with
       | Some id => (k = StringKind \/ k = BytesKind) /\ (encode_primary_key O s o = Ok id <-> (blen id < 128)%N)
       | None => k <> StringKind /\ k <> BytesKind
       end.
  Proof. exact (keyed_get O fuel D ms code m d s). Qed.
  Theorem C73_get_of_a_singleton ms code m d s : gen_file ms = Ok code -> m ∈ ms -> gm_object m = Some d -> so_singleton d = true ->
    parse_object_schema fuel D (type_of m) (definition_of d) = Ok s ->
    GMethod (client_of m) (str "Get") (BGet IdSingleton (gm_go m)) ∈ code /\ forall o, encode_primary_key O s o = Ok singleton_id.
  Proof. exact (singleton_get O fuel D ms code m d s). Qed.
End Get.

(** The other methods of the client, and the client set: one method for each object,
    giving its client, and one for each transition, delivering it. *)
Theorem C73_client_methods ms code m d : gen_file ms = Ok code -> m ∈ ms -> gm_object m = Some d ->
  GMethod (client_of m) (str "Create") BCreate ∈ code /\ GMethod (client_of m) (str "Update") BUpdate ∈ code
  /\ GMethod (client_of m) (str "Delete") BDelete ∈ code
  /\ (so_singleton d = false -> GMethod (client_of m) (str "List") (BList (gm_go m) (lower_camel (gm_go m) ++ str "Iterator")) ∈ code).
Proof. exact (client_methods ms code m d). Qed.
Theorem C73_client_set ms code : gen_file ms = Ok code -> code <> [] ->
  (exists methods, GInterface (str "ClientSet") methods ∈ code
     /\ forall name, name ∈ methods <-> exists m, m ∈ ms
          /\ ((exists d, gm_object m = Some d /\ set_method m d name) \/ gm_transition m = true /\ name = str "Exec" ++ gm_go m))
  /\ (forall m d name, m ∈ ms -> gm_object m = Some d -> set_method m d name -> GMethod (str "clientSet") name (BField (client_of m)) ∈ code)
  /\ (forall m, m ∈ ms -> gm_transition m = true -> GMethod (str "clientSet") (str "Exec" ++ gm_go m) BDeliver ∈ code).
Proof. exact (client_set ms code). Qed.
(** Two objects have the same method of the client set exactly if one is named
    like the plural of the other. *)
Theorem C73_accessors m1 d1 m2 d2 : gm_go m1 <> gm_go m2 -> accessor m1 d1 = accessor m2 d2 <-> plural m1 d1 m2 \/ plural m2 d2 m1.
Proof. exact (accessors_meet m1 d1 m2 d2). Qed.

(** The application: all its files are accepted. What is generated for them are
    the API definitions of its objects and transitions and no others, and the
    schemas are those of its registry. *)
Theorem C73_application bits verify fuel D :
  (forall f, f ∈ proto_files -> exists code, gen_file (gen_messages f) = Ok code)
  /\ (forall o, exists f code, f ∈ proto_files /\ gen_file (gen_messages f) = Ok code
        /\ GApi (object_kind o) (object_group o) (object_kind o) false ∈ code)
  /\ (forall t, exists f code, f ∈ proto_files /\ gen_file (gen_messages f) = Ok code
        /\ GApi (snd (msg_api t)) (fst (msg_api t)) (snd (msg_api t)) true ∈ code)
  /\ (forall f code typ g k tr, f ∈ proto_files -> gen_file (gen_messages f) = Ok code -> GApi typ g k tr ∈ code ->
        if tr then exists t, msg_api t = (g, k) else exists o, of_kind o g k)
  /\ (forall f code m d, f ∈ proto_files -> gen_file (gen_messages f) = Ok code -> m ∈ gen_messages f -> gm_object m = Some d ->
        GSchema (gm_go m ++ str "Schema") (definition_of d) ∈ code
        /\ exists s, parse_object_schema (S fuel) D (type_of m) (definition_of d) = Ok s
             /\ registry_get_by_api (app_registry bits verify) (gm_parent m) (gm_name m) = Ok s).
Proof.
  split; [exact all_generated|]. split; [exact objects_generated|]. split; [exact transitions_generated|].
  split; [exact nothing_else|exact (schemas_generated bits verify fuel D)].
Qed.

(** What is accepted need not be registrable: a secondary key that is no field. *)
Theorem C73_registrable_refuted fuel D :
  ~ forall ms code m d, Forall (fun m => json_unique (gm_desc m)) ms -> gen_file ms = Ok code -> m ∈ ms -> gm_object m = Some d ->
      exists s, parse_object_schema (S fuel) D (type_of m) (definition_of d) = Ok s.
Proof. exact (misspelt_refused fuel D). Qed.
(** Nor compile: no ID is made of a number; Post and Posts have the same method;
    two files of one package both declare ClientSet. *)
Theorem C73_number_key_refuted : exists code c, gen_file [numbered] = Ok code
  /\ GMethod (client_of numbered) (str "Get") (BGet (IdOf c) (str "Post")) ∈ code /\ forall v, go_id c v = None.
Proof. exact numbered_get. Qed.
Theorem C73_plural_refuted : exists code methods, gen_file [post; posts] = Ok code
  /\ GInterface (str "ClientSet") methods ∈ code /\ ~ NoDup methods.
Proof. exact posts_methods. Qed.
Theorem C73_two_files ms1 ms2 code1 code2 : gen_file ms1 = Ok code1 -> gen_file ms2 = Ok code2 -> code1 <> [] -> code2 <> [] ->
  exists c1 c2, c1 ∈ code1 /\ c2 ∈ code2 /\ top_name c1 = Some (str "ClientSet") /\ top_name c2 = Some (str "ClientSet").
Proof. exact (two_client_sets ms1 ms2 code1 code2). Qed.

(** The test module. *)
Example C73_case : exists code, gen_file post_file = Ok code
  /\ GApi (str "Post") (str "testmodule.v1") (str "Post") false ∈ code
  /\ GApi (str "MsgCreatePost") (str "testmodule.v1") (str "MsgCreatePost") true ∈ code
  /\ GSchema (str "PostSchema") {| def_singleton := false; def_primary_key := str "id"; def_secondary_keys := [str "creator"] |} ∈ code
  /\ GMethod (str "postClient") (str "Get") (BGet (IdOf (str "NewStringID")) (str "Post")) ∈ code
  /\ GInterface (str "ClientSet") [str "Posts"; str "Params"; str "ExecMsgCreatePost"] ∈ code.
Proof. exact post_code. Qed.

Print Assumptions C73_accepts.
Print Assumptions C73_definitions.
Print Assumptions C73_get_asks_for_the_key_partial.
Print Assumptions C73_get_of_a_singleton.
Print Assumptions C73_client_methods.
Print Assumptions C73_client_set.
Print Assumptions C73_accessors.
Print Assumptions C73_application.
Print Assumptions C73_registrable_refuted.
Print Assumptions C73_number_key_refuted.
Print Assumptions C73_plural_refuted.
Print Assumptions C73_two_files.
