(** A small object universe used only in the examples beside the theorems: two
    keyed types and a singleton, with a real encoding. *)
From Coq Require Import NArith List Bool String Lia.
From Coq Require Import ZifyBool ZifyN ZifyNat.
From stdpp Require Import base list gmap.
From Verif.Model Require Import Bytes Wire KindEncoder Desc Schema.
From Verif.Spec Require Import StoreSpec.
From Verif.Proofs Require Import BytesFacts KVFacts.

Inductive demo :=
| Thing (id : bytes) (n : N) (tag : bytes)
| Note (num : N)
| Config (text : bytes).

Definition demo_kind (d : demo) : bytes :=
  match d with Thing _ _ _ => str "Thing" | Note _ => str "Note" | Config _ => str "Config" end.
Definition demo_get (d : demo) (f : bytes) : pvalue :=
  match d with
  | Thing id n tag => if bytes_eqb f (str "id") then VString id
                      else if bytes_eqb f (str "n") then VUint64 n
                      else if bytes_eqb f (str "tag") then VString tag else VOther
  | Note n => if bytes_eqb f (str "num") then VUint64 n else VOther
  | Config t => if bytes_eqb f (str "text") then VString t else VOther
  end.
Definition small (b : bytes) : bool := (blen b <? 2 ^ 63)%N.
Definition demo_marshal (d : demo) : option bytes :=
  match d with
  | Thing id n tag =>
      if small id && (n <? 2 ^ 64)%N && small tag
      then Some (append_bytes id ++ append_varint n ++ append_bytes tag) else None
  | Note n => if (n <? 2 ^ 64)%N then Some (append_varint n) else None
  | Config t => Some t
  end.
Definition demo_unmarshal (ty b : bytes) : option demo :=
  if bytes_eqb ty (str "demo.v1.Thing") then
    match consume_bytes b with
    | inl (id, r) => match consume_varint r with
                     | inl (n, r) => match consume_bytes r with
                                     | inl (tag, []) => Some (Thing id n tag)
                                     | _ => None
                                     end
                     | _ => None
                     end
    | _ => None
    end
  else if bytes_eqb ty (str "demo.v1.Note") then
    match consume_varint b with inl (n, []) => Some (Note n) | _ => None end
  else if bytes_eqb ty (str "demo.v1.Config") then Some (Config b)
  else None.
Definition demo_ops : objops demo := {|
  oo_group := fun _ => str "demo.v1"; oo_kind := demo_kind; oo_get := demo_get;
  oo_marshal := demo_marshal; oo_unmarshal := demo_unmarshal |}.

Lemma demo_codec : codec_ok demo_ops.
Proof.
  intros [id n tag|n|t] b; unfold obj_name; cbn [oo_marshal oo_unmarshal oo_group oo_kind demo_ops demo_marshal demo_kind].
  - destruct (small id && (n <? 2 ^ 64)%N && small tag) eqn:E; [|discriminate].
    intros H; inversion H; subst b. unfold small in E. unfold demo_unmarshal.
    change (bytes_eqb _ (str "demo.v1.Thing")) with true. cbn iota.
    rewrite consume_bytes_append by (unfold two64; lia).
    rewrite consume_varint_append by (unfold two64; lia).
    rewrite <- (app_nil_r (append_bytes tag)).
    rewrite consume_bytes_append by (unfold two64; lia). reflexivity.
  - destruct (n <? 2 ^ 64)%N eqn:E; [|discriminate]. intros H; inversion H; subst b.
    unfold demo_unmarshal. change (bytes_eqb _ (str "demo.v1.Thing")) with false.
    change (bytes_eqb _ (str "demo.v1.Note")) with true. cbn iota.
    rewrite <- (app_nil_r (append_varint n)).
    rewrite consume_varint_append by (unfold two64; lia). reflexivity.
  - intros H; inversion H; subst b. unfold demo_unmarshal.
    change (bytes_eqb _ (str "demo.v1.Thing")) with false.
    change (bytes_eqb _ (str "demo.v1.Note")) with false.
    change (bytes_eqb _ (str "demo.v1.Config")) with true. reflexivity.
Qed.

Definition fld (name : string) (k : kind) : field :=
  {| fd_json := str name; fd_kind := k; fd_repeated := false; fd_map := None; fd_message := [] |}.
Definition demo_descs : descs := fun n => {| md_name := n; md_fields := [] |}.
Definition thing_type : objtype := {|
  ot_group := str "demo.v1"; ot_kind := str "Thing";
  ot_desc := {| md_name := str "demo.v1.Thing";
                md_fields := [fld "id" StringKind; fld "n" Uint64Kind; fld "tag" StringKind] |} |}.
Definition note_type : objtype := {|
  ot_group := str "demo.v1"; ot_kind := str "Note";
  ot_desc := {| md_name := str "demo.v1.Note"; md_fields := [fld "num" Uint64Kind] |} |}.
Definition config_type : objtype := {|
  ot_group := str "demo.v1"; ot_kind := str "Config";
  ot_desc := {| md_name := str "demo.v1.Config"; md_fields := [fld "text" StringKind] |} |}.
Definition thing_def := {| def_singleton := false; def_primary_key := str "id";
                           def_secondary_keys := [str "n"; str "tag"] |}.
Definition note_def := {| def_singleton := false; def_primary_key := str "num";
                          def_secondary_keys := [] |}.
Definition config_def := {| def_singleton := true; def_primary_key := [];
                            def_secondary_keys := [] |}.
Definition thing_schema : schema := {|
  sch_group := str "demo.v1"; sch_kind := str "Thing"; sch_singleton := false;
  sch_pk := Some (str "id", StringKind);
  sch_indexes := [{| ix_name := str "n"; ix_kind := Uint64Kind |};
                  {| ix_name := str "tag"; ix_kind := StringKind |}] |}.

Definition demo_registry : registry :=
  (add_object 3 demo_descs
     (add_object 3 demo_descs
        (add_object 3 demo_descs new_registry thing_type thing_def).2
        note_type note_def).2 config_type config_def).2.

Lemma demo_built : built 3 demo_descs demo_registry.
Proof.
  unfold demo_registry.
  assert (forall l, forallb name_char l = true -> proto_name l) as Hn.
  { intros l H. unfold proto_name. apply List.Forall_forall. apply forallb_forall. done. }
  repeat (apply built_add; [| apply Hn; vm_compute; reflexivity | | vm_compute; reflexivity]).
  - apply built_new.
  - cbn. repeat constructor; rewrite ?elem_of_cons, ?elem_of_nil; intuition discriminate.
  - constructor.
  - constructor.
Qed.

Lemma demo_thing_schema : rg_schemas demo_registry !! str "demo.v1.Thing" = Some thing_schema.
Proof. vm_compute. reflexivity. Qed.

(** Objects whose fields fit their Go types. *)
Definition demo_fits (d : demo) : bool :=
  match d with
  | Thing id n tag => small id && (n <? 2 ^ 64)%N && small tag
  | Note n => (n <? 2 ^ 64)%N
  | Config _ => true
  end.
Definition demo_call_fits (c : call demo) : bool :=
  match c with CCreate d | CUpdate d | CDelete d => demo_fits d | CGet _ _ => true end.

Definition note_schema : schema := {|
  sch_group := str "demo.v1"; sch_kind := str "Note"; sch_singleton := false;
  sch_pk := Some (str "num", Uint64Kind); sch_indexes := [] |}.
Definition config_schema : schema := {|
  sch_group := str "demo.v1"; sch_kind := str "Config"; sch_singleton := true;
  sch_pk := None; sch_indexes := [] |}.
Lemma demo_note_schema : rg_schemas demo_registry !! str "demo.v1.Note" = Some note_schema.
Proof. vm_compute. reflexivity. Qed.
Lemma demo_config_schema : rg_schemas demo_registry !! str "demo.v1.Config" = Some config_schema.
Proof. vm_compute. reflexivity. Qed.
Lemma thing_name id n tag : obj_name demo_ops (Thing id n tag) = str "demo.v1.Thing".
Proof. reflexivity. Qed.
Lemma note_name n : obj_name demo_ops (Note n) = str "demo.v1.Note".
Proof. reflexivity. Qed.
Lemma config_name t : obj_name demo_ops (Config t) = str "demo.v1.Config".
Proof. reflexivity. Qed.
Lemma thing_id id n tag : oo_get demo_ops (Thing id n tag) (str "id") = VString id.
Proof. reflexivity. Qed.
Lemma thing_n id n tag : oo_get demo_ops (Thing id n tag) (str "n") = VUint64 n.
Proof. reflexivity. Qed.
Lemma thing_tag id n tag : oo_get demo_ops (Thing id n tag) (str "tag") = VString tag.
Proof. reflexivity. Qed.
Lemma note_num n : oo_get demo_ops (Note n) (str "num") = VUint64 n.
Proof. reflexivity. Qed.

Lemma demo_typed_in d : demo_fits d = true -> typed_in demo_ops demo_registry d.
Proof.
  intros Hf s. destruct d as [id n tag|n|t].
  - rewrite thing_name, demo_thing_schema. intros Hs. assert (thing_schema = s) as <- by congruence.
    unfold demo_fits, small in Hf. unfold typed, thing_schema. cbn [sch_pk sch_indexes].
    rewrite thing_id. split; [|constructor; [|constructor; [|constructor]]];
      cbn [ix_kind ix_name]; rewrite ?thing_n, ?thing_tag; cbn [value_ok]; lia.
  - rewrite note_name, demo_note_schema. intros Hs. assert (note_schema = s) as <- by congruence.
    unfold demo_fits in Hf. unfold typed, note_schema. cbn [sch_pk sch_indexes].
    rewrite note_num. split; [cbn [value_ok]; lia|constructor].
  - rewrite config_name, demo_config_schema. intros Hs. assert (config_schema = s) as <- by congruence.
    split; [exact I|constructor].
Qed.

Lemma demo_calls_typed cs :
  forallb demo_call_fits cs = true -> Forall (call_typed demo_ops demo_registry) cs.
Proof.
  intros H. apply List.Forall_forall. intros c Hc.
  assert (demo_call_fits c = true) as Hf by (eapply forallb_forall; eauto).
  destruct c; cbn in *; auto using demo_typed_in.
Qed.
