(** A board with real bytes, for the examples of C76. *)
From Coq Require Import NArith List Bool String Lia.
From Coq Require Import ZifyBool ZifyN ZifyNat.
From stdpp Require Import base list gmap.
From Verif.Model Require Import Bytes Wire KindEncoder Desc Schema Indexes Orm Users Prog Runtime Module Builder Posts.
From Verif.Spec Require Import StoreSpec PostsSpec Demo.
From Verif.Proofs Require Import BytesFacts KVFacts.

Definition demo_enc (o : board_object) : option bytes :=
  match o with
  | OPost p =>
      if small (po_id p) && small (po_creator p) && small (po_title p) && small (po_text p)
      then Some (append_bytes (po_id p) ++ append_bytes (po_creator p) ++ append_bytes (po_title p) ++ append_bytes (po_text p))
      else None
  | OBoardParams n => if (n <? 2 ^ 64)%N then Some (append_varint n) else None
  end.
Definition demo_dec (ty b : bytes) : option board_object :=
  if bytes_eqb ty ty_post then
    match consume_bytes b with
    | inl (i, r) => match consume_bytes r with
      | inl (c, r) => match consume_bytes r with
        | inl (t, r) => match consume_bytes r with
          | inl (x, []) => Some (OPost {| po_id := i; po_creator := c; po_title := t; po_text := x |})
          | _ => None end
        | _ => None end
      | _ => None end
    | _ => None end
  else match consume_varint b with inl (n, []) => Some (OBoardParams n) | _ => None end.

Lemma demo_board_codec : codec_ok (board_ops demo_enc demo_dec).
Proof.
  intros [[i c t x]|n] b; unfold obj_name; cbn [oo_marshal oo_unmarshal oo_group oo_kind board_ops demo_enc po_id po_creator po_title po_text].
  - destruct (small i && small c && small t && small x) eqn:E; [|discriminate].
    intros [= <-]. unfold small in E. unfold demo_dec. change (bytes_eqb _ ty_post) with true. cbn iota.
    do 3 (rewrite consume_bytes_append by (unfold two64; lia)).
    rewrite <- (app_nil_r (append_bytes x)). rewrite consume_bytes_append by (unfold two64; lia). reflexivity.
  - destruct (n <? 2 ^ 64)%N eqn:E; [|discriminate]. intros [= <-].
    unfold demo_dec. change (bytes_eqb _ ty_post) with false. cbn iota.
    rewrite <- (app_nil_r (append_varint n)). rewrite consume_varint_append by (unfold two64; lia). reflexivity.
Qed.

Definition ann : bytes := str "ann".
Definition hello : board_msg := {| mp_creator := ann; mp_title := str "hello"; mp_text := str "first" |}.
Definition again : board_msg := {| mp_creator := ann; mp_title := str "again"; mp_text := str "second" |}.
Definition untitled : board_msg := {| mp_creator := ann; mp_title := []; mp_text := str "text" |}.
Definition as_ann : users := users_from_string [ann].
Definition as_bob : users := users_from_string [str "bob"].
Definition demo_board : rt board_object board_msg orm := (board_start demo_enc demo_dec (fun _ _ => []) 1 true).2.
Definition demo_board_run := deliveries_from (node_step demo_enc demo_dec (fun _ _ => []) 1).
