(** Properties of the module of posts (testdata/testmodule): C76. *)
From Coq Require Import NArith List Bool String.
From stdpp Require Import base list gmap.
From Verif.Model Require Import Bytes KindEncoder Desc Schema Indexes Orm Users Prog Runtime Module Builder Posts.
From Verif.Spec Require Import StoreSpec PostsSpec DemoPosts.
From Verif.Proofs Require Import PostsFacts.

Section C76.
  Context (enc : board_object -> option bytes) (dec : bytes -> bytes -> option board_object).
  Context (enum : list (event board_object board_msg) -> users -> list user) (fuel : nat) (enabled : bool).
  Notation start := (board_start enc dec enum (S fuel) enabled).
  Notation run_node := (deliveries_from (node_step enc dec enum (S fuel))).
  Notation run_board := (deliveries_from (board_step enc dec)).
  Notation read id x := (rt_get (board_store enc dec) ty_post id (w_store (rt_world x))).
  Notation sizes := (Forall (fun d => (blen (mp_creator (snd d)) < 2 ^ 63)%N)).

  (** The node starts if the parameters can be written at all. *)
  Theorem C76_starts : is_Some (enc (OBoardParams 1)) -> exists x, start = (Ok tt, x).
  Proof. exact (board_starts enc dec enum fuel enabled). Qed.

  (** All deliveries, in any order and by any users, end as they do on a board
      with room for one post, and what can be read or listed is what is there.
      Missing: that every post that may be posted is (C76_second_post_refuted). *)
  Theorem C76_posts_partial ds x : codec_ok (board_ops enc dec) -> sizes ds -> start = (Ok tt, x) ->
    (run_node ds x).1 = (run_board ds None).1
    /\ match (run_node ds x).2, (run_board ds None).2 with
       | Some x', Some b => on_board enc dec x' b
       | None, None => True
       | _, _ => False
       end.
  Proof. intros HC. exact (board_run enc dec enum fuel enabled HC ds x). Qed.

  (** A post can be read ever after, unchanged. *)
  Theorem C76_post_stays ds ds' x l l' x1 x2 id o : codec_ok (board_ops enc dec) -> sizes (ds ++ ds') -> start = (Ok tt, x) ->
    run_node ds x = (l, Some x1) -> run_node ds' x1 = (l', Some x2) ->
    read id x1 = Ok o -> read id x2 = Ok o.
  Proof. intros HC. exact (post_stays enc dec enum fuel enabled HC ds ds' x l l' x1 x2 id o). Qed.

  (** Once there is a post, every message that passes admission ends the process. *)
  Theorem C76_second_post_refuted ds x l x1 us m o : codec_ok (board_ops enc dec) -> sizes ds ->
    (blen (mp_creator m) < 2 ^ 63)%N -> start = (Ok tt, x) -> run_node ds x = (l, Some x1) ->
    read (str "1") x1 = Ok o -> postable us m ->
    fst (board_deliver enc dec enum (S fuel) us m x1) = Panic.
  Proof. intros HC. exact (second_stops enc dec enum fuel enabled HC ds x l x1 us m o). Qed.
End C76.
Print Assumptions C76_starts.
Print Assumptions C76_posts_partial.
Print Assumptions C76_post_stays.
Print Assumptions C76_second_post_refuted.

(** Two refused messages, one that is stored, one refused, and the end. *)
Example C76_case : codec_ok (board_ops demo_enc demo_dec) /\ is_Some (demo_enc (OBoardParams 1))
  /\ (board_start demo_enc demo_dec (fun _ _ => []) 1 true).1 = Ok tt
  /\ postable as_ann hello /\ postable as_ann again
  /\ (demo_board_run [(as_bob, hello); (as_ann, untitled); (as_ann, hello); (as_bob, again)] demo_board).1
     = [Refused; Refused; Stored; Refused]
  /\ option_map (fun x => rt_get (board_store demo_enc demo_dec) ty_post (str "1") (w_store (rt_world x)))
       (demo_board_run [(as_ann, hello); (as_bob, again)] demo_board).2 = Some (Ok (OPost (numbered (str "1") hello)))
  /\ demo_board_run [(as_ann, hello); (as_ann, again); (as_ann, hello)] demo_board = ([Stored; Stopped], None).
Proof.
  split; [exact demo_board_codec|]. split; [eexists; reflexivity|]. split; [vm_compute; reflexivity|].
  split; [split; [apply elem_of_dom_2 with (default_user ann); reflexivity|split; discriminate]|].
  split; [split; [apply elem_of_dom_2 with (default_user ann); reflexivity|split; discriminate]|].
  split; [vm_compute; reflexivity|]. split; vm_compute; reflexivity.
Qed.
