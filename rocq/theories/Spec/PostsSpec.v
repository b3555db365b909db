(** What the module of posts does: a board with room for one post. *)
From Coq Require Import NArith List Bool String.
From stdpp Require Import base list gmap.
From Verif.Model Require Import Bytes KindEncoder Desc Schema Indexes Orm Users Prog Runtime Module Builder Posts.
From Verif.Spec Require Import StoreSpec.

(** The users may post the message. *)
Definition postable (us : users) (m : board_msg) : Prop :=
  mp_creator m ∈ dom us /\ mp_title m <> [] /\ mp_text m <> [].
Global Instance postable_dec us m : Decision (postable us m).
Proof. unfold postable. apply _. Defined.

(** The post that a message becomes. *)
Definition numbered (id : bytes) (m : board_msg) : post :=
  {| po_id := id; po_creator := mp_creator m; po_title := mp_title m; po_text := mp_text m |}.

Definition post_schema : schema := {|
  sch_group := str "testmodule.v1"; sch_kind := str "Post"; sch_singleton := false;
  sch_pk := Some (str "id", StringKind);
  sch_indexes := [{| ix_name := str "creator"; ix_kind := StringKind |}] |}.

(** How a delivery ends. *)
Inductive outcome := Stored | Refused | Failed | Stopped.
Definition outcome_of (r : res unit) : outcome :=
  match r with
  | Ok _ => Stored
  | Fail e => if errors_is e RtBadRequest then Refused else Failed
  | _ => Stopped
  end.

Section Board.
  Context (enc : board_object -> option bytes) (dec : bytes -> bytes -> option board_object).

  (** The post can be encoded, and its keys are not too long for the database. *)
  Definition writable (m : board_msg) : bool := storable (board_ops enc dec) post_schema (OPost (numbered (str "1") m)).

  (** The board: the message that was posted, if any. A second one stops the
      process. *)
  Definition board_step (us : users) (m : board_msg) (b : option board_msg) : outcome * option board_msg :=
    if decide (postable us m) then
      match b with
      | None => if writable m then (Stored, Some m) else (Stopped, b)
      | Some _ => (Stopped, b)
      end
    else (Refused, b).

  (** Deliveries in order, until the process stops: how each ends, and the state
      if it has not stopped. *)
  Fixpoint deliveries_from {X} (f : users -> board_msg -> X -> outcome * X) (ds : list (users * board_msg)) (x : X)
    : list outcome * option X :=
    match ds with
    | [] => ([], Some x)
    | d :: ds' =>
        match f (fst d) (snd d) x with
        | (Stopped, _) => ([Stopped], None)
        | (o, x') => let '(l, r) := deliveries_from f ds' x' in (o :: l, r)
        end
    end.

  (** A delivery to the node, and how it ends. *)
  Definition node_step (enum : list (event board_object board_msg) -> users -> list user) (fuel : nat)
      (us : users) (m : board_msg) (x : rt board_object board_msg orm) : outcome * rt board_object board_msg orm :=
    let '(r, x') := board_deliver enc dec enum fuel us m x in (outcome_of r, x').

  (** What can be read of the node is what is on the board. *)
  Record on_board (x : rt board_object board_msg orm) (b : option board_msg) : Prop := {
    ob_post : forall id o, rt_get (board_store enc dec) ty_post id (w_store (rt_world x)) = Ok o <->
      exists m, b = Some m /\ id = str "1" /\ o = OPost (numbered (str "1") m);
    ob_params : rt_get (board_store enc dec) ty_board_params singleton_id (w_store (rt_world x)) = Ok (OBoardParams 1);
    ob_listed : forall c l, (blen c < 2 ^ 63)%N ->
      orm_list (ap_registry board_app) ty_post
        {| lo_interface := [(str "creator", GString c)]; lo_string := []; lo_start := 0; lo_end := 0 |}
        (w_store (rt_world x)) = Ok l <->
      exists m, b = Some m /\ mp_creator m = c /\ l = [str "1"]
  }.
End Board.
