(** What roles and role bindings grant. *)
From Coq Require Import NArith List Bool String.
From stdpp Require Import base list gmap.
From Verif.Model Require Import Bytes KindEncoder Desc Schema Orm Users Prog Runtime Module Universe.

(** A role lists a resource for a verb. *)
Inductive lists (r : role) (x : bytes) : verb -> Prop :=
| lists_get : x ∈ rl_gets r -> lists r x VGet
| lists_list : x ∈ rl_lists r -> lists r x VList
| lists_create : x ∈ rl_creates r -> lists r x VCreate
| lists_update : x ∈ rl_updates r -> lists r x VUpdate
| lists_delete : x ∈ rl_deletes r -> lists r x VDelete
| lists_deliver : x ∈ rl_delivers r -> lists r x VDeliver.

Section Granted.
  (** [stored ty id o]: the object [o] is what is read for type [ty] and key [id]. *)
  Context (stored : bytes -> bytes -> object -> Prop).

  (** The user is bound to the role, which exists. *)
  Definition has_role (u : bytes) (r : role) : Prop :=
    exists subject ref, stored ty_binding u (OBinding subject ref) /\ stored ty_role ref (ORole r).

  (** Every acting user has a role, and one of these lists the resource. *)
  Definition granted (v : verb) (x : bytes) (us : users) : Prop :=
    (forall u, is_Some (us !! u) -> exists r, has_role u r)
    /\ exists u r, is_Some (us !! u) /\ has_role u r /\ lists r x v.

  (** The request cannot be decided: a name that would have to be looked up is
      empty. *)
  Definition unnamed (us : users) : Prop :=
    is_Some (us !! []) \/ exists u s, is_Some (us !! u) /\ stored ty_binding u (OBinding s []).
End Granted.

(** ** What modules declare *)
(** The resources a module may use: everything with its own state objects, and
    delivering its own transitions and the ones it says it needs. *)
Inductive declares (d : raw_descriptor) (x : bytes) : verb -> Prop :=
| declares_get : x ∈ map (fun o => ad_name (rw_api o)) (rd_objects d) -> declares d x VGet
| declares_list : x ∈ map (fun o => ad_name (rw_api o)) (rd_objects d) -> declares d x VList
| declares_create : x ∈ map (fun o => ad_name (rw_api o)) (rd_objects d) -> declares d x VCreate
| declares_update : x ∈ map (fun o => ad_name (rw_api o)) (rd_objects d) -> declares d x VUpdate
| declares_delete : x ∈ map (fun o => ad_name (rw_api o)) (rd_objects d) -> declares d x VDelete
| declares_deliver : x ∈ map tt_name (rd_transitions d) ++ map ad_name (rd_needs d) -> declares d x VDeliver.

(** The transition is marked external where its message is defined: in the
    first of its files that has a message of that name. *)
Definition marked_external (t : transition_type) : Prop :=
  exists before a b after,
    tt_files t = before ++ (a ++ (tt_short t, Some true) :: b) :: after
    /\ (forall f mark, f ∈ before -> (tt_short t, mark) ∉ f) /\ forall mark, (tt_short t, mark) ∉ a.

(** What a role may list: state objects and transitions of the modules. *)
Definition known_to (l : list raw_descriptor) (x : bytes) (v : verb) : Prop :=
  exists d, d ∈ l /\ match v with
                     | VDeliver => x ∈ map tt_name (rd_transitions d)
                     | _ => x ∈ map (fun o => ad_name (rw_api o)) (rd_objects d)
                     end.
