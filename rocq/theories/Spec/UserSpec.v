(** Sets of users as the constructors make them. *)
From stdpp Require Import base list gmap.
From Verif.Model Require Import Bytes Users.

(** Every entry is filed under its own name. *)
Definition wf_users (d : users) : Prop := map_Forall (fun n u => u_name u = n) d.
Definition wf_groups (groups : list (option users)) : Prop :=
  Forall (fun g => match g with Some g => wf_users g | None => True end) groups.

(** A choice of orders for Users.List: each lists exactly the entries. *)
Definition fair_order (enum : users -> list user) : Prop := forall d, enumerates d (enum d).
