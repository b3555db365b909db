(** runtime/authentication/user/user.go: users and sets of users. *)
From Coq Require Import List Bool.
From stdpp Require Import base list gmap.
From Verif.Model Require Import Bytes.

(** user.go:6-13 User: its name and extra data (a Go map, here a list). *)
Record user := { u_name : bytes; u_extra : list (bytes * list bytes) }.

Global Instance user_eq_dec : EqDecision user.
Proof. solve_decision. Defined.

(** user.go:22-26 DefaultUser: no extra data. *)
Definition default_user (n : bytes) : user := {| u_name := n; u_extra := [] |}.

(** user.go:28-30 DefaultUsers: the map from names to users. *)
Notation users := (gmap bytes user).

(** user.go:32-39 add: an existing entry stays. *)
Definition users_add (d : users) (u : user) : bool * users :=
  match d !! u_name u with
  | Some _ => (false, d)
  | None => (true, <[u_name u := u]> d)
  end.

(** user.go:50-53 has. *)
Definition users_has1 (d : users) (name : bytes) : bool :=
  match d !! name with Some _ => true | None => false end.

(** user.go:41-48 Has. *)
Fixpoint users_has (d : users) (names : list bytes) : bool :=
  match names with
  | [] => true
  | n :: ns => if negb (users_has1 d n) then false else users_has d ns
  end.

(** user.go:55-61 List ranges over a Go map: any order of the entries. *)
Definition enumerates (d : users) (l : list user) : Prop := l ≡ₚ (map_to_list d).*2.

(** One such order. *)
Definition users_list (d : users) : list user := (map_to_list d).*2.

(** user.go:71-77 NewUsersFromString. *)
Definition users_from_string (names : list bytes) : users :=
  fold_left (fun d n => <[n := default_user n]> d) names ∅.

(** user.go:79-85 NewUsers. *)
Definition new_users (us : list user) : users :=
  fold_left (fun d u => <[u_name u := u]> d) us ∅.

(** user.go:87-99 NewUsersUnion; [None] is a nil group, [enum] is the order in
    which the groups happen to be listed. *)
Definition users_union (enum : users -> list user) (groups : list (option users)) : users :=
  fold_left (fun d g =>
      match g with
      | None => d
      | Some g => fold_left (fun d u => (users_add d u).2) (enum g) d
      end) groups ∅.
