(** A server for the small object universe, and one object type whose primary key
    has a capital letter; only for the examples. *)
From Coq Require Import NArith List Bool String.
From stdpp Require Import base list gmap.
From Verif.Model Require Import Bytes Wire KindEncoder Desc Schema Orm Strings Query ApiServer.
From Verif.Spec Require Import StoreSpec QuerySpec ApiSpec Demo.

Definition demo_objects : list (schema * definition) :=
  [(thing_schema, thing_def); (note_schema, note_def); (config_schema, config_def)].
Definition demo_renders (x : demo) : bool := match x with Config _ => false | _ => true end.
Definition demo_serve := serve (Msg := unit) demo_ops demo_registry demo_renders demo_objects.
Definition api_history : list (call demo) :=
  [CCreate (Thing (str "a") 7 (str "x")); CCreate (Thing (str "b") 8 (str "x")); CCreate (Thing (str "a/b") 8 (str "y"));
   CCreate (Note 300); CCreate (Config (str "c")); CUpdate (Thing (str "a") 9 (str "x"))].
Definition ask (path height : string) (fields : list bytes) : request := {|
  rq_path := str path; rq_height := str height;
  rq_query := fun name => if bytes_eqb name (str "selectField") then fields else [] |}.
Definition ask_bounds (path start end_ : string) (fields : list bytes) : request := {|
  rq_path := str path; rq_height := [];
  rq_query := fun name => if bytes_eqb name (str "selectField") then fields
                          else if bytes_eqb name (str "start") then [str start]
                          else if bytes_eqb name (str "end") then [str end_] else [] |}.
Definition ask_all (serve : request -> orm -> response demo) (st : option orm) (l : list request) : list (response demo) :=
  match st with Some st => map (fun rq => serve rq st) l | None => [] end.

(** Tickets, found by their number. *)
Definition ticket_ops : objops N := {|
  oo_group := fun _ => str "demo.v1"; oo_kind := fun _ => str "Ticket";
  oo_get := fun n f => if bytes_eqb f (str "ticketNumber") then VUint64 n else VOther;
  oo_marshal := fun n => if (n <? 2 ^ 64)%N then Some (append_varint n) else None;
  oo_unmarshal := fun ty b => match consume_varint b with inl (n, []) => Some n | _ => None end |}.
Definition ticket_type : objtype := {|
  ot_group := str "demo.v1"; ot_kind := str "Ticket";
  ot_desc := {| md_name := str "demo.v1.Ticket"; md_fields := [fld "ticketNumber" Uint64Kind] |} |}.
Definition ticket_def : definition :=
  {| def_singleton := false; def_primary_key := str "ticketNumber"; def_secondary_keys := [] |}.
Definition ticket_schema : schema := {|
  sch_group := str "demo.v1"; sch_kind := str "Ticket"; sch_singleton := false;
  sch_pk := Some (str "ticketNumber", Uint64Kind); sch_indexes := [] |}.
Definition ticket_registry : registry := (add_object 3 demo_descs new_registry ticket_type ticket_def).2.
