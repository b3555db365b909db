(** What HTTP requests mean. *)
From Coq Require Import NArith List Bool String Sorted.
From stdpp Require Import base list gmap.
From Verif.Model Require Import Bytes KindEncoder Desc Schema KV Objects Indexes Orm Runtime Client Strings Query ApiServer.
From Verif.Spec Require Import TextSpec StoreSpec QuerySpec.

(** The height header: absent, or a positive number of 64 bits. *)
Definition height_text (t : bytes) : Prop := t = [] \/ exists n, decimal_text t n /\ (0 < n < 2 ^ 64)%N.
(** A bound of a listing: absent, or a number of 64 bits. *)
Definition bound_text (t : bytes) (default n : N) : Prop :=
  t = [] /\ n = default \/ t <> [] /\ decimal_text t n /\ (n < 2 ^ 64)%N.
Definition bounds_text (q : bytes -> list bytes) : Prop :=
  (exists a, bound_text (param q (str "start")) 0 a) /\ exists b, bound_text (param q (str "end")) 100 b.
(** field=value; the value may contain further equality signs. *)
Definition selects (text f v : bytes) : Prop := ~ In Byte.x3d f /\ text = f ++ str "=" ++ v.
(** A selection by a field that has an index. *)
Definition selection (s : schema) (text f : bytes) (k : kind) (t : bytes) : Prop :=
  selects text f t /\ {| ix_name := f; ix_kind := k |} ∈ sch_indexes s.
(** A request that is not refused for its texts: one or more selections. *)
Definition good_query (s : schema) (rq : request) : Prop :=
  height_text (rq_height rq) /\ bounds_text (rq_query rq) /\ rq_query rq (str "selectField") <> []
  /\ forall text, text ∈ rq_query rq (str "selectField") -> exists f k t v, selection s text f k t /\ denotes k t v.

(** The paths of an object: /group/kind for a singleton; /group/kind/key for one
    object and /group/kinds for many otherwise; all in lower case. *)
Definition api_group (x : schema * definition) : bytes := to_lower (sch_group (fst x)).
Definition api_kind (x : schema * definition) : bytes := to_lower (sch_kind (fst x)).
Definition many_path (x : schema * definition) : bytes :=
  path_of [[]; api_group x; if def_singleton (snd x) then api_kind x else api_kind x ++ str "s"].
Definition key_path (x : schema * definition) (t : bytes) : bytes := path_of [[]; api_group x; api_kind x; t].
(** A text that can be a part of a path. *)
Definition path_part (t : bytes) : Prop := no_slash t /\ t <> [] /\ t <> str "." /\ t <> str "..".

(** Asking for one object by its key, and for many (or for a singleton). *)
Definition asks_key (x : schema * definition) (t : bytes) (rq : request) : Prop := rq_path rq = key_path x t /\ path_part t.
Definition asks_many (x : schema * definition) (rq : request) : Prop := rq_path rq = many_path x.

(** The objects of a server: registered, and no two on the same path. *)
Record served_by (fuel : nat) (D : descs) (R : registry) (objects : list (schema * definition)) : Prop := {
  sb_registered : forall s d, (s, d) ∈ objects -> rg_schemas R !! sch_name s = Some s
    /\ exists t, parse_object_schema fuel D t d = Ok s;
  sb_parts : forall x, x ∈ objects -> path_part (api_group x) /\ path_part (api_kind x);
  sb_many : forall x y, x ∈ objects -> y ∈ objects -> many_path x = many_path y -> x = y;
  sb_keys : forall x y, x ∈ objects -> y ∈ objects -> def_singleton (snd x) = false -> def_singleton (snd y) = false ->
    key_path x [] = key_path y [] -> x = y
}.

Section Stored.
  Context {Obj : Type} (O : objops Obj) (S : gmap (bytes * bytes) Obj).
  (** Stored objects of a type with a value in a field. *)
  Definition stored_with (ty f : bytes) (v : pvalue) (o : Obj) : Prop :=
    exists id, S !! (ty, id) = Some o /\ oo_get O o f = v.
  (** A list of all of them in the order of their keys, none twice. *)
  Definition lists_stored (ty f : bytes) (v : pvalue) (l : list Obj) : Prop :=
    exists ids, StronglySorted strictly_below ids /\ Forall2 (fun id o => S !! (ty, id) = Some o /\ oo_get O o f = v) ids l
      /\ forall id o, S !! (ty, id) = Some o -> oo_get O o f = v -> id ∈ ids.
End Stored.
