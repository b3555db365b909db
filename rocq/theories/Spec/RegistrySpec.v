(** Histories of registrations. *)
From Coq Require Import NArith List Bool String.
From stdpp Require Import base list gmap.
From Verif.Model Require Import Bytes KindEncoder Desc Schema.

Section S.
  Context (fuel : nat) (D : descs).

  (** All calls are made, in order; refused ones are just reported. *)
  Fixpoint register_all (regs : list (objtype * definition)) (R : registry)
    : list (res unit) * registry :=
    match regs with
    | [] => ([], R)
    | (t, x) :: regs' =>
        let '(r, R1) := add_object fuel D R t x in
        let '(rs, R2) := register_all regs' R1 in
        (r :: rs, R2)
    end.

  (** The registrations that were accepted. *)
  Fixpoint accepted (regs : list (objtype * definition)) (rs : list (res unit))
    : list (objtype * definition) :=
    match regs, rs with
    | tx :: regs', r :: rs' =>
        if is_ok r then tx :: accepted regs' rs' else accepted regs' rs'
    | _, _ => []
    end.
End S.
