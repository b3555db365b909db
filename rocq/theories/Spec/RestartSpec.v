(** Restarts. *)
From Coq Require Import List.
From stdpp Require Import base list.
From Verif.Model Require Import Abci.

(** What is sent again after a restart: the blocks, not the checks of waiting
    transactions. *)
Definition is_check (c : abci_call) : Prop := match c with CallCheckTx _ => True | _ => False end.
Global Instance is_check_dec c : Decision (is_check c).
Proof. destruct c; [right|right|left|right|right|right]; cbn; auto. Defined.
Definition replayed (cs : list abci_call) : list abci_call := filter (fun c => ~ is_check c) cs.
