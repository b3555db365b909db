(** runtime/errors/errors.go: result codes of failed requests. *)
From Coq Require Import NArith List Bool.
From Verif.Model Require Import Bytes.

(** errors.go:23-29: the codes. *)
Definition code_unknown : N := 1.
Definition code_bad_request : N := 400.
Definition code_not_found : N := 404.
Definition code_already_exists : N := 409.
Definition code_conditions_not_met : N := 412.

(** errors.go:39-60 ToABCIResponse: the code; gas, log and codespace are not
    modelled (they are the same for every error but for the text of the log). *)
Definition to_abci_code (e : goerr) : N :=
  if errors_is e RtBadRequest then code_bad_request
  else if errors_is e RtNotFound then code_not_found
  else if errors_is e RtAlreadyExists then code_already_exists
  else if errors_is e RtConditionNotMet then code_conditions_not_met
  else code_unknown.
