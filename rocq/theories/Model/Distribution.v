(** x/distribution: transaction fees. *)
From Coq Require Import NArith ZArith List Bool String.
From stdpp Require Import base list gmap.
From Verif.Model Require Import Bytes KindEncoder Desc Schema Users Prog Runtime Services Module
  Universe Coin Bank Authn.

(** extensions.go:52. *)
Definition fee_collector : bytes := str "fee_collector".

(** extensions.go:19-37 FeeChecker.Validate. *)
Definition fee_checker (bits : N) (t : tx) : prog object msg unit :=
  get_ ty_balance (tx_payer t)
    (fun x => match x with
              | OBalance _ b => lift (safe_sub bits b (tx_fee t)) (fun _ => PRet tt)
              | _ => PPanic
              end) PFail.

(** extensions.go:48-55 FeeDeduction.Exec. *)
Definition fee_deduction (t : tx) : prog object msg unit :=
  deliver_ (MsgSendCoins (tx_payer t) fee_collector (tx_fee t)) (PRet tt).

(** module.go:15-22 Initialize. *)
Definition distribution_module (bits : N) : module object msg tx := {|
  mo_name := str "distribution";
  mo_genesis := None;
  mo_admission := []; mo_pre := []; mo_exec := []; mo_post := []; mo_objects := [];
  mo_needs := [t_send_coins];
  mo_auth_admission := [fee_checker bits];
  mo_post_auth := [fee_deduction];
  mo_services := [];
  mo_authorizer := None |}.
