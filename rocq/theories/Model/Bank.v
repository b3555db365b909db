(** x/bank: balances and transfers. [bits] as in Coin.v. *)
From Coq Require Import NArith ZArith List Bool String.
From stdpp Require Import base list gmap.
From Verif.Model Require Import Bytes KindEncoder Desc Schema Users Prog Runtime Services Module Universe Coin.

(** Go code that computes between client calls. *)
Definition lift {A B} (r : res A) (k : A -> prog object msg B) : prog object msg B :=
  match r with
  | Ok a => k a
  | Fail e => PFail e
  | _ => PPanic
  end.

(** handler.go:92-109 createAccountIfNotExist. *)
Definition create_account_if_not_exist (address : bytes) : prog object msg unit :=
  get_ ty_account address (fun _ => PRet tt)
    (fun e => if errors_is e RtNotFound
              then deliver_ (MsgCreateAccount (Some {| ac_address := address; ac_pubkey := None;
                                                       ac_number := 0; ac_sequence := 0 |})) (PRet tt)
              else PFail e).

(** handler.go:25-86 SendCoinsHandler.Exec. *)
Definition send_coins_exec (bits : N) (_ : users) (m : msg) : prog object msg unit :=
  match m with
  | MsgSendCoins from to amount =>
      get_ ty_balance from
        (fun x => match x with
         | OBalance _ sender =>
             lift (safe_sub bits sender amount) (fun new_sender =>
             deliver_ (MsgSetBalance from new_sender)
               (get_ ty_balance to
                  (fun y => match y with
                   | OBalance _ receiver =>
                       lift (safe_add bits receiver amount) (fun new_receiver =>
                       deliver_ (MsgSetBalance to new_receiver) (PRet tt))
                   | _ => PPanic
                   end)
                  (fun e => if errors_is e RtNotFound
                            then deliver_ (MsgSetBalance to amount) (create_account_if_not_exist to)
                            else PFail e)))
         | _ => PPanic
         end) PFail
  | _ => PPanic
  end.

(** handler.go:119-140 SetCoinsHandler.Exec. *)
Definition set_balance_exec (_ : users) (m : msg) : prog object msg unit :=
  match m with
  | MsgSetBalance address amount =>
      get_ ty_balance address (fun _ => update_ (OBalance address amount) (PRet tt))
        (fun e => if errors_is e RtNotFound then create_ (OBalance address amount) (PRet tt) else PFail e)
  | _ => PPanic
  end.

(** module.go:16-24; genesis.go (Default and Import do nothing). *)
Definition bank_module {Tx} (bits : N) : module object msg Tx := {|
  mo_name := str "bank";
  mo_genesis := Some {| gn_default := PRet tt; gn_import := fun _ => PRet tt |};
  mo_admission := []; mo_pre := [];
  mo_exec := [(t_send_coins, send_coins_exec bits); (t_set_balance, set_balance_exec)];
  mo_post := [];
  mo_objects := [balance_object];
  mo_needs := [t_create_account];
  mo_auth_admission := []; mo_post_auth := []; mo_services := [];
  mo_authorizer := None |}.
