(** core/runtime and core/abci: the two modules every application has. *)
From Coq Require Import NArith ZArith List Bool String.
From stdpp Require Import base list gmap.
From Verif.Model Require Import Bytes KindEncoder Desc Schema Users Prog Runtime Services Module Builder Universe.

(** core/runtime/module.go:23-28. *)
Definition create_descriptors_exec (_ : users) (m : msg) : prog object msg unit :=
  match m with
  | CreateModuleDescriptors l => create_ (OModules l) (PRet tt)
  | _ => PPanic
  end.

(** core/runtime/module.go:15-21. *)
Definition runtime_module {Tx} : module object msg Tx := {|
  mo_name := runtime_user;
  mo_genesis := None;
  mo_admission := []; mo_pre := [];
  mo_exec := [(t_create_descriptors, create_descriptors_exec)];
  mo_post := [];
  mo_objects := [modules_object];
  mo_needs := []; mo_auth_admission := []; mo_post_auth := []; mo_services := [];
  mo_authorizer := None |}.

(** core/abci/handlers.go:13-28 setInitChainInfo. *)
Definition set_init_chain (_ : users) (m : msg) : prog object msg unit :=
  match m with
  | MsgSetInitChain (Some chain_id) =>
      update_ (OInitChainInfo chain_id) (update_ (OStage StInitChain) (PRet tt))
  | _ => PPanic
  end.

(** handlers.go:30-50 checkTxHandler. *)
Definition set_check_tx (_ : users) (m : msg) : prog object msg unit :=
  match m with
  | MsgSetCheckTxState (Some c) =>
      if (ct_type c =? 0)%Z then update_ (OStage StCheckTx) (update_ (OCheckTx (Some c)) (PRet tt))
      else if (ct_type c =? 1)%Z
      then update_ (OStage StReCheckTx) (update_ (OCheckTx (Some c)) (PRet tt))
      else PPanic
  | _ => PPanic
  end.

(** handlers.go:52-66 beginBlockHandler: a missing header panics after two
    writes; the height is converted to uint64. *)
Definition set_begin_block (_ : users) (m : msg) : prog object msg unit :=
  match m with
  | MsgSetBeginBlockState b =>
      update_ (OStage StBeginBlock)
        (update_ (OBeginBlock b)
           (match b with
            | Some {| bb_height := Some h |} => update_ (OCurrentBlock (Z.to_N (h mod 2 ^ 64))) (PRet tt)
            | _ => PPanic
            end))
  | _ => PPanic
  end.

(** handlers.go:68-83 endBlockHandler. *)
Definition set_end_block (_ : users) (m : msg) : prog object msg unit :=
  match m with
  | MsgSetEndBlockState h => update_ (OStage StEndBlock) (update_ (OEndBlock h) (PRet tt))
  | _ => PPanic
  end.

(** handlers.go:85-95 deliverTxHandler. *)
Definition set_deliver_tx (_ : users) (m : msg) : prog object msg unit :=
  match m with
  | MsgSetDeliverTxState tx => update_ (OStage StDeliverTx) (update_ (ODeliverTx tx) (PRet tt))
  | _ => PPanic
  end.

(** handlers.go:97-116 validatorUpdatesHandler. *)
Definition set_updates (_ : users) (m : msg) : prog object msg unit :=
  match m with
  | MsgSetValidatorUpdates l =>
      get_ ty_stage singleton_id
        (fun x => match x with
                  | OStage StInitChain | OStage StEndBlock => update_ (OUpdates l) (PRet tt)
                  | OStage _ => PFail EAnon
                  | _ => PPanic
                  end) PFail
  | _ => PPanic
  end.

(** core/abci/genesis.go:18-56 Default; 58-60 Import. *)
Definition abci_genesis : genesis object msg := {|
  gn_default :=
    create_ (OStage StInitChain) (create_ (OBeginBlock None) (create_ (OCheckTx None)
    (create_ (ODeliverTx None) (create_ (OCurrentBlock 0) (create_ (OInitChainInfo [])
    (create_ (OUpdates []) (create_ (OEndBlock None) (PRet tt))))))));
  gn_import := fun _ => PRet tt |}.

(** core/abci/module.go:16-34. *)
Definition abci_module {Tx} : module object msg Tx := {|
  mo_name := abci_user;
  mo_genesis := Some abci_genesis;
  mo_admission := []; mo_pre := [];
  mo_exec := [(t_set_init_chain, set_init_chain); (t_set_check_tx, set_check_tx);
              (t_set_begin_block, set_begin_block); (t_set_deliver_tx, set_deliver_tx);
              (t_set_end_block, set_end_block); (t_set_updates, set_updates)];
  mo_post := [];
  mo_objects := [stage_object; begin_block_object; deliver_tx_object; check_tx_object;
                 init_chain_object; end_block_object; current_block_object; updates_object];
  mo_needs := []; mo_auth_admission := []; mo_post_auth := []; mo_services := [];
  mo_authorizer := None |}.
