(** runtime/abci.go: the application as Tendermint drives it. *)
From Coq Require Import NArith ZArith List Bool String.
From stdpp Require Import base list gmap.
From Verif.Model Require Import Bytes KindEncoder Desc Schema Users Prog Runtime Services Module Builder
  Universe.

Section Abci.
  Context {Tx St : Type}.
  Context (O : objops object) (SO : storeops object St).
  Context (a : application object msg Tx) (enum : list (event object msg) -> users -> list user)
          (fuel : nat).
  (** The transaction decoder set with runtime/builder.go:62-64, and what the runtime
      reads of a transaction (runtime/authentication/authentication.go). *)
  Context (decode : bytes -> res Tx) (users_of : Tx -> users) (msgs_of : Tx -> list msg).

  Local Notation rt_t := (rt object msg St).
  Local Notation env_at b := (env_of a enum b).
  Local Notation dlv b := (deliver O msg_name SO (env_at b) fuel false).

  (** A request that runs to the end of a transaction chain or transition:
      [Ok] is code 0, [Fail e] the code of [e], [Panic] aborts the node. *)
  Definition at_world (f : bool -> world object msg St -> res unit * world object msg St) (x : rt_t)
    : res unit * rt_t :=
    let '(r, w) := f (rt_enabled x) (rt_world x) in (r, set_world x w).

  Definition then_do {S} (r : res unit * S) (f : S -> res unit * S) : res unit * S :=
    match r with (Ok _, s) => f s | _ => r end.

  Fixpoint each_msg {S} (f : msg -> S -> res unit * S) (l : list msg) (s : S) : res unit * S :=
    match l with
    | [] => (Ok tt, s)
    | m :: l' => then_do (f m s) (each_msg f l')
    end.

  Definition with_tx (raw : bytes) (f : Tx -> rt_t -> res unit * rt_t) (x : rt_t) : res unit * rt_t :=
    match decode raw with
    | Ok t => f t x
    | Fail e => (Fail e, x)
    | Panic => (Panic, x)
    | OutOfFuel => (OutOfFuel, x)
    end.

  (** abci.go:45-64 CheckTx. *)
  Definition check_tx (raw : bytes) (x : rt_t) : res unit * rt_t :=
    with_tx raw (fun t => at_world (fun b w =>
      then_do (run_tx_admission_chain O SO (env_at b) (dlv b) t w)
        (each_msg (run_admission_chain O msg_name SO (env_at b) (dlv b) (users_of t)) (msgs_of t)))) x.

  (** abci.go:108-136 DeliverTx. *)
  Definition deliver_tx (raw : bytes) (x : rt_t) : res unit * rt_t :=
    with_tx raw (fun t => at_world (fun b w =>
      then_do (run_tx_admission_chain O SO (env_at b) (dlv b) t w) (fun w =>
      then_do (run_tx_post_auth_chain O SO (env_at b) (dlv b) t w)
        (each_msg (deliver O msg_name SO (env_at b) fuel true (users_of t)) (msgs_of t))))) x.

  (** Errors of the calls below are panics. *)
  Definition or_panic {A S} (r : res A * S) : res A * S :=
    match r with
    | (Fail _, s) => (Panic, s)
    | r => r
    end.

  Definition abci_users : users := users_from_string [abci_user].
  Local Notation send := (rt_deliver O msg_name SO a enum fuel abci_users).

  (** abci.go:66-93 InitChain. [state] is [None] if there are no app state bytes,
      otherwise the decoding of these as JSON (see [import]). The validators are
      returned as given. *)
  Definition init_chain (chain_id : bytes) (state : option (option (gmap bytes bytes))) (x : rt_t)
    : res unit * rt_t :=
    then_do (or_panic match state with
                      | None => init_genesis O msg_name SO CreateModuleDescriptors a enum fuel x
                      | Some data => import O msg_name SO a enum fuel data x
                      end)
      (fun x => then_do (or_panic (send (MsgSetInitChain (Some chain_id)) x))
                  (fun x => (Ok tt, set_authorization true x))).

  (** abci.go:95-106 BeginBlock: the request always has a header; [rest] is the
      rest of the request. *)
  Definition begin_block (height : Z) (rest : bytes) (x : rt_t) : res unit * rt_t :=
    or_panic (send (MsgSetBeginBlockState (Some {| bb_height := Some height; bb_rest := rest |})) x).

  (** abci.go:138-167 EndBlock. Simplification: the keys of validators are of the
      two types ToLegacy knows. *)
  Definition end_block (height : Z) (x : rt_t) : res (list validator_update) * rt_t :=
    match or_panic (send (MsgSetEndBlockState (Some height)) x) with
    | (Ok _, x1) =>
        match rt_get SO ty_updates singleton_id (w_store (rt_world x1)) with
        | Ok (OUpdates l) => (Ok l, x1)
        | Ok _ | Fail _ | Panic => (Panic, x1)
        | OutOfFuel => (OutOfFuel, x1)
        end
    | (Fail e, x1) => (Fail e, x1)
    | (Panic, x1) => (Panic, x1)
    | (OutOfFuel, x1) => (OutOfFuel, x1)
    end.

  (** abci.go:169-175 Commit: nothing happens. *)
  Definition commit (x : rt_t) : res unit * rt_t := (Ok tt, x).

  (** The calls of Tendermint that change the state or may change it. *)
  Inductive abci_call :=
  | CallInitChain (chain_id : bytes) (state : option (option (gmap bytes bytes)))
  | CallBeginBlock (height : Z) (rest : bytes)
  | CallCheckTx (raw : bytes)
  | CallDeliverTx (raw : bytes)
  | CallEndBlock (height : Z)
  | CallCommit.

  Definition abci_step (c : abci_call) (x : rt_t) : res unit * rt_t :=
    match c with
    | CallInitChain id s => init_chain id s x
    | CallBeginBlock h r => begin_block h r x
    | CallCheckTx raw => check_tx raw x
    | CallDeliverTx raw => deliver_tx raw x
    | CallEndBlock h => let '(r, y) := end_block h x in
                        (match r with Ok _ => Ok tt | Fail e => Fail e | Panic => Panic
                         | OutOfFuel => OutOfFuel end, y)
    | CallCommit => commit x
    end.

  (** A run of the node: it ends when a call panics (the process is gone), and
      then has no state. *)
  Fixpoint abci_run (cs : list abci_call) (x : rt_t) : option rt_t :=
    match cs with
    | [] => Some x
    | c :: cs' =>
        match abci_step c x with
        | (Ok _, y) | (Fail _, y) => abci_run cs' y
        | _ => None
        end
    end.
End Abci.
