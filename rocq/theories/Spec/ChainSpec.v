(** The node as Tendermint sees it: it starts empty, keeps bytes, and answers
    consensus calls. What the theorems about the chain speak of. *)
From Coq Require Import NArith ZArith List Bool String.
From stdpp Require Import base list gmap.
From Verif.Model Require Import Bytes KindEncoder Desc Schema Orm Users Prog Runtime Services Module Builder
  Universe Coin CoreModules Rbac Bank Authn Distribution TestApp Abci.
From Verif.Spec Require Import UserSpec StoreSpec CoinSpec RbacSpec.

(** What can be read: objects by type and key. *)
Notation view := (bytes -> bytes -> object -> Prop).

(** ** Transactions *)
(** The names of the modules. *)
Definition modules_of_app : list bytes := map mo_name (app_modules 0 (fun _ _ _ => false)).
(** A decoded transaction: the users are the signers, at least one, with
    addresses that are not empty and no names of modules; there is a payer. *)
Record proper (t : tx) : Prop := {
  pr_signed : tx_signers t <> [];
  pr_users : tx_users t = users_from_string (map sg_address (tx_signers t));
  pr_named : Forall (fun s => sg_address s <> []) (tx_signers t);
  pr_outside : Forall (fun s => sg_address s ∉ modules_of_app) (tx_signers t);
  pr_payer : tx_payer t <> []
}.
Definition signs (t : tx) (a : bytes) : Prop := a ∈ map sg_address (tx_signers t).

(** The checks a transaction has to pass, on what can be read. *)
Record admissible (bits : N) (verify : bytes -> bytes -> bytes -> bool) (v : view) (t : tx) : Prop := {
  am_accounts : forall a, signs t a -> exists acc, v ty_account a (OAccount acc);
  am_timeout : exists height, v ty_current_block singleton_id (OCurrentBlock height)
                 /\ (tx_timeout t = 0 \/ height <= tx_timeout t)%N;
  am_memo : exists p, v ty_auth_params singleton_id (OAuthParams p)
              /\ (N.of_nat (length (tx_memo t)) <= pr_max_memo p)%N;
  am_signatures : exists p, v ty_auth_params singleton_id (OAuthParams p)
                    /\ (N.of_nat (length (tx_signers t)) <= pr_sig_limit p)%N;
  am_signed : exists chain, v ty_init_chain_info singleton_id (OInitChainInfo chain)
                /\ forall s, s ∈ tx_signers t ->
                   exists acc, v ty_account (sg_address s) (OAccount acc)
                     /\ ac_pubkey acc <> None
                     /\ ac_sequence acc = sg_sequence s
                     /\ verify (sg_key s)
                          (direct_sign_bytes (tx_body_bytes t) (tx_auth_bytes t) chain (ac_number acc))
                          (sg_signature s) = true;
  am_fee : exists a c r, v ty_balance (tx_payer t) (OBalance a c) /\ safe_sub bits c (tx_fee t) = Ok r
}.

(** ** The node *)
(** The process has not ended. *)
Definition alive {A} (r : res A) : Prop := match r with Ok _ | Fail _ => True | _ => False end.
Notation node := (rt object msg orm).
Section Node.
  Context (C : codec) (bits : N) (verify : bytes -> bytes -> bytes -> bool).
  Context (enum : list (event object msg) -> users -> list user) (fuel : nat).
  Context (decode : bytes -> res tx).

  Definition the_app : application object msg tx := test_app bits verify.
  Definition bytes_store : storeops object orm := orm_ops (app_ops C) (ap_registry the_app).
  Definition new_node : node :=
    {| rt_initialized := false; rt_enabled := false;
       rt_world := {| w_store := orm_empty; w_trace := [] |}; rt_services := [] |}.
  Definition call (c : abci_call) (x : node) : res unit * node :=
    abci_step (app_ops C) bytes_store the_app enum fuel decode tx_users tx_msgs c x.
  Definition calls (cs : list abci_call) (x : node) : option node :=
    abci_run (app_ops C) bytes_store the_app enum fuel decode tx_users tx_msgs cs x.

  (** The node has answered InitChain and then [cs] and still runs. *)
  Definition running (chain_id : bytes) (cs : list abci_call) (x : node) : Prop :=
    calls (CallInitChain chain_id None :: cs) new_node = Some x.

  (** What the node's Get returns. *)
  Definition gets (x : node) : view :=
    fun ty id o => orm_get (app_ops C) (ap_registry the_app) ty id (w_store (rt_world x)) = Ok o.

  (** The parts of DeliverTx: admission and fee, and each message by itself. *)
  Definition pay (t : tx) (x : node) : res unit * node :=
    at_world (fun b w =>
      let en := env_of the_app enum b in
      let dlv := deliver (app_ops C) msg_name bytes_store en fuel false in
      then_do (run_tx_admission_chain (app_ops C) bytes_store en dlv t w)
              (run_tx_post_auth_chain (app_ops C) bytes_store en dlv t)) x.
  Definition send (us : users) (m : msg) (x : node) : res unit * node :=
    at_world (fun b => deliver (app_ops C) msg_name bytes_store (env_of the_app enum b) fuel true us m) x.

  (** Admission alone. *)
  Definition admission (t : tx) (x : node) : res unit * node :=
    at_world (fun b w =>
      let en := env_of the_app enum b in
      run_tx_admission_chain (app_ops C) bytes_store en (deliver (app_ops C) msg_name bytes_store en fuel false) t w) x.

  (** The store has been written by calls of the object store only. *)
  Definition written (x : node) : Prop :=
    exists cs answers, run_model (app_ops C) (ap_registry the_app) cs = (answers, Some (w_store (rt_world x))).

  (** The states a node is in before, between and after the messages of
      transactions, also with any other balances. *)
  Inductive reachable (chain_id : bytes) : node -> Prop :=
  | re_running cs x : running chain_id cs x -> reachable chain_id x
  | re_paid x t r x' : reachable chain_id x -> proper t -> pay t x = (r, x') -> alive r ->
      reachable chain_id x'
  | re_sent x t m r x' : reachable chain_id x -> proper t -> send (tx_users t) m x = (r, x') -> alive r ->
      reachable chain_id x'
  | re_endowed x x' : reachable chain_id x -> written x' -> rt_enabled x' = true -> rt_initialized x' = true ->
      (forall ty k o, ty <> ty_balance -> gets x' ty k o <-> gets x ty k o) ->
      reachable chain_id x'.

  (** The authorizer's answer, and the admission controllers' for one message. *)
  Definition decision (v : verb) (resource : bytes) (us : users) (x : node) : res (bool * option goerr) :=
    run_read bytes_store (enum (w_trace (rt_world x))) (ap_authorizer the_app v resource us) (w_store (rt_world x)).
  Definition message_admission (us : users) (m : msg) (x : node) : res unit * node :=
    at_world (fun b =>
      let en := env_of the_app enum b in
      run_admission_chain (app_ops C) msg_name bytes_store en (deliver (app_ops C) msg_name bytes_store en fuel false) us m) x.

  (** What is assumed of the marshalling, of Go's map iteration and of the
      decoder: objects read back as written, listing users gives each user once,
      decoded transactions are proper. [protobuf_sound] (Proofs/DecoderFacts.v) shows
      it for protobuf marshalling and the decoder of x/authn/tx. *)
  Record sound : Prop := {
    so_codec : codec_ok (app_ops C);
    so_order : forall tr, fair_order (enum tr);
    so_decoder : forall raw t, decode raw = Ok t -> proper t
  }.
End Node.
(** ** What is said about states *)
(** The transitions the protobuf files mark as external. *)
Definition for_outsiders (m : msg) : Prop :=
  match m with MsgCreateAccount _ | MsgSendCoins _ _ _ => True | _ => False end.

(** Nothing can be read differently but objects of these types. *)
Definition same_except (types : list bytes) (v v' : view) : Prop :=
  forall ty k o, ty ∉ types -> v' ty k o <-> v ty k o.

(** An account has been opened: it has the next number, sequence 0, no public
    key, and the role of external accounts. Balances aside, nothing else is new. *)
Record opened (v v' : view) (a : bytes) : Prop := {
  op_number : exists n, v ty_account_number singleton_id (OAccountNumber n)
    /\ v' ty_account_number singleton_id (OAccountNumber ((n + 1) mod 2 ^ 64))
    /\ v' ty_account a (OAccount {| ac_address := a; ac_pubkey := None; ac_number := n; ac_sequence := 0 |});
  op_role : (forall o, ~ v ty_binding a o) /\ v' ty_binding a (OBinding a external_role_id);
  op_others : forall ty k o, ty <> ty_balance -> ty <> ty_account_number ->
    ~ (k = a /\ (ty = ty_account \/ ty = ty_binding)) -> v' ty k o <-> v ty k o
}.

(** How much of a denomination is in coins, as the application reads them. *)
Definition readable (bits : N) (c : list coin) : Prop := exists l, new_balance bits c = Ok l.
Definition worth (bits : N) (c : list coin) (d : bytes) : N :=
  match new_balance bits c with
  | Ok l => fold_right (fun x acc => if decide (fst x = d) then Z.to_N (snd x) + acc else acc)%N 0%N l
  | _ => 0
  end.
Definition balance (bits : N) (v : view) (a d : bytes) (n : N) : Prop :=
  (exists c, v ty_balance a (OBalance a c) /\ n = worth bits c d)
  \/ (forall o, ~ v ty_balance a o) /\ n = 0%N.
(** The sum of all balances: [l] has every balance once. *)
Definition supply (bits : N) (v : view) (d : bytes) (n : N) : Prop :=
  exists l : list (bytes * object),
    (forall k o, (k, o) ∈ l <-> v ty_balance k o) /\ NoDup l
    /\ n = fold_right (fun x acc => match snd x with OBalance _ c => worth bits c d | _ => 0 end + acc)%N 0%N l.

(** The coins [amt] have moved, and nothing else has happened but that an account
    may have been opened for the receiver. *)
Record transferred (bits : N) (v v' : view) (from to : bytes) (amt : list coin) : Prop := {
  tr_sender : exists c, v ty_balance from (OBalance from c) /\ readable bits c /\ readable bits amt
    /\ (forall d, worth bits amt d <= worth bits c d)%N
    /\ exists c', v' ty_balance from (OBalance from c')
       /\ normal_set c' (fun d => if decide (from = to) then worth bits c d
                                  else worth bits c d - worth bits amt d)%N;
  tr_receiver : from <> to ->
    (exists c, v ty_balance to (OBalance to c) /\ readable bits c
       /\ exists c', v' ty_balance to (OBalance to c')
          /\ normal_set c' (fun d => worth bits c d + worth bits amt d)%N)
    \/ (forall o, ~ v ty_balance to o) /\ v' ty_balance to (OBalance to amt);
  tr_others : forall a o, a <> from -> a <> to -> v' ty_balance a o <-> v ty_balance a o;
  tr_account : same_except [ty_balance] v v'
    \/ (forall o, ~ v ty_account to o) /\ opened v v' to
}.

(** The coins in balances can all be read, belong to the address they are stored
    under, and are not too many for the SDK's numbers. *)
Record orderly (bits : N) (v : view) : Prop := {
  or_each : forall k o, v ty_balance k o -> exists c, o = OBalance k c /\ length k < 128 /\ readable bits c;
  or_total : forall d n, supply bits v d n -> (n * 10 ^ 18 < 2 ^ bits)%N /\ (n < 2 ^ 255)%N
}.

(** The accounts in the order of their numbers. *)
Record by_number (v : view) (l : list bytes) : Prop := {
  io_once : NoDup l;
  io_accounts : forall a, a ∈ l <-> exists acc, v ty_account a (OAccount acc);
  io_numbers : forall i a acc, l !! i = Some a -> v ty_account a (OAccount acc) ->
    ac_number acc = (N.of_nat i mod 2 ^ 64)%N;
  io_next : v ty_account_number singleton_id (OAccountNumber (N.of_nat (length l) mod 2 ^ 64))
}.

(** The signers of the transaction have used one sequence number, and nothing
    else has changed. *)
Definition sequenced (v v' : view) (t : tx) : Prop := forall ty k o,
  v' ty k o <->
    (~ (ty = ty_account /\ signs t k) /\ v ty k o)
    \/ (ty = ty_account /\ signs t k
        /\ exists acc, v ty k (OAccount acc)
           /\ o = OAccount {| ac_address := ac_address acc; ac_pubkey := ac_pubkey acc;
                             ac_number := ac_number acc; ac_sequence := (ac_sequence acc + 1) mod 2 ^ 64 |}).

(** The same bytes are stored; the same objects can be read. *)
Definition unchanged (x y : node) : Prop := w_store (rt_world y) = w_store (rt_world x).

(** The transaction that is delivered by the call, if any, and admissible. *)
Definition executes (bits : N) (verify : bytes -> bytes -> bytes -> bool) (decode : bytes -> res tx)
    (v : view) (c : abci_call) (t : tx) : Prop :=
  exists raw, c = CallDeliverTx raw /\ decode raw = Ok t /\ admissible bits verify v t.

(** How many transactions are delivered. *)
Definition deliveries (cs : list abci_call) : nat :=
  length (List.filter (fun c => match c with CallDeliverTx _ => true | _ => false end) cs).

(** What the transaction spends of an address: its fee, and what its messages
    send from there. *)
Definition spent (bits : N) (t : tx) (a d : bytes) : N :=
  ((if decide (tx_payer t = a) then worth bits (tx_fee t) d else 0)
   + fold_right (fun m acc => match m with
                              | MsgSendCoins from _ amt => if decide (from = a) then worth bits amt d else 0
                              | _ => 0
                              end + acc) 0 (tx_msgs t))%N.
