(** When the node answers, and when the process ends. What the theorems about
    answers speak of. *)
From Coq Require Import NArith ZArith List Bool String.
From stdpp Require Import base list gmap.
From Verif.Model Require Import Bytes KindEncoder Desc Schema Orm Users Prog Runtime Services Module Builder
  Universe Coin CoreModules Rbac Bank Authn Distribution TestApp Abci Wire Proto Marshal.
From Verif.Spec Require Import UserSpec StoreSpec RbacSpec ChainSpec.

(** The last thing the node has done is to try to write an object that is [P]. *)
Definition stopped_writing (P : object -> Prop) (x : node) : Prop :=
  exists before o us, P o
    /\ (w_trace (rt_world x) = before ++ [EvWrite (WCreate o) us]
        \/ w_trace (rt_world x) = before ++ [EvWrite (WUpdate o) us]).
(** The process still runs, unless it has stopped writing an object that is [P]. *)
Definition answers {A} (P : object -> Prop) (y : res A * node) : Prop :=
  alive (fst y) \/ (~ alive (fst y) /\ stopped_writing P (snd y)).
(** The same, and the answer is that all went well. *)
Definition succeeds {A} (P : object -> Prop) (y : res A * node) : Prop :=
  (exists a, fst y = Ok a) \/ (~ alive (fst y) /\ stopped_writing P (snd y)).

(** The object cannot be stored: it cannot be marshalled or has too long keys. *)
Definition cannot_store (C : codec) (bits : N) (verify : bytes -> bytes -> bytes -> bool) (o : object) : Prop :=
  exists s, rg_schemas (ap_registry (the_app bits verify)) !! obj_name (app_ops C) o = Some s
    /\ storable (app_ops C) s o = false.
(** The object has more bytes than a slice of Go can have. *)
Definition oversized (o : object) : Prop := (2 ^ 63 <= blen (encode_fields (enc_object o)))%N.

(** ** Messages that stop the node *)
Section Fatal.
  Context (bits : N) (v : view).
  Definition has (ty k : bytes) : Prop := exists o, v ty k o.
  (** The balance of [from] covers [amt]. *)
  Definition covers (from : bytes) (amt : list coin) : Prop :=
    exists a c r, v ty_balance from (OBalance a c) /\ safe_sub bits c amt = Ok r.
  (** There is no account and none can be opened, as there is a role binding already. *)
  Definition walled (a : bytes) : Prop := ~ has ty_account a /\ has ty_binding a.

  Definition fatal (us : users) (m : msg) : Prop :=
    granted v VDeliver (msg_name m) us
    /\ match m with
       | MsgCreateAccount None => True
       | MsgCreateAccount (Some a) =>
           ac_address a = [] \/ has ty_account (ac_address a) \/ has ty_binding (ac_address a)
       | MsgSendCoins from to amt =>
           from = [] \/ (covers from amt /\ (to = [] \/ (~ has ty_balance to /\ walled to)))
       | _ => False
       end.
  (** The addresses of a message have less than 128 bytes. *)
  Definition short_addresses (m : msg) : Prop :=
    match m with
    | MsgCreateAccount (Some a) => length (ac_address a) < 128
    | MsgSendCoins from to _ => length from < 128 /\ length to < 128
    | _ => True
    end.
End Fatal.

(** Messages one after the other that cannot stop the node. [used] are the
    addresses that accounts may have been opened for since the view [v]. *)
Fixpoint tame (v : view) (used : list bytes) (l : list msg) : Prop :=
  match l with
  | [] => True
  | m :: l' =>
      short_addresses m
      /\ match m with
         | MsgCreateAccount None => False
         | MsgCreateAccount (Some a) =>
             ac_address a <> [] /\ ac_address a ∉ modules_of_app /\ ac_address a ∉ used
             /\ (forall o, ~ v ty_account (ac_address a) o)
             /\ tame v (ac_address a :: used) l'
         | MsgSendCoins from to _ =>
             from <> [] /\ to <> [] /\ to ∉ modules_of_app /\ tame v (to :: used) l'
         | _ => tame v used l'
         end
  end.
(** Transactions that cannot stop the node: the fee collector's account may be opened. *)
Definition tame_tx (v : view) (t : tx) : Prop := tame v [fee_collector] (tx_msgs t).

(** The admission controllers of all messages are asked for roles that have a name. *)
Definition named_roles (t : tx) : Prop :=
  forall id subject, MsgBindRole id subject ∈ tx_msgs t -> id <> [].

(** The transaction only sends coins: readable amounts, from addresses with a
    balance that covers them (with the fee), to short addresses of no module. *)
Definition payments (bits : N) (v : view) (t : tx) : Prop :=
  (forall m, m ∈ tx_msgs t -> exists from to amt, m = MsgSendCoins from to amt
     /\ to <> [] /\ length to < 128 /\ to ∉ modules_of_app /\ readable bits amt /\ has v ty_balance from)
  /\ (forall a d n, balance bits v a d n -> spent bits t a d <= n)%N.
