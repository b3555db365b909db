(** The chain as a small program on accounts and purses: no store, no bytes, no
    modules, roles, handlers or users. The node does what it does (C71). *)
From Coq Require Import NArith ZArith List Bool String.
From stdpp Require Import base list.
From Verif.Model Require Import Bytes Schema Prog Universe Coin Authn Distribution TestApp Abci.
From Verif.Spec Require Import ChainSpec.
Local Open Scope N_scope.

(** The book: the height, the number of the next account, the accounts and what
    is in the purses, by address and denomination. *)
Record book := {
  bk_height : N;
  bk_next : N;
  bk_account : bytes -> option account;
  bk_purse : bytes -> option (bytes -> N)
}.
Definition at_address {A} (a : bytes) (y : A) (f : bytes -> A) : bytes -> A := fun b => if decide (b = a) then y else f b.
Definition with_purse (a : bytes) (p : bytes -> N) (b : book) : book :=
  {| bk_height := bk_height b; bk_next := bk_next b; bk_account := bk_account b;
     bk_purse := at_address a (Some p) (bk_purse b) |}.

(** At genesis one account has all coins. *)
Definition first_book : book :=
  {| bk_height := 0; bk_next := 1;
     bk_account := at_address genesis_address
       (Some {| ac_address := genesis_address; ac_pubkey := Some genesis_key; ac_number := 0; ac_sequence := 0 |})
       (fun _ => None);
     bk_purse := at_address genesis_address (Some (at_address (str "test") 5000000000 (fun _ => 0))) (fun _ => None) |}.

(** A new account has the next number and sequence 0. *)
Definition enter (a : bytes) (key : option any) (b : book) : book :=
  {| bk_height := bk_height b; bk_next := (bk_next b + 1) mod 2 ^ 64;
     bk_account := at_address a
       (Some {| ac_address := a; ac_pubkey := key; ac_number := bk_next b; ac_sequence := 0 |}) (bk_account b);
     bk_purse := bk_purse b |}.

Section Machine.
  Context (bits : N) (verify : bytes -> bytes -> bytes -> bool) (chain : bytes) (decode : bytes -> res tx).

  (** The coins are in the purse. *)
  Definition covered (a : bytes) (amt : list coin) (b : book) : bool :=
    match bk_purse b a, new_balance bits amt with
    | Some p, Ok l => forallb (fun d => worth bits amt d <=? p d) (map fst l)
    | _, _ => false
    end.
  (** They are taken out and put into another purse; if there is none, there is a
      new one, and an account if there is none. *)
  Definition transfer (from to : bytes) (amt : list coin) (b : book) : book :=
    let b1 := match bk_purse b from with
              | Some p => with_purse from (fun d => p d - worth bits amt d) b
              | None => b
              end in
    match bk_purse b1 to with
    | Some p => with_purse to (fun d => p d + worth bits amt d) b1
    | None =>
        let b2 := with_purse to (worth bits amt) b1 in
        match bk_account b2 to with Some _ => b2 | None => enter to None b2 end
    end.

  (** A transaction is accepted if every signer has an account with a key and has
      signed for its sequence and number, it has not timed out, the memo is short,
      the signatures are few, and the fee is covered. *)
  Definition has_signed (t : tx) (b : book) (s : signer) : bool :=
    match bk_account b (sg_address s) with
    | Some acc =>
        match ac_pubkey acc with Some _ => true | None => false end
        && (ac_sequence acc =? sg_sequence s)
        && verify (sg_key s) (direct_sign_bytes (tx_body_bytes t) (tx_auth_bytes t) chain (ac_number acc)) (sg_signature s)
    | None => false
    end.
  Definition accepted (t : tx) (b : book) : bool :=
    forallb (has_signed t b) (tx_signers t)
    && ((tx_timeout t =? 0) || (bk_height b <=? tx_timeout t))
    && (N.of_nat (List.length (tx_memo t)) <=? 1000000)
    && (N.of_nat (List.length (tx_signers t)) <=? 1000000)
    && covered (tx_payer t) (tx_fee t) b.
  (** The signers use one sequence number. *)
  Definition use_sequences (t : tx) (b : book) : book :=
    {| bk_height := bk_height b; bk_next := bk_next b;
       bk_account := fun a =>
         if decide (a ∈ map sg_address (tx_signers t))
         then match bk_account b a with
              | Some acc => Some {| ac_address := ac_address acc; ac_pubkey := ac_pubkey acc;
                                    ac_number := ac_number acc; ac_sequence := (ac_sequence acc + 1) mod 2 ^ 64 |}
              | None => None
              end
         else bk_account b a;
       bk_purse := bk_purse b |}.

  (** One message: the answer and the book after it. There is none if the process
      ends: an account needs an address that has none and is no name of a module,
      and coins need a sender and a receiver. Nobody may send other messages. *)
  Definition no_address (a : bytes) (b : book) : bool :=
    bool_decide (a = []) || bool_decide (a ∈ modules_of_app) || match bk_account b a with Some _ => true | None => false end.
  Definition no_receiver (a : bytes) (b : book) : bool :=
    bool_decide (a = [])
    || bool_decide (a ∈ modules_of_app)
       && match bk_purse b a, bk_account b a with None, None => true | _, _ => false end.
  Definition do_message (m : msg) (b : book) : option (bool * book) :=
    match m with
    | MsgSendCoins from to amt =>
        if bool_decide (from = []) then None
        else if covered from amt b
             then if no_receiver to b then None else Some (true, transfer from to amt b)
             else Some (false, b)
    | MsgCreateAccount (Some acc) =>
        if no_address (ac_address acc) b then None else Some (true, enter (ac_address acc) (ac_pubkey acc) b)
    | MsgCreateAccount None => None
    | _ => Some (false, b)
    end.
  (** Messages up to the first that fails; what was done stays done. *)
  Fixpoint do_messages (l : list msg) (b : book) : option (bool * book) :=
    match l with
    | [] => Some (true, b)
    | m :: l =>
        match do_message m b with
        | Some (true, b1) => do_messages l b1
        | o => o
        end
    end.
  Definition do_tx (t : tx) (b : book) : option (bool * book) :=
    if accepted t b
    then do_messages (tx_msgs t) (transfer (tx_payer t) fee_collector (tx_fee t) (use_sequences t b))
    else Some (false, b).

  Definition do_call (c : abci_call) (b : book) : option (bool * book) :=
    match c with
    | CallInitChain _ _ => None
    | CallBeginBlock h _ =>
        Some (true, {| bk_height := Z.to_N (h mod 2 ^ 64); bk_next := bk_next b;
                       bk_account := bk_account b; bk_purse := bk_purse b |})
    | CallCheckTx raw => Some (match decode raw with Ok t => accepted t b | _ => false end, b)
    | CallDeliverTx raw => match decode raw with Ok t => do_tx t b | Fail _ => Some (false, b) | _ => None end
    | CallEndBlock _ | CallCommit => Some (true, b)
    end.
  Fixpoint do_calls (cs : list abci_call) (b : book) : option book :=
    match cs with
    | [] => Some b
    | c :: cs => match do_call c b with Some (_, b1) => do_calls cs b1 | None => None end
    end.
End Machine.

(** The node and the book agree on all that can be asked about heights, accounts
    and balances. *)
Record shows (bits : N) (v : view) (b : book) : Prop := {
  sh_height : forall h, v ty_current_block singleton_id (OCurrentBlock h) <-> h = bk_height b;
  sh_next : forall n, v ty_account_number singleton_id (OAccountNumber n) <-> n = bk_next b;
  sh_account : forall a acc, v ty_account a (OAccount acc) <-> bk_account b a = Some acc;
  sh_purse : forall a, match bk_purse b a with
    | Some p => exists c, v ty_balance a (OBalance a c) /\ readable bits c /\ forall d, worth bits c d = p d
    | None => forall o, ~ v ty_balance a o
    end
}.

(** The addresses in the messages have less than 128 bytes. *)
Definition addressed_shortly (t : tx) : Prop :=
  (forall from to amt, MsgSendCoins from to amt ∈ tx_msgs t -> (List.length from < 128 /\ List.length to < 128)%nat)
  /\ forall acc, MsgCreateAccount (Some acc) ∈ tx_msgs t -> (List.length (ac_address acc) < 128)%nat.
(** The answer to a call: yes or no; CheckTx looks at the messages as well and may
    still say no. *)
Definition as_answered (c : abci_call) (r : res unit) (yes : bool) : Prop :=
  match c with
  | CallCheckTx _ => r = Ok tt -> yes = true
  | _ => r = Ok tt <-> yes = true
  end.
