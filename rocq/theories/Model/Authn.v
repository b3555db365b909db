(** x/authn: accounts, and the checks and effects of whole transactions. *)
From Coq Require Import NArith ZArith List Bool String.
From stdpp Require Import base list gmap.
From Verif.Model Require Import Bytes Wire KindEncoder Desc Schema Users Prog Runtime Services Module
  Universe Rbac.

(** tx/tx.go:14-19 Signer; the public key is given by its bytes
    (crypto/v1alpha1 PubKey.Key). *)
Record signer := {
  sg_address : bytes;
  sg_key : bytes;
  sg_signature : bytes;
  sg_sequence : N
}.

(** tx/tx.go:23-31 Wrapper: what the application reads of a decoded
    transaction. *)
Record tx := {
  tx_body_bytes : bytes;       (* txRaw.BodyBytes *)
  tx_auth_bytes : bytes;       (* txRaw.AuthInfoBytes *)
  tx_memo : bytes;             (* raw.Body.Memo *)
  tx_timeout : N;              (* raw.Body.TimeoutHeight *)
  tx_fee : list coin;          (* raw.AuthInfo.Fee.Amount *)
  tx_payer : bytes;
  tx_users : users;
  tx_signers : list signer;    (* pubKeys *)
  tx_msgs : list msg           (* transitions *)
}.

(** Marshalling of fields by google.golang.org/protobuf: absent if empty. *)
Definition bytes_field (num : N) (b : bytes) : bytes :=
  match b with [] => [] | _ => append_varint (num * 8 + 2) ++ append_bytes b end.
Definition uint_field (num : N) (v : N) : bytes :=
  if (v =? 0)%N then [] else append_varint (num * 8) ++ append_varint v.

(** extensions.go:234-242 DirectSignBytes (SignDoc of v1alpha1/tx.proto:49-65).
    Simplification: the chain identifier is valid UTF-8, so that the marshalling
    does not fail (it was marshalled before, when it was stored). *)
Definition direct_sign_bytes (body auth chain_id : bytes) (number : N) : bytes :=
  bytes_field 1 body ++ bytes_field 2 auth ++ bytes_field 3 chain_id ++ uint_field 4 number.

(** extensions.go:83-85 mempoolFee.Validate. *)
Definition mempool_fee (_ : tx) : prog object msg unit := PRet tt.

(** extensions.go:25-34 accountExists.Validate; v1alpha1/client.go:41-45. *)
Fixpoint accounts_exist (l : list user) : prog object msg unit :=
  match l with
  | [] => PRet tt
  | u :: l' => get_ ty_account (u_name u) (fun _ => accounts_exist l') PFail
  end.
Definition account_exists (t : tx) : prog object msg unit := PEnum (tx_users t) accounts_exist.

(** extensions.go:44-55 timeoutBlockExtension.Validate. *)
Definition timeout_block (t : tx) : prog object msg unit :=
  get_ ty_current_block singleton_id
    (fun x => match x with
              | OCurrentBlock n =>
                  if (negb (tx_timeout t =? 0) && (tx_timeout t <? n))%N then PFail EAnon else PRet tt
              | _ => PPanic
              end) PFail.

(** v1alpha1/client.go:32-39 GetParams. *)
Definition with_params (k : auth_params -> prog object msg unit) : prog object msg unit :=
  get_ ty_auth_params singleton_id
    (fun x => match x with OAuthParams p => k p | _ => PPanic end) PFail.

(** extensions.go:65-77 validateMemoExtension.Validate. *)
Definition validate_memo (t : tx) : prog object msg unit :=
  with_params (fun p => if (pr_max_memo p <? blen (tx_memo t))%N then PFail EAnon else PRet tt).

(** extensions.go:95-125 sigCount.Validate: every key counts one. *)
Fixpoint count_sigs (limit n : N) (l : list signer) : prog object msg unit :=
  match l with
  | [] => PRet tt
  | _ :: l' => if (limit <? n + 1)%N then PFail EAnon else count_sigs limit (n + 1) l'
  end.
Definition sig_count (t : tx) : prog object msg unit :=
  with_params (fun p => count_sigs (pr_sig_limit p) 0 (tx_signers t)).

(** extensions.go:208-228: [verify key message signature] is VerifySignature of
    the public key. *)
Fixpoint verify_signers (verify : bytes -> bytes -> bytes -> bool) (t : tx) (chain_id : bytes)
    (l : list signer) : prog object msg unit :=
  match l with
  | [] => PRet tt
  | s :: l' =>
      get_ ty_account (sg_address s)
        (fun x => match x with
         | OAccount a =>
             match ac_pubkey a with
             | None => PFail EAnon
             | Some _ =>
                 if negb (ac_sequence a =? sg_sequence s)%N then PFail EAnon
                 else if verify (sg_key s)
                           (direct_sign_bytes (tx_body_bytes t) (tx_auth_bytes t) chain_id (ac_number a))
                           (sg_signature s)
                      then verify_signers verify t chain_id l'
                      else PFail EAnon
             end
         | _ => PPanic
         end) PFail
  end.

(** extensions.go:199-230 sigVerifier.Validate. *)
Definition sig_verifier (verify : bytes -> bytes -> bytes -> bool) (t : tx) : prog object msg unit :=
  get_ ty_init_chain_info singleton_id
    (fun x => match x with
              | OInitChainInfo chain_id => verify_signers verify t chain_id (tx_signers t)
              | _ => PPanic
              end) PFail.

(** extensions.go:134-137 consumeGasForTxSize.Exec. *)
Definition consume_gas (_ : tx) : prog object msg unit := PRet tt.

(** v1alpha1/client.go:53-70 UpdatePublicKey. *)
Definition key_any (key : bytes) : any :=
  {| any_url := str "/tmos.x.authn.crypto.v1alpha1.PubKey"; any_value := bytes_field 1 key |}.
Definition with_pubkey (a : account) (key : bytes) : account :=
  {| ac_address := ac_address a; ac_pubkey := Some (key_any key);
     ac_number := ac_number a; ac_sequence := ac_sequence a |}.
Definition update_public_key (address key : bytes) (k : prog object msg unit) : prog object msg unit :=
  get_ ty_account address
    (fun x => match x with
              | OAccount a => update_ (OAccount (with_pubkey a key)) k
              | _ => PPanic
              end) PFail.

(** extensions.go:149-166 setPubKeys.Exec. *)
Fixpoint set_keys (l : list signer) : prog object msg unit :=
  match l with
  | [] => PRet tt
  | s :: l' =>
      get_ ty_account (sg_address s)
        (fun x => match x with
         | OAccount a => match ac_pubkey a with
                         | Some _ => set_keys l'
                         | None => update_public_key (sg_address s) (sg_key s) (set_keys l')
                         end
         | _ => PPanic
         end) PFail
  end.
Definition set_pub_keys (t : tx) : prog object msg unit := set_keys (tx_signers t).

(** v1alpha1/client.go:22-30 IncreaseSequence, on a uint64. *)
Definition next_sequence (a : account) : account :=
  {| ac_address := ac_address a; ac_pubkey := ac_pubkey a;
     ac_number := ac_number a; ac_sequence := (ac_sequence a + 1) mod 2 ^ 64 |}.
Fixpoint increase_sequences (l : list user) : prog object msg unit :=
  match l with
  | [] => PRet tt
  | u :: l' =>
      get_ ty_account (u_name u)
        (fun x => match x with
                  | OAccount a => update_ (OAccount (next_sequence a)) (increase_sequences l')
                  | _ => PPanic
                  end) PFail
  end.
(** extensions.go:176-185 increaseSequence.Exec. *)
Definition increase_sequence (t : tx) : prog object msg unit := PEnum (tx_users t) increase_sequences.

(** ctrl_admission.go:16-29 CreateAccountAdmissionHandler.Validate. *)
Definition create_account_admission (_ : users) (m : msg) : prog object msg unit :=
  match m with
  | MsgCreateAccount None => PFail EAnon
  | MsgCreateAccount (Some a) => if bytes_eqb (ac_address a) [] then PFail EAnon else PRet tt
  | _ => PPanic
  end.

(** ctrl_state_transition.go:22-55 CreateAccountHandler.Exec. *)
Definition create_account_exec (_ : users) (m : msg) : prog object msg unit :=
  match m with
  | MsgCreateAccount a =>
      get_ ty_account_number singleton_id
        (fun x => match x with
         | OAccountNumber n =>
             match a with
             | None => PPanic
             | Some a =>
                 create_ (OAccount {| ac_address := ac_address a; ac_pubkey := ac_pubkey a;
                                      ac_number := n; ac_sequence := 0 |})
                   (update_ (OAccountNumber ((n + 1) mod 2 ^ 64))
                      (deliver_ (MsgBindRole external_role_id (ac_address a)) (PRet tt)))
             end
         | _ => PPanic
         end) PFail
  | _ => PPanic
  end.

(** genesis.go:14-36. *)
Definition authn_genesis : genesis object msg := {|
  gn_default :=
    create_ (OAuthParams {| pr_max_memo := 1000000; pr_sig_limit := 1000000; pr_size_cost := 0;
                            pr_ed25519_cost := 0; pr_secp256k1_cost := 0 |})
      (create_ (OAccountNumber 0) (PRet tt));
  gn_import := fun _ => PPanic |}.

(** module.go:19-51 Initialize. *)
Definition authn_module (verify : bytes -> bytes -> bytes -> bool) : module object msg tx := {|
  mo_name := str "authn";
  mo_genesis := Some authn_genesis;
  mo_admission := [(t_create_account, create_account_admission)];
  mo_pre := [];
  mo_exec := [(t_create_account, create_account_exec)];
  mo_post := [];
  mo_objects := [account_object; auth_params_object; account_number_object];
  mo_needs := [t_bind_role];
  mo_auth_admission := [mempool_fee; account_exists; timeout_block; validate_memo; sig_count;
                        sig_verifier verify];
  mo_post_auth := [consume_gas; set_pub_keys; increase_sequence];
  mo_services := [];
  mo_authorizer := None |}.
