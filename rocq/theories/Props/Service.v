(** Theorems about the API server of a running node: C61. *)
From Coq Require Import NArith List Bool String.
From stdpp Require Import base list gmap.
From Verif.Model Require Import Bytes KindEncoder Schema Orm Users Prog Runtime Module Builder Universe Marshal Authn TestApp Abci ApiServer ApiService.
From Verif.Spec Require Import TextSpec StoreSpec QuerySpec ApiSpec ChainSpec ServiceSpec DemoChain DemoRoles DemoService.
From Verif.Proofs Require Import ServiceFacts DemoRuns DemoFacts DemoServiceFacts.

Section Service.
  Context (C : codec) (bits : N) (verify : bytes -> bytes -> bytes -> bool).
  Context (enum : list (event object msg) -> users -> list user) (fuel : nat) (decode : bytes -> res tx).
  Context (find_message : bytes -> option objtype) (renders : object -> bool).
  Notation running := (running C bits verify enum fuel decode).
  Notation gets := (gets C bits verify).
  Notation starts := (starts C bits verify find_message).
  Notation serving := (serving C bits verify enum fuel decode find_message).
  Notation http := (http C bits verify renders).
  Notation reads_with := (reads_with C bits verify).
  Notation reads_all := (reads_all C bits verify).
  Implicit Types (x : node) (rq : request).
  (** The codec, the listing of users and the decoder are sound; the types of the
      application are linked into the program. *)
  Hypothesis HS : sound C enum decode.
  Hypothesis HL : linked find_message.

  (** The service starts on every running node. *)
  Theorem C61_starts id cs x : running id cs x -> exists objects, starts x = Ok objects.
  Proof. exact (fun H => ex_intro _ _ (service_starts C bits verify enum fuel decode HS find_message HL id cs x H)). Qed.

  (** One object by the text of its key: the object the node reads, or none. *)
  Theorem C61_one_object id objects cs x ty path key t rq :
    serving id objects -> running id cs x -> (ty, path, key) ∈ keyed_paths ->
    rq_path rq = path ++ str "/" ++ t -> path_part t -> (blen t < 2 ^ 63)%N -> height_text (rq_height rq) ->
    match http objects rq x with
    | HObject o => renders o = true /\ reads_with x ty key (VString t) o
    | HNotFound => forall o, ~ reads_with x ty key (VString t) o
    | HAborted => exists o, reads_with x ty key (VString t) o /\ renders o = false
    | _ => False
    end.
  Proof. exact (chain_one C bits verify enum fuel decode HS find_message HL renders id objects cs x ty path key t rq). Qed.

  (** A singleton. *)
  Theorem C61_singleton id objects cs x ty path rq :
    serving id objects -> running id cs x -> (ty, path) ∈ single_paths -> rq_path rq = path ->
    match http objects rq x with
    | HObject o => height_text (rq_height rq) /\ renders o = true /\ gets x ty (str "unique") o
    | HNotFound => height_text (rq_height rq) /\ forall o, ~ gets x ty (str "unique") o
    | HBadRequest => ~ height_text (rq_height rq)
    | HAborted => height_text (rq_height rq) /\ exists o, gets x ty (str "unique") o /\ renders o = false
    | _ => False
    end.
  Proof. exact (chain_single C bits verify enum fuel decode HS find_message HL renders id objects cs x ty path rq). Qed.

  (** Many objects: all those the node reads with the value selected first. *)
  Theorem C61_many_objects id objects cs x ty path key rq :
    serving id objects -> running id cs x -> (ty, path, key) ∈ keyed_paths -> rq_path rq = path ++ str "s" ->
    Forall (fun t => (blen t < 2 ^ 63)%N) (rq_query rq (str "selectField")) ->
    match http objects rq x with
    | HObjects l => well_formed ty rq /\ l <> [] /\ (forall o, o ∈ l -> renders o = true)
        /\ exists f v, first_selection ty rq f v /\ reads_all x ty f v l
    | HBadRequest => well_formed ty rq -> exists f v, first_selection ty rq f v /\ forall o, ~ reads_with x ty f v o
    | HAborted => well_formed ty rq /\ exists f v o, first_selection ty rq f v /\ reads_with x ty f v o /\ renders o = false
    | _ => False
    end.
  Proof. exact (chain_list C bits verify enum fuel decode HS find_message HL renders id objects cs x ty path key rq). Qed.

  (** Nothing is served anywhere else. *)
  Theorem C61_nowhere_else id objects x rq :
    serving id objects ->
    (forall ty path, (ty, path) ∈ single_paths -> rq_path rq <> path) ->
    (forall ty path key, (ty, path, key) ∈ keyed_paths ->
       rq_path rq <> path ++ str "s" /\ forall t, path_part t -> rq_path rq <> path ++ str "/" ++ t) ->
    http objects rq x = HNotFound \/ http objects rq x = HRedirect.
  Proof. exact (chain_elsewhere C bits verify enum fuel decode HS find_message HL renders id objects x rq). Qed.

  (** Which objects of the chain can be asked for. *)
  Theorem C61_reachable id objects cs x ty path key t o :
    serving id objects -> running id cs x -> (ty, path, key) ∈ keyed_paths -> reads_with x ty key (VString t) o ->
    (exists rq, (blen (rq_path rq) < 2 ^ 63)%N /\ http objects rq x = HObject o)
    <-> renders o = true /\ path_part t /\ (blen (path ++ str "/" ++ t) < 2 ^ 63)%N.
  Proof. exact (chain_reach C bits verify enum fuel decode HS find_message HL renders id objects cs x ty path key t o). Qed.
End Service.
Print Assumptions C61_starts.
Print Assumptions C61_one_object.
Print Assumptions C61_singleton.
Print Assumptions C61_many_objects.
Print Assumptions C61_nowhere_else.
Print Assumptions C61_reachable.

(** The hypotheses hold of the concrete node. Asked for after a block: the balances
    of alice and of an address without one, the account of alice by address and by
    number, accounts by an unused number and by a field without an index, the
    height, parameters nobody wrote, a role binding, and a path that is not served. *)
Example C61_case :
  sound protobuf demo_users demo_decode /\ linked app_messages
  /\ exists objects, demo_serving objects /\ demo_running demo_history (demo_node demo_history)
     /\ map (fun rq => demo_http objects rq (demo_node demo_history)) chain_requests = chain_responses.
Proof.
  split; [exact demo_sound|]. split; [exact linked_app|]. exists app_served.
  split; [exact (demo_serves demo_history ltac:(fact))|]. split; [exact (demo_node_running demo_history ltac:(fact))|].
  exact (demo_answered demo_history chain_requests chain_responses ltac:(fact) ltac:(fact)).
Qed.
(** An account whose address has a slash cannot be asked for. *)
Example C61_case_slash : exists objects, demo_serving objects
  /\ demo_get (demo_node odd_history) ty_account (str "a/b")
     = Ok (OAccount {| ac_address := str "a/b"; ac_pubkey := None; ac_number := 2; ac_sequence := 0 |})
  /\ map (fun rq => demo_http objects rq (demo_node odd_history)) [ask_at (account_at (str "a/b")) []; ask_at (account_at (str "odd")) []]
     = [HNotFound; HObject (OAccount {| ac_address := str "odd"; ac_pubkey := Some odd_key; ac_number := 3; ac_sequence := 0 |})].
Proof.
  exists app_served. split; [exact (demo_serves odd_history ltac:(fact))|]. split; [fact|].
  refine (demo_answered odd_history _ _ _ _); fact.
Qed.
