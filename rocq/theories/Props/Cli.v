(** Theorems about the command line client: C72. *)
From Coq Require Import NArith ZArith List Bool String.
From stdpp Require Import base list option gmap.
From Verif.Model Require Import Bytes KindEncoder Schema Orm Runtime Builder Universe Marshal Authn TestApp Strings Query Cli.
From Verif.Spec Require Import StoreSpec ChainSpec QuerySpec DemoChain.
From Verif.Proofs Require Import QueryFacts CliFacts DemoRuns DemoFacts.

Section Cli.
  Context (C : codec) (bits : N) (verify : bytes -> bytes -> bytes -> bool) (resolves : any -> bool).
  Notation written := (written C bits verify).
  Notation query := (query C bits verify resolves).
  Notation holds := (holds C bits verify).
  Implicit Types (x : node) (o : object) (g k id : bytes).

  (** ** C72. get GROUP KIND NAME prints the object stored under these names and
      is an error if there is none; further arguments do not matter. Missing:
      arguments with a slash (C72_other_object_refuted), and objects that crash
      the query (C48_crash_refuted). *)
  Theorem C72_get_prints_what_is_stored_partial x g k id more :
    codec_ok (app_ops C) -> written x -> Forall no_slash [g; k; id] ->
    (forall o, get_command (query x) (g :: k :: id :: more) = Ok (RObject o) <-> holds x g k id o /\ renderable resolves o)
    /\ (get_command (query x) (g :: k :: id :: more) = Panic <-> exists o, holds x g k id o /\ ~ renderable resolves o)
    /\ ((exists e, get_command (query x) (g :: k :: id :: more) = Fail e) <-> forall o, ~ holds x g k id o).
  Proof. exact (get_prints C bits verify resolves x g k id more). Qed.

  (** Arguments with slashes are read anew: joined by slashes and taken apart. *)
  Theorem C72_get_of_any_arguments x g k id more : codec_ok (app_ops C) -> written x ->
    exists g' k' id' rest, Forall no_slash (g' :: k' :: id' :: rest) /\ path_of (g' :: k' :: id' :: rest) = path_of [g; k; id]
    /\ (forall o, get_command (query x) (g :: k :: id :: more) = Ok (RObject o) <-> holds x g' k' id' o /\ renderable resolves o)
    /\ (get_command (query x) (g :: k :: id :: more) = Panic <-> exists o, holds x g' k' id' o /\ ~ renderable resolves o)
    /\ ((exists e, get_command (query x) (g :: k :: id :: more) = Fail e) <-> forall o, ~ holds x g' k' id' o).
  Proof. exact (get_prints_parts C bits verify resolves x g k id more). Qed.

  (** Too few arguments: none and one are refused, two crash the client. *)
  Theorem C72_too_few_arguments x :
    (forall args, length args < 2 -> exists e, get_command (query x) args = Fail e)
    /\ forall g k, get_command (query x) [g; k] = Panic.
  Proof. split; [exact (get_few C bits verify resolves x)|exact (get_two C bits verify resolves x)]. Qed.

  (** resources prints exactly the kinds of objects there are, and takes no arguments. *)
  Theorem C72_resources x args :
    (args = [] -> exists l, resources_command (query x) args = Ok (RResources l) /\ NoDup (map fst l)
       /\ Forall (fun y : bytes * list bytes => NoDup y.2) l
       /\ forall g k, (exists ks, (g, ks) ∈ l /\ k ∈ ks) <-> exists o, of_kind o g k)
    /\ (args <> [] -> exists e, resources_command (query x) args = Fail e).
  Proof. exact (resources_prints C bits verify resolves x args). Qed.
End Cli.

(** What is printed need not be stored under the name that was asked for: the
    name alice/beyond prints the balance of alice. *)
Theorem C72_other_object_refuted :
  ~ forall cs x g k id o, demo_running cs x -> demo_prints x [g; k; id] = Ok (RObject o) -> holds protobuf 255 demo_verify x g k id o.
Proof. exact other_object. Qed.

Example C72_case :
  codec_ok (app_ops protobuf) /\ written protobuf 255 demo_verify (demo_node demo_history)
  /\ demo_prints (demo_node demo_history) (balance_args alice_address) = Ok (RObject (OBalance alice_address (tests "1000")))
  /\ demo_prints (demo_node demo_history) (balance_args (alice_address ++ str "/beyond")) = Ok (RObject (OBalance alice_address (tests "1000")))
  /\ refused (demo_prints (demo_node demo_history) (balance_args bob_address)) = true.
Proof.
  split; [exact (so_codec _ _ _ demo_sound)|]. split; [demo|]. destruct cli_case as (H1 & H2 & _ & H4).
  split; [exact H2|]. split; [exact H1|exact H4].
Qed.

Print Assumptions C72_get_prints_what_is_stored_partial.
Print Assumptions C72_get_of_any_arguments.
Print Assumptions C72_too_few_arguments.
Print Assumptions C72_resources.
Print Assumptions C72_other_object_refuted.
