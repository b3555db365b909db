(** Theorems about what clients read: ABCI queries. *)
From Coq Require Import NArith ZArith List Bool String.
From stdpp Require Import base list option gmap.
From Verif.Model Require Import Bytes KindEncoder Schema Orm Users Runtime Builder Universe Marshal Authn TestApp Abci Strings Query.
From Verif.Spec Require Import StoreSpec ChainSpec QuerySpec DemoChain.
From Verif.Proofs Require Import QueryFacts DemoRuns DemoFacts.

Section Query.
  Context (C : codec) (bits : N) (verify : bytes -> bytes -> bytes -> bool) (resolves : any -> bool).
  Notation written := (written C bits verify).
  Notation query := (query C bits verify resolves).
  Notation holds := (holds C bits verify).
  Implicit Types (x : node) (o : object) (g k id path : bytes).

  (** ** C48. A path of the form get/group/kind/key, possibly with further parts.
      Missing: keys with a slash cannot be asked for (C48_slash_refuted), and
      objects that cannot be written as JSON crash (C48_crash_refuted). *)
  Theorem C48_get_answers_what_is_stored_partial x g k id rest path :
    codec_ok (app_ops C) -> written x -> get_path g k id rest path ->
    (forall o, query x path = Ok (RObject o) <-> holds x g k id o /\ renderable resolves o)
    /\ (query x path = Panic <-> exists o, holds x g k id o /\ ~ renderable resolves o)
    /\ ((exists e, query x path = Fail e) <-> forall o, ~ holds x g k id o).
  Proof. exact (get_query C bits verify resolves x g k id rest path). Qed.

  (** The other verbs: api_resources lists exactly the kinds of objects there
      are, list answers with nothing, all others are errors. *)
  Theorem C48_other_verbs x path :
    (verb_of path (str "api_resources") -> exists l, query x path = Ok (RResources l) /\ NoDup (map fst l)
       /\ Forall (fun y : bytes * list bytes => NoDup y.2) l
       /\ forall g k, (exists ks, (g, ks) ∈ l /\ k ∈ ks) <-> exists o, of_kind o g k)
    /\ (verb_of path (str "list") -> query x path = Ok RNothing)
    /\ ((forall v, verb_of path v -> v ∉ [str "get"; str "list"; str "api_resources"]) -> exists e, query x path = Fail e).
  Proof. exact (query_verbs C bits verify resolves x path). Qed.

  (** Every path whatever. *)
  Theorem C48_every_path x path : codec_ok (app_ops C) -> written x ->
    match query x path with
    | Ok (RObject o) => exists g k id rest, get_path g k id rest path /\ holds x g k id o /\ renderable resolves o
    | Ok (RResources _) => verb_of path (str "api_resources")
    | Ok RNothing => verb_of path (str "list")
    | Fail _ => forall g k id rest o, get_path g k id rest path -> ~ holds x g k id o
    | Panic => exists g k id rest o, get_path g k id rest path /\ holds x g k id o /\ ~ renderable resolves o
    | OutOfFuel => False
    end.
  Proof. exact (query_outcomes C bits verify resolves x path). Qed.
End Query.
Print Assumptions C48_get_answers_what_is_stored_partial.
Print Assumptions C48_other_verbs.
Print Assumptions C48_every_path.

(** On a node that has just been started the query for the account opened at
    genesis crashes: its key has the type of another project. An account whose
    address has a slash is not found. *)
Theorem C48_crash_refuted :
  ~ forall cs x path, demo_running cs x -> demo_query x path <> Panic.
Proof. exact query_may_crash. Qed.
Print Assumptions C48_crash_refuted.
Theorem C48_slash_refuted :
  ~ forall cs x g k id o, demo_running cs x -> holds protobuf 255 demo_verify x g k id o -> renderable demo_resolves o ->
      demo_query x (path_of [str "get"; g; k; id]) = Ok (RObject o).
Proof. exact query_may_miss. Qed.
Print Assumptions C48_slash_refuted.

Example C48_case :
  codec_ok (app_ops protobuf) /\ written protobuf 255 demo_verify (demo_node demo_history)
  /\ get_path (str "tmos.x.authn.v1alpha1") (str "Account") alice_address [] (account_path alice_address)
  /\ is_ok (demo_query (demo_node demo_history) (account_path alice_address)) = true
  /\ refused (demo_query (demo_node odd_history) (account_path (str "a/b"))) = true
  /\ demo_query (demo_node odd_history) (account_path (str "odd")) = Panic.
Proof.
  split; [exact (so_codec _ _ _ demo_sound)|]. split; [demo|]. split; [exact alice_path|]. demo.
Qed.
