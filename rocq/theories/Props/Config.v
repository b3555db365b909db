(** Theorems about the configuration of the command line client: C77. *)
From Coq Require Import NArith ZArith List Bool String.
From stdpp Require Import base list option gmap.
From Verif.Model Require Import Bytes KindEncoder Schema Orm Runtime Builder Universe Marshal Authn TestApp Strings Query Cli Config.
From Verif.Spec Require Import StoreSpec ChainSpec QuerySpec ConfigSpec DemoConfig.
From Verif.Proofs Require Import PathFacts ConfigFacts ConfigCases.

(** ** C77. The surroundings name exactly one node, or there is exactly one error
    that keeps the client from it. *)
Theorem C77_one_node_or_one_error su :
  ((exists endpoint, names_node su endpoint) \/ exists e, names_none su e)
  /\ (forall endpoint endpoint', names_node su endpoint -> names_node su endpoint' -> endpoint = endpoint')
  /\ (forall e e', names_none su e -> names_none su e' -> e = e')
  /\ forall endpoint e, names_node su endpoint -> names_none su e -> False.
Proof. exact (named su). Qed.

(** All commands of one client ask the node that was named when the first of them
    with acceptable arguments was run, or report the error of that time. Commands
    whose arguments are not accepted are refused and ask nobody. *)
Theorem C77_commands_ask_the_node {Obj : Type} (network : bytes -> bytes -> res (reply Obj)) l1 su cmd l2 :
  Forall (fun x => accepted x.2 = false) l1 -> accepted cmd = true ->
  let l := l1 ++ (su, cmd) :: l2 in
  let answers := (run_commands network l None).1 in
  length answers = length l
  /\ forall i su' cmd', l !! i = Some (su', cmd') ->
       (accepted cmd' = false -> exists e, answers !! i = Some (Fail e))
       /\ (accepted cmd' = true -> asks_for cmd' = None -> answers !! i = Some Panic)
       /\ forall path, asks_for cmd' = Some path ->
            (forall endpoint, names_node su endpoint -> answers !! i = Some (network endpoint path))
            /\ forall e, names_none su e -> answers !! i = Some (Fail e).
Proof. exact (commands_ask network l1 su cmd l2). Qed.

(** Without a command with acceptable arguments no configuration is read. *)
Theorem C77_refused_commands_read_nothing {Obj : Type} (network : bytes -> bytes -> res (reply Obj)) l client :
  Forall (fun x => accepted x.2 = false) l -> run_commands network l client = (map (fun _ => Fail EAnon) l, client).
Proof. exact (refused_steps network l client). Qed.

(** The place of the file is what one would write down, if the directory has no
    empty parts and no dots. *)
Theorem C77_place_of_the_file (rooted : bool) parts names file :
  parts <> [] -> names <> [] ->
  Forall (fun n => n <> [] /\ no_slash n /\ n <> str "." /\ n <> str "..") (parts ++ names) ->
  let dir := (if rooted then str "/" else []) ++ path_of parts in
  under dir names file -> file = dir ++ str "/" ++ path_of names.
Proof. exact (file_place rooted parts names file). Qed.

(** From the command to what the node stores: one command prints the object that
    the node named in the configuration holds under these names. *)
Theorem C77_get_prints_what_the_node_holds C bits verify resolves (nodes : bytes -> option node) su endpoint x g k id more o :
  codec_ok (app_ops C) -> names_node su endpoint -> nodes endpoint = Some x -> written C bits verify x -> Forall no_slash [g; k; id] ->
  let network ep path := match nodes ep with Some x => query C bits verify resolves x path | None => Fail EAnon end in
  (run_commands network [(su, DoGet (g :: k :: id :: more))] None).1 = [Ok (RObject o)]
  <-> holds C bits verify x g k id o /\ renderable resolves o.
Proof. exact (get_through C bits verify resolves nodes su endpoint x g k id more o). Qed.

(** Two directories and a third one, not there, are configured one after the
    other: the first one stays, whether it is usable or not. *)
Example C77_case :
  let conf := Some (str "/home/me/../..//conf/.") in
  let ask := DoGet [str "g"; str "k"; str "id"] in
  names_node (demo_surroundings conf) (str "tcp://far") /\ names_node (demo_surroundings None) (str "tcp://near")
  /\ names_none (demo_surroundings (Some [])) (ESent RtNotFound)
  /\ under [] [str "config.yaml"] (str "config.yaml") /\ under (str "../a/../..") [str "x"] (str "../../x")
  /\ (run_commands demo_network [(demo_surroundings None, DoGet []); (demo_surroundings conf, ask); (demo_surroundings None, DoResources [])] None).1
     = [Fail EAnon; Ok (RObject (str "tcp://farget/g/k/id")); Ok (RObject (str "tcp://farapi_resources"))]
  /\ (run_commands demo_network [(demo_surroundings (Some []), ask); (demo_surroundings None, ask)] None).1
     = [Fail (ESent RtNotFound); Fail (ESent RtNotFound)].
Proof. exact config_case. Qed.

Print Assumptions C77_one_node_or_one_error.
Print Assumptions C77_commands_ask_the_node.
Print Assumptions C77_refused_commands_read_nothing.
Print Assumptions C77_place_of_the_file.
Print Assumptions C77_get_prints_what_the_node_holds.
