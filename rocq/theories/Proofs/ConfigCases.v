(** The configuration of the client: the statements of C77. *)
From Coq Require Import NArith ZArith List Bool String Lia.
From stdpp Require Import base list option gmap.
From Verif.Model Require Import Bytes KindEncoder Schema Orm Runtime Builder Universe Marshal Authn TestApp Strings Query Cli Config.
From Verif.Spec Require Import StoreSpec ChainSpec QuerySpec ConfigSpec DemoConfig.
From Verif.Proofs Require Import QueryFacts CliFacts PathFacts ConfigFacts.

Lemma file_place (rooted : bool) parts names file :
  parts <> [] -> names <> [] ->
  Forall (fun n => n <> [] /\ no_slash n /\ n <> str "." /\ n <> str "..") (parts ++ names) ->
  let dir := (if rooted then str "/" else []) ++ path_of parts in
  under dir names file -> file = dir ++ str "/" ++ path_of names.
Proof. intros H1 H2 H3 dir Hu. unfold dir in *. rewrite <- app_assoc. exact (under_plain rooted parts names file H1 H2 H3 Hu). Qed.

Lemma get_through C bits verify resolves (nodes : bytes -> option node) su endpoint x g k id more o :
  codec_ok (app_ops C) -> names_node su endpoint -> nodes endpoint = Some x -> written C bits verify x -> Forall no_slash [g; k; id] ->
  let network ep path := match nodes ep with Some x => query C bits verify resolves x path | None => Fail EAnon end in
  (run_commands network [(su, DoGet (g :: k :: id :: more))] None).1 = [Ok (RObject o)]
  <-> holds C bits verify x g k id o /\ renderable resolves o.
Proof.
  intros HC Hn Hx Hw HF network.
  destruct (commands_ask network [] su (DoGet (g :: k :: id :: more)) [] (List.Forall_nil _) eq_refl) as (Hl & Ha).
  cbn [app] in *. destruct (Ha 0 su (DoGet (g :: k :: id :: more)) eq_refl) as (_ & _ & Hp).
  destruct (Hp (path_of [str "get"; g; k; id]) eq_refl) as (Hp' & _). specialize (Hp' endpoint Hn).
  destruct ((run_commands network [(su, DoGet (g :: k :: id :: more))] None).1) as [|r [|r' l]]; [discriminate Hl| |discriminate Hl].
  change ([r] !! 0) with (Some r) in Hp'. apply (inj Some) in Hp'. subst r. unfold network. rewrite Hx.
  pose proof (proj1 (get_prints C bits verify resolves x g k id more HC Hw HF) o) as Hg. rewrite get_asks in Hg. etransitivity; [|exact Hg]. clear.
  split; [intros E; by injection E|by intros ->].
Qed.

Ltac parts_by l := exists l; split; [split; [discriminate|split; [repeat (apply Forall_cons; split; [intros HH; cbn in HH; intuition discriminate|]); done|reflexivity]]|vm_compute; reflexivity].
Lemma config_case :
  let conf := Some (str "/home/me/../..//conf/.") in
  let ask := DoGet [str "g"; str "k"; str "id"] in
  names_node (demo_surroundings conf) (str "tcp://far") /\ names_node (demo_surroundings None) (str "tcp://near")
  /\ names_none (demo_surroundings (Some [])) (ESent RtNotFound)
  /\ under [] [str "config.yaml"] (str "config.yaml") /\ under (str "../a/../..") [str "x"] (str "../../x")
  /\ (run_commands demo_network [(demo_surroundings None, DoGet []); (demo_surroundings conf, ask); (demo_surroundings None, DoResources [])] None).1
     = [Fail EAnon; Ok (RObject (str "tcp://farget/g/k/id")); Ok (RObject (str "tcp://farapi_resources"))]
  /\ (run_commands demo_network [(demo_surroundings (Some []), ask); (demo_surroundings None, ask)] None).1
     = [Fail (ESent RtNotFound); Fail (ESent RtNotFound)].
Proof.
  intros conf ask. split; [|split; [|split; [|split; [|split; [|split]]]]].
  - exists (str "/conf/config.yaml"), (str "tcp://far"). split; [|split; [vm_compute; reflexivity|done]].
    cbn. parts_by [[]; str "home"; str "me"; str ".."; str ".."; []; str "conf"; str "."].
  - exists (str "/home/me/.spfcli_config/config.yaml"), (str "tcp://near"). split; [|split; [vm_compute; reflexivity|done]].
    cbn. parts_by [[]; str "home"; str "me"].
  - right. exists (str "config.yaml"). split; [|left; vm_compute; reflexivity]. cbn. parts_by [@nil byte].
  - parts_by [@nil byte].
  - parts_by [str ".."; str "a"; str ".."; str ".."].
  - vm_compute. reflexivity.
  - vm_compute. reflexivity.
Qed.
