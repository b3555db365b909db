(** The command line client. *)
From Coq Require Import NArith ZArith List Bool String Lia.
From stdpp Require Import base list option gmap.
From Verif.Model Require Import Bytes KindEncoder Schema Orm Runtime Builder Universe Marshal Authn TestApp Strings Query Cli.
From Verif.Spec Require Import StoreSpec ChainSpec QuerySpec DemoChain.
From Verif.Proofs Require Import QueryFacts DemoRuns DemoFacts.

Section Cli.
  Context (C : codec) (bits : N) (verify : bytes -> bytes -> bytes -> bool) (resolves : any -> bool).
  Notation written := (written C bits verify).
  Notation query := (query C bits verify resolves).
  Notation holds := (holds C bits verify).
  Implicit Types (x : node) (o : object) (g k id : bytes).

  Lemma get_asks x g k id more : get_command (query x) (g :: k :: id :: more) = query x (path_of [str "get"; g; k; id]).
  Proof. reflexivity. Qed.
  Lemma get_few x args : length args < 2 -> exists e, get_command (query x) args = Fail e.
  Proof. destruct args as [|a [|b args]]; intros H; [by eexists..|cbn in H; lia]. Qed.
  Lemma get_two x g k : get_command (query x) [g; k] = Panic.
  Proof. reflexivity. Qed.

  Lemma plain_path g k id : Forall no_slash [g; k; id] -> get_path g k id [] (path_of [str "get"; g; k; id]).
  Proof. intros H. split; [exact H|reflexivity]. Qed.
  Lemma get_prints x g k id more : codec_ok (app_ops C) -> written x -> Forall no_slash [g; k; id] ->
    (forall o, get_command (query x) (g :: k :: id :: more) = Ok (RObject o) <-> holds x g k id o /\ renderable resolves o)
    /\ (get_command (query x) (g :: k :: id :: more) = Panic <-> exists o, holds x g k id o /\ ~ renderable resolves o)
    /\ ((exists e, get_command (query x) (g :: k :: id :: more) = Fail e) <-> forall o, ~ holds x g k id o).
  Proof. intros HC Hw HF. rewrite get_asks. exact (get_query C bits verify resolves x g k id [] _ HC Hw (plain_path g k id HF)). Qed.

  (** With slashes the path has other parts than the arguments. *)
  Lemma parts_of g k id : exists g' k' id' rest, get_path g' k' id' rest (path_of [str "get"; g; k; id])
    /\ path_of (g' :: k' :: id' :: rest) = path_of [g; k; id].
  Proof.
    destruct (split_parts slash g) as (Hg & HFg & Eg). destruct (split_parts slash k) as (Hk & HFk & Ek).
    destruct (split_parts slash id) as (Hi & HFi & Ei).
    set (l := split_on slash g ++ split_on slash k ++ split_on slash id).
    assert (forall a b, a <> [] -> b <> [] -> join [slash] (a ++ b) = join [slash] a ++ [slash] ++ join [slash] b) as HJ.
    { intros a b Ha Hb. induction a as [|p a IH]; [done|]. destruct a as [|p' a].
      - cbn [app]. destruct b; [done|]. reflexivity.
      - specialize (IH ltac:(discriminate)). cbn [app join] in *. rewrite IH. by rewrite <- !app_assoc. }
    assert (path_of l = path_of [g; k; id]) as El.
    { unfold l, path_of. change (str "/") with [slash]. rewrite HJ; [|done|by destruct (split_on slash k)]. rewrite HJ by done.
      rewrite <- Eg, <- Ek, <- Ei. reflexivity. }
    assert (Forall no_slash l) as HF by (apply Forall_app; split; [done|apply Forall_app; done]).
    assert (3 <= length l) as Hl.
    { unfold l. rewrite !app_length. destruct (split_on slash g), (split_on slash k), (split_on slash id); try done; cbn; lia. }
    clearbody l. destruct l as [|g' [|k' [|id' rest]]]; [cbn in Hl; lia..|]. exists g', k', id', rest. split; [|exact El].
    split; [exact HF|]. change (path_of (str "get" :: g' :: k' :: id' :: rest)) with (str "get" ++ str "/" ++ path_of (g' :: k' :: id' :: rest)).
    rewrite El. reflexivity.
  Qed.
  Lemma get_prints_parts x g k id more : codec_ok (app_ops C) -> written x ->
    exists g' k' id' rest, Forall no_slash (g' :: k' :: id' :: rest) /\ path_of (g' :: k' :: id' :: rest) = path_of [g; k; id]
    /\ (forall o, get_command (query x) (g :: k :: id :: more) = Ok (RObject o) <-> holds x g' k' id' o /\ renderable resolves o)
    /\ (get_command (query x) (g :: k :: id :: more) = Panic <-> exists o, holds x g' k' id' o /\ ~ renderable resolves o)
    /\ ((exists e, get_command (query x) (g :: k :: id :: more) = Fail e) <-> forall o, ~ holds x g' k' id' o).
  Proof.
    intros HC Hw. destruct (parts_of g k id) as (g' & k' & id' & rest & Hp & He). exists g', k', id', rest.
    split; [exact (proj1 Hp)|]. split; [exact He|]. rewrite get_asks. exact (get_query C bits verify resolves x g' k' id' rest _ HC Hw Hp).
  Qed.
  Lemma resources_prints x args :
    (args = [] -> exists l, resources_command (query x) args = Ok (RResources l) /\ NoDup (map fst l)
       /\ Forall (fun y : bytes * list bytes => NoDup y.2) l
       /\ forall g k, (exists ks, (g, ks) ∈ l /\ k ∈ ks) <-> exists o, of_kind o g k)
    /\ (args <> [] -> exists e, resources_command (query x) args = Fail e).
  Proof.
    split.
    - intros ->. change (resources_command (query x) []) with (query x (str "api_resources")).
      apply (query_verbs C bits verify resolves x (str "api_resources")). split; [|by left].
      unfold no_slash. cbn. intuition discriminate.
    - destruct args; [done|]. intros _. by eexists.
  Qed.
End Cli.

(** The command for balances, with the name of a balance followed by a slash. *)
Definition demo_prints (x : node) (args : list bytes) : res (reply object) := get_command (demo_query x) args.
Definition balance_args (name : bytes) : list bytes := [str "tmos.x.bank.v1alpha1"; str "Balance"; name].
Definition alice_beyond : bytes := alice_address ++ str "/beyond".
Definition cli_facts (x : node) : Prop :=
  demo_prints x (balance_args alice_beyond) = Ok (RObject (OBalance alice_address (tests "1000")))
  /\ demo_prints x (balance_args alice_address) = Ok (RObject (OBalance alice_address (tests "1000")))
  /\ is_ok (demo_get x ty_balance alice_beyond) = false
  /\ refused (demo_prints x (balance_args bob_address)) = true.
Lemma cli_case : cli_facts (demo_node demo_history).
Proof. assert (demo_runs demo_history = true /\ cli_facts (demo_node demo_history)) as H by history_computed demo_history cli_facts. apply H. Qed.
Lemma other_object :
  ~ forall cs x g k id o, demo_running cs x -> demo_prints x [g; k; id] = Ok (RObject o) -> holds protobuf 255 demo_verify x g k id o.
Proof.
  intros H. destruct cli_case as (H1 & _ & H3 & _).
  specialize (H demo_history (demo_node demo_history) (str "tmos.x.bank.v1alpha1") (str "Balance") alice_beyond
    (OBalance alice_address (tests "1000"))).
  assert (demo_running demo_history (demo_node demo_history)) as Hr by (apply demo_node_running; fact).
  specialize (H Hr H1). destruct H as [_ H]. change (is_ok (demo_get (demo_node demo_history) ty_balance alice_beyond) = false) in H3.
  change (demo_get (demo_node demo_history) ty_balance alice_beyond = Ok (OBalance alice_address (tests "1000"))) in H.
  rewrite H in H3. discriminate H3.
Qed.
