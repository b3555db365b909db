(** The configuration of the client and what its commands ask. *)
From Coq Require Import NArith List Bool String Lia.
From stdpp Require Import base list.
From Verif.Model Require Import Bytes Strings Query Cli Config.
From Verif.Spec Require Import QuerySpec ConfigSpec.
From Verif.Proofs Require Import QueryFacts PathFacts.

Lemma config_name_ok : str "config.yaml" <> [] /\ no_slash (str "config.yaml").
Proof. split; [discriminate|]. intros H. cbn in H. intuition discriminate. Qed.
Lemma dir_name_ok : str ".spfcli_config" <> [] /\ no_slash (str ".spfcli_config").
Proof. split; [discriminate|]. intros H. cbn in H. intuition discriminate. Qed.

Lemma config_file_cases su :
  (exists e, config_file su (inl e) /\ get_config su = Fail e)
  \/ exists file, config_file su (inr file)
     /\ get_config su = res_bind (found (su_file su file)) (fun text => res_bind (found (su_yaml su text)) (fun endpoint =>
          match endpoint with [] => Fail EAnon | _ => Ok endpoint end)).
Proof.
  unfold config_file, get_config. destruct (su_variable su) as [dir|].
  - right. destruct (join_under dir _ (proj1 config_name_ok) (proj2 config_name_ok)) as (file & Ej & Hu). exists file.
    split; [exact Hu|]. cbn [res_bind]. unfold joined. rewrite Ej. reflexivity.
  - destruct (su_home su) as [e|home].
    + left. by exists e.
    + right. destruct (join_under home _ (proj1 dir_name_ok) (proj2 dir_name_ok)) as (dir & Ej & Hu).
      destruct (join_under dir _ (proj1 config_name_ok) (proj2 config_name_ok)) as (file & Ej' & Hu'). exists file. split.
      * refine (under_under home [str ".spfcli_config"] [str "config.yaml"] dir file _ Hu Hu').
        apply Forall_cons. split; [exact (proj2 dir_name_ok)|done].
      * cbn [found res_bind]. unfold joined. rewrite Ej. cbn [res_bind]. rewrite Ej'. reflexivity.
Qed.
Lemma config_file_unique su r r' : config_file su r -> config_file su r' -> r = r'.
Proof.
  unfold config_file. destruct (su_variable su), (su_home su), r, r'; try done; intros H H'; try (by subst);
    by rewrite (under_unique _ _ _ _ H H').
Qed.

Lemma init_cases su :
  (exists ep, names_node su ep /\ init_client su = Ok (Connected ep)) \/ (exists e, names_none su e /\ init_client su = Ok (Failed e)).
Proof.
  unfold init_client. destruct (config_file_cases su) as [(e & Hc & ->)|(file & Hc & ->)].
  - right. exists e. split; [by left|done].
  - destruct (su_file su file) as [e|text] eqn:Ef; cbn [found res_bind].
    { right. exists e. split; [right; exists file; auto|done]. }
    destruct (su_yaml su text) as [e|ep] eqn:Ey; cbn [found res_bind].
    { right. exists e. split; [right; exists file; split; [done|]; right; exists text; auto|done]. }
    destruct ep as [|b ep].
    { right. exists EAnon. split; [right; exists file; split; [done|]; right; exists text; auto|done]. }
    destruct (su_connect su (b :: ep)) as [e|[]] eqn:Ec.
    + right. exists e. split; [|done]. right. exists file. split; [done|]. right. exists text. split; [done|]. right. right.
      exists (b :: ep). done.
    + left. exists (b :: ep). split; [|done]. exists file, text. done.
Qed.
Lemma node_unique su ep ep' : names_node su ep -> names_node su ep' -> ep = ep'.
Proof.
  intros (f & t & H1 & H2 & H3 & _) (f' & t' & H1' & H2' & H3' & _).
  pose proof (config_file_unique su _ _ H1 H1') as E. injection E as <-. congruence.
Qed.
Lemma none_unique su e e' : names_none su e -> names_none su e' -> e = e'.
Proof.
  intros [H|(f & H & H1)] [H'|(f' & H' & H1')]; pose proof (config_file_unique su _ _ H H') as E; try discriminate E; injection E as E; [done|].
  subst f'. destruct H1 as [H1|(t & H1 & H2)], H1' as [H1'|(t' & H1' & H2')]; try congruence.
  assert (t = t') as <- by congruence. destruct H2 as [H2|[(H2 & ->)|(ep & H2 & Hn & H3)]], H2' as [H2'|[(H2' & ->)|(ep' & H2' & Hn' & H3')]]; congruence.
Qed.
Lemma node_or_none su ep e : names_node su ep -> names_none su e -> False.
Proof.
  intros (f & t & H1 & H2 & H3 & Hn & H4) [H|(f' & H & H')]; pose proof (config_file_unique su _ _ H1 H) as E; [discriminate E|].
  injection E as <-. destruct H' as [H'|(t' & H' & [H5|[(H5 & _)|(ep' & H5 & _ & H6)]])]; congruence.
Qed.
Lemma named su : ((exists ep, names_node su ep) \/ exists e, names_none su e)
  /\ (forall ep ep', names_node su ep -> names_node su ep' -> ep = ep') /\ (forall e e', names_none su e -> names_none su e' -> e = e')
  /\ forall ep e, names_node su ep -> names_none su e -> False.
Proof.
  split; [|split; [exact (node_unique su)|split; [exact (none_unique su)|exact (node_or_none su)]]].
  destruct (init_cases su) as [(ep & H & _)|(e & H & _)]; [left|right]; by eexists.
Qed.

Section Commands.
  Context {Obj : Type} (network : bytes -> bytes -> res (reply Obj)).
  Implicit Types (l : list (surroundings * cli_command)).

  Lemma refused_step su c cmd : accepted cmd = false -> run_command network su c cmd = (Fail EAnon, c).
  Proof. intros H. destruct cmd; cbn [run_command]; unfold minimum_args, exact_args; cbn [accepted] in H; by rewrite H. Qed.
  Lemma refused_steps l c : Forall (fun x => accepted x.2 = false) l -> run_commands network l c = (map (fun _ => Fail EAnon) l, c).
  Proof.
    induction 1 as [|[su cmd] l H _ IH]; [done|]. cbn [run_commands map]. rewrite (refused_step su c cmd H), IH. reflexivity.
  Qed.
  Definition answer_of (k : cli_client) (cmd : cli_command) : res (reply Obj) :=
    if accepted cmd then match asks_for cmd with Some path => ask_client network k path | None => Panic end else Fail EAnon.
  Lemma accepted_step su c cmd k : context_client su c = (Ok k, Some k) -> accepted cmd = true ->
    run_command network su c cmd = (answer_of k cmd, Some k).
  Proof.
    intros E H. unfold answer_of. rewrite H. destruct cmd as [args|args]; cbn [run_command]; cbn [accepted] in H; unfold minimum_args, exact_args; rewrite H, E.
    - destruct args as [|a [|b [|d args]]]; [discriminate H..| |]; reflexivity.
    - destruct args; [reflexivity|discriminate H].
  Qed.
  Lemma connected_steps l k : run_commands network l (Some k) = (map (fun x => answer_of k x.2) l, Some k).
  Proof.
    induction l as [|[su cmd] l IH]; [done|]. cbn [run_commands map snd]. destruct (accepted cmd) eqn:E.
    - rewrite (accepted_step su (Some k) cmd k eq_refl E), IH. reflexivity.
    - rewrite (refused_step su _ cmd E), IH. unfold answer_of. rewrite E. reflexivity.
  Qed.
  Lemma commands_answer l1 su cmd l2 k : Forall (fun x => accepted x.2 = false) l1 -> accepted cmd = true -> init_client su = Ok k ->
    (run_commands network (l1 ++ (su, cmd) :: l2) None).1 = map (fun x => answer_of k x.2) (l1 ++ (su, cmd) :: l2).
  Proof.
    intros H1 H2 H3. induction H1 as [|[su' cmd'] l1 H _ IH]; cbn [app run_commands map snd].
    - rewrite (accepted_step su None cmd k); [|cbn; by rewrite H3|done]. rewrite connected_steps. reflexivity.
    - rewrite (refused_step su' _ cmd' H). destruct (run_commands network (l1 ++ (su, cmd) :: l2) None) as [rs c]. cbn [fst] in *.
      rewrite IH. unfold answer_of at 2. cbn [snd] in H. by rewrite H.
  Qed.

  Lemma commands_ask l1 su cmd l2 : Forall (fun x => accepted x.2 = false) l1 -> accepted cmd = true ->
    let l := l1 ++ (su, cmd) :: l2 in let answers := (run_commands network l None).1 in
    length answers = length l
    /\ forall i su' cmd', l !! i = Some (su', cmd') ->
         (accepted cmd' = false -> exists e, answers !! i = Some (Fail e))
         /\ (accepted cmd' = true -> asks_for cmd' = None -> answers !! i = Some Panic)
         /\ forall path, asks_for cmd' = Some path ->
              (forall ep, names_node su ep -> answers !! i = Some (network ep path))
              /\ forall e, names_none su e -> answers !! i = Some (Fail e).
  Proof.
    intros H1 H2 l answers.
    assert (exists k, init_client su = Ok k /\ (forall ep, names_node su ep -> k = Connected ep) /\ forall e, names_none su e -> k = Failed e)
      as (k & Hk & Hk1 & Hk2).
    { destruct (init_cases su) as [(ep & H & E)|(e & H & E)]; eexists; (split; [exact E|]); split; intros z Hz.
      - by rewrite (node_unique su _ _ H Hz).
      - by destruct (node_or_none su _ _ H Hz).
      - by destruct (node_or_none su _ _ Hz H).
      - by rewrite (none_unique su _ _ H Hz). }
    assert (answers = map (fun x => answer_of k x.2) l) as -> by exact (commands_answer l1 su cmd l2 k H1 H2 Hk).
    split; [by rewrite map_length|]. intros i su' cmd' Hi.
    assert (map (fun x => answer_of k x.2) l !! i = Some (answer_of k cmd')) as ->.
    { change (map (fun x : surroundings * cli_command => answer_of k x.2) l) with ((fun x : surroundings * cli_command => answer_of k x.2) <$> l).
      rewrite list_lookup_fmap, Hi. reflexivity. }
    unfold answer_of. split; [|split].
    - intros ->. by eexists.
    - intros -> ->. done.
    - intros path Hp. assert (accepted cmd' = true) as ->.
      { destruct cmd' as [args|args].
        - destruct args as [|a [|b [|d args]]]; try discriminate Hp. reflexivity.
        - destruct args; [reflexivity|discriminate Hp]. }
      rewrite Hp. split.
      + intros ep Hep. by rewrite (Hk1 ep Hep).
      + intros e He. by rewrite (Hk2 e He).
  Qed.
End Commands.

(** A path without empty parts and dots is followed as it is written. *)
Lemma under_plain r parts names file : parts <> [] -> names <> [] -> Forall plain (parts ++ names) ->
  under (base r ++ path_of parts) names file -> file = base r ++ path_of parts ++ str "/" ++ path_of names.
Proof.
  intros Hp Hn HF Hu. apply Forall_app in HF as HF'. destruct HF' as [HFp _].
  assert (Forall no_slash parts) as Hs by (eapply Forall_impl; [exact HFp|]; by intros ? (_ & ? & _)).
  assert (from_root (base r ++ path_of parts) = r) as Hr.
  { destruct r; [reflexivity|]. destruct parts as [|p ps]; [done|]. cbn [base app]. rewrite path_cons.
    apply Forall_cons in HFp as [(H1 & H2 & _) _]. destruct p as [|b p]; [done|]. cbn [app from_root].
    apply bool_decide_eq_false. intros ->. apply H2. by left. }
  destruct Hu as (parts' & (A1 & A2 & A3) & ->). rewrite Hr.
  assert (parts' = if r then [] :: parts else parts) as ->.
  { assert (split_on slash (base r ++ path_of parts) = parts') as <- by (by apply split_path). apply split_path. destruct r.
    - split; [done|]. split; [apply Forall_cons; split; [intros []|done]|]. destruct parts; [done|reflexivity].
    - done. }
  replace (path_of parts ++ str "/" ++ path_of names) with (path_of (parts ++ names)) by exact (path_app parts names Hp Hn).
  assert (place r (parts ++ names) = base r ++ path_of (parts ++ names)) as E.
  { pose proof (follow_plain r (parts ++ names) HF []) as Hf. rewrite app_nil_r in Hf. destruct r; unfold place; rewrite Hf, rev_involutive.
    - reflexivity.
    - destruct (parts ++ names) eqn:E; [|reflexivity]. apply app_eq_nil in E as [? _]. done. }
  destruct r; [|exact E]. cbn [app]. rewrite place_app_nil. exact E.
Qed.
