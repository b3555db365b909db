(** Clean paths, part by part. *)
From Coq Require Import NArith List Bool String Lia.
From stdpp Require Import base list.
From Verif.Model Require Import Bytes Strings Query Config.
From Verif.Spec Require Import QuerySpec ConfigSpec.
From Verif.Proofs Require Import QueryFacts.

Definition after (ps : list bytes) : bytes := match ps with [] => [] | _ => slash :: path_of ps end.
Lemma path_cons p ps : path_of (p :: ps) = p ++ after ps.
Proof. destruct ps; [by rewrite app_nil_r|reflexivity]. Qed.
Lemma path_snoc l n : l <> [] -> path_of (l ++ [n]) = path_of l ++ slash :: n.
Proof.
  induction l as [|p l IH]; [done|]. intros _. cbn [app]. rewrite path_cons. destruct l as [|q l].
  - reflexivity.
  - cbn [app]. cbn [app] in IH. unfold after. rewrite IH by done. rewrite (path_cons p). unfold after.
    rewrite <- app_assoc. reflexivity.
Qed.
Lemma path_app l l' : l <> [] -> l' <> [] -> path_of (l ++ l') = path_of l ++ slash :: path_of l'.
Proof.
  intros H H'. induction l as [|p l IH]; [done|]. cbn [app]. rewrite !path_cons. destruct l as [|q l].
  - cbn [app after]. destruct l'; [done|]. by rewrite app_nil_r.
  - cbn [app] in IH |- *. unfold after. rewrite IH by done. rewrite <- app_assoc. reflexivity.
Qed.

Definition base (r : bool) : bytes := if r then [slash] else [].
Fixpoint buf (r : bool) (here : list bytes) : bytes :=
  match here with
  | [] => base r
  | n :: h => rev n ++ match h with [] => base r | _ => slash :: buf r h end
  end.
Lemma buf_text r here : rev (buf r here) = base r ++ path_of (rev here).
Proof.
  induction here as [|n h IH]; cbn [buf rev].
  - by destruct r.
  - rewrite rev_app_distr, rev_involutive. destruct h as [|m h].
    + by destruct r.
    + cbn [rev]. cbn [rev] in IH. rewrite IH. rewrite (path_snoc _ n); [|by destruct (rev h)].
      rewrite <- !app_assoc. reflexivity.
Qed.
Lemma buf_cons_len r n h : n <> [] -> length (buf r h) < length (buf r (n :: h)).
Proof.
  intros H. cbn [buf]. rewrite app_length, rev_length. assert (length n <> 0) by (by destruct n).
  destruct h; cbn [length buf]; lia.
Qed.
Lemma buf_app_len r h1 h2 : Forall (fun n => n <> []) h1 -> length (buf r h2) <= length (buf r (h1 ++ h2)).
Proof.
  induction 1 as [|n h1 Hn _ IH]; [done|]. cbn [app]. pose proof (buf_cons_len r n (h1 ++ h2) Hn). lia.
Qed.

Definition plain (n : bytes) : Prop := n <> [] /\ no_slash n /\ n <> str "." /\ n <> str "..".
Definition known (r : bool) (dotdot : nat) (here : list bytes) : Prop :=
  exists names k, here = names ++ replicate k (str "..") /\ Forall plain names /\ (r = true -> k = 0)
    /\ dotdot = length (buf r (replicate k (str ".."))).

Lemma is_sep b : is_separator b = bool_decide (b = slash).
Proof.
  unfold is_separator. destruct (Byte.eqb b Byte.x2f) eqn:E.
  - apply Byte.byte_dec_bl in E. subst. reflexivity.
  - symmetry. apply bool_decide_eq_false. intros ->. discriminate E.
Qed.
Lemma not_sep b p : no_slash p -> In b p -> is_separator b = false.
Proof. intros H Hb. rewrite is_sep. apply bool_decide_eq_false. by intros ->. Qed.
Lemma is_dot_eq b : is_dot b = true <-> b = Byte.x2e.
Proof. unfold is_dot. split; [apply Byte.byte_dec_bl|intros ->; reflexivity]. Qed.

Lemma ends_after p ps : no_slash p -> part_ends (p ++ after ps) = match p with [] => true | _ => false end.
Proof.
  intros H. destruct p as [|b p]; cbn [app part_ends].
  - by destruct ps.
  - apply (not_sep b (b :: p) H). by left.
Qed.
Lemma copy_after p ps out : no_slash p -> copy_part (p ++ after ps) out = (after ps, rev p ++ out).
Proof.
  revert out. induction p as [|b p IH]; intros out H; cbn [app].
  - by destruct ps.
  - cbn [copy_part]. rewrite (not_sep b (b :: p) H) by (by left). rewrite IH by (intros ?; apply H; by right).
    cbn [rev]. by rewrite <- app_assoc.
Qed.

Lemma take_back_to dd last m s tail : is_separator last = false -> no_slash m -> dd <= length tail ->
  (s = [] /\ length tail = dd) \/ s = [slash] -> take_back dd last (m ++ s ++ tail) = tail.
Proof.
  revert last. induction m as [|b m IH]; intros last Hl Hm Hd Hs; cbn [app].
  - destruct Hs as [(-> & Ht)| ->].
    + cbn [app]. destruct tail as [|b tail]; [done|]. cbn [take_back]. rewrite Ht, Nat.ltb_irrefl. done.
    + cbn [app take_back]. rewrite Hl. cbn [negb]. rewrite andb_true_r.
      destruct (Nat.ltb_spec dd (length (slash :: tail))) as [_|H]; [|cbn in H; lia].
      destruct tail as [|b tail]; [done|]. cbn [take_back]. rewrite andb_false_r. done.
  - cbn [take_back]. rewrite Hl. cbn [negb]. rewrite andb_true_r.
    destruct (Nat.ltb_spec dd (length (b :: m ++ s ++ tail))) as [_|H].
    + apply IH; [apply (not_sep b (b :: m) Hm); by left|intros ?; apply Hm; by right|done|done].
    + cbn [length] in H. rewrite !app_length in H. lia.
Qed.

Lemma no_slash_rev n : no_slash n -> no_slash (rev n).
Proof. intros H Hi. by apply in_rev in Hi. Qed.

Lemma up_step r dd here : known r dd here ->
  exists dd', step_up r dd (buf r here) = (dd', buf r (follow r here (str ".."))) /\ known r dd' (follow r here (str "..")).
Proof.
  intros (names & k & -> & HF & Hr & ->). unfold step_up.
  assert (follow r (names ++ replicate k (str "..")) (str "..") =
          match names with [] => if r then [] else replicate (S k) (str "..") | n :: ns => ns ++ replicate k (str "..") end) as ->.
  { unfold follow. rewrite decide_False by (intros [?|?]; discriminate). rewrite decide_True by done.
    destruct names as [|n ns].
    - cbn [app]. destruct k as [|k]; cbn [replicate].
      + by destruct r.
      + rewrite decide_True by done. destruct r; [by specialize (Hr eq_refl)|done].
    - cbn [app]. apply Forall_cons in HF as [(_ & _ & _ & Hn) _]. by rewrite decide_False. }
  destruct names as [|n ns].
  - cbn [app]. rewrite Nat.ltb_irrefl. destruct r.
    + rewrite (Hr eq_refl). eexists. split; [reflexivity|]. exists [], 0. done.
    + eexists. split.
      * f_equal. destruct k as [|k]; [reflexivity|]. cbn [replicate buf]. destruct (replicate k (str "..")); reflexivity.
      * exists [], (S k). split; [done|]. split; [done|]. split; [done|].
        destruct k as [|k]; [reflexivity|]. cbn [replicate buf]. destruct (replicate k (str "..")); reflexivity.
  - apply Forall_cons in HF as [Hn HF]. assert (Forall (fun n : bytes => n <> []) ns) as HF'.
    { eapply Forall_impl; [exact HF|]. by intros ? [? _]. }
    set (h := ns ++ replicate k (str "..")). pose proof (buf_app_len r ns (replicate k (str "..")) HF') as Hle. fold h in Hle.
    pose proof (buf_cons_len r n h (proj1 Hn)) as Hlt. cbn [app]. fold h.
    destruct (Nat.ltb_spec (length (buf r (replicate k (str "..")))) (length (buf r (n :: h)))) as [_|H]; [|lia].
    eexists. split; [|exists ns, k; done]. f_equal. cbn [buf].
    destruct Hn as (Hn & Hs & _). pose proof (no_slash_rev n Hs) as Hs'. destruct (rev n) as [|b m] eqn:Er.
    { apply (f_equal (@rev byte)) in Er. rewrite rev_involutive in Er. done. }
    cbn [app]. 
    assert (exists s, match h with [] => base r | _ :: _ => slash :: buf r h end = s ++ buf r h
       /\ ((s = [] /\ length (buf r h) = length (buf r (replicate k (str "..")))) \/ s = [slash])) as (s & -> & Hc).
    { destruct h as [|x h'] eqn:Eh.
      - exists []. split; [done|]. left. split; [done|]. subst h. apply app_eq_nil in Eh as [_ ->]. done.
      - exists [slash]. split; [done|]. by right. }
    apply take_back_to; [apply (not_sep b (b :: m) Hs'); by left|intros ?; apply Hs'; by right|exact Hle|exact Hc].
Qed.

Lemma plain_step r dd here p : known r dd here -> plain p ->
  follow r here p = p :: here /\ rev p ++ before_part r (buf r here) = buf r (p :: here) /\ known r dd (p :: here).
Proof.
  intros Hk Hp. destruct Hk as (names & k & -> & HF & Hr & ->). split; [|split].
  - unfold follow. destruct Hp as (H1 & _ & H3 & H4). rewrite decide_False by (intros [?|?]; done). by rewrite decide_False.
  - cbn [buf]. f_equal. unfold before_part. set (h := names ++ replicate k (str "..")).
    assert (Forall (fun n : bytes => n <> []) h) as HFh.
    { apply Forall_app. split; [eapply Forall_impl; [exact HF|by intros ? [? _]]|]. apply Forall_replicate. discriminate. }
    destruct h as [|x h].
    + destruct r; reflexivity.
    + apply Forall_cons in HFh as [Hx HFh]. pose proof (buf_cons_len r x h Hx) as Hlt.
      pose proof (buf_app_len r h [] HFh) as Hle. rewrite app_nil_r in Hle.
      destruct (Nat.eqb_spec (length (buf r (x :: h))) (if r then 1 else 0)) as [E|_]; [|done].
      destruct r; cbn [buf base length] in Hle; lia.
  - exists (p :: names), k. split; [done|]. split; [by apply Forall_cons|done].
Qed.

Lemma follow_nil r here : follow r here [] = here.
Proof. unfold follow. by rewrite decide_True by (by left). Qed.
Lemma follow_dot r here : follow r here (str ".") = here.
Proof. unfold follow. by rewrite decide_True by (by right). Qed.
Lemma follow_nonempty r parts : forall here, Forall (fun n => n <> []) here -> Forall (fun n => n <> []) (foldl (follow r) here parts).
Proof.
  induction parts as [|p ps IH]; intros here H; [done|]. cbn [foldl]. apply IH. unfold follow.
  destruct (decide (p = [] \/ p = str ".")) as [|Hn]; [done|]. assert (p <> []) by (intros ->; apply Hn; by left).
  destruct (decide (p = str "..")).
  - destruct here as [|l up]; [destruct r; [done|by apply Forall_cons]|]. destruct (decide (l = str "..")); [by apply Forall_cons|].
    by apply Forall_cons in H as [_ H].
  - by apply Forall_cons.
Qed.

Lemma loop_parts r parts : Forall no_slash parts -> parts <> [] -> forall f dd here, known r dd here ->
  length (path_of parts) < f -> clean_loop f r dd (path_of parts) (buf r here) = Some (buf r (foldl (follow r) here parts)).
Proof.
  induction parts as [|p ps IH]; [done|]. intros HF _ f dd here Hk Hf. apply Forall_cons in HF as [Hp HF].
  rewrite path_cons in *. cbn [foldl].
  (* what follows the part *)
  assert (forall f dd here, known r dd here -> length (after ps) < f ->
    clean_loop f r dd (after ps) (buf r here) = Some (buf r (foldl (follow r) here ps))) as Hafter.
  { intros f' dd' here' Hk' Hf'. destruct f' as [|f']; [lia|]. destruct ps as [|q ps]; [done|].
    unfold after in *. cbn [clean_loop]. change (is_separator slash) with true. cbn match.
    apply IH; [done|done|exact Hk'|cbn [length] in Hf'; lia]. }
  destruct p as [|b p].
  { cbn [app] in *. rewrite follow_nil. by apply Hafter. }
  rewrite app_length in Hf. cbn [length] in Hf. destruct f as [|f]; [lia|].
  assert (no_slash p) as Hp' by (intros ?; apply Hp; by right).
  cbn [app clean_loop]. rewrite (not_sep b (b :: p) Hp) by (by left). rewrite ends_after by done.
  destruct (is_dot b && match p with [] => true | _ => false end) eqn:E1.
  { apply andb_prop in E1 as [E1 E2]. destruct p; [|done]. apply is_dot_eq in E1. subst b. cbn [app].
    change (Byte.x2e :: []) with (str "."). rewrite follow_dot. apply Hafter; [done|lia]. }
  destruct (is_dot b && match p ++ after ps with c :: path2 => is_dot c && part_ends path2 | [] => false end) eqn:E2.
  { apply andb_prop in E2 as [E2 E3]. rewrite E2 in E1. cbn [andb] in E1. destruct p as [|c p]; [done|]. cbn [app] in E3.
    apply andb_prop in E3 as [E3 E4]. rewrite ends_after in E4 by (intros ?; apply Hp'; by right). destruct p; [|done].
    apply is_dot_eq in E2, E3. subst b c. cbn [app tail]. destruct (up_step r dd here Hk) as (dd' & -> & Hk').
    change (Byte.x2e :: [Byte.x2e]) with (str ".."). apply Hafter; [exact Hk'|cbn [length] in Hf; lia]. }
  assert (plain (b :: p)) as Hpl.
  { split; [done|]. split; [done|]. split; intros E; [|]; injection E as -> ->.
    - done.
    - change (after ps) with (after ps) in E2. cbn [app] in E2. destruct ps; discriminate E2. }
  destruct (plain_step r dd here (b :: p) Hk Hpl) as (-> & Hb & Hk').
  change (b :: p ++ after ps) with ((b :: p) ++ after ps). rewrite copy_after by done. rewrite Hb. apply Hafter; [exact Hk'|lia].
Qed.

Lemma known_start r : known r (length (base r)) [].
Proof. exists [], 0. done. Qed.

Lemma parts_exist path : exists parts, has_parts path parts.
Proof. exists (split_on slash path). by apply split_path. Qed.
Lemma from_root_parts path parts : has_parts path parts -> from_root path = true ->
  exists parts', parts = [] :: parts' /\ parts' <> [] /\ Forall no_slash parts' /\ path = slash :: path_of parts'.
Proof.
  intros (H1 & H2 & ->) Hr. destruct parts as [|p ps]; [done|]. apply Forall_cons in H2 as [Hp HF]. rewrite path_cons in *.
  destruct p as [|b p].
  - destruct ps as [|q ps]; [discriminate Hr|]. exists (q :: ps). done.
  - cbn [app from_root] in Hr. apply bool_decide_eq_true in Hr. subst b. exfalso. apply Hp. by left.
Qed.

Lemma clean_place path parts : has_parts path parts -> clean path = Some (place (from_root path) parts).
Proof.
  intros H. pose proof H as (H1 & H2 & H3). destruct (from_root path) eqn:Hr.
  - destruct (from_root_parts path parts H Hr) as (ps & -> & H4 & H5 & ->). unfold clean.
    change (is_separator slash) with true. cbn match.
    rewrite (loop_parts true ps H5 H4 _ 1 [] (known_start true)) by (cbn [length]; lia).
    unfold place. cbn [foldl]. change (follow true [] []) with (@nil bytes).
    set (h := foldl (follow true) [] ps). pose proof (buf_text true h) as Hb. cbn [base] in Hb.
    destruct (buf true h) as [|b o] eqn:E; [discriminate Hb|]. by rewrite Hb.
  - assert (path <> [] -> clean path = match buf false (foldl (follow false) [] parts) with [] => Some (str ".") | o => Some (rev o) end) as Hc.
    { intros Hn. unfold clean. destruct path as [|b path]; [done|]. cbn [from_root] in Hr. rewrite is_sep, Hr. cbn match.
      cbn [length]. rewrite H3. rewrite (loop_parts false parts H2 H1 _ 0 [] (known_start false)).
      - destruct (buf false (foldl (follow false) [] parts)); done.
      - rewrite <- H3. cbn [length]. lia. }
    destruct path as [|b path].
    + destruct parts as [|p [|q ps]]; [done| |].
      * cbn in H3. subst p. reflexivity.
      * rewrite path_cons in H3. destruct p; discriminate H3.
    + rewrite Hc by done. unfold place. set (h := foldl (follow false) [] parts). pose proof (buf_text false h) as Hb. cbn [base app] in Hb.
      assert (Forall (fun n : bytes => n <> []) h) as Hne by (by apply follow_nonempty).
      destruct (buf false h) as [|c o] eqn:E.
      * destruct h as [|x h']; [done|]. exfalso. cbn [buf] in E. apply app_eq_nil in E as [E E']. destruct h'; [|discriminate E'].
        apply Forall_cons in Hne as [Hx _]. apply (f_equal (@rev byte)) in E. rewrite rev_involutive in E. done.
      * destruct (rev h) as [|x l] eqn:Eh; [|by rewrite Hb]. cbn in Hb. by destruct (rev o).
Qed.

(** ** Joining *)
Lemma place_app_nil r parts : place r ([] :: parts) = place r parts.
Proof. unfold place. cbn [foldl]. by rewrite follow_nil. Qed.
Lemma join_under dir name : name <> [] -> no_slash name -> exists file, join_path dir name = Some file /\ under dir [name] file.
Proof.
  intros Hn Hs. destruct (parts_exist dir) as (parts & Hp). pose proof Hp as (H1 & H2 & H3). unfold join_path.
  assert (has_parts name [name]) as Hname by (split; [done|]; split; [by apply Forall_cons|done]).
  destruct dir as [|b dir].
  - exists (place false [name]). split.
    + rewrite (clean_place name [name] Hname). f_equal. destruct name as [|c name]; [done|]. cbn [from_root].
      rewrite bool_decide_eq_false_2; [done|]. intros ->. apply Hs. by left.
    + exists [[]]. split; [|by cbn [app]; rewrite place_app_nil]. split; [done|]. split; [|done].
      apply Forall_cons. split; [intros []|done].
  - assert (has_parts ((b :: dir) ++ str "/" ++ name) (parts ++ [name])) as Hj.
    { split; [by destruct parts|]. split; [apply Forall_app; split; [done|by apply Forall_cons]|].
      rewrite (path_app parts [name] H1) by done. by rewrite H3. }
    exists (place (from_root (b :: dir)) (parts ++ [name])). split; [exact (clean_place _ _ Hj)|]. by exists parts.
Qed.

(** A clean path leads to where it says. *)
Lemma known_follow r part here dd : no_slash part -> known r dd here -> exists dd', known r dd' (follow r here part).
Proof.
  intros Hs Hk. destruct (decide (part = [])) as [->|H1]; [rewrite follow_nil; by exists dd|].
  destruct (decide (part = str ".")) as [->|H2]; [rewrite follow_dot; by exists dd|].
  destruct (decide (part = str "..")) as [->|H3].
  - destruct (up_step r dd here Hk) as (dd' & _ & H). by exists dd'.
  - destruct (plain_step r dd here part Hk) as (-> & _ & H); [done|]. by exists dd.
Qed.
Lemma known_follows r parts : Forall no_slash parts -> forall here dd, known r dd here -> exists dd', known r dd' (foldl (follow r) here parts).
Proof.
  induction 1 as [|p ps Hp _ IH]; intros here dd Hk; [by exists dd|]. cbn [foldl].
  destruct (known_follow r p here dd Hp Hk) as (dd' & Hk'). exact (IH _ _ Hk').
Qed.
Lemma follow_plain r l : Forall plain l -> forall here, foldl (follow r) here l = rev l ++ here.
Proof.
  induction 1 as [|p l (H1 & _ & H3 & H4) _ IH]; intros here; [done|]. cbn [foldl rev]. rewrite IH.
  unfold follow. rewrite decide_False by (intros [?|?]; done). rewrite decide_False by done. by rewrite <- app_assoc.
Qed.
Lemma follow_dots k : forall j, foldl (follow false) (replicate j (str "..")) (replicate k (str "..")) = replicate (k + j) (str "..").
Proof.
  induction k as [|k IH]; intros j; [done|]. cbn [replicate foldl].
  assert (follow false (replicate j (str "..")) (str "..") = replicate (S j) (str "..")) as ->.
  { unfold follow. rewrite decide_False by (intros [?|?]; discriminate). rewrite decide_True by done. destruct j; [done|].
    cbn [replicate]. by rewrite decide_True. }
  rewrite IH. f_equal. lia.
Qed.
Lemma rev_replicate_dots k : rev (replicate k (str "..")) = replicate k (str "..").
Proof.
  induction k as [|k IH]; [done|]. cbn [replicate rev]. rewrite IH. clear IH.
  induction k as [|k IH]; [done|]. cbn [replicate app]. by rewrite IH.
Qed.
Lemma refollow r dd h : known r dd h -> foldl (follow r) [] (rev h) = h.
Proof.
  intros (names & k & -> & HF & Hr & _). rewrite rev_app_distr, rev_replicate_dots, foldl_app.
  assert (foldl (follow r) [] (replicate k (str "..")) = replicate k (str "..")) as ->.
  { destruct r; [by rewrite (Hr eq_refl)|]. pose proof (follow_dots k 0) as H. cbn [replicate] in H. rewrite H. f_equal. lia. }
  rewrite follow_plain by (by apply Forall_rev). by rewrite rev_involutive.
Qed.
Lemma known_no_slash r dd h : known r dd h -> Forall no_slash h.
Proof.
  intros (names & k & -> & HF & _). apply Forall_app. split.
  - eapply Forall_impl; [exact HF|]. by intros ? (_ & ? & _).
  - apply Forall_replicate. intros H. cbn in H. intuition discriminate.
Qed.
Lemma place_parts r parts : Forall no_slash parts ->
  exists parts', has_parts (place r parts) parts' /\ from_root (place r parts) = r
    /\ foldl (follow r) [] parts' = foldl (follow r) [] parts.
Proof.
  intros HF. destruct (known_follows r parts HF [] _ (known_start r)) as (dd & Hk).
  assert (place r parts = match r, rev (foldl (follow r) [] parts) with
    true, names => str "/" ++ path_of names | false, [] => str "." | false, names => path_of names end) as Epl by (by destruct r).
  rewrite Epl. clear Epl.
  remember (foldl (follow r) [] parts) as h eqn:Eh. pose proof (refollow r dd h Hk) as Hre. pose proof (Forall_rev (known_no_slash r dd h Hk)) as Hns.
  assert (no_slash []) as Hnil by (intros []).
  destruct r.
  - destruct (rev h) as [|n l] eqn:E.
    + exists [[]; []]. split; [|split; [reflexivity|by rewrite <- Hre]]. split; [done|]. split; [|reflexivity].
      by repeat (apply Forall_cons; split).
    + exists ([] :: n :: l). split; [|split; [reflexivity|]].
      * split; [done|]. split; [|reflexivity]. by apply Forall_cons.
      * cbn [foldl]. rewrite follow_nil. exact Hre.
  - destruct (rev h) as [|n l] eqn:E.
    + exists [str "."]. split; [|split; [reflexivity|by rewrite <- Hre]]. split; [done|]. split; [|reflexivity].
      apply Forall_cons. split; [|done]. intros H. cbn in H. intuition discriminate.
    + exists (n :: l). split; [|split; [|exact Hre]].
      * by split.
      * assert (In n h) as Hin by (apply in_rev; rewrite E; by left).
        assert (n <> []) as Hn.
        { pose proof (follow_nonempty false parts [] (List.Forall_nil _)) as H. rewrite <- Eh in H. rewrite List.Forall_forall in H. by apply H. }
        rewrite path_cons. apply Forall_cons in Hns as [Hs _]. destruct n as [|b n]; [done|]. cbn [app from_root].
        apply bool_decide_eq_false. intros ->. apply Hs. by left.
Qed.
Lemma place_foldl r l l' names : foldl (follow r) [] l = foldl (follow r) [] l' -> place r (l ++ names) = place r (l' ++ names).
Proof. intros H. destruct r; unfold place; by rewrite !foldl_app, H. Qed.
Lemma under_under dir n1 n2 file1 file2 : Forall no_slash n1 -> under dir n1 file1 -> under file1 n2 file2 -> under dir (n1 ++ n2) file2.
Proof.
  intros Hn (parts & Hp & ->) (parts2 & Hp2 & ->). exists parts. split; [done|]. pose proof Hp as (_ & HF & _).
  destruct (place_parts (from_root dir) (parts ++ n1)) as (parts' & H1 & H2 & H3); [by apply Forall_app|].
  assert (parts2 = parts') as ->.
  { destruct H1 as (A1 & A2 & A3). destruct Hp2 as (B1 & B2 & B3).
    assert (split_on slash (place (from_root dir) (parts ++ n1)) = parts2) as <- by (by apply split_path).
    by apply split_path. }
  rewrite H2. rewrite (place_foldl _ _ _ n2 H3). by rewrite <- app_assoc.
Qed.
Lemma under_unique dir names f f' : under dir names f -> under dir names f' -> f = f'.
Proof.
  intros (p & (A1 & A2 & A3) & ->) (p' & (B1 & B2 & B3) & ->). assert (p = p') as ->; [|done].
  assert (split_on slash dir = p) as <- by (by apply split_path). by apply split_path.
Qed.
