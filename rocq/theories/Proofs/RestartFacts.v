(** A node that is started again. *)
From Coq Require Import NArith ZArith List Bool String Lia.
From stdpp Require Import base list gmap relations.
From Verif.Model Require Import Bytes KindEncoder Desc Schema Indexes Orm Users Prog Router Runtime
  Services Module Builder Strings Universe Coin CoreModules Rbac Bank Authn Distribution TestApp Abci Query Restart.
From Verif.Spec Require Import UserSpec StoreSpec RuntimeSpec RbacSpec ChainSpec QuerySpec OrderSpec RestartSpec.
From Verif.Proofs Require Import BytesFacts KindEncoderFacts RegistryFacts OrmFacts UserFacts RuntimeFacts
  BuilderFacts SimFacts AppFacts AppSim RbacFacts MapExec ChainInv ChainWp ChainRun ChainHist ChainView ChainProps
  OrderFacts OrderChain OrderNode OrderProps.

Lemma dead_ended (r : res unit) : dead r -> ~ alive r.
Proof. destruct r; intros H H'; contradiction. Qed.

Section Restart.
  Context (C : codec) (bits : N) (verify : bytes -> bytes -> bytes -> bool).
  Context (enum1 enum2 : list (event object msg) -> users -> list user) (fuel : nat) (decode : bytes -> res tx).
  Context (HS1 : sound C enum1 decode) (HS2 : sound C enum2 decode).
  Notation HC := (so_codec _ _ _ HS1).
  Notation twins := (twins C bits verify).
  Notation calls1 := (calls C bits verify enum1 fuel decode).
  Notation calls2 := (calls C bits verify enum2 fuel decode).
  Notation call1 := (call C bits verify enum1 fuel decode).
  Notation call2 := (call C bits verify enum2 fuel decode).

  Lemma check_twins raw x y r x' : twins x y -> call1 (CallCheckTx raw) x = (r, x') -> alive r -> twins x' y.
  Proof.
    intros (S & T1 & T2) E Ha.
    destruct (call_tracked C bits verify enum1 fuel decode HS1 x S _ r x' T1 E Ha) as (S' & T' & _).
    pose proof (check_unchanged C bits verify enum1 fuel decode raw x r x' E) as Hu.
    pose proof (tk_shown _ _ _ _ _ T') as G'. unfold shown in G'. rewrite Hu in G'.
    pose proof (repr_unique C bits verify (test_app bits verify) (test_app_like bits verify) HC S' S _ G' (tk_shown _ _ _ _ _ T1)) as ->.
    by exists S.
  Qed.
  Lemma calls_cons (enum : list (event object msg) -> users -> list user) c cs x z :
    calls C bits verify enum fuel decode (c :: cs) x = Some z ->
    exists r x', call C bits verify enum fuel decode c x = (r, x') /\ alive r /\ calls C bits verify enum fuel decode cs x' = Some z.
  Proof.
    unfold calls, call. cbn [abci_run]. destruct (abci_step _ _ _ _ _ _ _ _ _ _) as [r x'].
    intros H. exists r, x'. split; [done|]. destruct r; [split; [exact I|exact H]|split; [exact I|exact H]|discriminate H..].
  Qed.
  Lemma calls_step (enum : list (event object msg) -> users -> list user) c cs x r x' :
    call C bits verify enum fuel decode c x = (r, x') -> alive r ->
    calls C bits verify enum fuel decode (c :: cs) x = calls C bits verify enum fuel decode cs x'.
  Proof.
    unfold calls, call. cbn [abci_run]. intros ->. intros Ha. destruct r; [reflexivity|reflexivity|contradiction..].
  Qed.
  Lemma calls_stop (enum : list (event object msg) -> users -> list user) c cs x :
    ~ alive (fst (call C bits verify enum fuel decode c x)) -> calls C bits verify enum fuel decode (c :: cs) x = None.
  Proof.
    unfold calls, call. cbn [abci_run]. destruct (abci_step _ _ _ _ _ _ _ _ _ _) as [r x']. cbn [fst].
    intros Ha. destruct r; [destruct Ha; exact I|destruct Ha; exact I|reflexivity..].
  Qed.
  Lemma calls_app (enum : list (event object msg) -> users -> list user) l1 l2 : forall x y,
    calls C bits verify enum fuel decode l1 x = Some y ->
    calls C bits verify enum fuel decode (l1 ++ l2) x = calls C bits verify enum fuel decode l2 y.
  Proof.
    induction l1 as [|c l1 IH]; intros x y H.
    - unfold calls in H. cbn [abci_run] in H. injection H as ->. reflexivity.
    - destruct (calls_cons enum c l1 x y H) as (r & x' & E & Ha & H'). rewrite <- app_comm_cons.
      rewrite (calls_step enum c (l1 ++ l2) x r x' E Ha). by apply IH.
  Qed.

  Lemma replay_twins cs : forall x y x', twins x y -> calls1 cs x = Some x' ->
    exists y', calls2 (replayed cs) y = Some y' /\ twins x' y'.
  Proof.
    induction cs as [|c cs IH]; intros x y x' H Hc.
    - unfold calls in Hc. cbn [abci_run] in Hc. injection Hc as <-. exists y. split; [reflexivity|exact H].
    - destruct (calls_cons enum1 c cs x x' Hc) as (r & x1 & E & Ha & Hc'). unfold replayed.
      destruct (decide (is_check c)) as [Hk|Hk].
      + rewrite filter_cons_False by (intros Hn; by apply Hn). destruct c as [| |raw| | |]; try contradiction.
        apply (IH x1 y x'); [|exact Hc']. by eapply check_twins.
      + rewrite filter_cons_True by exact Hk.
        pose proof (call_twinned C bits verify enum1 enum2 fuel decode HS1 HS2 c x y H) as Ht.
        destruct (call2 c y) as [r2 y1] eqn:E2. rewrite E in Ht.
        destruct Ht as [[D1 _]|(Er & _ & Hx)]; cbn [fst snd] in *; [destruct r; contradiction|]. subst r2.
        destruct (IH x1 y1 x' Hx Hc') as (y' & Hy & HT). exists y'. split; [|exact HT].
        rewrite (calls_step enum2 c _ y r y1 E2 Ha). exact Hy.
  Qed.
  Lemma restart_twins id cs x : running C bits verify enum1 fuel decode id cs x ->
    exists y, running C bits verify enum2 fuel decode id (replayed cs) y /\ twins x y.
  Proof.
    intros H. unfold running in *.
    destruct (calls_cons enum1 _ cs _ x H) as (r & x0 & E & Ha & Hc).
    assert (running C bits verify enum1 fuel decode id [] x0) as H0.
    { unfold running. rewrite (calls_step enum1 _ [] _ r x0 E Ha). reflexivity. }
    destruct (running_twins C bits verify enum1 enum2 fuel decode HS1 HS2 id [] x0 H0) as (y0 & Hy0 & HT).
    destruct (replay_twins cs x0 y0 x HT Hc) as (y & Hy & HT'). exists y. split; [|exact HT'].
    unfold running in Hy0. destruct (calls_cons enum2 _ [] _ y0 Hy0) as (r2 & y1 & E2 & Ha2 & Hn).
    unfold calls in Hn. cbn [abci_run] in Hn. injection Hn as ->.
    rewrite (calls_step enum2 _ _ _ r2 y0 E2 Ha2). exact Hy.
  Qed.

  Lemma restart id cs x : running C bits verify enum1 fuel decode id cs x ->
    exists y, running C bits verify enum2 fuel decode id (replayed cs) y /\ same_contents C bits verify x y
      /\ forall cs', fst (responses C bits verify enum1 fuel decode cs' x) = fst (responses C bits verify enum2 fuel decode cs' y).
  Proof.
    intros H. destruct (restart_twins id cs x H) as (y & Hy & HT). exists y. split; [exact Hy|].
    split; [exact (twins_contents C bits verify enum1 decode HS1 x y HT)|]. intros cs'.
    by destruct (history_twins C bits verify enum1 enum2 fuel decode HS1 HS2 cs' x y HT).
  Qed.
  Lemma stops_again id cs x c cs' : running C bits verify enum1 fuel decode id cs x -> ~ is_check c ->
    ~ alive (fst (call1 c x)) ->
    forall y, ~ running C bits verify enum2 fuel decode id (replayed cs ++ c :: cs') y.
  Proof.
    intros H Hk Ha y Hy. destruct (restart_twins id cs x H) as (z & Hz & HT).
    unfold running in *. rewrite app_comm_cons in Hy. rewrite (calls_app enum2 _ (c :: cs') _ z Hz) in Hy.
    rewrite (calls_stop enum2 c cs' z) in Hy; [discriminate Hy|].
    destruct (call_twinned C bits verify enum1 enum2 fuel decode HS1 HS2 c x z HT) as [[_ D]|(E & D & _)].
    - intros Hz'. exact (dead_ended _ D Hz').
    - destruct Ha. by apply alive_dead.
  Qed.
End Restart.
