(** Two orders of listing users: whole histories. *)
From Coq Require Import NArith ZArith List Bool String Lia.
From stdpp Require Import base list gmap relations.
From Verif.Model Require Import Bytes KindEncoder Desc Schema Indexes Orm Users Prog Router Runtime
  Services Module Builder Strings Universe Coin CoreModules Rbac Bank Authn Distribution TestApp Abci Query.
From Verif.Spec Require Import UserSpec StoreSpec RuntimeSpec RbacSpec ChainSpec QuerySpec OrderSpec.
From Verif.Proofs Require Import BytesFacts KindEncoderFacts RegistryFacts OrmFacts UserFacts RuntimeFacts
  BuilderFacts SimFacts AppFacts AppSim RbacFacts MapExec ChainInv ChainWp ChainRun ChainHist ChainView ChainProps
  OrderFacts OrderChain OrderNode.

Section Props.
  Context (C : codec) (bits : N) (verify : bytes -> bytes -> bytes -> bool).
  Context (enum1 enum2 : list (event object msg) -> users -> list user) (fuel : nat) (decode : bytes -> res tx).
  Context (HS1 : sound C enum1 decode) (HS2 : sound C enum2 decode).
  Notation O := (app_ops C).
  Notation app := (test_app bits verify).
  Notation R := (ap_registry app).
  Notation HC := (so_codec _ _ _ HS1).
  Notation twins := (twins C bits verify).
  Notation history1 := (responses C bits verify enum1 fuel decode).
  Notation history2 := (responses C bits verify enum2 fuel decode).

  Lemma calls_typed (cs : list (StoreSpec.call object)) : Forall (call_typed O R) cs.
  Proof.
    induction cs as [|c cs IH]; [exact (List.Forall_nil _)|]. refine (List.Forall_cons _ _ _ _ IH). clear IH.
    destruct c as [o|o|o|ty id];
      [exact (app_typed C bits verify o)|exact (app_typed C bits verify o)|exact (app_typed C bits verify o)|exact I].
  Qed.
  Lemma twins_contents x y : twins x y -> same_contents C bits verify x y.
  Proof.
    intros (S & T1 & T2) cs. cbv zeta. unfold the_app.
    assert (Forall (call_typed O R) cs) as HF.
    { exact (calls_typed cs). }
    destruct (run_refines O R cs S _ HC (app_registry_ok bits verify) (tk_shown _ _ _ _ _ T1) HF) as [-> _].
    destruct (run_refines O R cs S _ HC (app_registry_ok bits verify) (tk_shown _ _ _ _ _ T2) HF) as [-> _].
    reflexivity.
  Qed.
  Lemma twins_end x y h : twins x y -> same_answer (end_answer C bits verify enum1 fuel h x) (end_answer C bits verify enum2 fuel h y).
  Proof.
    intros H Ha. pose proof (twins_near C bits verify x y H) as HN. unfold end_answer, bytes_store, the_app in *.
    pose proof (end_block_near C bits verify app (test_app_like bits verify) HC (app_typed C bits verify)
      enum1 (so_order _ _ _ HS1) enum2 (so_order _ _ _ HS2) fuel h x y HN) as He.
    destruct (end_block _ _ _ enum1 _ _ _) as [r1 x1], (end_block _ _ _ enum2 _ _ _) as [r2 y1]. clear HN H.
    destruct He as [[D1 D2]|(E & _ & _)]; cbn [fst snd] in *; [|exact E].
    exfalso. destruct Ha as [Ha|Ha]; [destruct r1|destruct r2]; contradiction.
  Qed.

  Definition ends (p q : list (option (res unit)) * option node) : Prop :=
    fst p = fst q /\ match snd p, snd q with Some x, Some y => twins x y | None, None => True | _, _ => False end.
  Lemma history_step c cs x y :
    let p := call C bits verify enum1 fuel decode c x in let q := call C bits verify enum2 fuel decode c y in
    dead (fst p) /\ dead (fst q) \/ fst p = fst q /\ ~ dead (fst p) /\ ends (history1 cs (snd p)) (history2 cs (snd q)) ->
    ends (history1 (c :: cs) x) (history2 (c :: cs) y).
  Proof.
    cbv zeta. cbn [responses].
    destruct (call _ _ _ enum1 _ _ _ _) as [r1 x1], (call _ _ _ enum2 _ _ _ _) as [r2 y1].
    cbn [fst snd]. intros [[D1 D2]|(E & D & H)].
    - destruct r1; [contradiction|contradiction| |]; (destruct r2; [contradiction|contradiction| |]); (split; [reflexivity|exact I]).
    - subst r2. destruct (history1 cs x1) as [l1 e1], (history2 cs y1) as [l2 e2]. destruct H as [H1 H2]. cbn [fst snd] in H1, H2.
      subst l2. destruct r1; [split; [reflexivity|exact H2]|split; [reflexivity|exact H2]|destruct D; exact I|destruct D; exact I].
  Qed.
  Lemma history_twins cs : forall x y, twins x y -> ends (history1 cs x) (history2 cs y).
  Proof.
    induction cs as [|c cs IH]; intros x y H; [split; [reflexivity|exact H]|].
    apply history_step. destruct (call_twinned C bits verify enum1 enum2 fuel decode HS1 HS2 c x y H) as [D|(E & D & HT)]; [by left|].
    right. split; [exact E|]. split; [exact D|]. by apply IH.
  Qed.
  Lemma call_init enum id x : call C bits verify enum fuel decode (CallInitChain id None) x
    = init_chain O (orm_ops O R) app enum fuel id None x.
  Proof. unfold call. cbn [abci_step]. unfold bytes_store, the_app. reflexivity. Qed.
  Lemma histories id cs : ends (history1 (CallInitChain id None :: cs) new_node) (history2 (CallInitChain id None :: cs) new_node).
  Proof.
    apply history_step.
    pose proof (init_chain_near C bits verify app (test_app_like bits verify) HC (app_typed C bits verify)
      enum1 (so_order _ _ _ HS1) enum2 (so_order _ _ _ HS2) fuel id None new_node new_node) as Hi.
    feed specialize Hi. { split; [reflexivity|reflexivity|]. exists ∅. split; apply repr_empty. }
    assert (forall enum x, alive (fst (call C bits verify enum fuel decode (CallInitChain id None) new_node)) ->
      x = snd (call C bits verify enum fuel decode (CallInitChain id None) new_node) ->
      running C bits verify enum fuel decode id [] x) as Hr.
    { intros enum x. unfold running, calls, call. cbn [abci_run].
      destruct (abci_step _ _ _ enum _ _ _ _ _ _) as [r z]. cbn [fst snd]. intros Ha ->.
      destruct r; [reflexivity|reflexivity|contradiction|contradiction]. }
    rewrite <- !call_init in Hi.
    destruct Hi as [D|(E & D & Hx)]; [by left|]. right. split; [exact E|]. split; [exact D|].
    apply history_twins. apply alive_dead in D.
    pose proof (Hr enum1 _ D eq_refl) as G1. rewrite E in D. pose proof (Hr enum2 _ D eq_refl) as G2.
    apply (running_tracked C bits verify enum1 fuel decode HS1) in G1 as (S1 & T1 & _).
    apply (running_tracked C bits verify enum2 fuel decode HS2) in G2 as (S2 & T2 & _).
    exact (near_twins C bits verify enum1 decode HS1 _ _ S1 S2 Hx T1 T2).
  Qed.
  Lemma orders id cs :
    let one := history1 (CallInitChain id None :: cs) new_node in
    let two := history2 (CallInitChain id None :: cs) new_node in
    fst one = fst two
    /\ match snd one, snd two with
       | Some x, Some y => same_contents C bits verify x y
           /\ forall h, same_answer (end_answer C bits verify enum1 fuel h x) (end_answer C bits verify enum2 fuel h y)
       | None, None => True
       | _, _ => False
       end.
  Proof.
    cbv zeta. destruct (histories id cs) as [H1 H2]. split; [exact H1|].
    destruct (snd (history1 _ _)) as [x|], (snd (history2 _ _)) as [y|]; [|contradiction|contradiction|exact I].
    split; [by apply twins_contents|]. intros h. by apply twins_end.
  Qed.

  (** A single transaction on nodes with the same contents. *)
  Lemma next_call id cs x : running C bits verify enum1 fuel decode id cs x ->
    exists y, running C bits verify enum2 fuel decode id cs y /\ same_contents C bits verify x y
      /\ forall c, same_answer (fst (call C bits verify enum1 fuel decode c x)) (fst (call C bits verify enum2 fuel decode c y)).
  Proof.
    intros H. destruct (running_twins C bits verify enum1 enum2 fuel decode HS1 HS2 id cs x H) as (y & Hy & HT).
    exists y. split; [exact Hy|]. split; [by apply twins_contents|]. intros c Ha.
    destruct (call_twinned C bits verify enum1 enum2 fuel decode HS1 HS2 c x y HT) as [[D1 D2]|(E & _)]; [|exact E].
    exfalso. destruct Ha as [Ha|Ha]; [clear D2|clear D1].
    - destruct (fst _); contradiction.
    - destruct (fst _); contradiction.
  Qed.
End Props.
