(** Which transactions stop the node, for addresses of any length. *)
From Coq Require Import NArith ZArith List Bool String Lia.
From stdpp Require Import base list gmap relations.
From Verif.Model Require Import Bytes KindEncoder Desc Schema Indexes Orm Users Prog Router Runtime
  Services Module Builder Universe Coin CoreModules Rbac Bank Authn Distribution TestApp Abci.
From Verif.Spec Require Import UserSpec StoreSpec RuntimeSpec CoinSpec RbacSpec ChainSpec LiveSpec FiledSpec HaltSpec.
From Verif.Proofs Require Import ChainProps LiveProps HaltFacts.

Section Runs.
  Context (C : codec) (bits : N) (verify : bytes -> bytes -> bytes -> bool).
  Context (enum : list (event object msg) -> users -> list user) (fuel : nat) (decode : bytes -> res tx).
  Context (HS : sound C enum decode) (Hbits : (bits <= 313)%N).
  Notation call := (call C bits verify enum fuel decode).
  Notation gets := (gets C bits verify).
  Notation pay := (pay C bits verify enum fuel).
  Notation send := (send C bits verify enum fuel).
  Notation reachable := (reachable C bits verify enum fuel decode).
  Notation all_sent := (all_sent C bits verify enum fuel).
  Notation stuck := (cannot_store C bits verify).
  Implicit Types (x : node) (t : tx) (l : list msg).

  Definition meets_fatal (us : users) l x : Prop :=
    exists before m after x2, l = before ++ m :: after /\ all_sent us before x x2 /\ fatal_any bits (gets x2) us m.

  Lemma each_stops id t l : forall x, reachable id x -> proper t -> 3 <= fuel -> Forall possible_addresses l ->
    (meets_fatal (tx_users t) l x -> ~ alive (fst (each_msg (send (tx_users t)) l x)))
    /\ (~ meets_fatal (tx_users t) l x -> answers stuck (each_msg (send (tx_users t)) l x)).
  Proof.
    induction l as [|m l IH]; intros x Hx HP Hf Hl.
    { split.
      - intros (before & m & after & x2 & E & _). destruct before; discriminate E.
      - intros _. left. exact I. }
    apply Forall_cons in Hl as [Hm Hl]. cbn [each_msg].
    destruct (halts_exactly C bits verify enum fuel decode HS Hbits id x t m Hx HP Hf Hm) as [H1 H2].
    destruct (send (tx_users t) m x) as [r x1] eqn:E. cbn [fst] in H1.
    assert (forall after, l = after -> fatal_any bits (gets x) (tx_users t) m -> meets_fatal (tx_users t) (m :: l) x) as Hhere.
    { intros after -> Hfm. exists [], m, after, x. split; [reflexivity|]. split; [constructor|exact Hfm]. }
    assert (meets_fatal (tx_users t) (m :: l) x -> fatal_any bits (gets x) (tx_users t) m
              \/ r = Ok tt /\ meets_fatal (tx_users t) l x1) as Hinv.
    { intros (before & m' & after & x2 & El & Hb & Hfm). destruct before as [|m0 before].
      - injection El as <- <-. inversion Hb; subst. by left.
      - injection El as <- ->. inversion Hb as [|? ? ? y ? Es Hb']; subst. rewrite E in Es. injection Es as -> ->.
        right. split; [reflexivity|]. exists before, m', after, x2. exact (conj eq_refl (conj Hb' Hfm)). }
    assert (alive r -> reachable id x1) as Hx1 by (intros Ha; exact (re_sent _ _ _ _ _ _ id x t m r x1 Hx HP E Ha)).
    split.
    - intros Hmf. destruct (Hinv Hmf) as [Hfm|[-> Hfm]].
      + specialize (H1 Hfm). destruct r as [[]|e| |]; cbn in *; tauto.
      + cbn [then_do]. exact (proj1 (IH x1 (Hx1 I) HP Hf Hl) Hfm).
    - intros Hn. assert (~ fatal_any bits (gets x) (tx_users t) m) as Hn1 by (intros H; exact (Hn (Hhere l eq_refl H))).
      specialize (H2 Hn1). destruct r as [[]|e| |]; cbn [then_do].
      + apply (proj2 (IH x1 (Hx1 I) HP Hf Hl)). intros (before & m' & after & x2 & -> & Hb & Hfm). apply Hn.
        exists (m :: before), m', after, x2. split; [reflexivity|]. split; [econstructor; [exact E|exact Hb]|exact Hfm].
      + left. exact I.
      + destruct H2 as [[]|H2]. right. exact H2.
      + destruct H2 as [[]|H2]. right. exact H2.
  Qed.
  Lemma deliver_stops id x raw t : reachable id x -> 3 <= fuel -> decode raw = Ok t -> Forall possible_addresses (tx_msgs t) ->
    (runs_into_fatal C bits verify enum fuel t x -> ~ alive (fst (call (CallDeliverTx raw) x)))
    /\ (~ runs_into_fatal C bits verify enum fuel t x -> answers stuck (call (CallDeliverTx raw) x)).
  Proof.
    intros Hx Hf Hd Hl. pose proof (so_decoder _ _ _ HS raw t Hd) as HP.
    rewrite (deliver_tx_parts C bits verify enum fuel decode raw t x Hd).
    pose proof (pay_any C bits verify enum fuel decode HS Hbits id x t Hx HP Hf) as H.
    destruct (pay t x) as [r x1] eqn:E.
    assert (alive r -> reachable id x1) as Hx1 by (intros Ha; exact (re_paid _ _ _ _ _ _ id x t r x1 Hx HP E Ha)).
    assert (runs_into_fatal C bits verify enum fuel t x <-> r = Ok tt /\ meets_fatal (tx_users t) (tx_msgs t) x1) as Hr.
    { split.
      - intros (before & m & after & y & x2 & El & Ep & Hb & Hfm). rewrite E in Ep. injection Ep as -> ->.
        split; [reflexivity|]. exists before, m, after, x2. exact (conj El (conj Hb Hfm)).
      - intros [-> (before & m & after & x2 & El & Hb & Hfm)]. exists before, m, after, x1, x2. exact (conj El (conj E (conj Hb Hfm))). }
    split; intros Hm.
    - apply Hr in Hm as [-> Hm]. cbn [then_do]. exact (proj1 (each_stops id t (tx_msgs t) x1 (Hx1 I) HP Hf Hl) Hm).
    - destruct r as [[]|e| |]; cbn [then_do].
      + apply (proj2 (each_stops id t (tx_msgs t) x1 (Hx1 I) HP Hf Hl)). intros H'. apply Hm, Hr. exact (conj eq_refl H').
      + left. exact I.
      + destruct H as [[]|H]. right. exact H.
      + destruct H as [[]|H]. right. exact H.
  Qed.
End Runs.
