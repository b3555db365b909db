(** Programs that only read leave the store alone, whatever the store. *)
From Coq Require Import NArith ZArith List Bool String Lia.
From stdpp Require Import base list gmap.
From Verif.Model Require Import Bytes KindEncoder Desc Schema Indexes Orm Users Prog Router Runtime
  Services Module Builder Universe Coin CoreModules Rbac Bank Authn Distribution TestApp Abci.
From Verif.Proofs Require Import BuilderFacts AppFacts AppSim MapExec ChainRun.

Inductive only_reads {Obj Msg A} : prog Obj Msg A -> Prop :=
| or_ret a : only_reads (PRet a)
| or_fail e : only_reads (PFail e)
| or_panic : only_reads PPanic
| or_get ty id opts k : (forall x, only_reads (k x)) -> only_reads (PGet ty id opts k)
| or_list ty opts k : (forall x, only_reads (k x)) -> only_reads (PList ty opts k)
| or_enum us k : (forall x, only_reads (k x)) -> only_reads (PEnum us k).

Section Reads.
  Context {Obj Msg Tx St : Type} (O : objops Obj) (mname : Msg -> bytes) (SO : storeops Obj St).
  Context (en : env Obj Msg Tx) (dlv : users -> Msg -> world Obj Msg St -> res unit * world Obj Msg St).

  Lemma exec_reads {A} self (p : prog Obj Msg A) : only_reads p -> forall w,
    w_store (snd (exec O SO en dlv self p w)) = w_store w.
  Proof.
    induction 1 as [a|e| |ty id opts k _ IH|ty opts k _ IH|us k _ IH]; intros w; cbn [exec]; try done.
    - destruct (negb _); [apply IH|]. destruct (rt_get _ _ _ _); try apply IH; done.
    - destruct (negb _); [apply IH|]. destruct (rt_list _ _ _ _); try apply IH; done.
    - rewrite IH. done.
  Qed.

  Lemma handlers_read conv hs us m : Forall (fun h => only_reads (h_run h us m)) hs -> forall w,
    w_store (snd (run_handlers O SO en dlv conv hs us m w)) = w_store w.
  Proof.
    induction 1 as [|h hs Hh _ IH]; intros w; cbn [run_handlers]; [done|].
    unfold run_handler. pose proof (exec_reads (h_self h) _ Hh w) as H.
    destruct (exec _ _ _ _ _ _ w) as [r w1]. cbn [snd] in H. destruct r; cbn [snd]; [by rewrite IH|done..].
  Qed.
  Lemma admission_reads us m w :
    match get_admission (en_router en) (mname m) with
    | Ok hs => Forall (fun h => only_reads (h_run h us m)) hs
    | _ => True
    end ->
    w_store (snd (run_admission_chain O mname SO en dlv us m w)) = w_store w.
  Proof.
    intros H. unfold run_admission_chain. destruct (get_admission _ _); try done. by apply handlers_read.
  Qed.
  Lemma tx_handlers_read hs (t : Tx) : Forall (fun h => only_reads (th_run h t)) hs -> forall w,
    w_store (snd (run_tx_handlers O SO en dlv hs t w)) = w_store w.
  Proof.
    induction 1 as [|h hs Hh _ IH]; intros w; cbn [run_tx_handlers]; [done|].
    pose proof (exec_reads (th_self h) _ Hh w) as H.
    destruct (exec _ _ _ _ _ _ w) as [r w1]. cbn [snd] in H. destruct r; cbn [snd]; [by rewrite IH|done..].
  Qed.
End Reads.

Lemma get_reads {A} ty id (f : object -> prog object msg A) g :
  (forall o, only_reads (f o)) -> (forall e, only_reads (g e)) -> only_reads (get_ ty id f g).
Proof. intros Hf Hg. unfold get_. constructor. intros [o|e]; auto. Qed.

Local Ltac go := repeat first
  [apply get_reads; intros | progress cbn | constructor; intros
  | match goal with |- only_reads (match ?x with _ => _ end) => destruct x end].

Lemma admission_only_reads m us : Forall (fun h => only_reads (h_run h us m)) (admission_of m).
Proof.
  destruct m; cbn [admission_of]; try (by apply Forall_nil); (apply Forall_cons; split; [cbn [h_run]|by apply Forall_nil]).
  - unfold create_account_admission. go.
  - unfold create_role_admission. go.
  - unfold bind_admission. go.
Qed.

Lemma accounts_exist_reads l : only_reads (accounts_exist l).
Proof. induction l; cbn [accounts_exist]; [constructor|]. apply get_reads; intros; [done|constructor]. Qed.
Lemma count_sigs_reads limit l : forall n, only_reads (count_sigs limit n l).
Proof. induction l; intros n; cbn [count_sigs]; [constructor|]. destruct (_ <? _)%N; [constructor|done]. Qed.
Lemma verify_signers_reads verify t chain l : only_reads (verify_signers verify t chain l).
Proof.
  induction l; cbn [verify_signers]; [constructor|]. apply get_reads; intros; [|constructor].
  destruct o; try constructor. destruct (ac_pubkey _); [|constructor]. destruct (negb _); [constructor|].
  destruct (verify _ _ _); [done|constructor].
Qed.
Lemma tx_admission_only_reads bits verify t :
  Forall (fun h => only_reads (th_run h t)) (admission_handlers bits verify).
Proof.
  unfold admission_handlers. repeat (apply Forall_cons; split); [..|by apply Forall_nil]; cbn [th_run].
  - constructor.
  - constructor. intros l. apply accounts_exist_reads.
  - unfold timeout_block. go.
  - unfold validate_memo, with_params. go.
  - unfold sig_count, with_params. apply get_reads; intros; [|constructor].
    destruct o; try constructor. apply count_sigs_reads.
  - unfold sig_verifier. apply get_reads; intros; [|constructor].
    destruct o; try constructor. apply verify_signers_reads.
  - unfold fee_checker. apply get_reads; intros; [|constructor]. destruct o; try constructor.
    unfold lift. destruct (safe_sub _ _ _); constructor.
Qed.
