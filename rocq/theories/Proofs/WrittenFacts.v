(** A running node's store is always one that calls of the object store have
    written. *)
From Coq Require Import NArith ZArith List Bool String.
From stdpp Require Import base list option gmap.
From Verif.Model Require Import Bytes Schema Orm Users Errors Prog Router Runtime Services Module Builder Universe Authn
  CoreModules TestApp Abci.
From Verif.Spec Require Import StoreSpec ChainSpec.
From Verif.Proofs Require Import ChainProps.

Section Kept.
  Context {Obj Msg Tx St : Type}.
  Context (O : objops Obj) (mname : Msg -> bytes) (SO : storeops Obj St) (P : St -> Prop).
  Definition kept {A} (y : res A * world Obj Msg St) : Prop := alive (fst y) -> P (w_store (snd y)).
  Local Ltac fin := unfold kept in *; cbn [fst snd log w_store] in *; solve [intros _; assumption | intros [] | match goal with K : alive _ -> ?x |- _ => intros _; exact (K I) end].
  Context (Hwrite : forall x s r s', P s -> apply_write SO x s = (r, s') -> alive r -> P s').

  Lemma write_kept x us w : P (w_store w) -> kept (store_write SO x us w).
  Proof.
    intros H. unfold store_write, kept. destruct (apply_write SO x (w_store w)) as [r s'] eqn:E. cbn [fst snd w_store].
    intros Ha. apply (Hwrite x _ r s' H E). destruct r as [a|e| |]; cbn in *; done.
  Qed.
  Lemma authorized_kept (en : env Obj Msg Tx) v n us w r w' : P (w_store w) ->
    authorized SO en v n us w = (r, w') -> P (w_store w').
  Proof.
    intros H. unfold authorized. destruct (negb _); [by intros [= _ <-]|].
    destruct (run_read _ _ _ _) as [[[] []]|e| |]; by intros [= _ <-].
  Qed.
  Lemma create_kept (en : env Obj Msg Tx) us o w : P (w_store w) -> kept (rt_create O SO en us o w).
  Proof.
    intros H. unfold rt_create. destruct (authorized SO en _ _ us w) as [r w'] eqn:E.
    apply (authorized_kept en _ _ _ _ _ _ H) in E. destruct r; [by apply write_kept|fin..].
  Qed.
  Lemma update_kept (en : env Obj Msg Tx) us o w : P (w_store w) -> kept (rt_update O SO en us o w).
  Proof.
    intros H. unfold rt_update. destruct (authorized SO en _ _ us w) as [r w'] eqn:E.
    apply (authorized_kept en _ _ _ _ _ _ H) in E. destruct r; [by apply write_kept|fin..].
  Qed.
  Lemma delete_kept (en : env Obj Msg Tx) us o w : P (w_store w) -> kept (rt_delete O SO en us o w).
  Proof.
    intros H. unfold rt_delete. destruct (authorized SO en _ _ us w) as [r w'] eqn:E.
    apply (authorized_kept en _ _ _ _ _ _ H) in E. destruct r; [by apply write_kept|fin..].
  Qed.

  Section Exec.
    Context (en : env Obj Msg Tx) (dlv : users -> Msg -> world Obj Msg St -> res unit * world Obj Msg St).
    Context (Hdlv : forall us m w, P (w_store w) -> kept (dlv us m w)).

    Lemma exec_kept {A} self (p : prog Obj Msg A) : forall w, P (w_store w) -> kept (exec O SO en dlv self p w).
    Proof.
      induction p as [a|e| |ty id o k IH|ty o k IH|us k IH|o k IH|o k IH|o k IH|m o k IH]; intros w H; cbn [exec]; try fin.
      - destruct (negb _); [by apply IH|]. destruct (rt_get _ _ _ _); try fin; by apply IH.
      - destruct (negb _); [by apply IH|]. destruct (rt_list _ _ _ _); try fin; by apply IH.
      - by apply IH.
      - pose proof (create_kept en self o w H) as K. destruct (rt_create _ _ _ _ _ _) as [[]?]; try fin; apply IH, K; exact I.
      - pose proof (update_kept en self o w H) as K. destruct (rt_update _ _ _ _ _ _) as [[]?]; try fin; apply IH, K; exact I.
      - pose proof (delete_kept en self o w H) as K. destruct (rt_delete _ _ _ _ _ _) as [[]?]; try fin; apply IH, K; exact I.
      - pose proof (Hdlv (client_users self o) m w H) as K. destruct (dlv _ _ _) as [[]?]; try fin; apply IH, K; exact I.
    Qed.
    Lemma handlers_kept conv hs us m : forall w, P (w_store w) -> kept (run_handlers O SO en dlv conv hs us m w).
    Proof.
      induction hs as [|h hs IH]; intros w H; cbn [run_handlers]; [fin|].
      unfold run_handler. pose proof (exec_kept (h_self h) (h_run h us m) w H) as K.
      destruct (exec _ _ _ _ _ _ _) as [[]?]; try fin. apply IH, K. exact I.
    Qed.
    Lemma tx_handlers_kept hs (t : Tx) : forall w, P (w_store w) -> kept (run_tx_handlers O SO en dlv hs t w).
    Proof.
      induction hs as [|h hs IH]; intros w H; cbn [run_tx_handlers]; [fin|].
      pose proof (exec_kept (th_self h) (th_run h t) w H) as K.
      destruct (exec _ _ _ _ _ _ _) as [[]?]; try fin. apply IH, K. exact I.
    Qed.
    Lemma chain_kept us m w : P (w_store w) -> kept (run_admission_chain O mname SO en dlv us m w).
    Proof. intros H. unfold run_admission_chain. destruct (get_admission _ _); try fin. by apply handlers_kept. Qed.
    Lemma body_kept skip us m w : P (w_store w) -> kept (deliver_body O mname SO en dlv skip us m w).
    Proof.
      intros H. unfold deliver_body.
      assert (kept (if skip then (Ok tt, w) else run_admission_chain O mname SO en dlv us m w)) as K.
      { destruct skip; [fin|by apply chain_kept]. }
      destruct (if skip then _ else _) as [[]w1]; try fin. specialize (K I). cbn [snd] in K.
      destruct (authorized SO en VDeliver (mname m) us w1) as [r w2] eqn:E.
      apply (authorized_kept en _ _ _ _ _ _ K) in E. destruct r; try fin. unfold deliver_authorized.
      pose proof (handlers_kept (fun e => e) (match get_pre (en_router en) (mname m) with Ok hs => hs | _ => [] end) us m
        (log (EvDeliver m us) w2) E) as K3.
      destruct (run_handlers _ _ _ _ _ _ _ _ _) as [[]w3]; try fin. specialize (K3 I).
      destruct (get_exec _ _) as [h|e| |]; try fin. unfold run_handler.
      pose proof (exec_kept (h_self h) (h_run h us m) w3 K3) as K4.
      destruct (exec _ _ _ _ _ _ _) as [[]w4]; try fin. specialize (K4 I).
      destruct (get_post _ _); try fin. by apply handlers_kept.
    Qed.
  End Exec.
  Lemma deliver_kept (en : env Obj Msg Tx) fuel : forall skip us m w, P (w_store w) ->
    kept (deliver O mname SO en fuel skip us m w).
  Proof. induction fuel as [|f IH]; intros skip us m w H; cbn [deliver]; [fin|].
    apply body_kept; [|exact H]. intros us' m' w'. apply IH.
  Qed.
End Kept.

Section Generic.
  Context (C : codec).
  Context (enum : list (event object msg) -> users -> list user) (fuel : nat) (decode : bytes -> res tx).
  Notation O := (app_ops C).
  Context (app : application object msg tx).
  Notation R := (ap_registry app).
  Definition stored (st : orm) : Prop := exists cs answers, run_model O R cs = (answers, Some st).

  Lemma run_app {St} (step : StoreSpec.call object -> St -> (answer * option object) * St) cs c st l st1 a st2 :
    run step cs st = (l, Some st1) -> step c st1 = (a, st2) -> is_crash (fst a) = false ->
    run step (cs ++ [c]) st = (l ++ [a], Some st2).
  Proof.
    revert st l. induction cs as [|c0 cs IH]; intros st l; cbn [run Datatypes.app].
    - intros [= <- <-] E Hc. rewrite E, Hc. reflexivity.
    - destruct (step c0 st) as [a0 st0]. destruct (is_crash (fst a0)); [by intros [= _ ?]|].
      destruct (run step cs st0) as [l0 r0] eqn:E0. intros [= <- ->] E Hc. rewrite (IH _ _ E0 E Hc). reflexivity.
  Qed.
  Lemma write_stored x s r s' : stored s -> apply_write (orm_ops O R) x s = (r, s') -> alive r -> stored s'.
  Proof.
    intros (cs & l & H) E Ha.
    exists (cs ++ [match x with WCreate o => CCreate o | WUpdate o => CUpdate o | WDelete o => CDelete o end]), (l ++ [(answer_of r, None)]).
    unfold run_model in *. eapply run_app; [exact H| |].
    - destruct x; cbn [apply_write orm_ops so_create so_update so_delete] in E; cbn [model_call]; rewrite E; reflexivity.
    - destruct r as [a|e| |]; try contradiction Ha; [reflexivity|]. cbn. repeat destruct (errors_is _ _); reflexivity.
  Qed.

  Definition wr (x : node) : Prop := stored (w_store (rt_world x)).
  Notation written := wr.
  Notation keeps y := (alive (fst y) -> written (snd y)).
  Notation ORM := (orm_ops O R).
  Lemma deliver_written b skip us m w : stored (w_store w) -> kept stored (deliver O msg_name ORM (env_of app enum b) fuel skip us m w).
  Proof. exact (deliver_kept O msg_name ORM stored write_stored (env_of app enum b) fuel skip us m w). Qed.
  Lemma at_world_written (f : bool -> world object msg orm -> res unit * world object msg orm) (x : node) :
    (forall b w, stored (w_store w) -> kept stored (f b w)) -> written x -> keeps (at_world f x).
  Proof.
    intros Hf Hw. unfold at_world. specialize (Hf (rt_enabled x) (rt_world x) Hw). destruct (f _ _) as [r w']. exact Hf.
  Qed.
  Lemma rt_deliver_written us m x : written x -> keeps (rt_deliver O msg_name ORM app enum fuel us m x).
  Proof.
    intros Hw. pose proof (deliver_written (rt_enabled x) false us m (rt_world x) Hw) as H. unfold rt_deliver.
    destruct (deliver _ _ _ _ _ _ _ _ _) as [r w']. exact H.
  Qed.
  Lemma or_panic_written (y : res unit * node) : keeps y -> keeps (or_panic y).
  Proof. destruct y as [[] x]; cbn; auto; intros _ []. Qed.
  Lemma then_written (y : res unit * node) f : keeps y -> (forall x, written x -> keeps (f x)) -> keeps (then_do y f).
  Proof. destruct y as [[] x]; cbn [then_do]; intros H Hf; auto; try (by intros []). apply Hf, H. exact I. Qed.
  Lemma each_written {A} wrap (f : A -> node -> res unit * node) l :
    (forall a x, written x -> keeps (f a x)) -> forall x, written x -> keeps (each wrap f l x).
  Proof.
    intros Hf. induction l as [|a l IH]; intros x Hx; cbn [each]; [intros _; exact Hx|].
    pose proof (Hf a x Hx) as H. destruct (f a x) as [[] x']; cbn [fst snd] in *; auto; try (by intros []). apply IH, H. exact I.
  Qed.
  Lemma module_written m p x : written x -> keeps (run_module O msg_name ORM app enum fuel m p x).
  Proof.
    intros Hw. unfold run_module.
    pose proof (exec_kept O ORM stored write_stored (env_of app enum (rt_enabled x))
      (deliver O msg_name ORM (env_of app enum (rt_enabled x)) fuel false)
      (fun us m w => deliver_written (rt_enabled x) false us m w) (module_self m) p (rt_world x) Hw) as H.
    destruct (exec _ _ _ _ _ _ _) as [r w']. exact H.
  Qed.
  Lemma genesis_written x : written x -> keeps (init_genesis O msg_name ORM CreateModuleDescriptors app enum fuel x).
  Proof.
    intros Hw. unfold init_genesis. destruct (rt_initialized x); [intros _; exact Hw|].
    pose proof (rt_deliver_written (users_from_string [runtime_user]) (CreateModuleDescriptors (map raw (ap_modules app))) x Hw) as H.
    destruct (rt_deliver _ _ _ _ _ _ _ _ _) as [[] x1]; cbn [fst snd] in *; auto; try (by intros []). specialize (H I).
    assert (keeps (genesis_modules O msg_name ORM app enum fuel (ap_modules app) x1)) as H2.
    { unfold genesis_modules. apply each_written; [|exact H]. intros m y Hy. destruct (mo_genesis m); [by apply module_written|intros _; exact Hy]. }
    destruct (genesis_modules _ _ _ _ _ _ _ _) as [[] x2]; cbn [fst snd] in *; auto; try (by intros []). specialize (H2 I).
    destruct (services_start _) as [l r]. intros _. exact H2.
  Qed.
  Lemma import_written d x : written x -> keeps (import O msg_name ORM app enum fuel d x).
  Proof.
    intros Hw. unfold import. destruct d; [|intros _; exact Hw].
    apply each_written; [|exact Hw]. intros m y Hy. destruct (mo_genesis m); [by apply module_written|intros _; exact Hy].
  Qed.
  Definition pay_at (t : tx) (x : node) : res unit * node :=
    at_world (fun b w =>
      let en := env_of app enum b in
      let dlv := deliver O msg_name ORM en fuel false in
      then_do (run_tx_admission_chain O ORM en dlv t w) (run_tx_post_auth_chain O ORM en dlv t)) x.
  Definition send_at (us : users) (m : msg) (x : node) : res unit * node :=
    at_world (fun b => deliver O msg_name ORM (env_of app enum b) fuel true us m) x.
  Lemma pay_written t x : written x -> keeps (pay_at t x).
  Proof.
    intros Hw. unfold pay_at. apply at_world_written; [|exact Hw]. intros b w H. cbv zeta.
    pose proof (tx_handlers_kept O ORM stored write_stored (env_of app enum b) (deliver O msg_name ORM (env_of app enum b) fuel false)
      (fun us m w => deliver_written b false us m w)) as K. unfold run_tx_admission_chain, run_tx_post_auth_chain.
    pose proof (K (ro_auth_admission (en_router (env_of app enum b))) t w H) as K1. unfold kept in *.
    destruct (run_tx_handlers _ _ _ _ _ _ _) as [[] w1]; cbn [then_do fst snd] in *; auto; try (by intros []).
    apply K, K1. exact I.
  Qed.
  Lemma send_written us m x : written x -> keeps (send_at us m x).
  Proof. intros Hw. unfold send_at. apply at_world_written; [|exact Hw]. intros b w. apply deliver_written. Qed.
  Lemma each_msg_written us l : forall x, written x -> keeps (each_msg (send_at us) l x).
  Proof.
    induction l as [|m l IH]; intros x Hx; cbn [each_msg]; [intros _; exact Hx|].
    apply then_written; [by apply send_written|exact IH].
  Qed.
  Lemma deliver_parts raw t x : decode raw = Ok t ->
    deliver_tx O ORM app enum fuel decode tx_users tx_msgs raw x = then_do (pay_at t x) (each_msg (send_at (tx_users t)) (tx_msgs t)).
  Proof.
    intros E. unfold deliver_tx, with_tx, pay_at. rewrite E. unfold at_world. cbv zeta.
    destruct (run_tx_admission_chain _ _ _ _ _ _) as [[] w1]; cbn [then_do]; try reflexivity.
    destruct (run_tx_post_auth_chain _ _ _ _ _ _) as [[] w2]; cbn [then_do]; try reflexivity.
    revert w2. induction (tx_msgs t) as [|m l IH]; intros w2; cbn [each_msg]; [reflexivity|].
    unfold send_at at 1. unfold at_world. cbn [rt_enabled rt_world set_world].
    destruct (deliver _ _ _ _ _ _ _ _ _) as [[] w3]; cbn [then_do]; try reflexivity. exact (IH w3).
  Qed.
  Lemma call_written c x : written x -> keeps (abci_step O ORM app enum fuel decode tx_users tx_msgs c x).
  Proof.
    intros Hw. unfold abci_step. destruct c as [id s|h rest|raw|raw|h|].
    - unfold init_chain. apply then_written.
      + apply or_panic_written. destruct s; [by apply import_written|by apply genesis_written].
      + intros y Hy. apply then_written; [apply or_panic_written; by apply rt_deliver_written|].
        intros z Hz _. exact Hz.
    - apply or_panic_written. by apply rt_deliver_written.
    - unfold check_tx, with_tx. destruct (decode raw) as [t|e| |]; [|intros _; exact Hw|intros Ha; contradiction Ha..].
      apply at_world_written; [|exact Hw]. intros b w H.
      pose proof (tx_handlers_kept O ORM stored write_stored (env_of app enum b) (deliver O msg_name ORM (env_of app enum b) fuel false)
        (fun us m w => deliver_written b false us m w) (ro_auth_admission (en_router (env_of app enum b))) t w H) as K1.
      unfold run_tx_admission_chain, kept in *.
      destruct (run_tx_handlers _ _ _ _ _ _ _) as [[] w1]; cbn [then_do fst snd] in *; try exact K1. specialize (K1 I).
      clear H Hw. revert w1 K1. induction (tx_msgs t) as [|m l IH]; intros w1 K1; cbn [each_msg]; [intros _; exact K1|].
      pose proof (chain_kept O msg_name ORM stored write_stored (env_of app enum b) (deliver O msg_name ORM (env_of app enum b) fuel false)
        (fun us m w => deliver_written b false us m w) (tx_users t) m w1 K1) as K2. unfold kept in K2.
      destruct (run_admission_chain _ _ _ _ _ _ _ _) as [[] w2]; cbn [then_do fst snd] in *; try exact K2. apply IH, K2. exact I.
    - destruct (decode raw) as [t|e| |] eqn:E.
      + rewrite (deliver_parts raw t x E).
        apply then_written; [by apply pay_written|]. intros y Hy. by apply each_msg_written.
      + unfold deliver_tx, with_tx. rewrite E. intros _. exact Hw.
      + unfold deliver_tx, with_tx. rewrite E. intros Ha; contradiction Ha.
      + unfold deliver_tx, with_tx. rewrite E. intros Ha; contradiction Ha.
    - unfold end_block.
      pose proof (or_panic_written _ (rt_deliver_written abci_users (MsgSetEndBlockState (Some h)) x Hw)) as H.
      destruct (or_panic _) as [[] x1]; cbn [fst snd] in *; auto. specialize (H I).
      destruct (rt_get _ _ _ _) as [[]| | |]; cbn [fst snd]; intros Ha; try contradiction Ha; exact H.
    - intros _. exact Hw.
  Qed.
  Lemma calls_written cs : forall x x', written x -> abci_run O ORM app enum fuel decode tx_users tx_msgs cs x = Some x' -> written x'.
  Proof.
    induction cs as [|c cs IH]; intros x x' Hw; cbn [abci_run]; [by intros [= <-]|].
    pose proof (call_written c x Hw) as H.
    destruct (abci_step _ _ _ _ _ _ _ _ c x) as [[] y]; cbn [fst snd] in H; try discriminate; apply IH, H; exact I.
  Qed.
End Generic.

Section Written.
  Context (C : codec) (bits : N) (verify : bytes -> bytes -> bytes -> bool).
  Context (enum : list (event object msg) -> users -> list user) (fuel : nat) (decode : bytes -> res tx).
  Notation written := (written C bits verify).
  Lemma calls_keep cs x x' : written x -> calls C bits verify enum fuel decode cs x = Some x' -> written x'.
  Proof. exact (calls_written C enum fuel decode (the_app bits verify) cs x x'). Qed.
  Lemma running_written id cs x : running C bits verify enum fuel decode id cs x -> written x.
  Proof. apply calls_keep. exists [], []. reflexivity. Qed.
  Lemma reachable_written id x : reachable C bits verify enum fuel decode id x -> written x.
  Proof.
    induction 1 as [cs x H|x t r x' _ IH _ E Ha|x t m r x' _ IH _ E Ha|x x' _ _ Hw _ _ _].
    - by apply running_written in H.
    - pose proof (pay_written C enum fuel (the_app bits verify) t x IH) as H. unfold pay, bytes_store in E. unfold pay_at in H. rewrite E in H. by apply H.
    - pose proof (send_written C enum fuel (the_app bits verify) (tx_users t) m x IH) as H. unfold send, bytes_store in E. unfold send_at in H. rewrite E in H. by apply H.
    - exact Hw.
  Qed.
End Written.
