(** Runs of the application on bytes and on the plain map agree. *)
From Coq Require Import NArith ZArith List Bool String Lia.
From stdpp Require Import base list gmap.
From Verif.Model Require Import Bytes KindEncoder Desc Schema Indexes Orm Users Prog Router Runtime
  Services Module Builder Universe CoreModules Rbac Bank Authn Distribution TestApp Abci.
From Verif.Spec Require Import StoreSpec RuntimeSpec.
From Verif.Proofs Require Import RegistryFacts OrmFacts RuntimeFacts BuilderFacts SimFacts AppFacts.

Lemma genesis_no_list bits verify :
  Forall (fun m => match mo_genesis m with
                   | None => True
                   | Some g => no_list (gn_default g) /\ forall x, no_list (gn_import g x)
                   end) (app_modules bits verify).
Proof.
  repeat (apply Forall_cons; split; [|]); try (apply Forall_nil; exact I); cbn [mo_genesis]; try exact I;
    (split; [|intros x]); cbn [gn_default gn_import abci_genesis authn_genesis testing_genesis]; nl.
Qed.

Section App.
  Context (C : codec) (R : registry) (app : application object msg tx).
  Context (enum : list (event object msg) -> users -> list user) (fuel : nat).
  Context (decode : bytes -> res tx).
  Context (HC : codec_ok (app_ops C)).
  Notation O := (app_ops C).
  Context (HR : registry_ok R) (HT : forall o, typed_in O R o).
  Context (Hrouter : forall b, router_no_list (env_of app enum b)).
  Context (Htx : forall t, Forall (fun h => no_list (th_run h t)) (ro_auth_admission (ap_router app))
                      /\ Forall (fun h => no_list (th_run h t)) (ro_post_auth (ap_router app))).
  Context (Hgen : Forall (fun m => match mo_genesis m with
                   | None => True
                   | Some g => no_list (gn_default g) /\ forall x, no_list (gn_import g x)
                   end) (ap_modules app)).
  Notation ORM := (orm_ops O R).
  Notation MAP := (map_ops O R).
  Notation Rel := (map_rel O R).
  Notation env_at b := (env_of app enum b).

  Notation "x ~ y" := (simr Rel x y) (at level 70).
  Notation simw' := (simw (Msg:=msg) Rel).

  Local Lemma hget ty id s1 s2 : Rel s1 s2 ->
    dead (rt_get ORM ty id s1) \/ rt_get ORM ty id s1 = rt_get MAP ty id s2.
  Proof. intros H. by apply map_get_sim. Qed.
  Local Lemma hcreate o s1 s2 : Rel s1 s2 -> sim_step Rel (so_create ORM o s1) (so_create MAP o s2).
  Proof. by apply map_create_sim. Qed.
  Local Lemma hupdate o s1 s2 : Rel s1 s2 -> sim_step Rel (so_update ORM o s1) (so_update MAP o s2).
  Proof. by apply map_update_sim. Qed.
  Local Lemma hdelete o s1 s2 : Rel s1 s2 -> sim_step Rel (so_delete ORM o s1) (so_delete MAP o s2).
  Proof. by apply map_delete_sim. Qed.

  Lemma app_deliver_sim b skip us m w1 w2 : simw' w1 w2 ->
    deliver O msg_name ORM (env_at b) fuel skip us m w1 ~ deliver O msg_name MAP (env_at b) fuel skip us m w2.
  Proof.
    apply deliver_sim; [exact hget|exact hcreate|exact hupdate|exact hdelete|].
    apply Hrouter.
  Qed.

  Lemma app_exec_sim b self (p : prog object msg unit) w1 w2 : no_list p -> simw' w1 w2 ->
    exec O ORM (env_at b) (deliver O msg_name ORM (env_at b) fuel false) self p w1
    ~ exec O MAP (env_at b) (deliver O msg_name MAP (env_at b) fuel false) self p w2.
  Proof.
    intros Hp. apply exec_sim; [exact hget|exact hcreate|exact hupdate|exact hdelete| |exact Hp].
    intros. by apply app_deliver_sim.
  Qed.

  Lemma app_admission_sim b us m w1 w2 : simw' w1 w2 ->
    run_admission_chain O msg_name ORM (env_at b) (deliver O msg_name ORM (env_at b) fuel false) us m w1
    ~ run_admission_chain O msg_name MAP (env_at b) (deliver O msg_name MAP (env_at b) fuel false) us m w2.
  Proof.
    apply admission_sim; [exact hget|exact hcreate|exact hupdate|exact hdelete| |apply Hrouter].
    intros. by apply app_deliver_sim.
  Qed.

  Lemma app_tx_admission_sim b t w1 w2 : simw' w1 w2 ->
    run_tx_admission_chain O ORM (env_at b) (deliver O msg_name ORM (env_at b) fuel false) t w1
    ~ run_tx_admission_chain O MAP (env_at b) (deliver O msg_name MAP (env_at b) fuel false) t w2.
  Proof.
    apply run_tx_handlers_sim; [exact hget|exact hcreate|exact hupdate|exact hdelete| |apply Htx].
    intros. by apply app_deliver_sim.
  Qed.
  Lemma app_tx_post_auth_sim b t w1 w2 : simw' w1 w2 ->
    run_tx_post_auth_chain O ORM (env_at b) (deliver O msg_name ORM (env_at b) fuel false) t w1
    ~ run_tx_post_auth_chain O MAP (env_at b) (deliver O msg_name MAP (env_at b) fuel false) t w2.
  Proof.
    apply run_tx_handlers_sim; [exact hget|exact hcreate|exact hupdate|exact hdelete| |apply Htx].
    intros. by apply app_deliver_sim.
  Qed.

  Record simrt (x : rt object msg orm) (y : rt object msg (gmap (bytes * bytes) object)) : Prop := {
    sr_initialized : rt_initialized x = rt_initialized y;
    sr_enabled : rt_enabled x = rt_enabled y;
    sr_services : rt_services x = rt_services y;
    sr_world : simw' (rt_world x) (rt_world y)
  }.
  (** Outcomes of calls on the whole runtime. *)
  Definition simx {A} (p : res A * rt object msg orm)
      (q : res A * rt object msg (gmap (bytes * bytes) object)) : Prop :=
    dead (fst p) \/ fst p = fst q /\ simrt (snd p) (snd q).

  Lemma set_world_sim x y w v : simrt x y -> simw' w v -> simrt (set_world x w) (set_world y v).
  Proof. intros [H1 H2 H3 H4] H. split; done. Qed.

  Lemma then_do_sim {S1 S2} (P : S1 -> S2 -> Prop) (p : res unit * S1) (q : res unit * S2) f g :
    (dead (fst p) \/ fst p = fst q /\ P (snd p) (snd q)) ->
    (forall a b, P a b -> dead (fst (f a)) \/ fst (f a) = fst (g b) /\ P (snd (f a)) (snd (g b))) ->
    dead (fst (then_do p f)) \/ fst (then_do p f) = fst (then_do q g)
                                 /\ P (snd (then_do p f)) (snd (then_do q g)).
  Proof.
    destruct p as [r1 a], q as [r2 b]. intros [H|[H1 H2]] Hf; cbn [fst snd] in *.
    - left. by destruct r1.
    - subst. destruct r2; cbn [then_do]; auto.
  Qed.

  Lemma each_msg_sim {S1 S2} (P : S1 -> S2 -> Prop) f g l :
    (forall m a b, P a b -> dead (fst (f m a)) \/ fst (f m a) = fst (g m b) /\ P (snd (f m a)) (snd (g m b))) ->
    forall a b, P a b ->
    dead (fst (each_msg f l a)) \/ fst (each_msg f l a) = fst (each_msg g l b)
                                 /\ P (snd (each_msg f l a)) (snd (each_msg g l b)).
  Proof.
    intros Hf. induction l as [|m l IH]; intros a b H; cbn [each_msg]; [right; done|].
    apply (then_do_sim P); auto.
  Qed.

  Lemma at_world_sim f g x y : simrt x y ->
    (forall b w v, simw' w v -> f b w ~ g b v) -> simx (at_world f x) (at_world g y).
  Proof.
    intros H Hf. unfold at_world. pose proof H as [H1 H2 H3 H4].
    pose proof (Hf (rt_enabled x) _ _ H4) as Hs. rewrite H2 in *.
    destruct (f _ _) as [r1 w], (g _ _) as [r2 v].
    destruct Hs as [Hs|[Hs Hv]]; cbn [fst snd] in *; [left; done|right].
    split; [done|]. by apply set_world_sim.
  Qed.

  Lemma check_tx_sim raw x y : simrt x y ->
    simx (check_tx O ORM app enum fuel decode tx_users tx_msgs raw x)
         (check_tx O MAP app enum fuel decode tx_users tx_msgs raw y).
  Proof.
    intros H. unfold check_tx, with_tx. destruct (decode raw) as [t|e| |]; [|right; done|left; done|left; done].
    apply at_world_sim; [done|]. intros b w v Hw.
    apply (then_do_sim simw'); [by apply app_tx_admission_sim|].
    apply each_msg_sim. intros. by apply app_admission_sim.
  Qed.

  Lemma deliver_tx_sim raw x y : simrt x y ->
    simx (deliver_tx O ORM app enum fuel decode tx_users tx_msgs raw x)
         (deliver_tx O MAP app enum fuel decode tx_users tx_msgs raw y).
  Proof.
    intros H. unfold deliver_tx, with_tx. destruct (decode raw) as [t|e| |]; [|right; done|left; done|left; done].
    apply at_world_sim; [done|]. intros b w v Hw.
    apply (then_do_sim simw'); [by apply app_tx_admission_sim|]. intros.
    apply (then_do_sim simw'); [by apply app_tx_post_auth_sim|].
    apply each_msg_sim. intros. by apply app_deliver_sim.
  Qed.

  Lemma or_panic_sim {A} (p : res A * rt object msg orm) q : simx p q -> simx (or_panic p) (or_panic q).
  Proof.
    destruct p as [r1 x], q as [r2 y]. intros [H|[H1 H2]]; cbn [fst snd] in *.
    - left. by destruct r1.
    - subst. destruct r2; [right; done|left; done..].
  Qed.

  Lemma rt_deliver_sim us m x y : simrt x y ->
    simx (rt_deliver O msg_name ORM app enum fuel us m x) (rt_deliver O msg_name MAP app enum fuel us m y).
  Proof.
    intros H. apply (at_world_sim (fun b => deliver O msg_name ORM (env_at b) fuel false us m)
                                  (fun b => deliver O msg_name MAP (env_at b) fuel false us m)); [done|].
    intros. by apply app_deliver_sim.
  Qed.

  Lemma run_module_sim m p x y : no_list p -> simrt x y ->
    simx (run_module O msg_name ORM app enum fuel m p x) (run_module O msg_name MAP app enum fuel m p y).
  Proof.
    intros Hp H. apply (at_world_sim (fun b => exec O ORM (env_at b) (deliver O msg_name ORM (env_at b) fuel false) (module_self m) p)
      (fun b => exec O MAP (env_at b) (deliver O msg_name MAP (env_at b) fuel false) (module_self m) p)); [done|].
    intros. by apply app_exec_sim.
  Qed.

  Lemma each_sim {A} wrap (f : A -> rt object msg orm -> _) g l x y :
    Forall (fun a => forall x y, simrt x y -> simx (f a x) (g a y)) l -> simrt x y ->
    simx (each wrap f l x) (each wrap g l y).
  Proof.
    intros HF. revert x y. induction HF as [|a l Ha _ IH]; intros x y H; cbn [each]; [right; done|].
    specialize (Ha x y H). destruct (f a x) as [r1 x1], (g a y) as [r2 y1].
    destruct Ha as [Ha|[Ha Hx]]; cbn [fst snd] in *; [left; by destruct r1|]. subst.
    destruct r2; [by apply IH|right; done..].
  Qed.

  Lemma init_chain_sim id st x y : simrt x y ->
    simx (init_chain O ORM app enum fuel id st x) (init_chain O MAP app enum fuel id st y).
  Proof.
    intros H. unfold init_chain.
    apply (then_do_sim simrt).
    - apply or_panic_sim. destruct st as [[d|]|].
      + unfold import. apply each_sim; [|done].
        eapply Forall_impl; [apply Hgen|]. intros m Hm x1 y1 H1. cbn beta in *.
        destruct (mo_genesis m) as [g|]; [|right; done]. apply run_module_sim; [apply Hm|done].
      + right; done.
      + unfold init_genesis. rewrite (sr_initialized _ _ H). destruct (rt_initialized y); [right; done|].
        pose proof (rt_deliver_sim (users_from_string [runtime_user])
          (CreateModuleDescriptors (map raw (ap_modules app))) x y H) as Hd.
        destruct (rt_deliver _ _ ORM _ _ _ _ _ _) as [r1 x1], (rt_deliver _ _ MAP _ _ _ _ _ _) as [r2 y1].
        destruct Hd as [Hd|[Hd Hx]]; cbn [fst snd] in *; [left; by destruct r1|]. subst.
        destruct r2; [|right; done..].
        assert (simx (genesis_modules O msg_name ORM app enum fuel (ap_modules app) x1)
                     (genesis_modules O msg_name MAP app enum fuel (ap_modules app) y1)) as Hg.
        { unfold genesis_modules. apply each_sim; [|done].
          eapply Forall_impl; [apply Hgen|]. intros m Hm x2 y2 H1. cbn beta in *.
          destruct (mo_genesis m) as [g|]; [|right; done]. apply run_module_sim; [apply Hm|done]. }
        destruct (genesis_modules _ _ ORM _ _ _ _ _) as [r1 x2], (genesis_modules _ _ MAP _ _ _ _ _) as [r2 y2].
        destruct Hg as [Hg|[Hg Hy]]; cbn [fst snd] in *; [left; by destruct r1|]. subst.
        destruct r2; [|right; done..]. destruct Hy as [A1 A2 A3 A4].
        destruct (services_start _) as [l r]. right. split; [done|]. split; cbn; [done|done|by rewrite A3|done].
    - intros a b Hab. apply (then_do_sim simrt); [by apply or_panic_sim, rt_deliver_sim|].
      intros a1 b1 [A1 A2 A3 A4]. right. split; [done|]. split; done.
  Qed.

  Lemma end_block_sim h x y : simrt x y ->
    simx (end_block O ORM app enum fuel h x) (end_block O MAP app enum fuel h y).
  Proof.
    intros H. unfold end_block.
    pose proof (or_panic_sim _ _ (rt_deliver_sim abci_users (MsgSetEndBlockState (Some h)) x y H)) as Hd.
    destruct (or_panic (rt_deliver _ _ ORM _ _ _ _ _ _)) as [r1 x1],
             (or_panic (rt_deliver _ _ MAP _ _ _ _ _ _)) as [r2 y1].
    destruct Hd as [Hd|[Hd Hx]]; cbn [fst snd] in *; [left; by destruct r1|]. subst.
    destruct r2; [|right; done..].
    destruct (hget ty_updates singleton_id _ _ (proj1 (sr_world _ _ Hx))) as [Hg| ->].
    - destruct (rt_get ORM _ _ _); try done; left; done.
    - destruct (rt_get MAP _ _ _) as [[]|e| |]; right; done.
  Qed.

  Lemma abci_step_sim c x y : simrt x y ->
    simx (abci_step O ORM app enum fuel decode tx_users tx_msgs c x)
         (abci_step O MAP app enum fuel decode tx_users tx_msgs c y).
  Proof.
    intros H. destruct c as [id st|h r|raw|raw|h|]; cbn [abci_step].
    - by apply init_chain_sim.
    - by apply or_panic_sim, rt_deliver_sim.
    - by apply check_tx_sim.
    - by apply deliver_tx_sim.
    - pose proof (end_block_sim h x y H) as He.
      destruct (end_block O ORM _ _ _ _ _) as [r1 x1], (end_block O MAP _ _ _ _ _) as [r2 y1].
      destruct He as [He|[He Hx]]; cbn [fst snd] in *; [left; by destruct r1|]. subst.
      destruct r2; right; done.
    - right; done.
  Qed.

  Lemma abci_run_sim cs : forall x y x', simrt x y ->
    abci_run O ORM app enum fuel decode tx_users tx_msgs cs x = Some x' ->
    exists y', abci_run O MAP app enum fuel decode tx_users tx_msgs cs y = Some y' /\ simrt x' y'.
  Proof.
    induction cs as [|c cs IH]; intros x y x' H; cbn [abci_run].
    - intros [= <-]. eauto.
    - pose proof (abci_step_sim c x y H) as Hs.
      destruct (abci_step O ORM _ _ _ _ _ _ c x) as [r1 x1], (abci_step O MAP _ _ _ _ _ _ c y) as [r2 y1].
      destruct Hs as [Hs|[Hs Hx]]; cbn [fst snd] in *; [by destruct r1|]. subst.
      destruct r2; [by apply IH|by apply IH|discriminate..].
  Qed.

End App.

Lemma app_modules_eq bits verify : ap_modules (test_app bits verify) = app_modules bits verify.
Proof. apply (built_parts 1 no_descs _ _ (app_built bits verify)). Qed.

(** The state of a node before its first call. *)
Definition rt_start {St} (s : St) : rt object msg St :=
  {| rt_initialized := false; rt_enabled := false; rt_world := {| w_store := s; w_trace := [] |};
     rt_services := [] |}.
Lemma rt_start_sim C R : simrt C R (rt_start orm_empty) (rt_start ∅).
Proof. split; [done..|]. split; [|done]. apply repr_empty. Qed.

Lemma test_app_run_sim C bits verify enum fuel decode cs x y x' :
  codec_ok (app_ops C) ->
  simrt C (app_registry bits verify) x y ->
  abci_run (app_ops C) (orm_ops (app_ops C) (app_registry bits verify)) (test_app bits verify)
    enum fuel decode tx_users tx_msgs cs x = Some x' ->
  exists y', abci_run (app_ops C) (map_ops (app_ops C) (app_registry bits verify)) (test_app bits verify)
    enum fuel decode tx_users tx_msgs cs y = Some y' /\ simrt C (app_registry bits verify) x' y'.
Proof.
  intros HC. apply abci_run_sim; [exact HC|apply app_registry_ok|apply app_typed| | |].
  - apply app_router_no_list.
  - apply tx_chains_no_list.
  - rewrite app_modules_eq. apply genesis_no_list.
Qed.
Lemma test_app_step_sim C bits verify enum fuel decode c x y :
  codec_ok (app_ops C) ->
  simrt C (app_registry bits verify) x y ->
  simx C (app_registry bits verify)
    (abci_step (app_ops C) (orm_ops (app_ops C) (app_registry bits verify)) (test_app bits verify)
      enum fuel decode tx_users tx_msgs c x)
    (abci_step (app_ops C) (map_ops (app_ops C) (app_registry bits verify)) (test_app bits verify)
      enum fuel decode tx_users tx_msgs c y).
Proof.
  intros HC. apply abci_step_sim; [exact HC|apply app_registry_ok|apply app_typed| | |].
  - apply app_router_no_list.
  - apply tx_chains_no_list.
  - rewrite app_modules_eq. apply genesis_no_list.
Qed.
Lemma test_app_deliver_sim C bits verify enum fuel skip us m w1 w2 :
  codec_ok (app_ops C) ->
  simw (Msg:=msg) (map_rel (app_ops C) (app_registry bits verify)) w1 w2 ->
  simr (map_rel (app_ops C) (app_registry bits verify))
    (deliver (app_ops C) msg_name (orm_ops (app_ops C) (app_registry bits verify))
      (env_of (test_app bits verify) enum true) fuel skip us m w1)
    (deliver (app_ops C) msg_name (map_ops (app_ops C) (app_registry bits verify))
      (env_of (test_app bits verify) enum true) fuel skip us m w2).
Proof.
  intros HC. apply app_deliver_sim; [exact HC|apply app_registry_ok|apply app_typed|].
  apply app_router_no_list.
Qed.
Lemma test_app_admission_sim C bits verify enum fuel t w1 w2 :
  codec_ok (app_ops C) ->
  simw (Msg:=msg) (map_rel (app_ops C) (app_registry bits verify)) w1 w2 ->
  let en := env_of (test_app bits verify) enum true in
  let ORM := orm_ops (app_ops C) (app_registry bits verify) in
  let MAP := map_ops (app_ops C) (app_registry bits verify) in
  simr (map_rel (app_ops C) (app_registry bits verify))
    (run_tx_admission_chain (app_ops C) ORM en (deliver (app_ops C) msg_name ORM en fuel false) t w1)
    (run_tx_admission_chain (app_ops C) MAP en (deliver (app_ops C) msg_name MAP en fuel false) t w2).
Proof.
  intros HC Hw. apply app_tx_admission_sim; [exact HC|apply app_registry_ok|apply app_typed| | |exact Hw].
  - apply app_router_no_list.
  - apply tx_chains_no_list.
Qed.
Lemma test_app_pay_sim C bits verify enum fuel t w1 w2 :
  codec_ok (app_ops C) ->
  simw (Msg:=msg) (map_rel (app_ops C) (app_registry bits verify)) w1 w2 ->
  let en := env_of (test_app bits verify) enum true in
  let ORM := orm_ops (app_ops C) (app_registry bits verify) in
  let MAP := map_ops (app_ops C) (app_registry bits verify) in
  simr (map_rel (app_ops C) (app_registry bits verify))
    (then_do (run_tx_admission_chain (app_ops C) ORM en (deliver (app_ops C) msg_name ORM en fuel false) t w1)
             (run_tx_post_auth_chain (app_ops C) ORM en (deliver (app_ops C) msg_name ORM en fuel false) t))
    (then_do (run_tx_admission_chain (app_ops C) MAP en (deliver (app_ops C) msg_name MAP en fuel false) t w2)
             (run_tx_post_auth_chain (app_ops C) MAP en (deliver (app_ops C) msg_name MAP en fuel false) t)).
Proof.
  intros HC Hw. apply (then_do_sim (simw (Msg:=msg) (map_rel (app_ops C) (app_registry bits verify)))).
  - apply app_tx_admission_sim; [exact HC|apply app_registry_ok|apply app_typed| | |exact Hw].
    + apply app_router_no_list.
    + apply tx_chains_no_list.
  - intros a b Hab. apply app_tx_post_auth_sim; [exact HC|apply app_registry_ok|apply app_typed| | |exact Hab].
    + apply app_router_no_list.
    + apply tx_chains_no_list.
Qed.
