(** What a build succeeds on and what it contains. *)
From Coq Require Import NArith List Bool String Lia.
From stdpp Require Import base list gmap.
From Verif.Model Require Import Bytes KindEncoder Desc Schema Indexes Orm Users Prog Router Runtime
  Services Module Builder.
From Verif.Spec Require Import RuntimeSpec.
From Verif.Proofs Require Import RouterFacts RuntimeFacts RegistryFacts RegistryHistory.

Section Each.
  Context {A S : Type}.
  Implicit Types (f : A -> S -> res unit * S).

  Lemma each_ok wrap f l s s' :
    each wrap f l s = (Ok tt, s') ->
    s' = fold_left (fun s x => (f x s).2) l s
    /\ forall l1 x l2, l = l1 ++ x :: l2 ->
         (f x (fold_left (fun s x => (f x s).2) l1 s)).1 = Ok tt.
  Proof.
    revert s. induction l as [|x l IH]; intros s; cbn [each fold_left].
    - intros H; inversion H; subst. split; [done|]. intros l1 y l2 E. by destruct l1.
    - destruct (f x s) as [[[]|e| |] s1] eqn:E; intros H; try (inversion H; done).
      destruct (IH s1 H) as [-> Hall]. cbn. split; [done|].
      intros l1 y l2 El. destruct l1 as [|z l1].
      + inversion El; subst. cbn. by rewrite E.
      + inversion El; subst. cbn. rewrite E. cbn. by eapply Hall.
  Qed.

  Lemma each_intro wrap f l : forall s,
    (forall l1 x l2, l = l1 ++ x :: l2 ->
       (f x (fold_left (fun s x => (f x s).2) l1 s)).1 = Ok tt) ->
    each wrap f l s = (Ok tt, fold_left (fun s x => (f x s).2) l s).
  Proof.
    induction l as [|x l IH]; intros s Hall; cbn [each fold_left]; [done|].
    pose proof (Hall [] x l eq_refl) as H0. cbn in H0.
    destruct (f x s) as [[[]|e| |] s1] eqn:E; cbn in *; try done.
    apply IH. intros l1 y l2 ->. pose proof (Hall (x :: l1) y l2 eq_refl) as H1. cbn in H1.
    by rewrite E in H1.
  Qed.

  Lemma each_iff wrap f l s :
    is_ok (each wrap f l s).1 = true <->
    (forall l1 x l2, l = l1 ++ x :: l2 ->
       (f x (fold_left (fun s x => (f x s).2) l1 s)).1 = Ok tt).
  Proof.
    split.
    - destruct (each wrap f l s) as [[[]|e| |] s'] eqn:E; cbn; try done. intros _.
      by apply each_ok in E as [_ ?].
    - intros H. by rewrite (each_intro wrap f l s H).
  Qed.
End Each.

(** Two nested loops are one loop over the concatenation. *)
Lemma each_nested {A B S} w1 w2 (g : A -> list B) (f : A -> B -> S -> res unit * S) l s :
  is_ok (each w1 (fun a => each w2 (f a) (g a)) l s).1
  = is_ok (each id_err (fun ab => f ab.1 ab.2) (flat_map (fun a => map (pair a) (g a)) l) s).1
  /\ (is_ok (each w1 (fun a => each w2 (f a) (g a)) l s).1 = true ->
      (each w1 (fun a => each w2 (f a) (g a)) l s).2
      = (each id_err (fun ab => f ab.1 ab.2) (flat_map (fun a => map (pair a) (g a)) l) s).2).
Proof.
  revert s. induction l as [|a l IH]; intros s; cbn [each flat_map]; [done|].
  assert (forall L L' s, is_ok (each id_err (fun ab => f ab.1 ab.2) (L ++ L') s).1
            = match each id_err (fun ab => f ab.1 ab.2) L s with
              | (Ok _, s') => is_ok (each id_err (fun ab => f ab.1 ab.2) L' s').1
              | _ => false end
          /\ (is_ok (each id_err (fun ab => f ab.1 ab.2) L s).1 = true ->
              (each id_err (fun ab => f ab.1 ab.2) (L ++ L') s)
            = each id_err (fun ab => f ab.1 ab.2) L'
                (each id_err (fun ab => f ab.1 ab.2) L s).2)) as Happ.
  { clear. intros L L'. induction L as [|x L IH]; intros s; cbn [app each]; [done|].
    destruct (f x.1 x.2 s) as [[[]|e| |] s1]; cbn; first [done | apply IH]. }
  destruct (Happ (map (pair a) (g a)) (flat_map (fun a => map (pair a) (g a)) l) s) as [H1 H2].
  assert (forall B' s, is_ok (each w2 (f a) B' s).1
             = is_ok (each id_err (fun ab => f ab.1 ab.2) (map (pair a) B') s).1
           /\ (is_ok (each w2 (f a) B' s).1 = true ->
              (each w2 (f a) B' s) = each id_err (fun ab => f ab.1 ab.2) (map (pair a) B') s)) as Hin.
  { clear. induction B' as [|b B' IH]; intros s; cbn [map each fst snd]; [done|].
    destruct (f a b s) as [[[]|e| |] s1]; cbn; first [done | apply IH]. }
  destruct (Hin (g a) s) as [H3 H4].
  destruct (each w2 (f a) (g a) s) as [[[]|e| |] s1] eqn:E.
  - specialize (H4 eq_refl). rewrite <- H4 in *. cbn in *. rewrite H1, H2 by done. apply IH.
  - rewrite H1. cbn in *. destruct (each _ _ (map _ _) _) as [[] ?]; done.
  - rewrite H1. cbn in *. destruct (each _ _ (map _ _) _) as [[] ?]; done.
  - rewrite H1. cbn in *. destruct (each _ _ (map _ _) _) as [[] ?]; done.
Qed.

Section Build.
  Context {Obj Msg Tx : Type}.
  Notation module := (module Obj Msg Tx).
  Notation router := (router Obj Msg Tx).
  Notation registration := (registration Obj Msg).
  Notation decl := (transition_type * (users -> Msg -> prog Obj Msg unit))%type.
  Implicit Types (ms : list module) (r : router).

  (** The registrations of one kind, in order. *)
  Definition regs (mk : bytes -> handler Obj Msg -> registration)
      (part : module -> list decl) ms : list registration :=
    flat_map (fun m => map (fun d : decl => mk (tt_name d.1) (with_client m d.2)) (part m)) ms.

  Definition register_seq (xs : list registration) r : res unit * router :=
    each id_err (fun x r => register r x) xs r.

  Lemma regs_flat mk part ms :
    regs mk part ms =
    map (fun md : module * decl => mk (tt_name md.2.1) (with_client md.1 md.2.2))
        (flat_map (fun m => map (pair m) (part m)) ms).
  Proof.
    unfold regs. induction ms as [|m ms IH]; cbn; [done|].
    by rewrite map_app, <- IH, map_map.
  Qed.

  Lemma each_map {A B S} wrap (h : A -> B) (f : B -> S -> res unit * S) l s :
    each wrap f (map h l) s = each wrap (fun a => f (h a)) l s.
  Proof.
    revert s. induction l as [|a l IH]; intros s; cbn [map each]; [done|].
    destruct (f (h a) s) as [[]]; auto.
  Qed.

  Lemma install_as_regs w1 w2 mk part ms (add : router -> bytes -> handler Obj Msg -> res unit * router) r :
    (forall r n h, register r (mk n h) = add r n h) ->
    let i := each w1 (fun m => each w2 (fun (x : decl) r => add r (tt_name x.1) (with_client m x.2))
                                  (part m)) ms r in
    is_ok i.1 = is_ok (register_seq (regs mk part ms) r).1
    /\ (is_ok i.1 = true -> i.2 = (register_seq (regs mk part ms) r).2).
  Proof.
    intros Hadd i. subst i. unfold register_seq. rewrite regs_flat, each_map.
    destruct (each_nested w1 w2 part
               (fun m (x : decl) r => add r (tt_name x.1) (with_client m x.2)) ms r) as [N1 N2].
    assert (forall l r, each id_err (fun ab : module * decl => fun r => add r (tt_name ab.2.1) (with_client ab.1 ab.2.2)) l r
              = each id_err (fun a => (fun x r => register r x) (mk (tt_name a.2.1) (with_client a.1 a.2.2))) l r) as E.
    { induction l as [|x l IH]; intros r0; cbn [each]; [done|]. rewrite Hadd.
      destruct (add _ _ _) as [[]]; auto. }
    rewrite <- E. split; [exact N1|exact N2].
  Qed.

  Lemma register_seq_app xs ys r :
    is_ok (register_seq (xs ++ ys) r).1
    = match register_seq xs r with
      | (Ok _, r') => is_ok (register_seq ys r').1
      | _ => false
      end
    /\ (is_ok (register_seq xs r).1 = true ->
        register_seq (xs ++ ys) r = register_seq ys (register_seq xs r).2).
  Proof.
    unfold register_seq. revert r. induction xs as [|x xs IH]; intros r; cbn [List.app each]; [done|].
    destruct (register r x) as [[[]|e| |] r1]; cbn; first [done | apply IH].
  Qed.

  (** All registrations accepted, after those of [xs0]. *)
  Lemma register_seq_from xs0 xs :
    is_ok (register_seq xs (register_all xs0)).1 = true <->
    (forall l1 x l2, xs = l1 ++ x :: l2 ->
       match x with
       | RegExec n _ => execs_for n (xs0 ++ l1) = []
       | RegAdmission _ _ => True
       | RegPre n _ | RegPost n _ => execs_for n (xs0 ++ l1) <> []
       end).
  Proof.
    unfold register_seq. rewrite each_iff.
    assert (forall l1, fold_left (fun r x => (register (Tx:=Tx) r x).2) l1 (register_all xs0)
                       = register_all (xs0 ++ l1)) as E.
    { intros l1. unfold register_all. by rewrite fold_left_app. }
    split; intros H l1 x l2 ->; specialize (H l1 x l2 eq_refl); rewrite E in *;
      destruct (register_answer (Tx:=Tx) (xs0 ++ l1) x) as [A _]; cbn zeta in A.
    - rewrite A in H. destruct x as [n h|n h|n h|n h]; destruct (execs_for n (xs0 ++ l1)); done.
    - rewrite A. destruct x as [n h|n h|n h|n h]; destruct (execs_for n (xs0 ++ l1)); done.
  Qed.

  Lemma register_seq_result xs0 xs :
    is_ok (register_seq xs (register_all xs0)).1 = true ->
    (register_seq xs (register_all xs0)).2 = register_all (xs0 ++ xs).
  Proof.
    unfold register_seq. destruct (each _ _ _ _) as [[[]|e| |] r'] eqn:E; cbn; try done. intros _.
    apply each_ok in E as [-> _]. unfold register_all. by rewrite fold_left_app.
  Qed.

  (** *** The handlers each kind of registration leaves behind. *)
  Lemma sub_for (sel : registration -> list (handler Obj Msg)) n mk part ms :
    (forall (m : module) (d : decl), sel (mk (tt_name d.1) (with_client m d.2)) =
       if decide (tt_name d.1 = n) then [with_client m d.2] else []) ->
    flat_map sel (regs mk part ms) = declared part n ms.
  Proof.
    intros Hs. unfold regs, declared. induction ms as [|m ms IH]; cbn; [done|].
    rewrite flat_map_app, IH. f_equal.
    induction (part m) as [|d ds IHd]; cbn; [done|]. by rewrite Hs, IHd.
  Qed.
  Lemma sub_none (sel : registration -> list (handler Obj Msg)) mk part ms :
    (forall n h, sel (mk n h) = []) -> flat_map sel (regs mk part ms) = [].
  Proof.
    intros Hs. unfold regs. induction ms as [|m ms IH]; cbn; [done|].
    rewrite flat_map_app, IH, app_nil_r.
    induction (part m) as [|d ds IHd]; cbn; [done|]. by rewrite Hs, IHd.
  Qed.

  Definition all_regs ms : list registration :=
    regs RegExec mo_exec ms ++ regs RegAdmission mo_admission ms
    ++ regs RegPre mo_pre ms ++ regs RegPost mo_post ms.

  Lemma execs_all n ms : execs_for n (all_regs ms) = declared mo_exec n ms.
  Proof.
    unfold execs_for, all_regs. rewrite !flat_map_app, (sub_for _ n RegExec) by done.
    rewrite !sub_none by done. by rewrite !app_nil_r.
  Qed.
  Lemma admissions_all n ms : admissions_for n (all_regs ms) = declared mo_admission n ms.
  Proof.
    unfold admissions_for, all_regs. rewrite !flat_map_app, (sub_for _ n RegAdmission) by done.
    rewrite !sub_none by done. by rewrite !app_nil_r.
  Qed.
  Lemma execs_exec n ms : execs_for n (regs RegExec mo_exec ms) = declared mo_exec n ms.
  Proof. unfold execs_for. by rewrite (sub_for _ n RegExec) by done. Qed.

  Lemma since_exec_only n part ms xs :
    since_known n (regs RegExec part ms) = xs -> pres_for n xs = [] /\ posts_for n xs = [].
  Proof.
    intros <-.
    assert (forall l, Forall (fun x : registration => match x with RegExec _ _ => True | _ => False end) l ->
              pres_for n (since_known n l) = [] /\ posts_for n (since_known n l) = []) as H.
    { induction l as [|x l IH]; intros Hl; [done|]. inversion Hl; subst.
      destruct x; try done. cbn [since_known]. destruct (decide _); [|by apply IH].
      clear -H2. induction H2 as [|y l Hy _ IH]; [done|]. by destruct y. }
    apply H. unfold regs. apply List.Forall_forall. intros x Hx.
    apply in_flat_map in Hx as (m & _ & Hx). apply in_map_iff in Hx as (d & <- & _). done.
  Qed.

  Lemma pres_all n ms : declared mo_exec n ms <> [] ->
    pres_for n (since_known n (all_regs ms)) = declared mo_pre n ms.
  Proof.
    intros Hk. unfold all_regs. rewrite since_known_app, execs_exec.
    destruct (declared mo_exec n ms); [done|]. rewrite pres_app.
    rewrite (since_exec_only n mo_exec ms _ eq_refl).1 || destruct (since_exec_only n mo_exec ms _ eq_refl) as [-> _].
    unfold pres_for. rewrite !flat_map_app, (sub_for _ n RegPre) by done.
    rewrite !sub_none by done. by rewrite app_nil_r.
  Qed.
  Lemma posts_all n ms : declared mo_exec n ms <> [] ->
    posts_for n (since_known n (all_regs ms)) = declared mo_post n ms.
  Proof.
    intros Hk. unfold all_regs. rewrite since_known_app, execs_exec.
    destruct (declared mo_exec n ms); [done|]. rewrite posts_app.
    destruct (since_exec_only n mo_exec ms _ eq_refl) as [_ ->].
    unfold posts_for. rewrite !flat_map_app, (sub_for _ n RegPost) by done.
    rewrite !sub_none by done. done.
  Qed.

  Lemma handled_declared n ms : n ∈ handled ms <-> declared mo_exec n ms <> [].
  Proof.
    unfold handled, declared. induction ms as [|m ms IH]; cbn.
    - split; [intros H; inversion H|done].
    - rewrite elem_of_app, IH. clear IH.
      assert (n ∈ map (fun d : decl => tt_name d.1) (mo_exec m) <->
              flat_map (fun d : decl => if decide (tt_name d.1 = n)
                 then [{| h_self := users_from_string [mo_name m]; h_run := d.2 |}] else []) (mo_exec m) <> []) as ->.
      { induction (mo_exec m) as [|d ds IH]; cbn.
        - split; [intros H; inversion H|done].
        - rewrite elem_of_cons, IH. destruct (decide (tt_name d.1 = n)) as [E|E]; cbn.
          + split; [done|]. intros _. left. done.
          + split; [intros [->|H]; done|]. intros H. by right. }
      destruct (flat_map _ (mo_exec m)); cbn; [|split; [done|]; intros _; by left].
      split; [intros [?|?]; done|]. intros H. by right.
  Qed.

  (** *** When the registrations are accepted. *)
  Lemma execs_for_in n xs : execs_for (Obj:=Obj) (Msg:=Msg) n xs <> [] <-> exists h, RegExec n h ∈ xs.
  Proof.
    unfold execs_for. induction xs as [|x xs IH]; cbn.
    - split; [done|]. intros (h & H). inversion H.
    - split.
      + intros H. destruct x as [n' h|n' h|n' h|n' h]; cbn in H;
          try (apply IH in H as [h' H]; exists h'; by right).
        destruct (decide (n' = n)) as [->|]; [exists h; left|].
        cbn in H. apply IH in H as [h' H]. exists h'. by right.
      + intros (h & H). apply elem_of_cons in H as [<-|H].
        * rewrite decide_True by done. done.
        * intros E. apply app_eq_nil in E as [_ E]. revert E. apply IH. by exists h.
  Qed.

  Lemma exec_regs_names ms :
    map (fun x : registration => match x with RegExec n _ => n | _ => [] end) (regs RegExec mo_exec ms)
    = handled ms.
  Proof.
    unfold regs, handled. induction ms as [|m ms IH]; cbn; [done|].
    by rewrite map_app, IH, map_map.
  Qed.

  Lemma exec_regs_accepted ms :
    is_ok (register_seq (regs RegExec mo_exec ms) new_router).1 = true <-> NoDup (handled ms).
  Proof.
    pose proof (register_seq_from [] (regs RegExec mo_exec ms)) as H. cbn [List.app] in H.
    change (register_all []) with (new_router (Obj:=Obj) (Msg:=Msg) (Tx:=Tx)) in H. rewrite H. clear H.
    rewrite <- exec_regs_names.
    assert (Forall (fun x : registration => match x with RegExec _ _ => True | _ => False end)
                   (regs RegExec mo_exec ms)) as Hall.
    { unfold regs. apply List.Forall_forall. intros x Hx.
      apply in_flat_map in Hx as (m & _ & Hx). apply in_map_iff in Hx as (d & <- & _). done. }
    revert Hall. generalize (regs RegExec mo_exec ms) as xs. intros xs Hall. split.
    - intros H. induction xs as [|x xs IH] using rev_ind; [constructor|].
      rewrite map_app. apply Forall_app in Hall as [Ha Hb].
      apply NoDup_app. split; [|split; [|apply NoDup_singleton]].
      + apply IH; [done|]. intros l1 y l2 ->. apply (H l1 y (l2 ++ [x])). by rewrite <- app_assoc.
      + intros n Hn Hin. apply elem_of_list_singleton in Hin. inversion Hb; subst.
        destruct x as [n h| | |]; try done. specialize (H xs (RegExec n h) [] eq_refl). cbn in H.
        apply elem_of_list_fmap in Hn as (y & E & Hy).
        assert (execs_for n xs <> []); [|done]. apply execs_for_in.
        rewrite Forall_forall in Ha. specialize (Ha y Hy). destruct y as [n' h'| | |]; try done.
        cbn in E. subst. by exists h'.
    - intros Hnd l1 x l2 ->. rewrite map_app in Hnd. cbn in Hnd.
      apply Forall_app in Hall as [Ha Hb]. inversion Hb; subst. destruct x as [n h| | |]; try done.
      destruct (execs_for n l1) eqn:E; [done|]. exfalso.
      assert (execs_for n l1 <> []) as Hne by (rewrite E; done).
      apply execs_for_in in Hne as [h' Hin].
      apply NoDup_app in Hnd as (_ & Hd & _). apply (Hd n).
      + apply elem_of_list_fmap. exists (RegExec n h'). done.
      + left.
  Qed.

  Lemma adm_regs_accepted xs0 ms :
    is_ok (register_seq (regs RegAdmission mo_admission ms) (register_all xs0)).1 = true.
  Proof.
    apply register_seq_from. intros l1 x l2 E.
    assert (x ∈ regs RegAdmission mo_admission ms) as Hx.
    { rewrite E, elem_of_app. right. left. }
    apply elem_of_list_In, in_flat_map in Hx as (m & _ & Hx).
    apply in_map_iff in Hx as (d & <- & _). done.
  Qed.

  Lemma execs_none_app n xs ys : (forall n h, RegExec n h ∉ ys) ->
    execs_for (Obj:=Obj) (Msg:=Msg) n (xs ++ ys) = execs_for n xs.
  Proof.
    intros H. unfold execs_for. rewrite flat_map_app.
    assert (flat_map (fun x : registration => match x with RegExec n' h => if decide (n' = n) then [h] else [] | _ => [] end) ys = []) as ->;
      [|by rewrite app_nil_r].
    induction ys as [|y ys IH]; cbn; [done|].
    rewrite IH by (intros n' h Hin; apply (H n' h); by right).
    destruct y as [n' h| | |]; try done. exfalso. apply (H n' h). left.
  Qed.

  Lemma regs_in mk part ms (x : registration) :
    x ∈ regs mk part ms <-> exists m d, m ∈ ms /\ d ∈ part m /\ x = mk (tt_name d.1) (with_client m d.2).
  Proof.
    unfold regs. rewrite elem_of_list_In, in_flat_map. split.
    - intros (m & Hm & Hx). apply in_map_iff in Hx as (d & <- & Hd).
      exists m, d. by rewrite !elem_of_list_In.
    - intros (m & d & Hm & Hd & ->). exists m. rewrite <- elem_of_list_In. split; [done|].
      apply in_map_iff. exists d. split; [done|]. by apply elem_of_list_In.
  Qed.

  Lemma pre_regs_accepted xs0 mk part ms :
    (mk = RegPre \/ mk = RegPost) ->
    is_ok (register_seq (regs mk part ms) (register_all xs0)).1 = true <->
    Forall (fun m => Forall (fun d : decl => execs_for (tt_name d.1) xs0 <> []) (part m)) ms.
  Proof.
    intros Hmk. rewrite register_seq_from. rewrite Forall_forall.
    assert (forall n h l1 l2 x, regs mk part ms = l1 ++ x :: l2 -> RegExec n h ∉ l1) as Hno.
    { intros n h l1 l2 x E Hin.
      assert (RegExec n h ∈ regs mk part ms) as H0 by (rewrite E, elem_of_app; by left).
      apply regs_in in H0 as (m & d & _ & _ & E'). destruct Hmk as [->| ->]; done. }
    split.
    - intros H m Hm. rewrite Forall_forall. intros d Hd.
      assert (mk (tt_name d.1) (with_client m d.2) ∈ regs mk part ms) as Hx
        by (apply regs_in; eauto).
      apply elem_of_list_split in Hx as (l1 & l2 & E). specialize (H l1 _ l2 E).
      assert (execs_for (tt_name d.1) (xs0 ++ l1) <> []) as H'
        by (destruct Hmk as [->| ->]; exact H).
      by rewrite execs_none_app in H' by (intros n h; by eapply Hno).
    - intros H l1 x l2 E.
      assert (x ∈ regs mk part ms) as Hx by (rewrite E, elem_of_app; right; left).
      apply regs_in in Hx as (m & d & Hm & Hd & ->).
      specialize (H m Hm). rewrite Forall_forall in H. specialize (H d Hd).
      rewrite <- (execs_none_app _ xs0 l1) in H by (intros n h; by eapply Hno).
      destruct Hmk as [->| ->]; exact H.
  Qed.

  (** *** The router without the transaction handlers. *)
  Definition bare r : router :=
    {| ro_auth_admission := []; ro_post_auth := []; ro_admission := ro_admission r;
       ro_pre := ro_pre r; ro_exec := ro_exec r; ro_post := ro_post r |}.

  Lemma auth_admission_fold ms r :
    install_auth_admission ms r =
    {| ro_auth_admission := ro_auth_admission r ++ declared_tx mo_auth_admission ms;
       ro_post_auth := ro_post_auth r; ro_admission := ro_admission r;
       ro_pre := ro_pre r; ro_exec := ro_exec r; ro_post := ro_post r |}.
  Proof.
    unfold install_auth_admission, declared_tx. revert r.
    induction ms as [|m ms IH]; intros r; cbn [fold_left flat_map].
    - rewrite app_nil_r. by destruct r.
    - assert (forall hs r, fold_left (fun r h => add_auth_admission r (with_client_tx m h)) hs r =
        {| ro_auth_admission := ro_auth_admission r ++ map (with_client_tx m) hs;
           ro_post_auth := ro_post_auth r; ro_admission := ro_admission r;
           ro_pre := ro_pre r; ro_exec := ro_exec r; ro_post := ro_post r |}) as E.
      { induction hs as [|h hs IHh]; intros r0; cbn [fold_left map].
        - rewrite app_nil_r. by destruct r0.
        - rewrite IHh. cbn. by rewrite <- app_assoc. }
      rewrite E, IH. cbn. by rewrite <- app_assoc.
  Qed.
  Lemma post_auth_fold ms r :
    install_post_auth ms r =
    {| ro_auth_admission := ro_auth_admission r;
       ro_post_auth := ro_post_auth r ++ declared_tx mo_post_auth ms; ro_admission := ro_admission r;
       ro_pre := ro_pre r; ro_exec := ro_exec r; ro_post := ro_post r |}.
  Proof.
    unfold install_post_auth, declared_tx. revert r.
    induction ms as [|m ms IH]; intros r; cbn [fold_left flat_map].
    - rewrite app_nil_r. by destruct r.
    - assert (forall hs r, fold_left (fun r h => add_post_auth r (with_client_tx m h)) hs r =
        {| ro_auth_admission := ro_auth_admission r;
           ro_post_auth := ro_post_auth r ++ map (with_client_tx m) hs; ro_admission := ro_admission r;
           ro_pre := ro_pre r; ro_exec := ro_exec r; ro_post := ro_post r |}) as E.
      { induction hs as [|h hs IHh]; intros r0; cbn [fold_left map].
        - rewrite app_nil_r. by destruct r0.
        - rewrite IHh. cbn. by rewrite <- app_assoc. }
      rewrite E, IH. cbn. by rewrite <- app_assoc.
  Qed.

  Lemma register_tx_lists xs :
    ro_auth_admission (register_all (Obj:=Obj) (Msg:=Msg) (Tx:=Tx) xs) = [] /\ ro_post_auth (register_all (Obj:=Obj) (Msg:=Msg) (Tx:=Tx) xs) = [].
  Proof.
    induction xs as [|x xs [IH1 IH2]] using rev_ind; [done|].
    rewrite register_all_snoc. destruct x as [n h|n h|n h|n h]; cbn [register];
      unfold add_exec, add_admission, add_pre, add_post; try destruct (known _ _); cbn; done.
  Qed.

  Lemma dependencies_ok ms r :
    (is_ok (install_dependencies ms r).1 = true <->
     Forall (fun m => Forall (fun t => is_Some (ro_exec r !! tt_name t)) (mo_needs m)) ms)
    /\ (install_dependencies ms r).2 = r.
  Proof.
    unfold install_dependencies. induction ms as [|m ms [IH1 IH2]]; cbn [each]; [done|].
    set (f := fun (t : transition_type) r => match get_exec r (tt_name t) with
                                 | Ok _ => (Ok tt, r) | Fail e => (Fail e, r)
                                 | Panic => (Panic, r) | OutOfFuel => (OutOfFuel, r) end).
    assert (forall ts, (is_ok (each EWrap f ts r).1 = true <->
              Forall (fun t => is_Some (ro_exec r !! tt_name t)) ts) /\ (each EWrap f ts r).2 = r
              /\ (is_ok (each EWrap f ts r).1 = true -> (each EWrap f ts r).1 = Ok tt)) as H.
    { induction ts as [|t ts (IHt1 & IHt2 & IHt3)]; cbn [each]; [done|].
      rewrite Forall_cons.
      destruct (ro_exec r !! tt_name t) eqn:E.
      - assert (f t r = (Ok tt, r)) as -> by (unfold f, get_exec; by rewrite E). cbn.
        split; [|split; [exact IHt2|exact IHt3]].
        rewrite IHt1. split; [intros; split; [by eexists|done]|by intros [_ ?]].
      - assert (f t r = (Fail (EWrap (ESent RouterNotFound)), r)) as ->
          by (unfold f, get_exec; by rewrite E). cbn.
        split; [|done]. split; [done|]. intros [[? ?] _]. done. }
    destruct (H (mo_needs m)) as (H1 & H2 & H3). rewrite Forall_cons, <- H1, <- IH1.
    destruct (each EWrap f (mo_needs m) r) as [[[]|e| |] r1]; cbn in *; subst;
      split; try done; try (split; [done|intros [? _]; done]). split; [done|intros [_ ?]; done].
  Qed.

  (** *** Services and authorizer *)
  Lemma services_fold ms :
    install_services ms =
    flat_map (fun m => map (fun x => {| ms_module := mo_name m; ms_service := x |}) (mo_services m)) ms.
  Proof.
    unfold install_services.
    assert (forall g, fold_left (fun g (m : module) => add_services g (mo_name m) (mo_services m)) ms g
       = g ++ flat_map (fun m => map (fun x => {| ms_module := mo_name m; ms_service := x |}) (mo_services m)) ms) as H.
    { induction ms as [|m ms IH]; intros g; cbn; [by rewrite app_nil_r|].
      rewrite IH. unfold add_services. by rewrite <- app_assoc. }
    apply H.
  Qed.

  Definition authorizers ms : list (authorizer Obj) := flat_map (fun m => option_list (mo_authorizer m)) ms.

  Lemma find_authorizer_spec ms acc :
    find_authorizer ms acc =
    match option_list acc ++ authorizers ms with
    | [] => Ok None
    | [a] => Ok (Some a)
    | _ => Fail EAnon
    end.
  Proof.
    revert acc. induction ms as [|m ms IH]; intros acc; cbn [find_authorizer].
    - cbn. by destruct acc.
    - unfold authorizers. cbn. fold (authorizers ms).
      destruct acc as [a|]; destruct (mo_authorizer m) as [b|]; cbn [option_list List.app];
        try apply IH. done.
  Qed.

  (** *** Objects *)
  Section Objects.
    Context (fuel : nat) (D : descs).
    Notation addo := (fun (x : objtype * definition) R => add_object fuel D R x.1 x.2).

    Lemma objects_each xs : forall acc R,
      inv acc R ->
      (is_ok (each id_err addo xs R).1 = true <->
       Forall (fun x => is_ok (parse_object_schema fuel D x.1 x.2) = true) xs
       /\ NoDup (map sch_name acc ++ map (fun x : objtype * definition => ot_name x.1) xs))
      /\ (is_ok (each id_err addo xs R).1 = true ->
          exists ss, Forall2 (fun x s => parse_object_schema fuel D x.1 x.2 = Ok s) xs ss
                     /\ inv (acc ++ ss) (each id_err addo xs R).2).
    Proof.
      induction xs as [|x xs IH]; intros acc R HI; cbn [each map].
      - rewrite app_nil_r. split; [split; [intros _; split; [constructor|apply HI]|done]|].
        intros _. exists []. split; [constructor|]. by rewrite app_nil_r.
      - unfold add_object. destruct (parse_object_schema fuel D x.1 x.2) as [s|e| |] eqn:Ep.
        2-4: split; [|done]; split; [done|]; intros [Hf _]; inversion Hf; subst;
             rewrite Ep in *; done.
        pose proof (schema_for_fields fuel D x s Ep) as (_ & _ & En).
        destruct (registry_add_inv acc R s HI) as [(H1 & H2 & H3)|(H1 & (s' & H2 & H3) & _)].
        + destruct (registry_add R s) as [r1 R1]. cbn in *. subst r1.
          destruct (IH (acc ++ [s]) R1 H3) as [I1 I2]. split.
          * rewrite I1, Forall_cons, map_app, <- app_assoc. cbn. rewrite En.
            split; [intros [? ?]; split; [split; [by rewrite Ep|done]|done]|intros [[? ?] ?]; done].
          * intros H. destruct (I2 H) as (ss & F & I). exists (s :: ss).
            split; [by constructor|]. by rewrite <- app_assoc in I.
        + destruct (registry_add R s) as [r1 R1]. cbn in *. subst r1. cbn. split; [|done].
          split; [done|]. intros [_ Hnd]. exfalso. apply NoDup_app in Hnd as (_ & Hd & _).
          apply (Hd (sch_name s)); [|rewrite En; left].
          rewrite <- H3. apply elem_of_list_fmap. by exists s'.
    Qed.

    Lemma install_objects_spec ms :
      (is_ok (install_objects fuel D ms new_registry).1 = true <->
       Forall (fun x => is_ok (parse_object_schema fuel D x.1 x.2) = true) (objects_of ms)
       /\ NoDup (map (fun x => ot_name x.1) (objects_of ms)))
      /\ (is_ok (install_objects fuel D ms new_registry).1 = true ->
          exists ss, Forall2 (fun x s => parse_object_schema fuel D x.1 x.2 = Ok s) (objects_of ms) ss
                     /\ inv ss (install_objects fuel D ms new_registry).2).
    Proof.
      unfold install_objects.
      destruct (each_nested EWrap id_err mo_objects
                  (fun (_ : module) (x : objtype * definition) R => add_object fuel D R x.1 x.2)
                  ms new_registry) as [N1 N2].
      assert (forall l R, each id_err (fun ab : module * (objtype * definition) =>
                  fun R => add_object fuel D R ab.2.1 ab.2.2) l R
                = each id_err addo (map snd l) R) as E.
      { intros l R. by rewrite each_map. }
      assert (map snd (flat_map (fun m => map (pair m) (mo_objects m)) ms) = objects_of ms) as E'.
      { unfold objects_of. clear. induction ms as [|m ms IH]; cbn; [done|].
        rewrite map_app, IH, map_map. f_equal. cbn. apply map_id. }
      rewrite E, E' in N1, N2.
      destruct (objects_each (objects_of ms) [] new_registry inv_new) as [I1 I2].
      cbn [map List.app] in I1, I2. split.
      - rewrite N1. exact I1.
      - intros H. rewrite (N2 H). apply I2. by rewrite <- N1.
    Qed.
  End Objects.

  (** *** The whole build *)
  Lemma existsb_named ms :
    existsb (fun m : module => bytes_eqb (mo_name m) []) ms = false <-> Forall (fun m => mo_name m <> []) ms.
  Proof.
    induction ms as [|m ms IH]; cbn; [done|]. rewrite orb_false_iff, IH, Forall_cons.
    unfold bytes_eqb. by rewrite bool_decide_eq_false.
  Qed.

  Lemma step_value {X Y} (x : res unit * X) (f : X -> res Y) y :
    step x f = Ok y <-> is_ok x.1 = true /\ f x.2 = Ok y.
  Proof. destruct x as [[[]|e| |] a]; cbn; (split; [intros H; try discriminate; by split|intros [H1 H2]; try discriminate; done]). Qed.

  Definition final_router ms : router :=
    let r : router := register_all (all_regs ms) in
    {| ro_auth_admission := declared_tx mo_auth_admission ms;
       ro_post_auth := declared_tx mo_post_auth ms; ro_admission := ro_admission r;
       ro_pre := ro_pre r; ro_exec := ro_exec r; ro_post := ro_post r |}.

  (** The four loops over handlers together. *)
  Lemma install_handlers_chain {Y} ms (f : router -> res Y) y :
    (step (install_exec ms new_router) (fun r =>
     step (install_admission ms r) (fun r =>
     step (install_pre ms r) (fun r =>
     step (install_post ms r) f)))) = Ok y
    <-> (NoDup (handled ms)
        /\ Forall (fun m => Forall (fun d : decl => tt_name d.1 ∈ handled ms) (mo_pre m)) ms
        /\ Forall (fun m => Forall (fun d : decl => tt_name d.1 ∈ handled ms) (mo_post m)) ms)
       /\ f (register_all (all_regs ms)) = Ok y.
  Proof.
    set (X0 := regs RegExec mo_exec ms). set (X1 := regs RegAdmission mo_admission ms).
    set (X2 := regs RegPre mo_pre ms). set (X3 := regs RegPost mo_post ms).
    rewrite step_value.
    destruct (install_as_regs EWrap id_err RegExec mo_exec ms add_exec new_router) as [A1 A2]; [done|].
    change (each EWrap _ ms new_router) with (install_exec ms (new_router (Tx:=Tx))) in A1, A2.
    rewrite A1. fold X0. pose proof (exec_regs_accepted ms) as E0. fold X0 in E0.
    rewrite E0.
    assert (NoDup (handled ms) -> (register_seq X0 new_router).2 = register_all X0) as EX0
      by (intros Hnd; apply (register_seq_result [] X0); by apply E0).
    assert (forall xs n, (forall n h, RegExec n h ∉ xs) -> execs_for n (X0 ++ xs) <> [] <-> n ∈ handled ms) as Ek.
    { intros xs n Hx. rewrite execs_none_app by done. unfold X0. rewrite execs_exec. symmetry.
      apply handled_declared. }
    assert (forall mk part, (forall n h n' h', mk n h <> RegExec n' h') ->
              forall n h, RegExec n h ∉ regs mk part ms) as Hn.
    { intros mk part Hmk n h Hin. apply regs_in in Hin as (m & d & _ & _ & E). symmetry in E. by apply Hmk in E. }
    split.
    - intros [Hnd H]. rewrite A2 in H by (rewrite A1; by apply E0).
      fold X0 in H. rewrite EX0 in H by done.
      apply step_value in H as [_ H].
      destruct (install_as_regs id_err id_err RegAdmission mo_admission ms add_admission (register_all X0)) as [B1 B2]; [done|].
      change (each id_err _ ms (register_all X0)) with (install_admission ms (register_all (Tx:=Tx) X0)) in B1, B2.
      assert (is_ok (install_admission ms (register_all (Tx:=Tx) X0)).1 = true) as Hok1
        by (rewrite B1; apply adm_regs_accepted).
      rewrite B2 in H by done. fold X1 in H.
      rewrite (register_seq_result X0 X1) in H by apply adm_regs_accepted.
      apply step_value in H as [Hp H].
      destruct (install_as_regs id_err EWrap RegPre mo_pre ms add_pre (register_all (X0 ++ X1))) as [C1 C2]; [done|].
      change (each id_err _ ms (register_all (X0 ++ X1))) with (install_pre ms (register_all (Tx:=Tx) (X0 ++ X1))) in C1, C2.
      rewrite C2 in H by done. rewrite C1 in Hp. fold X2 in Hp, H.
      rewrite (register_seq_result (X0 ++ X1) X2) in H by done.
      apply step_value in H as [Hq H].
      destruct (install_as_regs id_err EWrap RegPost mo_post ms add_post (register_all ((X0 ++ X1) ++ X2))) as [D1 D2]; [done|].
      change (each id_err _ ms (register_all ((X0 ++ X1) ++ X2))) with (install_post ms (register_all (Tx:=Tx) ((X0 ++ X1) ++ X2))) in D1, D2.
      rewrite D2 in H by done. rewrite D1 in Hq. fold X3 in Hq, H.
      rewrite (register_seq_result ((X0 ++ X1) ++ X2) X3) in H by done.
      rewrite <- !app_assoc in H. fold X0 X1 X2 X3 in H. split; [|exact H]. split; [done|].
      apply pre_regs_accepted in Hp; [|by left]. apply pre_regs_accepted in Hq; [|by right]. split.
      + eapply Forall_impl; [exact Hp|]. intros m Hm. eapply Forall_impl; [exact Hm|].
        intros d Hd. cbn beta in Hd. apply Ek in Hd; [done|]. by apply Hn.
      + eapply Forall_impl; [exact Hq|]. intros m Hm. eapply Forall_impl; [exact Hm|].
        intros d Hd. cbn beta in Hd. rewrite <- app_assoc in Hd. apply Ek in Hd; [done|].
        intros n h Hin. apply elem_of_app in Hin as [Hin|Hin]; revert Hin; by apply Hn.
    - intros [(Hnd & Hp & Hq) H]. split; [done|].
      rewrite A2 by (rewrite A1; by apply E0).
      fold X0. rewrite EX0 by done.
      apply step_value.
      destruct (install_as_regs id_err id_err RegAdmission mo_admission ms add_admission (register_all X0)) as [B1 B2]; [done|].
      change (each id_err _ ms (register_all X0)) with (install_admission ms (register_all (Tx:=Tx) X0)) in B1, B2.
      assert (is_ok (install_admission ms (register_all (Tx:=Tx) X0)).1 = true) as Hok1
        by (rewrite B1; apply adm_regs_accepted).
      split; [done|].
      rewrite B2 by done. fold X1.
      rewrite (register_seq_result X0 X1) by apply adm_regs_accepted.
      apply step_value.
      destruct (install_as_regs id_err EWrap RegPre mo_pre ms add_pre (register_all (X0 ++ X1))) as [C1 C2]; [done|].
      change (each id_err _ ms (register_all (X0 ++ X1))) with (install_pre ms (register_all (Tx:=Tx) (X0 ++ X1))) in C1, C2.
      assert (is_ok (register_seq X2 (register_all (X0 ++ X1))).1 = true) as Hp'.
      { apply pre_regs_accepted; [by left|].
        eapply Forall_impl; [exact Hp|]. intros m Hm. eapply Forall_impl; [exact Hm|].
        intros d Hd. cbn beta. apply Ek; [|done]. by apply Hn. }
      split; [by rewrite C1|]. rewrite C2 by (by rewrite C1). fold X2.
      rewrite (register_seq_result (X0 ++ X1) X2) by done.
      apply step_value.
      destruct (install_as_regs id_err EWrap RegPost mo_post ms add_post (register_all ((X0 ++ X1) ++ X2))) as [D1 D2]; [done|].
      change (each id_err _ ms (register_all ((X0 ++ X1) ++ X2))) with (install_post ms (register_all (Tx:=Tx) ((X0 ++ X1) ++ X2))) in D1, D2.
      assert (is_ok (register_seq X3 (register_all ((X0 ++ X1) ++ X2))).1 = true) as Hq'.
      { apply pre_regs_accepted; [by right|].
        eapply Forall_impl; [exact Hq|]. intros m Hm. eapply Forall_impl; [exact Hm|].
        intros d Hd. cbn beta. rewrite <- app_assoc. apply Ek; [|done].
        intros n h Hin. apply elem_of_app in Hin as [Hin|Hin]; revert Hin; by apply Hn. }
      split; [by rewrite D1|]. rewrite D2 by (by rewrite D1). fold X3.
      rewrite (register_seq_result ((X0 ++ X1) ++ X2) X3) by done.
      rewrite <- !app_assoc. exact H.
  Qed.

  Lemma build_value fuel D ms a :
    build fuel D ms = Ok a <->
    buildable fuel D ms
    /\ a = {| ap_modules := ms; ap_registry := (install_objects fuel D ms new_registry).2;
              ap_router := final_router ms;
              ap_services := flat_map (fun m => map (fun x => {| ms_module := mo_name m; ms_service := x |})
                                                    (mo_services m)) ms;
              ap_authorizer := default always_allow (head (authorizers ms)) |}.
  Proof.
    unfold build. destruct (existsb _ ms) eqn:Ex.
    { split; [done|]. intros [[H] _]. apply existsb_named in H. congruence. }
    apply existsb_named in Ex. rewrite step_value, install_handlers_chain.
    destruct (install_objects_spec fuel D ms) as [Ho _]. rewrite Ho.
    rewrite post_auth_fold, auth_admission_fold. cbn [ro_auth_admission ro_post_auth ro_admission ro_pre ro_exec ro_post].
    destruct (register_tx_lists (all_regs ms)) as [T1 T2]. rewrite T1, T2. cbn [List.app].
    change {| ro_auth_admission := _; ro_post_auth := _; ro_admission := _; ro_pre := _; ro_exec := _; ro_post := _ |}
      with (final_router ms).
    rewrite step_value. destruct (dependencies_ok ms (final_router ms)) as [Hd Hr]. rewrite Hd, Hr.
    unfold install_authorizer. rewrite find_authorizer_spec. cbn [option_list List.app].
    assert (forall t : transition_type, is_Some (ro_exec (final_router ms) !! tt_name t) <-> tt_name t ∈ handled ms) as Hk.
    { intros t. rewrite handled_declared, <- execs_all. cbn. rewrite (ag_exec _ _ (agrees_all (all_regs ms))).
      destruct (execs_for _ _); cbn; split; intros H; try done; by destruct H. }
    rewrite services_fold. split.
    - intros ([H1 H2] & (H3 & H4 & H5) & H6 & H7).
      assert (length (authorizers ms) <= 1) as Hl.
      { destruct (authorizers ms) as [|a1 [|a2 l]]; cbn; try lia. done. }
      split.
      + split; try done. eapply Forall_impl; [exact H6|]. intros m Hm.
        eapply Forall_impl; [exact Hm|]. intros t Ht. by apply Hk.
      + destruct (authorizers ms) as [|a1 [|a2 l]]; cbn in *; [congruence|congruence|lia].
    - intros [[B1 B2 B3 B4 B5 B6 B7 B8] ->]. split; [done|]. split; [done|]. split.
      + eapply Forall_impl; [exact B7|]. intros m Hm.
        eapply Forall_impl; [exact Hm|]. intros t Ht. by apply Hk.
      + fold (authorizers ms) in B8. destruct (authorizers ms) as [|a1 [|a2 l]]; cbn in *; [done|done|lia].
  Qed.

  Lemma build_iff fuel D ms : (exists a, build fuel D ms = Ok a) <-> buildable fuel D ms.
  Proof.
    split; [intros [a H]; by apply build_value in H as [? _]|].
    intros H. eexists. apply build_value. split; [done|reflexivity].
  Qed.

  Lemma flat_map_nil_in {A B} (f : A -> list B) l x : flat_map f l = [] -> x ∈ l -> f x = [].
  Proof.
    induction l as [|y l IH]; intros H Hx; [inversion Hx|]. cbn in H.
    apply app_eq_nil in H as [H1 H2]. apply elem_of_cons in Hx as [->|Hx]; auto.
  Qed.

  (** At most one handler is declared. *)
  Lemma declared_exec_once ms n : NoDup (handled ms) -> length (declared mo_exec n ms) <= 1.
  Proof.
    intros Hnd.
    assert (length (declared mo_exec n ms) = length (List.filter (fun x => bool_decide (x = n)) (handled ms))) as ->.
    { unfold declared, handled. clear. induction ms as [|m ms IH]; cbn [flat_map]; [done|].
      rewrite List.filter_app, !app_length, IH. f_equal. clear IH.
      induction (mo_exec m) as [|d ds IHd]; cbn [flat_map map List.filter]; [done|].
      rewrite app_length, IHd. destruct (decide (tt_name d.1 = n)) as [E|E];
        [rewrite (bool_decide_true (tt_name d.1 = n)) by done
        |rewrite (bool_decide_false (tt_name d.1 = n)) by done]; done. }
    induction Hnd as [|x l Hx Hnd IH]; cbn; [lia|].
    destruct (decide (x = n)) as [->|Hxn];
      [rewrite (bool_decide_true (n = n)) by done|by rewrite (bool_decide_false (x = n)) by done]. cbn.
    assert (List.filter (fun x => bool_decide (x = n)) l = []) as ->; [|cbn; lia].
    clear -Hx. induction l as [|y l IH]; cbn; [done|].
    apply not_elem_of_cons in Hx as [Hy Hx]. rewrite bool_decide_false by done. by apply IH.
  Qed.

  Lemma declared_known part ms n :
    Forall (fun m => Forall (fun d : decl => tt_name d.1 ∈ handled ms) (part m)) ms ->
    declared mo_exec n ms = [] -> declared part n ms = [].
  Proof.
    intros Hall Hn.
    assert (n ∉ handled ms) as Hnot by (rewrite handled_declared; auto).
    assert (forall m d, m ∈ ms -> d ∈ part m -> tt_name d.1 <> n) as Hne.
    { intros m d Hm Hd E. apply Hnot. rewrite Forall_forall in Hall. specialize (Hall m Hm).
      rewrite Forall_forall in Hall. specialize (Hall d Hd). congruence. }
    clear Hall Hn Hnot. unfold declared. induction ms as [|m ms IH]; cbn [flat_map]; [done|].
    rewrite IH by (intros m' d Hm; apply Hne; by right). rewrite app_nil_r.
    assert (forall d, d ∈ part m -> tt_name d.1 <> n) as Hm by (intros d; apply Hne; left).
    clear -Hm. induction (part m) as [|d ds IH]; cbn; [done|].
    rewrite decide_False by (apply Hm; left). apply IH. intros d' ?. apply Hm. by right.
  Qed.

  Lemma built_lookups fuel D ms a n :
    build fuel D ms = Ok a ->
    get_exec (ap_router a) n =
      match declared mo_exec n ms with h :: _ => Ok h | [] => Fail (EWrap (ESent RouterNotFound)) end
    /\ get_admission (ap_router a) n =
      match declared mo_exec n ms with
      | _ :: _ => Ok (declared mo_admission n ms) | [] => Fail (EWrap (ESent RouterNotFound)) end
    /\ get_pre (ap_router a) n =
      match declared mo_exec n ms with
      | _ :: _ => Ok (declared mo_pre n ms) | [] => Fail (EWrap (ESent RouterNotFound)) end
    /\ get_post (ap_router a) n =
      match declared mo_exec n ms with
      | _ :: _ => Ok (declared mo_post n ms) | [] => Fail (EWrap (ESent RouterNotFound)) end.
  Proof.
    intros H. apply build_value in H as [_ ->]. cbn [ap_router].
    pose proof (get_exec_spec (Tx:=Tx) (all_regs ms) n) as H1.
    pose proof (get_admission_spec (Tx:=Tx) (all_regs ms) n) as H2.
    pose proof (get_pre_spec (Tx:=Tx) (all_regs ms) n) as H3.
    pose proof (get_post_spec (Tx:=Tx) (all_regs ms) n) as H4.
    rewrite execs_all in H1, H2, H3, H4. rewrite admissions_all in H2.
    split; [exact H1|]. split; [exact H2|].
    split; [etransitivity; [exact H3|]|etransitivity; [exact H4|]].
    - destruct (declared mo_exec n ms) eqn:E; [done|]. rewrite pres_all by (rewrite E; done). done.
    - destruct (declared mo_exec n ms) eqn:E; [done|]. rewrite posts_all by (rewrite E; done). done.
  Qed.

  Lemma built_objects fuel D ms a n s :
    build fuel D ms = Ok a ->
    registry_get (ap_registry a) n = Ok s <->
    exists x, x ∈ objects_of ms /\ ot_name x.1 = n /\ parse_object_schema fuel D x.1 x.2 = Ok s.
  Proof.
    intros H. apply build_value in H as [HB ->]. cbn [ap_registry].
    destruct (install_objects_spec fuel D ms) as [H1 H2].
    destruct H2 as (ss & HF & HI). { apply H1. split; apply HB. }
    unfold registry_get.
    assert (rg_schemas (install_objects fuel D ms new_registry).2 !! n = Some s
            <-> exists x, x ∈ objects_of ms /\ ot_name x.1 = n /\ parse_object_schema fuel D x.1 x.2 = Ok s) as <-.
    { rewrite (i_schemas _ _ HI). split.
      - intros [Hs En]. apply elem_of_list_lookup in Hs as [i Hi].
        destruct (Forall2_lookup_r _ _ _ _ _ HF Hi) as (x & Hx & Hp).
        exists x. split; [by eapply elem_of_list_lookup_2|]. split; [|done].
        pose proof (schema_for_fields fuel D x s Hp) as (_ & _ & E). congruence.
      - intros (x & Hx & En & Hp). apply elem_of_list_lookup in Hx as [i Hi].
        destruct (Forall2_lookup_l _ _ _ _ _ HF Hi) as (s' & Hs & Hp').
        assert (s' = s) as -> by congruence. split; [by eapply elem_of_list_lookup_2|].
        pose proof (schema_for_fields fuel D x s Hp) as (_ & _ & E). congruence. }
    destruct (rg_schemas _ !! n) as [s0|]; split; intros E; try done; congruence.
  Qed.

  Lemma built_handlers fuel D ms a n h :
    build fuel D ms = Ok a ->
    get_exec (ap_router a) n = Ok h <->
    exists m d, m ∈ ms /\ d ∈ mo_exec m /\ tt_name d.1 = n
                /\ h = {| h_self := users_from_string [mo_name m]; h_run := d.2 |}.
  Proof.
    intros H. destruct (built_lookups fuel D ms a n H) as [-> _].
    apply build_value in H as [HB _]. pose proof (declared_exec_once ms n (bu_handled_once _ _ _ HB)) as Hone.
    assert (h ∈ declared mo_exec n ms <-> exists m d, m ∈ ms /\ d ∈ mo_exec m /\ tt_name d.1 = n
                /\ h = {| h_self := users_from_string [mo_name m]; h_run := d.2 |}) as <-.
    { unfold declared. rewrite elem_of_list_In, in_flat_map. split.
      - intros (m & Hm & Hx). apply in_flat_map in Hx as (d & Hd & Hx).
        destruct (decide (tt_name d.1 = n)); [|done]. destruct Hx as [<-|[]].
        exists m, d. by rewrite !elem_of_list_In.
      - intros (m & d & Hm & Hd & En & ->). exists m. rewrite <- elem_of_list_In. split; [done|].
        apply in_flat_map. exists d. rewrite <- elem_of_list_In. split; [done|].
        rewrite decide_True by done. by left. }
    destruct (declared mo_exec n ms) as [|h0 [|h1 l]]; cbn in Hone; [|split|lia].
    - split; [done|]. intros Hx. inversion Hx.
    - intros E. injection E as ->. left.
    - intros Hx. apply elem_of_list_singleton in Hx. congruence.
  Qed.
End Build.

Lemma built_parts {Obj Msg Tx} fuel D (ms : list (module Obj Msg Tx)) a :
  build fuel D ms = Ok a ->
  ap_modules a = ms
  /\ ro_auth_admission (ap_router a) = declared_tx mo_auth_admission ms
  /\ ro_post_auth (ap_router a) = declared_tx mo_post_auth ms
  /\ ap_services a = flat_map (fun m => map (fun x => {| ms_module := mo_name m; ms_service := x |})
                                            (mo_services m)) ms
  /\ match flat_map (fun m => option_list (mo_authorizer m)) ms with
     | [] => ap_authorizer a = (fun _ _ _ => RRet (true, None))
     | z :: _ => ap_authorizer a = z
     end.
Proof.
  intros H. apply build_value in H as [_ ->]. cbn [ap_modules ap_router ap_services ap_authorizer final_router ro_auth_admission ro_post_auth].
  repeat (split; [reflexivity|]). unfold authorizers. destruct (flat_map _ ms); reflexivity.
Qed.
