(** The router after any sequence of registrations. *)
From Coq Require Import List Bool.
From stdpp Require Import base list gmap.
From Verif.Model Require Import Bytes KindEncoder Desc Schema Indexes Users Prog Router.
From Verif.Spec Require Import RuntimeSpec.

Section R.
  Context {Obj Msg Tx : Type}.
  Implicit Types (xs : list (registration Obj Msg)) (r : router Obj Msg Tx).

  (** The router and the registrations say the same. *)
  Record agrees r xs : Prop := {
    ag_exec : forall n, ro_exec r !! n = head (execs_for n xs);
    ag_adm : forall n, default [] (ro_admission r !! n) = admissions_for n xs;
    ag_pre : forall n, default [] (ro_pre r !! n) = pres_for n (since_known n xs);
    ag_post : forall n, default [] (ro_post r !! n) = posts_for n (since_known n xs)
  }.

  Lemma fm_snoc {A B} (f : A -> list B) l x : flat_map f (l ++ [x]) = flat_map f l ++ f x.
  Proof. rewrite flat_map_app. cbn. by rewrite app_nil_r. Qed.

  Lemma since_known_app n xs ys :
    since_known n (xs ++ ys) =
    match execs_for n xs with [] => since_known n ys | _ => since_known n xs ++ ys end.
  Proof.
    induction xs as [|x xs IH]; [done|]. cbn [app since_known]. unfold execs_for in *. cbn [flat_map].
    destruct x as [n' h|n' h|n' h|n' h]; cbn [app]; try apply IH.
    destruct (decide (n' = n)); cbn [app]; [done|apply IH].
  Qed.

  Lemma since_known_nil n xs : execs_for n xs = [] -> since_known n xs = [].
  Proof. intros H. rewrite <- (app_nil_r xs), since_known_app, H. done. Qed.

  Lemma default_append_at (m : gmap bytes (list (handler Obj Msg))) n n' h :
    default [] (append_at m n h !! n') =
    default [] (m !! n') ++ (if decide (n = n') then [h] else []).
  Proof.
    unfold append_at. destruct (decide (n = n')) as [->|Hne].
    - by rewrite lookup_insert.
    - rewrite lookup_insert_ne by done. by rewrite app_nil_r.
  Qed.

  Lemma known_spec r xs n : agrees r xs ->
    known r n = match execs_for n xs with [] => false | _ => true end.
  Proof. intros A. unfold known. rewrite (ag_exec _ _ A). by destruct (execs_for n xs). Qed.

  Lemma pres_app n xs ys : pres_for n (xs ++ ys) = pres_for n xs ++ pres_for n ys.
  Proof. apply flat_map_app. Qed.
  Lemma posts_app n xs ys : posts_for n (xs ++ ys) = posts_for n xs ++ posts_for n ys.
  Proof. apply flat_map_app. Qed.

  (** A registration that leaves the lists of [n] alone. *)
  Lemma agrees_step r xs x : agrees r xs -> agrees (register r x).2 (xs ++ [x]).
  Proof.
    intros A. pose proof (fun n => known_spec r xs n A) as K.
    destruct A as [Ae Aa Ap Ao].
    destruct x as [m h|m h|m h|m h]; cbn [register].
    - unfold add_exec. rewrite K. destruct (execs_for m xs) as [|h0 hs] eqn:E; cbn [fst snd]; split;
        cbn [ro_exec ro_admission ro_pre ro_post]; intros n.
      + unfold execs_for. rewrite fm_snoc. fold (execs_for n xs). cbn beta iota.
        destruct (decide (m = n)) as [->|Hne].
        * rewrite lookup_insert, E. done.
        * rewrite lookup_insert_ne by done. rewrite app_nil_r. apply Ae.
      + unfold admissions_for. rewrite fm_snoc, app_nil_r. apply Aa.
      + rewrite Ap, since_known_app. destruct (execs_for n xs) eqn:En.
        * rewrite since_known_nil by done. cbn. destruct (decide (m = n)); done.
        * rewrite pres_app. cbn. by rewrite app_nil_r.
      + rewrite Ao, since_known_app. destruct (execs_for n xs) eqn:En.
        * rewrite since_known_nil by done. cbn. destruct (decide (m = n)); done.
        * rewrite posts_app. cbn. by rewrite app_nil_r.
      + unfold execs_for. rewrite fm_snoc. fold (execs_for n xs). cbn beta iota. rewrite Ae.
        destruct (decide (m = n)) as [->|Hne]; [by rewrite E|by rewrite app_nil_r].
      + unfold admissions_for. rewrite fm_snoc, app_nil_r. apply Aa.
      + rewrite Ap, since_known_app. destruct (execs_for n xs) eqn:En.
        * rewrite since_known_nil by done. cbn. destruct (decide (m = n)); done.
        * rewrite pres_app. cbn. by rewrite app_nil_r.
      + rewrite Ao, since_known_app. destruct (execs_for n xs) eqn:En.
        * rewrite since_known_nil by done. cbn. destruct (decide (m = n)); done.
        * rewrite posts_app. cbn. by rewrite app_nil_r.
    - cbn [add_admission fst snd]. split; cbn [ro_exec ro_admission ro_pre ro_post]; intros n.
      + unfold execs_for. rewrite fm_snoc, app_nil_r. apply Ae.
      + rewrite default_append_at, Aa. unfold admissions_for. rewrite fm_snoc. done.
      + rewrite Ap, since_known_app. destruct (execs_for n xs) eqn:En.
        * rewrite since_known_nil by done. done.
        * rewrite pres_app. cbn. by rewrite app_nil_r.
      + rewrite Ao, since_known_app. destruct (execs_for n xs) eqn:En.
        * rewrite since_known_nil by done. done.
        * rewrite posts_app. cbn. by rewrite app_nil_r.
    - unfold add_pre. rewrite K. destruct (execs_for m xs) as [|h0 hs] eqn:E; cbn [fst snd]; split;
        cbn [ro_exec ro_admission ro_pre ro_post]; intros n.
      + unfold execs_for. rewrite fm_snoc, app_nil_r. apply Ae.
      + unfold admissions_for. rewrite fm_snoc, app_nil_r. apply Aa.
      + rewrite Ap, since_known_app. destruct (execs_for n xs) eqn:En.
        * rewrite since_known_nil by done. done.
        * rewrite pres_app. cbn. rewrite decide_False by congruence. by rewrite app_nil_r.
      + rewrite Ao, since_known_app. destruct (execs_for n xs) eqn:En.
        * rewrite since_known_nil by done. done.
        * rewrite posts_app. cbn. by rewrite app_nil_r.
      + unfold execs_for. rewrite fm_snoc, app_nil_r. apply Ae.
      + unfold admissions_for. rewrite fm_snoc, app_nil_r. apply Aa.
      + rewrite default_append_at, Ap, since_known_app. destruct (execs_for n xs) eqn:En.
        * rewrite since_known_nil by done. rewrite decide_False by congruence. done.
        * rewrite pres_app. cbn. by rewrite app_nil_r.
      + rewrite Ao, since_known_app. destruct (execs_for n xs) eqn:En.
        * rewrite since_known_nil by done. done.
        * rewrite posts_app. cbn. by rewrite app_nil_r.
    - unfold add_post. rewrite K. destruct (execs_for m xs) as [|h0 hs] eqn:E; cbn [fst snd]; split;
        cbn [ro_exec ro_admission ro_pre ro_post]; intros n.
      + unfold execs_for. rewrite fm_snoc, app_nil_r. apply Ae.
      + unfold admissions_for. rewrite fm_snoc, app_nil_r. apply Aa.
      + rewrite Ap, since_known_app. destruct (execs_for n xs) eqn:En.
        * rewrite since_known_nil by done. done.
        * rewrite pres_app. cbn. by rewrite app_nil_r.
      + rewrite Ao, since_known_app. destruct (execs_for n xs) eqn:En.
        * rewrite since_known_nil by done. done.
        * rewrite posts_app. cbn. rewrite decide_False by congruence. by rewrite app_nil_r.
      + unfold execs_for. rewrite fm_snoc, app_nil_r. apply Ae.
      + unfold admissions_for. rewrite fm_snoc, app_nil_r. apply Aa.
      + rewrite Ap, since_known_app. destruct (execs_for n xs) eqn:En.
        * rewrite since_known_nil by done. done.
        * rewrite pres_app. cbn. by rewrite app_nil_r.
      + rewrite default_append_at, Ao, since_known_app. destruct (execs_for n xs) eqn:En.
        * rewrite since_known_nil by done. rewrite decide_False by congruence. done.
        * rewrite posts_app. cbn. by rewrite app_nil_r.
  Qed.

  Lemma agrees_new : agrees new_router [].
  Proof. split; intros n; cbn; by rewrite ?lookup_empty. Qed.

  Lemma register_all_snoc xs x : register_all (xs ++ [x]) = (register (Tx:=Tx) (register_all xs) x).2.
  Proof. unfold register_all. by rewrite fold_left_app. Qed.

  Lemma agrees_all xs : agrees (register_all xs) xs.
  Proof.
    induction xs as [|x xs IH] using rev_ind; [apply agrees_new|].
    rewrite register_all_snoc. by apply agrees_step.
  Qed.

  Lemma get_exec_spec xs n :
    get_exec (Tx:=Tx) (register_all xs) n =
    match execs_for n xs with h :: _ => Ok h | [] => Fail (EWrap (ESent RouterNotFound)) end.
  Proof.
    unfold get_exec. rewrite (ag_exec _ _ (agrees_all xs)). by destruct (execs_for n xs).
  Qed.
  Lemma get_admission_spec xs n :
    get_admission (Tx:=Tx) (register_all xs) n =
    match execs_for n xs with
    | _ :: _ => Ok (admissions_for n xs)
    | [] => Fail (EWrap (ESent RouterNotFound))
    end.
  Proof.
    unfold get_admission. rewrite (known_spec _ _ _ (agrees_all xs)), (ag_adm _ _ (agrees_all xs)).
    by destruct (execs_for n xs).
  Qed.
  Lemma get_pre_spec xs n :
    get_pre (Tx:=Tx) (register_all xs) n =
    match execs_for n xs with
    | _ :: _ => Ok (pres_for n (since_known n xs))
    | [] => Fail (EWrap (ESent RouterNotFound))
    end.
  Proof.
    unfold get_pre. rewrite (known_spec _ _ _ (agrees_all xs)), (ag_pre _ _ (agrees_all xs)).
    by destruct (execs_for n xs).
  Qed.
  Lemma get_post_spec xs n :
    get_post (Tx:=Tx) (register_all xs) n =
    match execs_for n xs with
    | _ :: _ => Ok (posts_for n (since_known n xs))
    | [] => Fail (EWrap (ESent RouterNotFound))
    end.
  Proof.
    unfold get_post. rewrite (known_spec _ _ _ (agrees_all xs)), (ag_post _ _ (agrees_all xs)).
    by destruct (execs_for n xs).
  Qed.

  (** The answer to one more registration. *)
  Lemma register_answer xs x :
    let r := register_all xs in
    (register (Tx:=Tx) r x).1 =
    match x with
    | RegExec n _ => match execs_for n xs with
                     | [] => Ok tt
                     | _ => Fail (EWrap (ESent RouterAlreadyRegistered))
                     end
    | RegAdmission _ _ => Ok tt
    | RegPre n _ | RegPost n _ =>
        match execs_for n xs with
        | [] => Fail (EWrap (ESent RouterNotFound))
        | _ => Ok tt
        end
    end
    /\ (is_ok (register r x).1 = false -> (register r x).2 = r).
  Proof.
    intros r. pose proof (fun n => known_spec r xs n (agrees_all xs)) as K.
    destruct x as [m h|m h|m h|m h]; cbn [register].
    - unfold add_exec. rewrite K. by destruct (execs_for m xs).
    - done.
    - unfold add_pre. rewrite K. by destruct (execs_for m xs).
    - unfold add_post. rewrite K. by destruct (execs_for m xs).
  Qed.

  Lemma elem_map_to_list_keys {A} (m : gmap bytes A) n : n ∈ (map_to_list m).*1 <-> is_Some (m !! n).
  Proof.
    rewrite elem_of_list_fmap. split.
    - intros [[k a] [-> H]]. apply elem_of_map_to_list in H. by eexists.
    - intros [a H]. exists (n, a). split; [done|]. by apply elem_of_map_to_list.
  Qed.

  Lemma list_transitions_spec xs :
    NoDup (list_transitions (Tx:=Tx) (register_all xs))
    /\ forall n, n ∈ list_transitions (Tx:=Tx) (register_all xs) <-> execs_for n xs <> [].
  Proof.
    split; [apply NoDup_fst_map_to_list|]. intros n. unfold list_transitions.
    rewrite elem_map_to_list_keys, (ag_exec _ _ (agrees_all xs)).
    destruct (execs_for n xs); cbn; split; intros H; try done; by destruct H.
  Qed.
End R.
