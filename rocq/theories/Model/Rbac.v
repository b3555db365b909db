(** core/rbac: roles, role bindings and the authorizer. *)
From Coq Require Import NArith List Bool String.
From stdpp Require Import base list gmap.
From Verif.Model Require Import Bytes KindEncoder Desc Schema Users Prog Runtime Services Module Universe.

(** v1alpha1/rbac.go:14 ExternalAccountRoleID, 97-100 roleNameForModule. *)
Definition external_role_id : bytes := str "external_account".
Definition role_name_for_module (name : bytes) : bytes := name ++ str "-" ++ str "role".

(** rbac.go:16-22 NewRoleNameForModule, NewExternalAccountRole: no resources. *)
Definition empty_role (id : bytes) : role :=
  {| rl_id := id; rl_gets := []; rl_lists := []; rl_creates := []; rl_updates := [];
     rl_deletes := []; rl_delivers := [] |}.

(** rbac.go:24-41 GetResourcesForVerb. *)
Definition resources_for_verb (v : verb) (r : role) : list bytes :=
  match v with
  | VGet => rl_gets r
  | VList => rl_lists r
  | VCreate => rl_creates r
  | VDelete => rl_deletes r
  | VUpdate => rl_updates r
  | VDeliver => rl_delivers r
  | VUnknown => []
  end.

(** strset.Set.Has with one element. *)
Definition set_has (l : list bytes) (x : bytes) : bool := existsb (bytes_eqb x) l.

(** rbac.go:62-70 hasResourceForVerb. *)
Definition has_resource (v : verb) (x : bytes) (r : role) : bool := set_has (resources_for_verb v r) x.

(** rbac.go:72-95 appendResourceToVerb. *)
Definition append_resource (v : verb) (x : bytes) (r : role) : res role :=
  let '{| rl_id := i; rl_gets := g; rl_lists := l; rl_creates := c; rl_updates := u;
          rl_deletes := d; rl_delivers := t |} := r in
  match v with
  | VGet => Ok {| rl_id := i; rl_gets := g ++ [x]; rl_lists := l; rl_creates := c; rl_updates := u;
                  rl_deletes := d; rl_delivers := t |}
  | VList => Ok {| rl_id := i; rl_gets := g; rl_lists := l ++ [x]; rl_creates := c; rl_updates := u;
                   rl_deletes := d; rl_delivers := t |}
  | VCreate => Ok {| rl_id := i; rl_gets := g; rl_lists := l; rl_creates := c ++ [x]; rl_updates := u;
                     rl_deletes := d; rl_delivers := t |}
  | VDelete => Ok {| rl_id := i; rl_gets := g; rl_lists := l; rl_creates := c; rl_updates := u;
                     rl_deletes := d ++ [x]; rl_delivers := t |}
  | VUpdate => Ok {| rl_id := i; rl_gets := g; rl_lists := l; rl_creates := c; rl_updates := u ++ [x];
                     rl_deletes := d; rl_delivers := t |}
  | VDeliver => Ok {| rl_id := i; rl_gets := g; rl_lists := l; rl_creates := c; rl_updates := u;
                      rl_deletes := d; rl_delivers := t ++ [x] |}
  | VUnknown => Fail EAnon
  end.

(** rbac.go:43-56 ExtendRaw. *)
Definition extend_raw (v : verb) (a : api_def) (r : role) : res role :=
  if has_resource v (ad_name a) r then Fail EAnon else append_resource v (ad_name a) r.

Fixpoint extend_all (v : verb) (l : list api_def) (r : role) : res role :=
  match l with
  | [] => Ok r
  | a :: l' => res_bind (extend_raw v a r) (extend_all v l')
  end.

(** authorizer.go:42-61 fetchRoles. An answer of another type than the one asked
    for does not occur (the model panics). *)
Fixpoint fetch_roles {A} (subjects : list bytes) (k : list role + goerr -> rprog object A)
  : rprog object A :=
  match subjects with
  | [] => k (inl [])
  | s :: subjects' =>
      RGet ty_binding s (fun x =>
        match x with
        | inl (OBinding _ ref) =>
            RGet ty_role ref (fun y =>
              match y with
              | inl (ORole r) =>
                  fetch_roles subjects' (fun z => match z with
                                                  | inl rs => k (inl (r :: rs))
                                                  | inr e => k (inr e)
                                                  end)
              | inl _ => RPanic
              | inr e => k (inr e)
              end)
        | inl _ => RPanic
        | inr e => k (inr e)
        end)
  end.

(** authorizer.go:64-71 getResourcesSet. *)
Definition resources_set (v : verb) (roles : list role) : list bytes :=
  flat_map (resources_for_verb v) roles.

(** authorizer.go:24-40 Authorize: the users are listed twice, first for their
    number. *)
Definition rbac_authorize : authorizer object := fun v name us =>
  REnum us (fun l1 => REnum us (fun l2 =>
    if (length l1 <? length l2)%nat then RPanic
    else
      fetch_roles (map u_name l2 ++ repeat [] (length l1 - length l2)) (fun x =>
        match x with
        | inr e => RRet (false, Some e)
        | inl roles =>
            if set_has (resources_set v roles) name then RRet (true, None)
            else RRet (false, Some EAnon)
        end))).

(** ctrl_bind.go:18-24 BindRoleHandler.Exec. Handlers called with another
    transition than their own panic at the type assertion. *)
Definition bind_exec (_ : users) (m : msg) : prog object msg unit :=
  match m with
  | MsgBindRole id subject => create_ (OBinding subject id) (PRet tt)
  | _ => PPanic
  end.

(** ctrl_bind.go:34-48 BindRoleAdmission.Validate, roleExists. *)
Definition bind_admission (_ : users) (m : msg) : prog object msg unit :=
  match m with
  | MsgBindRole id _ => get_ ty_role id (fun _ => PRet tt) PFail
  | _ => PPanic
  end.

(** ctrl_create_role.go:26-29 CreateRoleHandler.Exec; a nil role is stored as an
    empty one would be. *)
Definition create_role_exec (_ : users) (m : msg) : prog object msg unit :=
  match m with
  | MsgCreateRole r => create_ (ORole (default (empty_role []) r)) (PRet tt)
  | _ => PPanic
  end.

(** ctrl_create_role.go:103-121 verifyStateObjects, 123-129
    verifyStateTransitions: [len(l) != 0 && !set.Has(l...)] is an error. *)
Definition all_known (set l : list bytes) : bool := forallb (set_has set) l.
Definition verify_objects (r : role) (objects : list bytes) : bool :=
  all_known objects (rl_gets r) && all_known objects (rl_lists r) && all_known objects (rl_creates r)
  && all_known objects (rl_updates r) && all_known objects (rl_deletes r).
Definition verify_transitions (r : role) (transitions : list bytes) : bool :=
  all_known transitions (rl_delivers r).

(** ctrl_create_role.go:64-79: the names of all transitions and objects. *)
Definition known_transitions (l : list raw_descriptor) : list bytes :=
  flat_map (fun d => map tt_name (rd_transitions d)) l.
Definition known_objects (l : list raw_descriptor) : list bytes :=
  flat_map (fun d => map (fun x => ad_name (rw_api x)) (rd_objects d)) l.

(** ctrl_create_role.go:43-89 CreateRoleAdmissionHandler.Validate and 91-101
    roleNotExist. *)
Definition create_role_admission (_ : users) (m : msg) : prog object msg unit :=
  match m with
  | MsgCreateRole None => PFail EAnon
  | MsgCreateRole (Some r) =>
      if bytes_eqb (rl_id r) [] then PFail EAnon
      else
        let rest :=
          get_ ty_modules singleton_id
            (fun x => match x with
                      | OModules l =>
                          if negb (verify_objects r (known_objects l)) then PFail EAnon
                          else if negb (verify_transitions r (known_transitions l)) then PFail EAnon
                          else PRet tt
                      | _ => PPanic
                      end) PFail in
        get_ ty_role (rl_id r) (fun _ => PFail EAnon)
             (fun e => if errors_is e RtNotFound then rest else PFail e)
  | _ => PPanic
  end.

(** rbac_applier.go:129-169 getACL: the "external" flag of the transition.
    Simplification: the files are well-formed. *)
Fixpoint find_message (name : bytes) (files : list proto_file) : option (option bool) :=
  match files with
  | [] => None
  | f :: files' =>
      match List.find (fun x => bytes_eqb (fst x) name) f with
      | Some (_, o) => Some o
      | None => find_message name files'
      end
  end.
Definition get_acl (t : transition_type) : res bool :=
  match find_message (tt_short t) (tt_files t) with
  | None => Panic
  | Some None => Fail EAnon
  | Some (Some external) => Ok external
  end.

(** rbac_applier.go:76-93: the transitions of a module; the external ones are
    collected. *)
Fixpoint role_transitions (l : list transition_type) (r : role) : res (role * list api_def) :=
  match l with
  | [] => Ok (r, [])
  | t :: l' =>
      res_bind (get_acl t) (fun external =>
      res_bind (extend_raw VDeliver (tt_api t) r) (fun r1 =>
      res_bind (role_transitions l' r1) (fun x =>
        Ok (fst x, if external then tt_api t :: snd x else snd x))))
  end.

(** rbac_applier.go:171-193 extendRoleForStateObject. *)
Definition extend_object (a : api_def) (r : role) : res role :=
  res_bind (extend_raw VCreate a r) (fun r =>
  res_bind (extend_raw VDelete a r) (fun r =>
  res_bind (extend_raw VUpdate a r) (fun r =>
  res_bind (extend_raw VGet a r) (fun r => extend_raw VList a r)))).
Fixpoint role_objects (l : list raw_object) (r : role) : res role :=
  match l with
  | [] => Ok r
  | x :: l' => res_bind (extend_object (rw_api x) r) (role_objects l')
  end.

(** rbac_applier.go:104-115: required resources. *)
Fixpoint role_needs (l : list api_def) (r : role) : res role :=
  match l with
  | [] => Ok r
  | a :: l' => if ad_transition a then res_bind (extend_raw VDeliver a r) (role_needs l') else Fail EAnon
  end.

(** rbac_applier.go:76-115: the role of a module and its external transitions. *)
Definition module_role (d : raw_descriptor) : res (role * list api_def) :=
  res_bind (role_transitions (rd_transitions d) (empty_role (role_name_for_module (rd_name d)))) (fun x =>
  res_bind (role_objects (rd_objects d) (fst x)) (fun r =>
  res_bind (role_needs (rd_needs d) r) (fun r => Ok (r, snd x)))).

(** rbac_applier.go:53-65, with 116-126 of handleModule: roles are created and
    bound module by module; the error of the binding is dropped. *)
Fixpoint apply_modules (l : list raw_descriptor) (user_role : role)
    (k : role -> prog object msg unit) : prog object msg unit :=
  match l with
  | [] => k user_role
  | d :: l' =>
      match module_role d with
      | Ok (r, external) =>
          PDeliver (MsgCreateRole (Some r)) [] (fun err =>
            match err with
            | Some e => PFail (EWrap e)
            | None =>
                PDeliver (MsgBindRole (rl_id r) (rd_name d)) [] (fun _ =>
                  match extend_all VDeliver external user_role with
                  | Ok u => apply_modules l' u k
                  | Fail e => PFail e
                  | _ => PPanic
                  end)
            end)
      | Fail e => PFail (EWrap e)
      | _ => PPanic
      end
  end.

(** rbac_applier.go:33-74 initGenesisRoleCreator.PostExec. *)
Definition role_creator (_ : users) (m : msg) : prog object msg unit :=
  match m with
  | CreateModuleDescriptors l =>
      apply_modules l (empty_role external_role_id) (fun u => deliver_ (MsgCreateRole (Some u)) (PRet tt))
  | _ => PPanic
  end.

(** module.go:15-30 Initialize, 48-79 genesis (there are no initial roles;
    Import panics). *)
Definition rbac_module {Tx} : module object msg Tx := {|
  mo_name := str "rbac";
  mo_genesis := Some {| gn_default := PRet tt; gn_import := fun _ => PPanic |};
  mo_admission := [(t_create_role, create_role_admission); (t_bind_role, bind_admission)];
  mo_pre := [];
  mo_exec := [(t_create_role, create_role_exec); (t_bind_role, bind_exec)];
  mo_post := [(t_create_descriptors, role_creator)];
  mo_objects := [role_object; binding_object; rbac_params_object];
  mo_needs := [];
  mo_auth_admission := [];
  mo_post_auth := [];
  mo_services := [];
  mo_authorizer := Some rbac_authorize |}.
