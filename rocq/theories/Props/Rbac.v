(** Theorems about roles on the bytes store of the test application. *)
From Coq Require Import NArith ZArith List Bool String.
From stdpp Require Import base list option gmap.
From Verif.Model Require Import Bytes Schema Orm Users Errors Prog Runtime Module Builder Universe Coin Rbac Authn TestApp Abci Marshal.
From Verif.Spec Require Import UserSpec StoreSpec RbacSpec ChainSpec DemoChain DemoRoles.
From Verif.Proofs Require Import RoleFacts DemoFacts BindFacts.

Section Rbac.
  Context (C : codec) (bits : N) (verify : bytes -> bytes -> bytes -> bool).
  Context (enum : list (event object msg) -> users -> list user) (fuel : nat) (decode : bytes -> res tx).
  Notation running := (running C bits verify enum fuel decode).
  Notation written := (written C bits verify).
  Notation gets := (gets C bits verify).
  Notation decision := (decision C bits verify enum).
  Notation message_admission := (message_admission C bits verify enum fuel).
  Notation deliver_to := (rt_deliver (app_ops C) msg_name (bytes_store C bits verify) (the_app bits verify) enum fuel).
  Implicit Types (x : node) (m : msg) (o : object) (k u n id : bytes).

  (** ** C26: whatever roles and bindings are stored. *)
  Theorem C26_allows_exactly_what_roles_grant v n us x : sound C enum decode -> written x -> wf_users us ->
    match decision v n us x with
    | Ok d => granted (gets x) v n us /\ d = (true, None) \/ ~ granted (gets x) v n us /\ exists e, d = (false, Some e)
    | Panic => unnamed (gets x) us /\ ~ granted (gets x) v n us
    | _ => False
    end.
  Proof. intros HS. exact (decision_exact C bits verify enum decode HS v n us x). Qed.

  (** ** C27: for any descriptors, and for the ones of the application.
      Missing: names of 123 bytes and more (C27_long_name_refuted). *)
  Theorem C27_roles_of_descriptors_partial us l x x' : sound C enum decode -> written x -> rt_enabled x = false -> wf_users us ->
    deliver_to us (CreateModuleDescriptors l) x = (Ok tt, x') ->
    (forall d, d ∈ l -> length (rd_name d) + 5 < 128 ->
       exists r, has_role (gets x') (rd_name d) r /\ forall v n, lists r n v <-> declares d n v)
    /\ exists r, gets x' ty_role external_role_id (ORole r)
       /\ forall v n, lists r n v <-> v = VDeliver /\ exists d t, d ∈ l /\ t ∈ rd_transitions d /\ marked_external t /\ n = tt_name t.
  Proof. intros HS. exact (descriptors_delivered C bits verify enum fuel decode HS us l x x'). Qed.
  Theorem C27_roles_of_the_application id cs x : sound C enum decode -> running id cs x ->
    (forall m : module object msg tx, m ∈ app_modules bits verify ->
       exists r, has_role (gets x) (mo_name m) r /\ forall v n, lists r n v <-> declares (raw m) n v)
    /\ exists r, gets x ty_role external_role_id (ORole r)
       /\ forall v n, lists r n v <-> v = VDeliver /\ exists m, for_outsiders m /\ n = msg_name m.
  Proof. intros HS. exact (roles_running C bits verify enum fuel decode HS id cs x). Qed.
  Theorem C27_module_may_do_what_it_declares id cs x (m : module object msg tx) v n : sound C enum decode -> running id cs x -> m ∈ app_modules bits verify ->
    decision v n (users_from_string [mo_name m]) x = Ok (true, None) <-> declares (raw m) n v.
  Proof. intros HS. exact (module_decision C bits verify enum fuel decode HS id cs x m v n). Qed.

  (** ** C30. Missing: identifiers of 128 bytes and more may be used again
      (C30_long_identifier_refuted). *)
  Theorem C30_role_admission_partial us mr x : sound C enum decode -> written x ->
    (exists l, gets x ty_modules singleton_id (OModules l)) ->
    unchanged x (snd (message_admission us (MsgCreateRole mr) x))
    /\ (fst (message_admission us (MsgCreateRole mr) x) = Ok tt
          /\ (exists r l, mr = Some r /\ rl_id r <> [] /\ (forall o, ~ gets x ty_role (rl_id r) o)
               /\ gets x ty_modules singleton_id (OModules l) /\ forall v n, lists r n v -> known_to l n v)
        \/ (exists e, fst (message_admission us (MsgCreateRole mr) x) = Fail e)
          /\ ~ exists r l, mr = Some r /\ rl_id r <> [] /\ (forall o, ~ gets x ty_role (rl_id r) o)
               /\ gets x ty_modules singleton_id (OModules l) /\ forall v n, lists r n v -> known_to l n v).
  Proof. intros HS. exact (role_admission C bits verify enum fuel decode HS us mr x). Qed.
  Theorem C30_identifier_is_new_partial r x : sound C enum decode -> written x -> length (rl_id r) < 128 -> rl_id r <> [] ->
    (forall o, ~ gets x ty_role (rl_id r) o) <-> forall k r', gets x ty_role k (ORole r') -> rl_id r' <> rl_id r.
  Proof. intros HS. exact (role_id_new C bits verify enum decode HS r x). Qed.
  (** A binding is admitted exactly if its role exists. *)
  Theorem C30_binding_admission us id subject x : sound C enum decode -> written x ->
    unchanged x (snd (message_admission us (MsgBindRole id subject) x))
    /\ (fst (message_admission us (MsgBindRole id subject) x) = Ok tt <-> exists o, gets x ty_role id o)
    /\ (fst (message_admission us (MsgBindRole id subject) x) = Panic <-> id = [])
    /\ (id <> [] -> alive (fst (message_admission us (MsgBindRole id subject) x))).
  Proof. intros HS. exact (binding_admission C bits verify enum fuel decode HS us id subject x). Qed.
End Rbac.
Print Assumptions C26_allows_exactly_what_roles_grant.
Print Assumptions C27_roles_of_descriptors_partial.
Print Assumptions C27_roles_of_the_application.
Print Assumptions C27_module_may_do_what_it_declares.
Print Assumptions C30_role_admission_partial.
Print Assumptions C30_identifier_is_new_partial.
Print Assumptions C30_binding_admission.

(** ** What is missing is false. *)
Theorem C27_long_name_refuted :
  ~ forall us l x x', written protobuf 255 demo_verify x -> rt_enabled x = false -> wf_users us ->
      demo_deliver us (CreateModuleDescriptors l) x = (Ok tt, x') ->
      forall d, d ∈ l -> exists r, has_role (demo_gets x') (rd_name d) r.
Proof. exact long_name_no_role. Qed.
Print Assumptions C27_long_name_refuted.
Theorem C30_long_identifier_refuted :
  ~ forall cs x us r x', demo_running cs x -> demo_deliver us (MsgCreateRole (Some r)) x = (Ok tt, x') ->
      fst (demo_admission us (MsgCreateRole (Some r)) x') <> Ok tt.
Proof. exact long_identifier_again. Qed.
Print Assumptions C30_long_identifier_refuted.

(** ** Cases: the node with the protobuf codec after a few transactions. *)
Example case_sound : sound protobuf demo_users demo_decode := demo_sound.
Example case_written : written protobuf 255 demo_verify new_node := new_node_written protobuf 255 demo_verify.
Example case_running : demo_running demo_history (demo_node demo_history).
Proof. demo. Qed.

(** C26: alice may send coins but not set balances, alone or with the help of a
    stranger; with the bank module they may; nobody has no name. *)
Example C26_case :
  map (fun q => demo_decision (fst (fst q)) (snd (fst q)) (users_from_string (snd q)) (demo_node demo_history))
    [(VDeliver, msg_name (MsgSendCoins [] [] []), [alice_address]); (VDeliver, msg_name (MsgSetBalance [] []), [alice_address]);
     (VDeliver, msg_name (MsgSetBalance [] []), [alice_address; str "bank"]);
     (VDeliver, msg_name (MsgSetBalance [] []), [bob_address; str "bank"]); (VGet, ty_balance, [[]])]
  = [Ok (true, None); Ok (false, Some EAnon); Ok (true, None); Ok (false, Some (EWrap (ESent RtNotFound))); Panic].
Proof. demo. Qed.

(** C27: two modules, one transition of which is external. *)
Example C27_case :
  let y := demo_deliver (acting ["runtime"%string]) (CreateModuleDescriptors [demo_module; other_module]) new_node in
  fst y = Ok tt
  /\ demo_get (snd y) ty_role (str "demo-role") =
       Ok (ORole (let mine := [str "demo.Thing"] in
         {| rl_id := str "demo-role"; rl_gets := mine; rl_lists := mine; rl_creates := mine; rl_updates := mine; rl_deletes := mine;
            rl_delivers := [str "demo.MsgOpen"; str "demo.MsgHidden"; str "demo.MsgOther"] |}))
  /\ demo_get (snd y) ty_role external_role_id = Ok (ORole (role_with external_role_id [] [str "demo.MsgOpen"])).
Proof. vm_compute. repeat split. Qed.

(** C30: nothing, a good role, a transition listed as an object, an identifier
    that is used, no identifier. *)
Example C30_case :
  map (fun r => fst (demo_admission (acting ["rbac"%string]) (MsgCreateRole r) (demo_node [])))
    [None; Some (role_with (str "auditor") [ty_balance] [msg_name (MsgSetBalance [] [])]);
     Some (role_with (str "auditor") [msg_name (MsgSetBalance [] [])] [msg_name (MsgSetBalance [] [])]);
     Some (role_with external_role_id [] []); Some (role_with [] [] [])]
  = (let no := Fail (EWrap (ESent RtBadRequest)) in [no; Ok tt; no; no; no]).
Proof. demo. Qed.
(** Bindings to a role that is there, to one that is not, and to none. *)
Example C30_case_binding :
  map (fun r => fst (demo_admission (acting ["rbac"%string]) (MsgBindRole r bob_address) (demo_node []))) [external_role_id; str "nobody"; []]
  = [Ok tt; Fail (EWrap (ESent RtBadRequest)); Panic].
Proof. demo. Qed.
