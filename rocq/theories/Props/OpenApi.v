(** Theorems about the document of the API server: C62, C63, C64. *)
From Coq Require Import NArith List Bool String.
From stdpp Require Import base list gmap.
From Verif.Model Require Import Bytes KindEncoder Desc Schema Orm Users Prog Runtime Universe Marshal Abci ApiServer ApiService OpenApi ProtoFiles.
From Verif.Spec Require Import ChainSpec ServiceSpec OpenApiSpec DemoChain DemoService DemoOpenApi.
From Verif.Proofs Require Import ServiceFacts DemoRuns DemoServiceFacts OpenApiFacts OpenApiDocFacts OpenApiAppFacts.

(** ** C62 *)
Section Paths.
  Context (W : world) (order : nat -> list bytes -> list bytes).
  Implicit Types (l : list described) (d : document).
  Hypothesis HO : any_order order.
  (** The paths are those of the objects, in order and each once. *)
  Theorem C62_paths_exact fuel l d : spec_document W order fuel l = Ok d ->
    by_name (do_paths d)
    /\ forall p, p ∈ map fst (do_paths d) <-> exists x id params name, x ∈ l /\ documented x p id params name.
  Proof. exact (fun H => conj (proj1 (paths_exact W order HO fuel l d H)) (proj1 (proj2 (paths_exact W order HO fuel l d H)))). Qed.
  (** What is said of a path is said of an object with this path. *)
  Theorem C62_operations fuel l d p o : spec_document W order fuel l = Ok d -> (p, o) ∈ do_paths d ->
    exists x name, x ∈ l /\ documented x p (op_id o) (op_params o) name /\ answer_said name (op_content o).
  Proof. exact (fun H => proj2 (proj2 (paths_exact W order HO fuel l d H)) p o). Qed.
End Paths.
Print Assumptions C62_paths_exact.
Print Assumptions C62_operations.

(** The paths of the application's document are those served by a running node (see
    C61). *)
Theorem C62_application C bits verify enum fuel decode find_message id objects order fuel' d :
  sound C enum decode -> linked find_message ->
  serving C bits verify enum fuel decode find_message id objects -> any_order order ->
  spec_document proto_world order fuel' (map (described_of proto_world) objects) = Ok d ->
  forall p, p ∈ map fst (do_paths d) <->
    (exists ty, (ty, p) ∈ single_paths)
    \/ exists ty path key, (ty, path, key) ∈ keyed_paths /\ (p = path ++ str "s" \/ p = path ++ str "/{" ++ key ++ str "}").
Proof.
  exact (fun HS HL HV HO H => app_paths_exact order fuel' d HO
    (eq_rect objects (fun o => spec_document proto_world order fuel' (map (described_of proto_world) o) = Ok d) H _
       (serving_served C bits verify enum fuel decode HS find_message HL id objects HV))).
Qed.
Print Assumptions C62_application.

(** A node serves; its document is made; and the document of one object in full. *)
Example C62_case :
  demo_serving app_served
  /\ (exists d, spec_document proto_world declared_order 40 (map (described_of proto_world) app_served) = Ok d)
  /\ spec_document proto_world declared_order 4 [account_described] = Ok account_document.
Proof.
  split; [exact (demo_serves demo_history ltac:(fact))|]. split; [exact app_document_made|exact account_document_made].
Qed.

(** ** C63 *)
Section Schemas.
  Context (W : world) (order : nat -> list bytes -> list bytes).
  Implicit Types (l : list described) (d : document).
  Hypothesis HO : any_order order.
  (** For messages that are not declared within messages, in files known by their
      paths: there is a schema for each message sent or contained in one, field by
      field, and no other. *)
  Theorem C63_schemas_partial fuel l d : regular W l -> spec_document W order fuel l = Ok d ->
    by_name (do_schemas d)
    /\ (forall m, concerned W l m -> exists p, (me_name m, p) ∈ do_schemas d)
    /\ forall name p, (name, p) ∈ do_schemas d -> exists m, concerned W l m /\ me_name m = name /\ schema_says W m p.
  Proof. exact (schemas_say W order HO fuel l d). Qed.
  (** Every reference leads to a schema. *)
  Theorem C63_references_partial fuel l d r : regular W l -> spec_document W order fuel l = Ok d ->
    refers d r -> resolves d r.
  Proof. exact (fun HR H => references_resolve W order HO fuel l d HR H r). Qed.
  (** What is said of fields is what protojson writes, except for numbers of 64 bits
      and enums. *)
  Theorem C63_types_partial fuel l d name p : regular W l -> spec_document W order fuel l = Ok d ->
    (name, p) ∈ do_schemas d ->
    exists m, concerned W l m /\ me_name m = name
      /\ Forall2 (fun f e => e.1 = fd_json f /\ (text_number (fd_kind f) = false -> fits f e.2)) (md_fields (me_desc m)) p.
  Proof. exact (fun HR H => schemas_fit W order fuel l d HO HR H name p). Qed.
End Schemas.
Print Assumptions C63_schemas_partial.
Print Assumptions C63_references_partial.
Print Assumptions C63_types_partial.

(** The document of the application refers to a schema that it does not have: the
    list of role bindings. Roles and role bindings are declared in one file, and
    the files made for their lists have the same path. *)
Theorem C63_references_refuted order fuel d : any_order order ->
  spec_document proto_world order fuel (map (described_of proto_world) app_served) = Ok d ->
  let r := str "#/components/schemas/dynamic.tmos.core.rbac.v1alpha1.RoleBindingList" in
  refers d r /\ ~ resolves d r.
Proof. exact (bindings_dangling order fuel d). Qed.
Print Assumptions C63_references_refuted.
(** The number of an account is said to be an integer and is sent as a text. *)
Theorem C63_types_refuted order fuel d : any_order order ->
  spec_document proto_world order fuel plain_described = Ok d ->
  exists p v, (str "tmos.x.authn.v1alpha1.Account", p) ∈ do_schemas d /\ (str "accountNumber", v) ∈ p
    /\ ~ fits (one (str "accountNumber") Uint64Kind) v.
Proof. exact (account_misfit order fuel d). Qed.
Print Assumptions C63_types_refuted.
(** The objects of the application but for two are regular. *)
Example C63_case :
  regular proto_world plain_described
  /\ map de_kind plain_described =
     [str "Stage"; str "BeginBlockState"; str "DeliverTxState"; str "CheckTxState"; str "InitChainInfo"; str "EndBlockState";
      str "CurrentBlock"; str "ValidatorUpdates"; str "Account"; str "Params"; str "CurrentAccountNumber"; str "Role"; str "Params"; str "Balance"].
Proof. split; [exact plain_regular|vm_compute; reflexivity]. Qed.

(** ** C64 *)
(** If no message contains itself and no file imports itself, the generator ends
    with a document, in whatever order Go visits its maps. *)
Theorem C64_ends_partial W order l : any_order order -> acyclic W l -> packaged W l ->
  exists fuel d, forall fuel', fuel <= fuel' -> spec_document W order fuel' l = Ok d.
Proof. exact (fun HO => document_ends W order HO l). Qed.
Print Assumptions C64_ends_partial.
(** The document does not depend on the order. *)
Theorem C64_same_document_partial W order order' fuel fuel' l d d' : any_order order -> any_order order' -> regular W l ->
  spec_document W order fuel l = Ok d -> spec_document W order' fuel' l = Ok d' -> d = d'.
Proof. exact (any_order_same W order order' fuel fuel' l d d'). Qed.
Print Assumptions C64_same_document_partial.
(** For a message that contains itself and no other message it never ends. *)
Theorem C64_recursive_message_refuted : exists W l, forall order fuel, any_order order ->
  spec_document W order fuel l = OutOfFuel.
Proof. exact (ex_intro _ loop_world (ex_intro _ [loop_described] loop_hangs)). Qed.
Print Assumptions C64_recursive_message_refuted.
(** There is an order in which it never ends for the application: the descriptors
    kept with the modules contain themselves. *)
Theorem C64_application_refuted : exists order, any_order order /\ forall fuel,
  spec_document proto_world order fuel (map (described_of proto_world) app_served) = OutOfFuel.
Proof. exact (ex_intro _ self_first (conj self_first_any app_hangs)). Qed.
Print Assumptions C64_application_refuted.
(** The objects of the application but for two meet the conditions. *)
Example C64_case : acyclic proto_world plain_described /\ packaged proto_world plain_described
  /\ any_order self_first /\ any_order declared_order.
Proof. exact (conj plain_acyclic (conj plain_is_packaged (conj self_first_any declared_any))). Qed.
