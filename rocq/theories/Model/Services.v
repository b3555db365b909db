(** runtime/services.go: extension services of modules. *)
From Coq Require Import List Bool String.
From stdpp Require Import base list.
From Verif.Model Require Import Bytes.

(** runtime/module/services.go:6-16 ExtensionService: what its methods do when
    called; a [None] name is the panic of BaseService.Name (39-41). *)
Record service := {
  sv_name : option bytes;
  sv_start : res unit;
  sv_stop : res unit
}.

(** services.go:13-17: a service together with the name of its module. *)
Record mod_service := { ms_module : bytes; ms_service : service }.

(** services.go:19-21 Name. *)
Definition ms_name (s : mod_service) : option bytes :=
  option_map (fun n => ms_module s ++ str "." ++ n) (sv_name (ms_service s)).

(** services.go:33-40 AddServices. *)
Definition add_services (g : list mod_service) (module : bytes) (xts : list service)
  : list mod_service :=
  g ++ map (fun x => {| ms_module := module; ms_service := x |}) xts.

(** What a service is asked to do: to take a read-only client that carries the
    given name, to start, to stop. *)
Inductive service_call :=
| SetClient (s : mod_service) (identifier : bytes)
| StartCall (s : mod_service)
| StopCall (s : mod_service).

(** services.go:44-55 Start: the calls made and the outcome. *)
Fixpoint services_start (g : list mod_service) : list service_call * res unit :=
  match g with
  | [] => ([], Ok tt)
  | s :: g' =>
      match ms_name s with
      | None => ([], Panic)
      | Some n =>
          match sv_start (ms_service s) with
          | Ok _ => let '(l, r) := services_start g' in (SetClient s n :: StartCall s :: l, r)
          | Fail e => ([SetClient s n; StartCall s], Fail (EWrap e))
          | r => ([SetClient s n; StartCall s], r)
          end
      end
  end.

(** services.go:57-68 Stop: the calls made and the collected errors (the
    multierror is nil iff there are none), or a panic. *)
Fixpoint services_stop (g : list mod_service) : list service_call * res (list goerr) :=
  match g with
  | [] => ([], Ok [])
  | s :: g' =>
      match ms_name s with
      | None => ([], Panic)
      | Some _ =>
          match sv_stop (ms_service s) with
          | Ok _ => let '(l, r) := services_stop g' in (StopCall s :: l, r)
          | Fail e =>
              let '(l, r) := services_stop g' in
              (StopCall s :: l, match r with Ok es => Ok (e :: es) | r => r end)
          | Panic => ([StopCall s], Panic)
          | OutOfFuel => ([StopCall s], OutOfFuel)
          end
      end
  end.
