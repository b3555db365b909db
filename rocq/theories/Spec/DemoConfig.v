(** Surroundings for the cases of C77. *)
From Coq Require Import NArith List Bool String.
From stdpp Require Import base list.
From Verif.Model Require Import Bytes Query Config.

(** Two files, in the home directory of me and in the directory conf of root; a
    configuration is the endpoint itself. *)
Definition demo_files (path : bytes) : goerr + bytes :=
  if decide (path = str "/home/me/.spfcli_config/config.yaml") then inr (str "tcp://near")
  else if decide (path = str "/conf/config.yaml") then inr (str "tcp://far")
  else inl (ESent RtNotFound).
Definition demo_surroundings (variable : option bytes) : surroundings :=
  {| su_variable := variable; su_home := inr (str "/home/me"); su_file := demo_files; su_yaml := inr; su_connect := fun _ => inr tt |}.
(** A network where each node tells who it is. *)
Definition demo_network (endpoint path : bytes) : res (reply bytes) := Ok (RObject (endpoint ++ path)).
