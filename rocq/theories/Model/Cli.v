(** pkg/client and the commands of pkg/spfcli: what is asked of a node and what is
    printed.

    Not modelled: the connection to the node. The configuration is in Config.v. An
    argument is a text of bytes; the transport writes it as JSON, so it should be
    valid UTF-8. *)
From Coq Require Import NArith List Bool String.
From stdpp Require Import base list.
From Verif.Model Require Import Bytes KindEncoder Strings Query.

Section Cli.
  Context {Obj : Type}.
  (** The node's answer to a query for a path: [Fail] for a code other than 0,
      [Panic] where the node panics. *)
  Context (node_answers : bytes -> res (reply Obj)).

  (** client.go:48-59 Get. The value of the answer is returned as it is. *)
  Definition client_get (group kind name : bytes) : res (reply Obj) :=
    node_answers (str "get" ++ str "/" ++ group ++ str "/" ++ kind ++ str "/" ++ name).
  (** client.go:30-46 Resources. The JSON text is read back into the message it
      was written from; that reading gives the same message is not modelled. *)
  Definition client_resources : res (reply Obj) := node_answers (str "api_resources").

  (** cobra v1.1.3 MinimumNArgs and ExactArgs. *)
  Definition minimum_args (n : nat) (args : list bytes) : bool := Nat.leb n (length args).
  Definition exact_args (n : nat) (args : list bytes) : bool := Nat.eqb (length args) n.
  (** args[i]: out of range panics. *)
  Definition arg_at (args : list bytes) (i : nat) : res bytes :=
    match args !! i with Some a => Ok a | None => Panic end.

  (** get.go:7-25 GetCmd: what is printed. At least two arguments are asked for,
      three are read. *)
  Definition get_command (args : list bytes) : res (reply Obj) :=
    if minimum_args 2 args then
      match arg_at args 0, arg_at args 1, arg_at args 2 with
      | Ok group, Ok kind, Ok name => client_get group kind name
      | _, _, _ => Panic
      end
    else Fail EAnon.
  (** resources.go:7-25 ResourcesCmd. *)
  Definition resources_command (args : list bytes) : res (reply Obj) :=
    if exact_args 0 args then client_resources else Fail EAnon.
End Cli.
