(** runtime/abci.go: what Tendermint is told for the case of a restart.

    The store is in memory (runtime/kv/badger.go:12-22 NewBadger), so a process
    starts with [new_node] (Spec/ChainSpec.v). *)
From Coq Require Import NArith List String.
From Verif.Model Require Import Bytes.

Section Restart.
  Context {Node : Type}.
  (** abci.go:27-35 Info: constants. The other fields are left out. *)
  Record info_response := { in_height : N; in_hash : bytes }.
  Definition info (_ : Node) : info_response := {| in_height := 0; in_hash := str "unknown" |}.
  (** abci.go:169-175 Commit: the hash of the state, a constant. *)
  Definition commit_hash (_ : Node) : bytes := str "constant".
End Restart.
