(** Restarts: C74. *)
From Coq Require Import NArith ZArith List Bool String.
From stdpp Require Import base list option.
From Verif.Model Require Import Bytes Schema Users Errors Prog Runtime Universe Marshal Authn TestApp Abci Restart.
From Verif.Spec Require Import ChainSpec OrderSpec RestartSpec DemoChain DemoOrder.
From Verif.Proofs Require Import RestartFacts RestartCases OrderCases DemoFacts.
Local Open Scope list_scope.

(** ** C74. A node runs; a new process to which the blocks are sent again runs too,
    holds the same, and both answer alike whatever comes next. *)
Theorem C74_same_after_restart C bits verify enum1 enum2 fuel decode id cs x :
  sound C enum1 decode -> sound C enum2 decode -> running C bits verify enum1 fuel decode id cs x ->
  exists y, running C bits verify enum2 fuel decode id (replayed cs) y /\ same_contents C bits verify x y
    /\ forall cs', fst (responses C bits verify enum1 fuel decode cs' x) = fst (responses C bits verify enum2 fuel decode cs' y).
Proof. intros H1 H2. exact (restart C bits verify enum1 enum2 fuel decode H1 H2 id cs x). Qed.
(** alice's account has been opened; the check before it is not sent again. *)
Example C74_case : sound protobuf demo_users demo_decode /\ sound protobuf demo_backwards demo_decode
  /\ demo_running demo_history (demo_node demo_history)
  /\ replayed demo_history = [CallBeginBlock 1%Z (str "hash"); CallDeliverTx tx_open_alice; CallEndBlock 1%Z; CallCommit].
Proof. split; [exact demo_sound|]. split; [exact backwards_sound|]. split; [demo|exact demo_replayed]. Qed.

(** That a restart leads past a call that has ended the process is false: no
    process gets past it, whatever follows. *)
Theorem C74_passes_after_restart_refuted C bits verify enum1 enum2 fuel decode id cs x c cs' :
  sound C enum1 decode -> sound C enum2 decode -> running C bits verify enum1 fuel decode id cs x ->
  ~ is_check c -> ~ alive (fst (call C bits verify enum1 fuel decode c x)) ->
  forall y, ~ running C bits verify enum2 fuel decode id (replayed cs ++ c :: cs') y.
Proof. intros H1 H2. exact (stops_again C bits verify enum1 enum2 fuel decode H1 H2 id cs x c cs'). Qed.
(** alice, an ordinary account, pays the module bank. *)
Example C74_case_stops : demo_running demo_history (demo_node demo_history)
  /\ demo_answer (demo_node demo_history) (CallDeliverTx tx_alice_bank) = Panic
  /\ demo_answer (demo_node demo_history) (CallCheckTx tx_alice_bank) = Ok tt.
Proof. demo. Qed.

(** Commit's hash does not tell states apart, and Info does not know the height. *)
Theorem C74_hash_refuted : ~ forall cs1 cs2 x1 x2, demo_running cs1 x1 -> demo_running cs2 x2 ->
  commit_hash x1 = commit_hash x2 -> same_contents protobuf 255 demo_verify x1 x2.
Proof. exact hash_of_states. Qed.
Theorem C74_info_refuted : ~ forall cs x h, demo_running cs x ->
  gets protobuf 255 demo_verify x ty_current_block singleton_id (OCurrentBlock h) -> in_height (info x) = h.
Proof. exact info_of_heights. Qed.

Print Assumptions C74_same_after_restart.
Print Assumptions C74_passes_after_restart_refuted.
Print Assumptions C74_hash_refuted.
Print Assumptions C74_info_refuted.
