(** The node and a small program on accounts and purses: C71. [bits] is 255 in the
    version of the SDK that go.mod requires. *)
From Coq Require Import NArith ZArith List Bool String.
From stdpp Require Import base list option.
From Verif.Model Require Import Bytes Users Errors Prog Runtime Builder Universe Marshal Coin Authn Distribution TxDecoder TestApp Abci.
From Verif.Spec Require Import ChainSpec LiveSpec MachineSpec DemoChain.
From Verif.Proofs Require Import MachineFacts MachineStops MachineCases DemoFacts DemoRuns.

Section Machine.
  Context (C : codec) (bits : N) (verify : bytes -> bytes -> bytes -> bool).
  Context (enum : list (event object msg) -> users -> list user) (fuel : nat) (decode : bytes -> res tx).
  Notation call := (call C bits verify enum fuel decode).
  Notation gets := (gets C bits verify).
  Notation running := (running C bits verify enum fuel decode).

  (** ** C71. After InitChain and any calls, the node shows the book that the
      program arrives at. *)
  Theorem C71_node_shows_the_book id cs x : sound C enum decode -> (93 <= bits)%N -> running id cs x ->
    (forall raw t, CallDeliverTx raw ∈ cs -> decode raw = Ok t -> addressed_shortly t) ->
    exists b, do_calls bits verify id decode cs first_book = Some b /\ shows bits (gets x) b.
  Proof. intros HS. exact (machine_run C bits verify enum fuel decode HS id cs x). Qed.
  (** The next answer is the program's answer, and the node shows the next book. *)
  Theorem C71_next_call id cs x c r x' b : sound C enum decode -> (93 <= bits)%N -> running id cs x ->
    (forall raw t, CallDeliverTx raw ∈ cs ++ [c] -> decode raw = Ok t -> addressed_shortly t) ->
    do_calls bits verify id decode cs first_book = Some b -> call c x = (r, x') -> alive r ->
    exists yes b', do_call bits verify id decode c b = Some (yes, b') /\ as_answered c r yes /\ shows bits (gets x') b'.
  Proof. intros HS. exact (machine_step C bits verify enum fuel decode HS id cs x c r x' b). Qed.
  (** Delivering a transaction ends the process if the program has no answer;
      otherwise the node answers, or an object cannot be stored. *)
  Theorem C71_deliver_tx_stops_exactly id cs x raw b : sound C enum decode -> (93 <= bits <= 313)%N -> 3 <= fuel -> running id cs x ->
    (forall raw' t, CallDeliverTx raw' ∈ cs ++ [CallDeliverTx raw] -> decode raw' = Ok t -> addressed_shortly t) ->
    do_calls bits verify id decode cs first_book = Some b ->
    match do_call bits verify id decode (CallDeliverTx raw) b with
    | None => ~ alive (fst (call (CallDeliverTx raw) x))
    | Some _ => answers (cannot_store C bits verify) (call (CallDeliverTx raw) x)
    end.
  Proof. intros HS [H1 H2] Hf. exact (machine_stops C bits verify enum fuel decode HS H2 Hf id cs x raw b H1). Qed.
End Machine.
(** genesis opens an account for alice and pays them, alice pays bob; the same
    transaction again is refused. Paying the module bank ends the process. *)
Example C71_case : sound protobuf demo_users demo_decode /\ demo_running bob_history (demo_node bob_history)
  /\ (forall raw t, CallDeliverTx raw ∈ bob_history ++ [CallDeliverTx tx_alice_bank] -> demo_decode raw = Ok t -> addressed_shortly t)
  /\ match demo_book bob_history with
     | Some b =>
         map (tests_in b) [genesis_address; alice_address; bob_address; fee_collector] = [Some 4999998990; Some 699; Some 300; Some 11]%N
         /\ map (number_in b) [genesis_address; fee_collector; alice_address; bob_address] = [Some (0, 1); Some (1, 0); Some (2, 1); Some (3, 0)]%N
         /\ bk_next b = 4%N /\ bk_height b = 2%N
         /\ fst <$> demo_do (CallDeliverTx tx_alice_bob) b = Some false
     | None => False
     end.
Proof. split; [demo|]. split; [demo|]. split; [exact (short_text_calls _ all_short)|exact bob_runs]. Qed.
Example C71_case_stops : demo_running demo_history (demo_node demo_history)
  /\ match demo_book demo_history with
     | Some b => fst <$> demo_do (CallDeliverTx tx_alice_bank) b = None /\ fst <$> demo_do (CallDeliverTx tx_alice_bob) b = Some true
     | None => False
     end
  /\ demo_answer (demo_node demo_history) (CallDeliverTx tx_alice_bank) = Panic
  /\ demo_answer (demo_node demo_history) (CallDeliverTx tx_alice_bob) = Ok tt.
Proof. split; [demo|]. split; [exact alice_runs|]. demo. Qed.

Print Assumptions C71_node_shows_the_book.
Print Assumptions C71_next_call.
Print Assumptions C71_deliver_tx_stops_exactly.
