(** Stopping services when one of them crashes. *)
From Coq Require Import List.
From stdpp Require Import base list.
From Verif.Model Require Import Bytes Services.

Lemma services_stop_crash g1 s g2 :
  Forall (fun s => is_Some (ms_name s)
                   /\ (sv_stop (ms_service s) = Ok tt \/ exists e, sv_stop (ms_service s) = Fail e)) g1 ->
  ms_name s = None \/ sv_stop (ms_service s) = Panic ->
  services_stop (g1 ++ s :: g2) = (map StopCall g1 ++ match ms_name s with None => [] | Some _ => [StopCall s] end, Panic).
Proof.
  intros HF Hs. induction HF as [|a g1 ((n & En) & Hst) HF IH]; cbn [app map services_stop].
  - destruct (ms_name s) eqn:En; [|done]. destruct Hs as [?|Hs]; [done|]. by rewrite Hs.
  - rewrite En, IH. by destruct Hst as [->|(e & ->)].
Qed.
