(** Address texts after BIP 173, by reading rather than writing: a prefix, the
    separator "1", characters standing for five bits each, of which the last six
    are a checksum. The checksum polynomial is the function of BIP 173 and is
    shared with the model; the rest is not. *)
From Coq Require Import NArith List Bool String.
From stdpp Require Import base list.
From Verif.Model Require Import Bytes Bech32.
Local Open Scope N_scope.

(** The five bits a character stands for. *)
Definition char_value (c : byte) (v : N) : Prop := charset !! N.to_nat v = Some c.
(** The bits of a number, [width] of them, the highest first. *)
Definition bits_of (width : nat) (v : N) : list bool := map (fun i => N.testbit v (N.of_nat i)) (rev (seq 0 width)).

Record bech32_text (hrp data text : bytes) : Prop := {
  bt_parts : exists body values sum,
    text = hrp ++ str "1" ++ body
    /\ Forall2 char_value body (values ++ sum)
    /\ length sum = 6%nat
    /\ polymod (hrp_expand hrp ++ values ++ sum) = 1
    /\ exists pad, concat (map (bits_of 5) values) = concat (map (fun b => bits_of 8 (b2N b)) data) ++ pad
       /\ (length pad < 5)%nat /\ Forall (fun b => b = false) pad
}.
