(** Properties of coin arithmetic: C51. [bits] is the largest bit length the
    SDK's decimals accept. *)
From Coq Require Import NArith ZArith List Bool String Sorted.
From stdpp Require Import base list.
From Verif.Model Require Import Bytes Prog Module Universe Coin.
From Verif.Spec Require Import TextSpec CoinSpec.
From Verif.Proofs Require Import CoinFacts.

(** C51: adding two sets adds the amounts of every denomination; the result is
    in normal form. *)
Theorem C51_addition_exact :
  forall bits a b A B,
    coin_set a A -> coin_set b B -> within bits A -> within bits B ->
    (forall d, A d + B d < 2 ^ 255)%N ->
    exists r, safe_add bits a b = Ok r /\ normal_set r (fun d => A d + B d)%N.
Proof. exact safe_add_sets. Qed.
Print Assumptions C51_addition_exact.

(** C51: a sum that does not fit the SDK's integers is no result. *)
Theorem C51_addition_overflow :
  forall bits a b A B d,
    coin_set a A -> coin_set b B -> within bits A -> within bits B ->
    (2 ^ 255 <= A d + B d)%N -> safe_add bits a b = Panic.
Proof. exact safe_add_overflow. Qed.
Print Assumptions C51_addition_overflow.

(** C51: subtracting a set that is covered subtracts the amounts of every
    denomination; the result is in normal form. *)
Theorem C51_subtraction_exact :
  forall bits a b A B,
    coin_set a A -> coin_set b B -> within bits A -> within bits B ->
    (forall d, B d <= A d)%N ->
    exists r, safe_sub bits a b = Ok r /\ normal_set r (fun d => A d - B d)%N.
Proof. exact safe_sub_sets. Qed.
Print Assumptions C51_subtraction_exact.

(** C51: a negative amount in one denomination refuses the whole subtraction. *)
Theorem C51_subtraction_refused :
  forall bits a b A B d,
    coin_set a A -> coin_set b B -> within bits A -> within bits B ->
    (A d < B d)%N -> exists e, safe_sub bits a b = Fail e.
Proof. exact safe_sub_refused. Qed.
Print Assumptions C51_subtraction_refused.

(** C51: whatever the arguments, a result is a set in normal form. *)
Theorem C51_results_normal :
  forall bits a b r,
    safe_add bits a b = Ok r \/ safe_sub bits a b = Ok r -> exists R, normal_set r R.
Proof. exact safe_result_normal. Qed.
Print Assumptions C51_results_normal.

(** C51: a set in normal form is parsed to its amounts and printed back as it
    was. *)
Theorem C51_print_parse :
  forall bits r R, normal_set r R -> within bits R ->
    exists c, new_balance bits r = Ok c /\ to_coins c = r /\ forall d, zamount c d = Z.of_N (R d).
Proof. exact normal_set_roundtrip. Qed.
Print Assumptions C51_print_parse.

Local Open Scope string_scope.
Local Open Scope list_scope.

Definition coins (l : list (string * string)) : list coin :=
  map (fun x => {| co_denom := str (fst x); co_amount := str (snd x) |}) l.

(** Sets given out of order, with zeros and leading zeros. *)
Example C51_case :
  safe_add 255 (coins [("stake", "007"); ("atom", "5")]) (coins [("btc", "0"); ("stake", "3")])
  = Ok (coins [("atom", "5"); ("stake", "10")])
  /\ safe_sub 255 (coins [("stake", "7"); ("atom", "5")]) (coins [("stake", "7"); ("atom", "2")])
     = Ok (coins [("atom", "3")])
  /\ safe_sub 255 (coins [("stake", "7"); ("atom", "5")]) (coins [("stake", "8"); ("atom", "2")]) = Fail EAnon
  /\ safe_sub 255 (coins [("stake", "7")]) (coins [("atom", "1")]) = Fail EAnon
  /\ safe_add 300 (coins [("stake", "57896044618658097711785492504343953926634992332820282019728792003956564819967")])
              (coins [("stake", "1")]) = Fail EAnon
  /\ safe_add 400 (coins [("stake", "57896044618658097711785492504343953926634992332820282019728792003956564819967")])
              (coins [("stake", "1")]) = Panic.
Proof. vm_compute. repeat split. Qed.

(** The sets of the first line, as the specification reads them. *)
Example C51_case_sets :
  coin_set (coins [("stake", "007"); ("atom", "5")])
           (fun d => if decide (d = str "stake") then 7 else if decide (d = str "atom") then 5 else 0)%N
  /\ within 255 (fun d => if decide (d = str "stake") then 7 else if decide (d = str "atom") then 5 else 0)%N.
Proof.
  split.
  - exists [7; 5]%N. split; [|split].
    + constructor; [|constructor; [|constructor]].
      * split; [apply denom_ok_iff; reflexivity|]. exists [0; 0; 7]%N.
        repeat split; [discriminate|]. repeat (constructor; [reflexivity|]). constructor.
      * split; [apply denom_ok_iff; reflexivity|]. exists [5]%N.
        repeat split; [discriminate|]. repeat (constructor; [reflexivity|]). constructor.
    + apply (bool_decide_unpack _). vm_compute. exact I.
    + intros d. cbn. unfold amount_in. cbn [fold_right fst snd].
      destruct (decide (str "stake" = d)) as [<-|N1]; destruct (decide (str "atom" = _)) as [E|N2];
        repeat (destruct (decide _); try congruence; try reflexivity).
  - intros d. destruct (decide _); [split; reflexivity|]. destruct (decide _); split; reflexivity.
Qed.
