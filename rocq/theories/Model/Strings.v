(** The functions of Go's strings and strconv packages the code uses. *)
From Coq Require Import NArith List Bool String.
From stdpp Require Import base list.
From Verif.Model Require Import Bytes KindEncoder.

(** unicode.IsSpace: the ASCII spaces, and the others in UTF-8 (U+0085, U+00A0;
    U+1680, U+2000 to U+200A, U+2028, U+2029, U+202F, U+205F, U+3000). *)
Definition ascii_space (b : byte) : bool :=
  let n := b2N b in ((9 <=? n) && (n <=? 13) || (n =? 32))%N.
Definition space2 (a b : byte) : bool :=
  (b2N a =? 194)%N && ((b2N b =? 133) || (b2N b =? 160))%N.
Definition space3 (a b c : byte) : bool :=
  let a := b2N a in let b := b2N b in let c := b2N c in
  ((a =? 225) && (b =? 154) && (c =? 128)
   || (a =? 226) && (b =? 128) && ((128 <=? c) && (c <=? 138) || (c =? 168) || (c =? 169) || (c =? 175))
   || (a =? 226) && (b =? 129) && (c =? 159)
   || (a =? 227) && (b =? 128) && (c =? 128))%N.

(** Leading spaces dropped, given which byte sequences are spaces. *)
Fixpoint drop_spaces (two : byte -> byte -> bool) (three : byte -> byte -> byte -> bool) (s : bytes)
  : bytes :=
  match s with
  | [] => []
  | a :: s1 =>
      if ascii_space a then drop_spaces two three s1
      else match s1 with
           | [] => s
           | b :: s2 =>
               if two a b then drop_spaces two three s2
               else match s2 with
                    | [] => s
                    | c :: s3 => if three a b c then drop_spaces two three s3 else s
                    end
           end
  end.

(** strings.TrimSpace. *)
Definition trim_space (s : bytes) : bytes :=
  rev (drop_spaces (fun a b => space2 b a) (fun a b c => space3 c b a)
         (rev (drop_spaces space2 space3 s))).

(** strings.Split with a separator of one byte: never an empty list. *)
Fixpoint split_on (sep : byte) (s : bytes) : list bytes :=
  match s with
  | [] => [[]]
  | c :: s' =>
      if decide (c = sep) then [] :: split_on sep s'
      else match split_on sep s' with
           | x :: l => (c :: x) :: l
           | [] => [[c]]
           end
  end.

(** strings.SplitN(s, sep, 2) with a separator of one byte: the part before the
    first separator and what follows it, if there is one. *)
Fixpoint split_once (sep : byte) (s : bytes) : bytes * option bytes :=
  match s with
  | [] => ([], None)
  | c :: s' =>
      if decide (c = sep) then ([], Some s')
      else let '(x, r) := split_once sep s' in (c :: x, r)
  end.

(** strings.Join. *)
Fixpoint join (sep : bytes) (l : list bytes) : bytes :=
  match l with
  | [] => []
  | [x] => x
  | x :: l' => x ++ sep ++ join sep l'
  end.

(** The decimal text of a number: big.Int.String and %d. *)
Fixpoint itoa_fuel (f : nat) (n : N) (acc : bytes) : bytes :=
  match f with
  | O => acc
  | S f' => let acc' := N2b (48 + n mod 10) :: acc in
            if (n <? 10)%N then acc' else itoa_fuel f' (n / 10)%N acc'
  end.
Definition itoa (n : N) : bytes := itoa_fuel (S (N.to_nat (N.log2 n))) n [].
