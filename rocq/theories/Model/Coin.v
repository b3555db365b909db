(** core/coin/v1alpha1/coin.go: sets of coins, computed with the SDK's types. *)
From Coq Require Import NArith ZArith List Bool String.
From stdpp Require Import base list.
From Verif.Model Require Import Bytes KindEncoder Strings Desc Schema Users Prog Module Universe.

(** types.Coins of the SDK (cosmos-sdk v0.42.4, types/coin.go): denominations
    and amounts. *)
Notation sdk_coins := (list (bytes * Z)).

(** The functions down to [sdk_sub] are the SDK's; its source is not part of
    the repository and they are written from knowledge of the version. [bits] is
    the largest bit length NewDecFromStr accepts (255 in that version). *)

(** types/coin.go reDnmString: [a-zA-Z][a-zA-Z0-9/]{2,127}. *)
Definition is_letter (b : byte) : bool :=
  let n := b2N b in ((65 <=? n) && (n <=? 90) || (97 <=? n) && (n <=? 122))%N.
Definition is_digit (b : byte) : bool := match digit b with Some _ => true | None => false end.
Definition denom_ok (d : bytes) : bool :=
  match d with
  | [] => false
  | c :: r => is_letter c && (2 <=? blen r)%N && (blen r <=? 127)%N
              && forallb (fun b => is_letter b || is_digit b || (b2N b =? 47)%N) r
  end.

(** The longest prefix of digits, and the rest. *)
Fixpoint take_digits (s : bytes) : bytes * bytes :=
  match s with
  | [] => ([], [])
  | c :: s' => if is_digit c then let '(d, r) := take_digits s' in (c :: d, r) else ([], s)
  end.
Definition drop_ascii_spaces : bytes -> bytes := drop_spaces (fun _ _ => false) (fun _ _ _ => false).

Definition digits_value (s : bytes) : N :=
  fold_left (fun acc c => acc * 10 + default 0 (digit c))%N s 0%N.

(** types/decimal.go NewDecFromStr for an integral part and decimals, both
    without sign: the number times 10^18. *)
Definition new_dec (bits : N) (int frac : bytes) : option N :=
  if (18 <? blen frac)%N then None
  else let n := (digits_value (int ++ frac) * 10 ^ (18 - blen frac))%N in
       if (2 ^ bits <=? n)%N then None else Some n.

(** types/dec_coin.go ParseDecCoin: an amount, spaces, a denomination. *)
Definition parse_dec_coin (bits : N) (s : bytes) : option (bytes * N) :=
  let '(int, r) := take_digits (trim_space s) in
  match int with
  | [] => None
  | _ =>
      let fr := match r with
                | c :: r' => if (b2N c =? 46)%N
                             then match take_digits r' with
                                  | ([], _) => None
                                  | (f, r'') => Some (f, r'')
                                  end
                             else Some ([], r)
                | [] => Some ([], r)
                end in
      match fr with
      | None => None
      | Some (frac, r) =>
          let denom := drop_ascii_spaces r in
          if denom_ok denom
          then match new_dec bits int frac with
               | Some n => Some (denom, n)
               | None => None
               end
          else None
      end
  end.

Fixpoint parse_dec_coin_list (bits : N) (l : list bytes) : option (list (bytes * N)) :=
  match l with
  | [] => Some []
  | s :: l' => match parse_dec_coin bits s, parse_dec_coin_list bits l' with
               | Some c, Some cs => Some (c :: cs)
               | _, _ => None
               end
  end.

(** types/dec_coin.go sanitizeDecCoins: zeros removed, sorted by denomination. *)
Fixpoint insert_coin (c : bytes * N) (l : list (bytes * N)) : list (bytes * N) :=
  match l with
  | [] => [c]
  | x :: l' => if bytes_leb (fst c) (fst x) then c :: l else x :: insert_coin c l'
  end.
Definition sanitize (l : list (bytes * N)) : list (bytes * N) :=
  fold_right insert_coin [] (List.filter (fun c => negb (snd c =? 0)%N) l).

(** types/dec_coin.go Validate: denominations strictly ascending (the rest holds
    already). *)
Fixpoint ascending (l : list (bytes * N)) : bool :=
  match l with
  | x :: ((y :: _) as l') => negb (bytes_leb (fst y) (fst x)) && ascending l'
  | _ => true
  end.

(** types/dec_coin.go ParseDecCoins. *)
Definition parse_dec_coins (bits : N) (s : bytes) : option (list (bytes * N)) :=
  match trim_space s with
  | [] => Some []
  | t => match parse_dec_coin_list bits (split_on (N2b 44) t) with
         | Some l => if ascending (sanitize l) then Some (sanitize l) else None
         | None => None
         end
  end.

(** types/int.go: integers of more than 255 bits panic. *)
Definition int_fits (z : Z) : bool := (Z.abs z <? 2 ^ 255)%Z.

(** types/coin.go ParseCoinsNormalized: every amount truncated to an integer (no
    base denomination is registered). *)
Definition parse_coins (bits : N) (s : bytes) : res sdk_coins :=
  match parse_dec_coins bits s with
  | None => Fail EAnon
  | Some l => let r := map (fun c => (fst c, Z.of_N (snd c / 10 ^ 18))) l in
              if forallb (fun c => int_fits (snd c)) r then Ok r else Panic
  end.

(** types/coin.go safeAdd. *)
Definition nonzero (l : sdk_coins) : sdk_coins := List.filter (fun c => negb (snd c =? 0)%Z) l.
Fixpoint sdk_add (a : sdk_coins) : sdk_coins -> res sdk_coins :=
  fix go (b : sdk_coins) : res sdk_coins :=
  match a, b with
  | [], _ => Ok (nonzero b)
  | _, [] => Ok (nonzero a)
  | (da, x) :: a', (db, y) :: b' =>
      if bytes_eqb da db then
        if int_fits (x + y)%Z then res_bind (sdk_add a' b') (fun r => Ok (nonzero [(da, (x + y)%Z)] ++ r))
        else Panic
      else if bytes_leb da db then res_bind (sdk_add a' b) (fun r => Ok (nonzero [(da, x)] ++ r))
      else res_bind (go b') (fun r => Ok (nonzero [(db, y)] ++ r))
  end.

(** types/coin.go IsAnyNegative and SafeSub. *)
Definition any_negative (l : sdk_coins) : bool := existsb (fun c => (snd c <? 0)%Z) l.
Definition sdk_sub (a b : sdk_coins) : res sdk_coins :=
  sdk_add a (map (fun c => (fst c, (- snd c)%Z)) b).

(** coin.go:10-24 newBalanceFromCoins. *)
Definition coins_text (l : list coin) : bytes :=
  join (str ",") (map (fun c => co_amount c ++ co_denom c) l).
Definition new_balance (bits : N) (l : list coin) : res sdk_coins := parse_coins bits (coins_text l).

(** coin.go:30-36 ToCoins (amounts printed by Int.String). *)
Definition to_coins (l : sdk_coins) : list coin :=
  map (fun c => {| co_denom := fst c;
                   co_amount := (if (snd c <? 0)%Z then str "-" else []) ++ itoa (Z.abs_N (snd c)) |}) l.

(** coin.go:40-57 SafeSub. *)
Definition safe_sub (bits : N) (initial to_sub : list coin) : res (list coin) :=
  res_bind (new_balance bits initial) (fun i =>
  res_bind (new_balance bits to_sub) (fun s =>
    if any_negative i || any_negative s then Fail EAnon
    else res_bind (sdk_sub i s) (fun r =>
      if any_negative r then Fail EAnon else Ok (to_coins r)))).

(** coin.go:61-75 SafeAdd. *)
Definition safe_add (bits : N) (initial to_add : list coin) : res (list coin) :=
  res_bind (new_balance bits initial) (fun i =>
  res_bind (new_balance bits to_add) (fun s =>
    if any_negative i || any_negative s then Fail EAnon
    else res_bind (sdk_add i s) (fun r => Ok (to_coins r)))).
