(** bech32.ConvertAndEncode of cosmos-sdk (types/bech32, v0.42.4, a library
    x/authn/tx/decoder.go:121 calls), after the specification BIP 173: the data
    in groups of five bits, a checksum, and characters. *)
From Coq Require Import NArith List Bool String.
From stdpp Require Import base list.
From Verif.Model Require Import Bytes.
Local Open Scope N_scope.

(** The bits of a byte, the highest first; a number from bits. *)
Definition byte_bits (b : byte) : list bool :=
  map (N.testbit (b2N b)) [7; 6; 5; 4; 3; 2; 1; 0].
Definition bits_number (l : list bool) : N :=
  fold_left (fun (acc : N) (b : bool) => 2 * acc + if b then 1 else 0) l 0.

(** ConvertBits(data, 8, 5, true): groups of five bits, the last one filled with
    zeros. *)
Fixpoint groups (l : list bool) : list (list bool) :=
  match l with
  | a :: b :: c :: d :: e :: r => [a; b; c; d; e] :: groups r
  | [] => []
  | [a] => [[a; false; false; false; false]]
  | [a; b] => [[a; b; false; false; false]]
  | [a; b; c] => [[a; b; c; false; false]]
  | [a; b; c; d] => [[a; b; c; d; false]]
  end.
Definition convert_bits (data : bytes) : list N := map bits_number (groups (concat (map byte_bits data))).

Definition generators : list (N * N) :=
  [(0, 0x3b6a57b2); (1, 0x26508e6d); (2, 0x1ea119fa); (3, 0x3d4233dd); (4, 0x2a1462b3)].
Definition polymod_step (chk v : N) : N :=
  let top := N.shiftr chk 25 in
  fold_left (fun acc g => if N.testbit top (fst g) then N.lxor acc (snd g) else acc)
    generators (N.lxor (N.shiftl (N.land chk 0x1ffffff) 5) v).
Definition polymod (values : list N) : N := fold_left polymod_step values 1.
Definition hrp_expand (hrp : bytes) : list N :=
  map (fun c => N.shiftr (b2N c) 5) hrp ++ [0] ++ map (fun c => N.land (b2N c) 31) hrp.
Definition checksum (hrp : bytes) (data : list N) : list N :=
  let p := N.lxor (polymod (hrp_expand hrp ++ data ++ [0; 0; 0; 0; 0; 0])) 1 in
  map (fun i => N.land (N.shiftr p (5 * (5 - i))) 31) [0; 1; 2; 3; 4; 5].

Definition charset : bytes := str "qpzry9x8gf2tvdw0s3jn54khce6mua7l".
Definition bech32_char (v : N) : byte := nth (N.to_nat v) charset Byte.x00.

(** Encode; groups of five bits are below 32, so that it does not fail. *)
Definition bech32 (hrp data : bytes) : bytes :=
  let d := convert_bits data in
  hrp ++ str "1" ++ map bech32_char (d ++ checksum hrp d).
