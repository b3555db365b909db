(** Byte strings, Go errors and outcomes shared by all layers.

    Go [string] and [[]byte] are both modelled by [bytes] (lists of 8-bit
    bytes). Simplification: Go's distinction between a nil and an empty slice is
    dropped except where the code tests for it (then an [option] is used). *)
From Coq Require Import Strings.Byte Strings.String NArith ZArith List Bool.
From stdpp Require Import base decidable countable list gmap.

Notation byte := Byte.byte.
Notation bytes := (list Byte.byte).

Global Instance byte_eq_dec : EqDecision byte := Byte.byte_eq_dec.

Definition b2N (b : byte) : N := Byte.to_N b.
(** Go conversion [byte(v)] of an unsigned integer: keeps the low eight bits. *)
Definition N2b (n : N) : byte :=
  match Byte.of_N (n mod 256) with Some b => b | None => Byte.x00 end.

Global Program Instance byte_countable : Countable byte :=
  inj_countable b2N Byte.of_N _.
Next Obligation. intros x. apply Byte.of_to_N. Qed.

(** String literals as bytes. *)
Definition str (s : string) : bytes := list_byte_of_string s.

Definition blen (b : bytes) : N := N.of_nat (length b).

(** Go [bytes.Compare(a, b) <= 0]: lexicographic order on unsigned bytes. *)
Fixpoint bytes_leb (a b : bytes) : bool :=
  match a, b with
  | [], _ => true
  | _ :: _, [] => false
  | x :: a', y :: b' =>
      if (b2N x <? b2N y)%N then true
      else if (b2N y <? b2N x)%N then false
      else bytes_leb a' b'
  end.

(** Go [bytes.HasPrefix]. *)
Fixpoint has_prefix (p b : bytes) : bool :=
  match p, b with
  | [], _ => true
  | _ :: _, [] => false
  | x :: p', y :: b' => if decide (x = y) then has_prefix p' b' else false
  end.

Definition bytes_eqb (a b : bytes) : bool := bool_decide (a = b).

(** The sentinel errors of the repository that some code distinguishes with
    [errors.Is]. runtime/errors/errors.go:15-21, runtime/orm/errors.go:5-8,
    runtime/orm/schema/errors.go:5-11, runtime/orm/indexes/errors.go:5-7,
    runtime/router.go:12-13. *)
Inductive sentinel :=
| RtBadRequest | RtNotFound | RtAlreadyExists | RtConditionNotMet | RtUnauthorized
| OrmNotFound | OrmAlreadyExists
| SchemaNotFound | SchemaAlreadyExists | SchemaSecondaryKey
| SchemaFieldTypeMismatch | SchemaBadDefinition
| IndexNoResults
| RouterAlreadyRegistered | RouterNotFound.

Global Instance sentinel_eq_dec : EqDecision sentinel.
Proof. solve_decision. Defined.

(** A Go error value, up to its text: a sentinel, an anonymous error
    ([errors.New], [fmt.Errorf] without [%w]), or an error that wraps another
    one ([fmt.Errorf] with [%w]). *)
Inductive goerr :=
| ESent (s : sentinel)
| EAnon
| EWrap (e : goerr).

Global Instance goerr_eq_dec : EqDecision goerr.
Proof. solve_decision. Defined.

(** Go [errors.Is(err, target)] for a sentinel target. *)
Fixpoint errors_is (e : goerr) (t : sentinel) : bool :=
  match e with
  | ESent s => bool_decide (s = t)
  | EAnon => false
  | EWrap e' => errors_is e' t
  end.

(** Outcome of a Go call: a value, an error, a panic, or (only for calls that
    recurse through the runtime) the fuel of the interpreter being used up. *)
Inductive res (A : Type) :=
| Ok (a : A)
| Fail (e : goerr)
| Panic
| OutOfFuel.
Arguments Ok {A}. Arguments Fail {A}. Arguments Panic {A}. Arguments OutOfFuel {A}.

Definition res_bind {A B} (r : res A) (f : A -> res B) : res B :=
  match r with
  | Ok a => f a
  | Fail e => Fail e
  | Panic => Panic
  | OutOfFuel => OutOfFuel
  end.

Definition is_ok {A} (r : res A) : bool :=
  match r with Ok _ => true | _ => false end.
