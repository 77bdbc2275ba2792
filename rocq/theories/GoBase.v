(** Go base notions used by the model: machine integers, results of calls,
    a few functions of the Go standard library on strings. *)
From Coq Require Export ZArith Ascii String Bool List.
From Coq Require Import DecimalString DecimalZ.
Export ListNotations.
Open Scope list_scope.
Open Scope Z_scope.

(** Go [int] on a 64-bit platform: two's complement arithmetic.
    (Go spec, "Integer overflow"; used e.g. by
    pkg/core/evaluator/eval_infix_expression.go:80-86.) *)
Definition two63 : Z := 9223372036854775808.
Definition two64 : Z := 18446744073709551616.
Definition min_int : Z := - two63.
Definition max_int : Z := two63 - 1.
Definition wrap64 (z : Z) : Z := (z + two63) mod two64 - two63.
Definition in_int64 (z : Z) : Prop := min_int <= z <= max_int.
Definition in_int64b (z : Z) : bool := (min_int <=? z) && (z <=? max_int).

(** What a Go call can do: return a value, return an error (only its text is
    kept), or panic (only a description is kept). *)
Inductive outcome (A : Type) : Type :=
| Ok (a : A)
| Err (msg : string)
| Panic (msg : string).
Arguments Ok {A} a.
Arguments Err {A} msg.
Arguments Panic {A} msg.

(** [fmt.Sprintf("%d", z)]. *)
Definition itoa (z : Z) : string := NilEmpty.string_of_int (Z.to_int z).

(** [strings.Join(elems, sep)]. *)
Fixpoint join (sep : string) (l : list string) : string :=
  match l with
  | [] => ""
  | [s] => s
  | s :: rest => s ++ sep ++ join sep rest
  end%string.

(** Sum of Go ints in a loop [sum += v]. *)
Definition sum64 (l : list Z) : Z := fold_left (fun acc v => wrap64 (acc + v)) l 0.
