(** Vocabulary of C77. *)
From Coq Require Import ZArith.
From Verif Require Import IntervalModel.
Open Scope Z_scope.

(** The wait in nanoseconds as a fraction: numerator, denominator. *)
Definition nanos (w : wait) : Z * Z :=
  match w with
  | WNano n => (n, 1)
  | WMilli n => (n * 1000000, 1)
  | WSec x => (mant x * 2 ^ Z.max (expo x) 0 * 1000000000, 2 ^ Z.max (- expo x) 0)
  end.
(** [a/b] is within [n] of the interval [d] (microseconds): -n < a/b - 1000 d < n, in
    nanoseconds. *)
Definition within (n d : Z) (w : wait) : Prop := let '(a, b) := nanos w in Z.abs (a - d * 1000 * b) < n * b.
Definition exact (d : Z) (w : wait) : Prop := let '(a, b) := nanos w in a = d * 1000 * b.
Definition too_short (d : Z) (w : wait) : Prop := let '(a, b) := nanos w in a < d * 1000 * b.
Definition negative (w : wait) : Prop := let '(a, b) := nanos w in a < 0.

Definition day : Z := 24 * 3600 * 1000000.
