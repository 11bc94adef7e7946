(** * SpecFloat64: the rational value of a binary64 number (vocabulary for C53). *)
From Coq Require Import QArith Qabs SpecFloat.
Open Scope Q_scope.

(** the value of a finite number *)
Definition float_value (f : spec_float) : option Q :=
  match f with
  | S754_zero _ => Some 0
  | S754_finite s m e => Some ((if s then -1 else 1) * inject_Z (Z.pos m) * Qpower 2 e)
  | _ => None
  end.
(** [f] has exactly the value [q] *)
Definition exactly (f : spec_float) (q : Q) : Prop := exists v, float_value f = Some v /\ v == q.
(** [f] is [q] up to one part in 2^53 *)
Definition nearly (f : spec_float) (q : Q) : Prop :=
  exists v, float_value f = Some v /\ inject_Z (2 ^ 53) * Qabs (v - q) <= Qabs v.
