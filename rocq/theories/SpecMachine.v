(** * SpecMachine: sizes of integers (specification vocabulary of C45). *)
From Verif Require Import Base Notations Seitz.
Open Scope Z_scope.

(** at most [N] in absolute value: a number, every component of a vector, every entry of a
    3x3 matrix, all sixteen entries of a Seitz matrix *)
Definition sm (N z : Z) : Prop := -N <= z <= N.
Definition vsm (N : Z) (v : vec3) : Prop := sm N (vx v) /\ sm N (vy v) /\ sm N (vz v).
Definition msm (N : Z) (m : mat3) : Prop :=
  sm N (m11 m) /\ sm N (m12 m) /\ sm N (m13 m) /\ sm N (m21 m) /\ sm N (m22 m) /\ sm N (m23 m) /\
  sm N (m31 m) /\ sm N (m32 m) /\ sm N (m33 m).
Definition ssm (N : Z) (m : seitz) : Prop := msm N (rot m) /\ vsm N (tra m) /\ vsm N (bot m) /\ sm N (cor m).
(** [s] written [n] times *)
Fixpoint times (n : nat) (s : string) : string := match n with O => ""%string | S k => (s ++ times k s)%string end.
