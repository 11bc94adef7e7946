(** * F64Mod: the remainder of two [f64] and the (crate-private, unused) [positive_mod_stbn_f64].
    Source: src/utils/mod.rs:13-21. *)
From Coq Require Import SpecFloat.
From Verif Require Import Base Notations Seitz F64.
Open Scope Z_scope.

(** Rust [f64 % f64]: the exact remainder with the sign of the first operand (C [fmod]) *)
Definition frem (x y : f64) : f64 :=
  match x, y with
  | S754_nan, _ | _, S754_nan | S754_infinity _, _ | _, S754_zero _ => S754_nan
  | S754_zero s, _ => S754_zero s
  | S754_finite _ _ _, S754_infinity _ => x
  | S754_finite s m e, S754_finite _ m' e' =>
      let c := Z.min e e' in
      let r := (Z.pos m * 2 ^ (e - c)) mod (Z.pos m' * 2 ^ (e' - c)) in
      binary_normalize prec64 emax64 (if s then - r else r) c s
  end.
(** Rust [f64 < f64] *)
Definition fltb (x y : f64) : bool := match SFcompare x y with Some Lt => true | _ => false end.
(** src/utils/mod.rs:15-21 *)
Definition positive_mod_stbn_f64 (val : f64) : f64 :=
  if fltb val (f64_of_Z 0) then fadd (frem val (f64_of_Z 12)) (f64_of_Z 12) else frem val (f64_of_Z 12).
