(** * SpecDebug: vocabulary for C81: the numbers written in a text, and the entries of an
    operation column by column. *)
From Verif Require Import Base Seitz Spec SpecText.
Open Scope string_scope.

(** a character of a written number *)
Definition numeral (c : ascii) : bool := existsb (Ascii.eqb c) (list_ascii_of_string "0123456789-").
(** the maximal runs of such characters, from left to right *)
Fixpoint numerals (s : string) : list string :=
  match s with
  | EmptyString => []
  | String c r =>
      if numeral c then
        match r with
        | EmptyString => [String c EmptyString]
        | String d _ =>
            if numeral d then match numerals r with w :: ws => String c w :: ws | [] => [String c EmptyString] end
            else String c EmptyString :: numerals r
        end
      else numerals r
  end.
(** the sixteen entries, column after column *)
Definition columns (m : seitz) : list Z :=
  let R := rot m in let t := tra m in let b := bot m in
  [m11 R; m21 R; m31 R; vx b;  m12 R; m22 R; m32 R; vy b;  m13 R; m23 R; m33 R; vz b;  vx t; vy t; vz t; cor m].
Definition coordinates (v : vec3) : list Z := [vx v; vy v; vz v].
