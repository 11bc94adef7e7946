(** * SpecPrinted: Hall texts whose second matrix symbol leaves out the direction (C85). *)
From Verif Require Import Base SpecXyz.
Open Scope string_scope.

(** the text starts with a direction mark *)
Definition starts_with_direction (s : string) : bool :=
  match s with
  | String c _ => existsb (Ascii.eqb c) ["x"; "y"; "z"; "'"; """"; "*"]%char
  | EmptyString => false
  end.
(** the third blank-separated word (after the lattice symbol and the first matrix symbol) is 2 or -2
    without a direction mark *)
Definition second_omits_direction (s : string) : bool :=
  match split_on " " s with
  | _ :: _ :: w :: _ =>
      let w := match w with String "-" r => r | _ => w end in
      match w with
      | String "2" r => negb (starts_with_direction r)
      | _ => false
      end
  | _ => false
  end.
