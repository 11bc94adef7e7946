(** * SpecPretty: a text without its layout (C103). *)
From Coq Require Import Bool String Ascii List.
Import ListNotations.
Open Scope string_scope.
Open Scope bool_scope.

(** blanks and line ends *)
Definition blank (c : ascii) : bool := Ascii.eqb c " " || Ascii.eqb c "010".
Definition closing (s : string) : bool :=
  match s with String c _ => existsb (Ascii.eqb c) ["}"; ")"; "]"]%char | EmptyString => false end.
(** without blanks, line ends, and commas that stand directly before a closing bracket (but for
    blanks and line ends) *)
Fixpoint without_layout (s : string) : string :=
  match s with
  | EmptyString => EmptyString
  | String c r =>
      let w := without_layout r in
      if blank c then w else if Ascii.eqb c "," && closing w then w else String c w
  end.
(** the multi-line form of a text without layout: every field or entry on a line of its own,
    indented by four blanks per open bracket and followed by a comma; a blank after a colon and
    before an opening brace; [] stays as it is.  [d]: brackets open so far *)
Fixpoint blanks (n : nat) : string := match n with O => EmptyString | S k => String " " (blanks k) end.
Definition line_end (d : nat) : string := String "010" (blanks (4 * d)).
Definition opening (c : ascii) : bool := existsb (Ascii.eqb c) ["{"; "("; "["]%char.
Fixpoint spread (d : nat) (s : string) : string :=
  match s with
  | EmptyString => EmptyString
  | String c r =>
      if opening c then
        (if Ascii.eqb c "{" then " " else "") ++ String c
          (match r with
           | String e r' => if closing r then String e (spread d r') else line_end (S d) ++ spread (S d) r
           | EmptyString => EmptyString
           end)
      else if closing s then "," ++ line_end (pred d) ++ String c (spread (pred d) r)
      else if Ascii.eqb c "," then "," ++ line_end d ++ spread d r
      else if Ascii.eqb c ":" then ": " ++ spread d r
      else String c (spread d r)
  end%string.
