(** * Winnow: the parser combinators of winnow 0.7 that the crate uses.

    The crate's dependency sources are not in /repo; this file models their documented
    behaviour (recorded in DESIGN.md as part of the trusted base).  The input [&mut &str]
    is a byte string; every character the parsers look for is ASCII, so working on the
    UTF-8 bytes gives the same results as working on [char]s.  A parser returns its
    value and the remaining input, or an error together with the input position at which
    the error left the [&mut &str] (winnow does not rewind on errors except in [alt],
    [opt], [verify], [repeat], [separated]). *)
From Verif Require Import Base.

(** [ModalResult<A>] together with the input left in the [&mut &str] *)
Inductive pres (A : Type) : Type :=
| POk (a : A) (rest : string)
| PErr (rest : string).
Arguments POk {A} a rest.
Arguments PErr {A} rest.

(** [str::strip_prefix] *)
Fixpoint strip_prefix (p s : string) : option string :=
  match p, s with
  | EmptyString, _ => Some s
  | String a p', String b s' => if Ascii.eqb a b then strip_prefix p' s' else None
  | String _ _, EmptyString => None
  end.

(** winnow::token::literal (a [&str] used as a parser) *)
Definition literal (p : string) (s : string) : pres string :=
  match strip_prefix p s with
  | Some r => POk p r
  | None => PErr s
  end.

(** winnow::combinator::alt over literals: first match wins, input is reset on failure *)
Fixpoint alt_literals (ps : list string) (s : string) : pres string :=
  match ps with
  | [] => PErr s
  | p :: r => match strip_prefix p s with Some rest => POk p rest | None => alt_literals r s end
  end.

(** [[char; N]] used as a set of characters *)
Definition char_in (cs : list ascii) (c : ascii) : bool := existsb (Ascii.eqb c) cs.

(** winnow::token::one_of *)
Definition one_of (cs : list ascii) (s : string) : pres ascii :=
  match s with
  | String c r => if char_in cs c then POk c r else PErr s
  | EmptyString => PErr s
  end.

(** the characters of winnow::ascii::space0: blank and tab *)
Definition is_space (c : ascii) : bool := char_in [" "%char; "009"%char] c.

(** winnow::ascii::space0: blanks and tabs, never fails; returns the rest only *)
Fixpoint space0 (s : string) : string :=
  match s with
  | String c r => if is_space c then space0 r else s
  | EmptyString => EmptyString
  end.

(** winnow::ascii::space1: at least one; [None] is failure *)
Definition space1 (s : string) : option string :=
  match s with
  | String c r => if is_space c then Some (space0 r) else None
  | EmptyString => None
  end.

(** winnow::combinator::repeat(0.., one_of(cs)): greedy, never fails *)
Fixpoint repeat0 (cs : list ascii) (s : string) : list ascii * string :=
  match s with
  | String c r =>
      if char_in cs c then let (l, rest) := repeat0 cs r in (c :: l, rest) else ([], s)
  | EmptyString => ([], s)
  end.

(** winnow [AsChar::is_dec_digit] *)
Definition digits : list ascii :=
  ["0"; "1"; "2"; "3"; "4"; "5"; "6"; "7"; "8"; "9"]%char.
(** the first digit of a number of winnow::ascii::dec_int: 1 to 9 *)
Definition digits19 : list ascii :=
  ["1"; "2"; "3"; "4"; "5"; "6"; "7"; "8"; "9"]%char.
(** the value of a decimal digit *)
Definition digit_val (c : ascii) : Z := Z.of_nat (nat_of_ascii c) - 48.
(** [str::parse] of decimal digits, without the range check (made in [dec_int]) *)
Definition digits_val (acc : Z) (ds : list ascii) : Z :=
  fold_left (fun a c => 10 * a + digit_val c) ds acc.

(** [i32::MIN] *)
Definition i32_min : Z := -2147483648.
(** [i32::MAX] *)
Definition i32_max : Z := 2147483647.
(** a value that [str::parse::<i32>] accepts *)
Definition in_i32 (z : Z) : bool := (i32_min <=? z) && (z <=? i32_max).

(** winnow::ascii::dec_int::<_, i32, _>: an optional sign followed by a non-zero digit and
    more digits, or the single digit 0; fails when the value is not an [i32]. [None] is
    failure. *)
Definition dec_int (s : string) : option (Z * string) :=
  let '(neg, body) :=
    match s with
    | String "-"%char r => (true, r)
    | String "+"%char r => (false, r)
    | _ => (false, s)
    end in
  match body with
  | String c r =>
      if char_in digits19 c then
        let (ds, rest) := repeat0 digits r in
        let v := digits_val (digit_val c) ds in
        let z := if neg then - v else v in
        if in_i32 z then Some (z, rest) else None
      else
        match s with
        | String "0"%char r0 => Some (0, r0)
        | _ => None
        end
  | EmptyString => None
  end.

(** winnow::combinator::separated(1..=3, dec_int, space1): after the first element, each
    further "separator element" pair is taken only when both succeed (otherwise the input
    is reset to before the separator), up to three elements. *)
Definition sep_next (s : string) : option (Z * string) :=
  match space1 s with
  | Some r => dec_int r
  | None => None
  end.
(** origin_shift/parser.rs:14: [separated(1..=3, dec_int, space1)] *)
Definition separated_1_3 (s : string) : option (list Z * string) :=
  match dec_int s with
  | None => None
  | Some (a, s1) =>
      match sep_next s1 with
      | None => Some ([a], s1)
      | Some (b, s2) =>
          match sep_next s2 with
          | None => Some ([a; b], s2)
          | Some (c, s3) => Some ([a; b; c], s3)
          end
      end
  end.

(** winnow::ascii::take_escaped(normal, '\\', escapable): greedy; an escape character not
    followed by an escapable one is an error that leaves the input after the escape
    character.  Returns the consumed slice. *)
Fixpoint take_escaped (normal esc : list ascii) (s : string) : pres string :=
  match s with
  | EmptyString => POk EmptyString EmptyString
  | String c r =>
      if char_in normal c then
        match take_escaped normal esc r with
        | POk t rest => POk (String c t) rest
        | PErr rest => PErr rest
        end
      else if Ascii.eqb c "\"%char then
        match r with
        | String e r' =>
            if char_in esc e then
              match take_escaped normal esc r' with
              | POk t rest => POk (String c (String e t)) rest
              | PErr rest => PErr rest
              end
            else PErr r
        | EmptyString => PErr r
        end
      else POk EmptyString s
  end.
