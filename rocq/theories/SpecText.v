(** * SpecText: the written form of Hall symbols (specification vocabulary).

    Strings are described from the outside, by how they are put together; nothing here
    refers to the parsers.  A text is a lattice symbol followed by a list of chunks (one
    per matrix symbol) and a rest. *)
From Verif Require Import Base Notations.
Open Scope string_scope.

(** [s] does not start with one of the characters [cs] *)
Definition starts_with (cs : list ascii) (s : string) : Prop :=
  match s with EmptyString => False | String c _ => In c cs end.

Inductive blank := Space | Tab.
Definition blank_char (b : blank) : ascii :=
  match b with Space => " "%char | Tab => "009"%char end.
Fixpoint chars {A} (f : A -> ascii) (l : list A) (rest : string) : string :=
  match l with [] => rest | a :: r => String (f a) (chars f r rest) end.
Definition blanks (l : list blank) : string := chars blank_char l "".

(** the lattice symbol *)
Definition lattice_char (l : lattice) : ascii :=
  match l with
  | LP => "P" | LA => "A" | LB => "B" | LC => "C" | LI => "I" | LR => "R" | LF => "F"
  end%char.
Definition sign (minus : bool) : string := if minus then "-" else "".

(** the direction marks that can follow the fold *)
Inductive mark := MX | MY | MZ | MQuote | MDoubleQuote | MStar.
Definition mark_char (m : mark) : ascii :=
  match m with
  | MX => "x" | MY => "y" | MZ => "z" | MQuote => "'" | MDoubleQuote => """" | MStar => "*"
  end%char.
(** the reader also swallows backslash escapes in front of the subscript *)
Inductive escaped := EQuote | EDoubleQuote | EBackslash.
Definition escaped_char (e : escaped) : ascii :=
  match e with EQuote => "'" | EDoubleQuote => """" | EBackslash => "\" end%char.
Inductive piece := Mark (m : mark) | Escape (e : escaped).
Fixpoint pieces (l : list piece) (rest : string) : string :=
  match l with
  | [] => rest
  | Mark m :: r => String (mark_char m) (pieces r rest)
  | Escape e :: r => String "\"%char (String (escaped_char e) (pieces r rest))
  end.

Definition fold_text (f : nfold) : string :=
  match f with
  | FInvalid => "?" | F1 => "1" | F2 => "2" | F3 => "3" | F4 => "4" | F6 => "6"
  end.
Definition subscript (s : nfold_sub) : string :=
  match s with
  | SubNone => "" | Sub1 => "1" | Sub2 => "2" | Sub3 => "3" | Sub4 => "4" | Sub5 => "5"
  end.
Definition letter_char (t : tsym) : ascii :=
  match t with
  | TInvalid => "?" | TA => "a" | TB => "b" | TC => "c" | TN => "n"
  | TU => "u" | TV => "v" | TW => "w" | TD => "d"
  end%char.

(** one matrix symbol as written: blanks, sign, fold, marks, a stray backslash, subscript,
    letters *)
Record chunk := Chunk {
  k_blanks : list blank; k_minus : bool; k_fold : nfold; k_pieces : list piece;
  k_stray : bool; k_sub : nfold_sub; k_letters : list tsym }.
Definition chunk_text (k : chunk) : string :=
  blanks (k_blanks k) ++ sign (k_minus k) ++ fold_text (k_fold k)
  ++ pieces (k_pieces k) (if k_stray k then "\" else "") ++ subscript (k_sub k)
  ++ chars letter_char (k_letters k) "".
Fixpoint chunks_text (ks : list chunk) (rest : string) : string :=
  match ks with [] => rest | k :: r => chunk_text k ++ chunks_text r rest end.

Definition letters8 : list ascii := ["a"; "b"; "c"; "n"; "u"; "v"; "w"; "d"]%char.
Definition subs5 : list ascii := ["1"; "2"; "3"; "4"; "5"]%char.
Definition marks6 : list ascii := ["x"; "y"; "z"; "'"; """"; "*"]%char.
Definition escapes3 : list ascii := ["'"; """"; "\"]%char.

(** [rest] does not carry on the chunk [k]: the chunk is as long as it can be *)
Definition stops (k : chunk) (rest : string) : Prop :=
  ~ starts_with letters8 rest /\
  (k_letters k = [] -> k_sub k = SubNone ->
     ~ starts_with subs5 rest /\
     if k_stray k then ~ starts_with escapes3 rest
     else ~ starts_with ("\"%char :: marks6) rest).
Definition chunk_ok (k : chunk) : Prop :=
  k_fold k <> FInvalid /\ ~ In TInvalid (k_letters k).

(** [s] starts, after blanks, with a matrix symbol *)
Definition starts_symbol (s : string) : Prop :=
  exists bs m f r, f <> FInvalid /\ s = blanks bs ++ sign m ++ fold_text f ++ r.

(** [ks] are chunks, each as long as it can be, and no further chunk starts at [rest] *)
Fixpoint chunked (ks : list chunk) (rest : string) : Prop :=
  match ks with
  | [] => ~ starts_symbol rest
  | k :: r => chunk_ok k /\ stops k (chunks_text r rest) /\ chunked r rest
  end.

(** the direction a written chunk names: exactly one mark, or none that counts *)
Definition mark_axis (ps : list piece) (stray : bool) : rot_axis * nfold_diag :=
  match ps, stray with
  | [Mark MX], false => (AxX, DiagNone)
  | [Mark MY], false => (AxY, DiagNone)
  | [Mark MZ], false => (AxZ, DiagNone)
  | [Mark MQuote], false => (AxOmitted, SingleQuote)
  | [Mark MDoubleQuote], false => (AxOmitted, DoubleQuote)
  | [Mark MStar], false => (AxOmitted, Asterisk)
  | _, _ => (AxZ, DiagNone)
  end.
(** the components a chunk spells out, before Hall's default-direction rules *)
Definition chunk_symbol (k : chunk) : msym :=
  MS (k_minus k) (k_fold k) (k_sub k)
     (snd (mark_axis (k_pieces k) (k_stray k))) (fst (mark_axis (k_pieces k) (k_stray k)))
     (match k_letters k with [] => None | ls => Some ls end).

(** ** Integers and origin shifts *)
Definition digit (d : Z) : ascii := ascii_of_nat (Z.to_nat (48 + d)).
(** [digits_of s n v]: [s] is a string of decimal digits; put behind digits of value [n] it
    makes the value [v] *)
Inductive more_digits : string -> Z -> Z -> Prop :=
| md_nil n : more_digits "" n n
| md_cons d s n v : (0 <= d <= 9)%Z -> more_digits s (10 * n + d) v ->
    more_digits (String (digit d) s) n v.
(** an integer literal of value [z] that fits an i32: optional sign, no leading zero *)
Inductive int_literal : string -> Z -> Prop :=
| il_zero : int_literal "0" 0
| il_pos d s v : (1 <= d <= 9)%Z -> more_digits s d v -> (v <= 2147483647)%Z ->
    int_literal (String (digit d) s) v
| il_plus d s v : (1 <= d <= 9)%Z -> more_digits s d v -> (v <= 2147483647)%Z ->
    int_literal (String "+" (String (digit d) s)) v
| il_minus d s v : (1 <= d <= 9)%Z -> more_digits s d v -> (v <= 2147483648)%Z ->
    int_literal (String "-" (String (digit d) s)) (- v).

(** integer literals with non-empty blanks between them *)
Inductive int_list : string -> list Z -> Prop :=
| in_one t a : int_literal t a -> int_list t [a]
| in_more t a b bs s l : int_literal t a -> int_list s l ->
    int_list (t ++ blanks (b :: bs) ++ s) (a :: l).
(** [s] starts, after blanks, with a parenthesised list of these integers *)
Definition paren_list (s : string) (l : list Z) : Prop :=
  exists bs t tail, s = blanks bs ++ "(" ++ t ++ ")" ++ tail /\ int_list t l.
(** what makes the reader reject: a complete list of one or two numbers *)
Definition short_list (s : string) : Prop :=
  exists l, paren_list s l /\ (List.length l = 1%nat \/ List.length l = 2%nat).
(** the origin shift a rest stands for: three numbers, otherwise none *)
Definition shift_read (s : string) (sh : option (Z * Z * Z)) : Prop :=
  match sh with
  | Some (a, b, c) => paren_list s [a; b; c]
  | None => forall a b c, ~ paren_list s [a; b; c]
  end.
(** a shift component as stored: small ones as written, others brought into 1..23 *)
Definition stored (v w : Z) : Prop :=
  (-11 <= v <= 11 /\ w = v)%Z \/
  (~ (-11 <= v <= 11) /\ 1 <= w <= 23 /\ exists k, w - v = 12 * k /\ (0 <= v -> 12 <= w) /\ (v < 0 -> w <= 12))%Z.

(** ** Hall's default directions *)
(** the symbol at index [i] of the list [l] of written symbols, after the defaults *)
Definition direction_default (l : list msym) (i : nat) (m : msym) : rot_axis * nfold_diag :=
  match i with
  | 0%nat => (match ms_axis m with AxOmitted => AxZ | a => a end, ms_diag m)
  | 1%nat =>
      match ms_fold m, option_map ms_fold (nth_error l 0) with
      | F2, Some F2 | F2, Some F4 => (AxX, ms_diag m)
      | F2, Some F3 | F2, Some F6 =>
          (AxZ, match ms_diag m with DiagNone => SingleQuote | d => d end)
      | _, _ => (ms_axis m, ms_diag m)
      end
  | 2%nat => (ms_axis m, match ms_fold m with F3 => Asterisk | _ => ms_diag m end)
  | _ => (ms_axis m, ms_diag m)
  end.
(** [l'] is the list [l] with only directions changed, as the rules say *)
Definition defaulted (l l' : list msym) : Prop :=
  List.length l' = List.length l /\
  forall i m, nth_error l i = Some m ->
    let (a, d) := direction_default l i m in
    nth_error l' i = Some (MS (ms_minus m) (ms_fold m) (ms_sub m) d a (ms_trs m)).
