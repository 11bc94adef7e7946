(** * Parser: the three hand-written parsers of the crate. *)
From Verif Require Import Base Notations Winnow.

(** ** src/hall_symbols/lattice_symbol/parser.rs *)
Definition lattice_chars : list ascii := ["P"; "A"; "B"; "C"; "I"; "R"; "F"]%char.
(** lattice_symbol/parser.rs:23-37 [parse_symbol_char] *)
Definition parse_symbol_char (s : string) : pres lattice :=
  match one_of lattice_chars s with
  | PErr r => PErr r
  | POk c r =>
      match c with
      | "P"%char => POk LP r | "A"%char => POk LA r | "B"%char => POk LB r
      | "C"%char => POk LC r | "I"%char => POk LI r | "R"%char => POk LR r
      | "F"%char => POk LF r
      | _ => PErr r
      end
  end.
(** lattice_symbol/parser.rs:9-21 [parse_lattice_symbol] *)
Definition parse_lattice_symbol (s : string) : pres lattice_symbol :=
  match literal "-" s with
  | POk _ r =>
      match parse_symbol_char r with POk c r' => POk (LS true c) r' | PErr r' => PErr r' end
  | PErr r =>
      match parse_symbol_char r with POk c r' => POk (LS false c) r' | PErr r' => PErr r' end
  end.

(** ** src/hall_symbols/matrix_symbol/parser.rs *)
(** matrix_symbol/parser.rs:69-88 [parse_sign_fold] *)
Definition sign_fold_of (t : string) : bool * nfold :=
  if String.eqb t "1" then (false, F1)
  else if String.eqb t "2" then (false, F2)
  else if String.eqb t "-2" then (true, F2)
  else if String.eqb t "3" then (false, F3)
  else if String.eqb t "-3" then (true, F3)
  else if String.eqb t "4" then (false, F4)
  else if String.eqb t "-4" then (true, F4)
  else if String.eqb t "6" then (false, F6)
  else if String.eqb t "-6" then (true, F6)
  else if String.eqb t "-1" then (true, F1)
  else (true, FInvalid).
(** matrix_symbol/parser.rs:69-88 [parse_sign_fold] *)
Definition parse_sign_fold (s : string) : pres (bool * nfold) :=
  match alt_literals ["1"; "-1"; "2"; "-2"; "3"; "-3"; "4"; "-4"; "6"; "-6"]%string (space0 s) with
  | POk t r => POk (sign_fold_of t) r
  | PErr r => PErr r
  end.

(** matrix_symbol/parser.rs:92 *)
Definition axis_chars : list ascii := ["x"; "y"; "z"; "'"; """"; "*"]%char.
(** matrix_symbol/parser.rs:94 *)
Definition escapable_chars : list ascii := [""""; "\"; "'"]%char.
(** matrix_symbol/parser.rs:90-118 [parse_axis] *)
Definition axis_of (t : string) : rot_axis * nfold_diag :=
  if String.eqb t "x" then (AxX, DiagNone)
  else if String.eqb t "y" then (AxY, DiagNone)
  else if String.eqb t "z" then (AxZ, DiagNone)
  else if String.eqb t "'" then (AxOmitted, SingleQuote)
  else if String.eqb t """" then (AxOmitted, DoubleQuote)
  else if String.eqb t "*" then (AxOmitted, Asterisk)
  else (AxOmitted, DiagNone).
(** matrix_symbol/parser.rs:90-118 [parse_axis] *)
Definition parse_axis (s : string) : pres (rot_axis * nfold_diag) :=
  match take_escaped axis_chars escapable_chars s with
  | PErr r => PErr r
  | POk t r =>
      match axis_of t with
      | (AxOmitted, DiagNone) => PErr r
      | ad => POk ad r
      end
  end.

(** matrix_symbol/parser.rs:128-129 *)
Definition sub_chars : list ascii := ["1"; "2"; "3"; "4"; "5"]%char.
(** matrix_symbol/parser.rs:134, 148-149 *)
Definition letter_chars : list ascii := ["a"; "b"; "c"; "n"; "u"; "v"; "w"; "d"]%char.
(** matrix_symbol/parser.rs:121-168 [parse_translations] *)
Definition parse_translations (s : string) : pres (nfold_sub * option (list tsym)) :=
  match one_of (sub_chars ++ letter_chars) s with   (* parse_peek: input untouched *)
  | PErr _ => PErr s
  | POk peeking _ =>
      if char_in sub_chars peeking then
        match one_of sub_chars s with
        | PErr r => PErr r
        | POk c r =>
            let (trs, r') := repeat0 letter_chars r in
            match map tsym_of_char trs with
            | [] => POk (sub_of_char c, None) r'
            | ts => POk (sub_of_char c, Some ts) r'
            end
        end
      else if char_in letter_chars peeking then
        let (trs, r) := repeat0 letter_chars s in
        POk (SubNone, Some (map tsym_of_char trs)) r
      else PErr s
  end.

(** matrix_symbol/parser.rs:15-67 [parse_hall_matrix_symbol].  The four builder chains are
    run through the builder model; their [.unwrap()]s are the [Panic] branch.  Outer
    [outcome] = may panic, inner [pres] = Ok/Err. *)
Definition build_unwrap (ss : list setter) (rest : string) : outcome (pres msym) :=
  match build (fold_left apply_setter ss new_builder) with
  | Some m => Done (POk m rest)
  | None => Panic "called `Result::unwrap()` on an `Err` value"
  end.
(** matrix_symbol/parser.rs:15-67 [parse_hall_matrix_symbol] = matrix_symbol/mod.rs:53-55 [MatrixSymbol::try_from_str] *)
Definition parse_hall_matrix_symbol (s : string) : outcome (pres msym) :=
  match parse_sign_fold s with
  | PErr r => Done (PErr r)
  | POk (sign, fold) r =>
      if sign && nfold_eqb fold FInvalid then Done (PErr r)
      else
        match parse_axis r with
        | POk (axis, diag) r1 =>
            match parse_translations r1 with
            | POk (sub, trs) r2 =>
                build_unwrap [SetMinus sign; SetFold fold; SetAxis axis; SetDiag diag;
                              SetSub sub; SetTrs trs] r2
            | PErr r2 =>
                build_unwrap [SetMinus sign; SetFold fold; SetAxis axis; SetDiag diag] r2
            end
        | PErr r1 =>
            match parse_translations r1 with
            | POk (sub, trs) r2 =>
                build_unwrap [SetMinus sign; SetFold fold; SetSub sub; SetTrs trs] r2
            | PErr r2 => build_unwrap [SetMinus sign; SetFold fold] r2
            end
        end
  end.

(** ** src/hall_symbols/origin_shift *)
(** origin_shift/mod.rs:17-21 [OriginShift] is a [vec3].
    origin_shift/mod.rs:34-45 [OriginShift::new]: [Range::contains] on [-11..12] *)
Definition shift_component (v : Z) : Z :=
  if negb ((- (STBN - 1) <=? v) && (v <? STBN)) then Z.rem v STBN + STBN else v.
(** origin_shift/mod.rs:34-45 [OriginShift::new] *)
Definition origin_shift_new (va vb vc : Z) : vec3 := vmap shift_component (V3 va vb vc).
(** origin_shift/mod.rs:23-27 [Default] *)
Definition origin_shift_default : vec3 := origin_shift_new 0 0 0.

(** origin_shift/parser.rs:11-38 [parse_origin_shift]: [None] is [Err]; a failed parse of
    the parenthesis is [Ok(default)].  The remaining input is not used by the caller.
    [numbers.try_into().unwrap()] is reached only with three numbers. *)
Definition parse_paren (s : string) : option (list Z) :=
  match literal "(" (space0 s) with
  | PErr _ => None
  | POk _ r =>
      match separated_1_3 r with
      | None => None
      | Some (ns, r') => match literal ")" r' with POk _ _ => Some ns | PErr _ => None end
      end
  end.
(** origin_shift/parser.rs:11-36 [parse_origin_shift] = origin_shift/mod.rs:30-32 [OriginShift::try_from_str] *)
Definition parse_origin_shift (s : string) : outcome (option vec3) :=
  match parse_paren s with
  | Some ns =>
      if Nat.eqb (List.length ns) 3 then
        match ns with
        | [va; vb; vc] => Done (Some (origin_shift_new va vb vc))
        | _ => Panic "called `Result::unwrap()` on an `Err` value"
        end
      else Done None
  | None => Done (Some origin_shift_default)
  end.

(** ** src/hall_symbols/parser.rs *)
(** src/hall_symbols/mod.rs:38-42 [HallSymbolNotation] *)
Record hall := Hall { h_lat : lattice_symbol; h_syms : list msym; h_shift : vec3 }.

(** parser.rs:36-56, the closure applied to the symbol at index [i] *)
Definition restore_one (folds : list nfold) (i : nat) (m : msym) : msym :=
  let m := if Nat.eqb i 0 && axis_eqb (ms_axis m) AxOmitted then set_ms_axis AxZ m else m in
  let m :=
    if Nat.eqb i 1 && nfold_eqb (ms_fold m) F2 then
      match nth (i - 1) folds FInvalid with   (* rotation_folds[i - 1], in range *)
      | F2 | F4 => set_ms_axis AxX m
      | F3 | F6 =>
          let m := if diag_eqb (ms_diag m) DiagNone then set_ms_diag SingleQuote m else m in
          set_ms_axis AxZ m
      | _ => m
      end
    else m in
  if Nat.eqb i 2 && nfold_eqb (ms_fold m) F3 then set_ms_diag Asterisk m else m.
(** [iter_mut().enumerate().for_each(..)] (parser.rs:37) *)
Fixpoint mapi_from {A B} (f : nat -> A -> B) (i : nat) (l : list A) : list B :=
  match l with [] => [] | x :: r => f i x :: mapi_from f (S i) r end.
(** parser.rs:25-57 [restore_information_in_matrix_symbols] *)
Definition restore (l : list msym) : list msym :=
  mapi_from (restore_one (map ms_fold l)) 0 l.

(** parser.rs:13-15: [while let Ok(symbol) = MatrixSymbol::try_from_str(input)].  [fuel]
    bounds the number of iterations. *)
Fixpoint parse_symbols (fuel : nat) (s : string) : outcome (list msym * string) :=
  match fuel with
  | O => OutOfFuel
  | S f =>
      match parse_hall_matrix_symbol s with
      | Done (POk m r) =>
          obind (parse_symbols f r) (fun '(ms, rest) => Done (m :: ms, rest))
      | Done (PErr r) => Done ([], r)
      | Panic w => Panic w
      | OutOfFuel => OutOfFuel
      end
  end.

(** parser.rs:10-23 [parse_hall_symbol] = mod.rs:56-59 [HallSymbolNotation::try_from_str];
    [Done None] is [Err]. The fuel given is the input length + 1. *)
Definition try_from_str (s : string) : outcome (option hall) :=
  match parse_lattice_symbol s with
  | PErr _ => Done None
  | POk lat r =>
      obind (parse_symbols (S (String.length r)) r) (fun '(ms, rest) =>
      obind (parse_origin_shift rest) (fun o =>
        match o with
        | None => Done None
        | Some sh => Done (Some (Hall lat (restore ms) sh))
        end))
  end.

(** ** Display *)
Definition digit_char (d : Z) : ascii := ascii_of_nat (Z.to_nat (d + 48)).
(** decimal text of a non-negative number; [fuel] digits at most *)
Fixpoint dec_digits (fuel : nat) (n : Z) (acc : string) : string :=
  match fuel with
  | O => acc
  | S f => let acc' := String (digit_char (n mod 10)) acc in
           if n / 10 =? 0 then acc' else dec_digits f (n / 10) acc'
  end.
(** [format!("{}", n)] for integers *)
Definition Z_text (n : Z) : string :=
  if n <? 0 then String "-"%char (dec_digits (Z.to_nat (Z.log2 (- n)) + 1) (- n) "")
  else dec_digits (Z.to_nat (Z.log2 n) + 1) n "".

(** derived equality of [OriginShift] (origin_shift/mod.rs:16) *)
Definition shift_eqb := veqb.
(** origin_shift/mod.rs:67-71 *)
Definition shift_text (v : vec3) : string :=
  ("(" ++ Z_text (vx v) ++ " " ++ Z_text (vy v) ++ " " ++ Z_text (vz v) ++ ")")%string.
(** src/hall_symbols/mod.rs:214-230 [Display for HallSymbolNotation] *)
Definition hall_text (h : hall) : string :=
  (lattice_symbol_text (h_lat h) ++ " " ++ sjoin " " (map msym_text (h_syms h))
   ++ (if negb (shift_eqb (h_shift h) origin_shift_default)
       then " " ++ shift_text (h_shift h) else ""))%string.

Example parse_ex1 : try_from_str "P 61 2 (0 0 -1)" =
  Done (Some (Hall (LS false LP)
     [MS false F6 Sub1 DiagNone AxZ None; MS false F2 SubNone SingleQuote AxZ None]
     (V3 0 0 (-1)))).
Proof. vm_compute. reflexivity. Qed.
