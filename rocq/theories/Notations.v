(** * Notations: the enums of the crate and their text forms. *)
From Verif Require Import Base.

(** src/hall_symbols/matrix_symbol/notations/mod.rs:4-12 [NFold] *)
Inductive nfold := FInvalid | F1 | F2 | F3 | F4 | F6.
(** notations/mod.rs:28-36 [NFoldSub] *)
Inductive nfold_sub := SubNone | Sub1 | Sub2 | Sub3 | Sub4 | Sub5.
(** notations/mod.rs:78-84 [NFoldDiag] *)
Inductive nfold_diag := DiagNone | SingleQuote | DoubleQuote | Asterisk.
(** notations/mod.rs:98-104 [RotationAxis] *)
Inductive rot_axis := AxOmitted | AxX | AxY | AxZ.
(** notations/mod.rs:118-130 [RotationType] *)
Inductive rot_type := RE | RN2 | RN3 | RN4 | RN6 | RI | RM | RM3 | RM4 | RM6.
(** src/hall_symbols/translation_symbol.rs:6-16 [TranslationSymbol] *)
Inductive tsym := TInvalid | TA | TB | TC | TN | TU | TV | TW | TD.
(** src/hall_symbols/lattice_symbol/mod.rs:86-94 [Lattices] *)
Inductive lattice := LP | LA | LB | LC | LI | LR | LF.

(** [matches!(.., NFold::..)] and the derived equality (notations/mod.rs:3) *)
Definition nfold_eqb (a b : nfold) : bool :=
  match a, b with
  | FInvalid, FInvalid | F1, F1 | F2, F2 | F3, F3 | F4, F4 | F6, F6 => true
  | _, _ => false
  end.
(** [matches!(.., RotationAxis::..)] and the derived equality (notations/mod.rs:97) *)
Definition axis_eqb (a b : rot_axis) : bool :=
  match a, b with
  | AxOmitted, AxOmitted | AxX, AxX | AxY, AxY | AxZ, AxZ => true
  | _, _ => false
  end.
(** [matches!(.., NFoldDiag::..)] and the derived equality (notations/mod.rs:77) *)
Definition diag_eqb (a b : nfold_diag) : bool :=
  match a, b with
  | DiagNone, DiagNone | SingleQuote, SingleQuote
  | DoubleQuote, DoubleQuote | Asterisk, Asterisk => true
  | _, _ => false
  end.
(** the derived equality of [RotationType] (notations/mod.rs:117) *)
Definition rtype_eqb (a b : rot_type) : bool :=
  match a, b with
  | RE, RE | RN2, RN2 | RN3, RN3 | RN4, RN4 | RN6, RN6
  | RI, RI | RM, RM | RM3, RM3 | RM4, RM4 | RM6, RM6 => true
  | _, _ => false
  end.

(** notations/mod.rs:14-25 [Display for NFold] *)
Definition nfold_text (n : nfold) : string :=
  match n with
  | FInvalid => "Invalid" | F1 => "1" | F2 => "2" | F3 => "3" | F4 => "4" | F6 => "6"
  end.
(** notations/mod.rs:38-49 [Display for NFoldSub] *)
Definition sub_text (s : nfold_sub) : string :=
  match s with
  | SubNone => "" | Sub1 => "1" | Sub2 => "2" | Sub3 => "3" | Sub4 => "4" | Sub5 => "5"
  end.
(** notations/mod.rs:64-75 [From<&char> for NFoldSub] *)
Definition sub_of_char (c : ascii) : nfold_sub :=
  match c with
  | "1"%char => Sub1 | "2"%char => Sub2 | "3"%char => Sub3
  | "4"%char => Sub4 | "5"%char => Sub5 | _ => SubNone
  end.
(** notations/mod.rs:86-95 [Display for NFoldDiag] *)
Definition diag_text (d : nfold_diag) : string :=
  match d with
  | DiagNone => "" | SingleQuote => "'" | DoubleQuote => """" | Asterisk => "*"
  end.
(** notations/mod.rs:106-115 [Display for RotationAxis]: [Z] prints nothing *)
Definition axis_text (a : rot_axis) : string :=
  match a with AxOmitted => "" | AxX => "x" | AxY => "y" | AxZ => "" end.

(** translation_symbol.rs:19-31 [translation_vector] *)
Definition translation_vector (t : tsym) : vec3 :=
  match t with
  | TA => V3 6 0 0 | TB => V3 0 6 0 | TC => V3 0 0 6 | TN => V3 6 6 6
  | TU => V3 3 0 0 | TV => V3 0 3 0 | TW => V3 0 0 3 | TD => V3 3 3 3
  | TInvalid => v0
  end.
(** translation_symbol.rs:34-48 [From<&char> for TranslationSymbol] *)
Definition tsym_of_char (c : ascii) : tsym :=
  match c with
  | "a"%char => TA | "b"%char => TB | "c"%char => TC | "n"%char => TN
  | "u"%char => TU | "v"%char => TV | "w"%char => TW | "d"%char => TD
  | _ => TInvalid
  end.
(** translation_symbol.rs:50-64 [Display for TranslationSymbol] *)
Definition tsym_text (t : tsym) : string :=
  match t with
  | TInvalid => "Invalid" | TA => "a" | TB => "b" | TC => "c" | TN => "n"
  | TU => "u" | TV => "v" | TW => "w" | TD => "d"
  end.

(** lattice_symbol/mod.rs:96-108 and 131-183 [Lattices::get_translations] *)
Definition translations (l : lattice) : list vec3 :=
  match l with
  | LP => [V3 0 0 0]
  | LA => [V3 0 0 0; V3 0 6 6]
  | LB => [V3 0 0 0; V3 6 0 6]
  | LC => [V3 0 0 0; V3 6 6 0]
  | LI => [V3 0 0 0; V3 6 6 6]
  | LR => [V3 0 0 0; V3 8 4 4; V3 4 8 8]
  | LF => [V3 0 0 0; V3 0 6 6; V3 6 0 6; V3 6 6 0]
  end.
(** lattice_symbol/mod.rs:40-50 [num_of_translations] *)
Definition num_of_translations (l : lattice) : nat :=
  match l with
  | LP => 1 | LA => 2 | LB => 2 | LC => 2 | LI => 2 | LR => 3 | LF => 4
  end.
(** derived [Debug] of [Lattices], used by lattice_symbol/mod.rs:26 *)
Definition lattice_text (l : lattice) : string :=
  match l with
  | LP => "P" | LA => "A" | LB => "B" | LC => "C" | LI => "I" | LR => "R" | LF => "F"
  end.

(** lattice_symbol/mod.rs:18-21 [LatticeSymbol] *)
Record lattice_symbol := LS { ls_minus : bool; ls_char : lattice }.
(** lattice_symbol/mod.rs:23-28 [Display for LatticeSymbol] *)
Definition lattice_symbol_text (l : lattice_symbol) : string :=
  ((if ls_minus l then "-" else "") ++ lattice_text (ls_char l))%string.
(** lattice_symbol/mod.rs:76-83 [equiv_num] *)
Definition lattice_equiv_num (l : lattice_symbol) : Z :=
  if ls_minus l then Z.of_nat (num_of_translations (ls_char l)) * 2
  else Z.of_nat (num_of_translations (ls_char l)).

(** src/hall_symbols/matrix_symbol/mod.rs:18-26 [MatrixSymbol] *)
Record msym := MS {
  ms_minus : bool; ms_fold : nfold; ms_sub : nfold_sub; ms_diag : nfold_diag;
  ms_axis : rot_axis; ms_trs : option (list tsym) }.
(** matrix_symbol/mod.rs:97-103 setters *)
Definition set_ms_diag (d : nfold_diag) (m : msym) : msym :=
  MS (ms_minus m) (ms_fold m) (ms_sub m) d (ms_axis m) (ms_trs m).
(** matrix_symbol/mod.rs:101-103 [set_rotation_axis] *)
Definition set_ms_axis (a : rot_axis) (m : msym) : msym :=
  MS (ms_minus m) (ms_fold m) (ms_sub m) (ms_diag m) a (ms_trs m).

(** [Vec<String>::concat] *)
Fixpoint sconcat (l : list string) : string :=
  match l with [] => EmptyString | s :: r => (s ++ sconcat r)%string end.
(** [Vec<String>::join(sep)] *)
Fixpoint sjoin (sep : string) (l : list string) : string :=
  match l with
  | [] => EmptyString
  | [s] => s
  | s :: r => (s ++ sep ++ sjoin sep r)%string
  end.

(** matrix_symbol/mod.rs:28-50 [Display for MatrixSymbol]: sign, fold, axis, diag, sub,
    translation letters *)
Definition msym_text (m : msym) : string :=
  ((if ms_minus m then "-" else "") ++ nfold_text (ms_fold m) ++ axis_text (ms_axis m)
   ++ diag_text (ms_diag m) ++ sub_text (ms_sub m)
   ++ (match ms_trs m with Some ts => sconcat (map tsym_text ts) | None => "" end))%string.

(** ** src/hall_symbols/matrix_symbol/builder.rs *)
(** builder.rs:9-16 [MatrixSymbolBuilder] *)
Record builder := Bld {
  b_minus : option bool; b_fold : option nfold; b_sub : option nfold_sub;
  b_diag : option nfold_diag; b_axis : option rot_axis; b_trs : option (list tsym) }.
(** derived [Default] (builder.rs:8) used by matrix_symbol/mod.rs:57-59 [new_builder] *)
Definition new_builder : builder := Bld None None None None None None.
(** builder.rs:19-50 setters *)
Inductive setter :=
| SetMinus (b : bool) | SetFold (f : nfold) | SetSub (s : nfold_sub)
| SetDiag (d : nfold_diag) | SetAxis (a : rot_axis) | SetTrs (t : option (list tsym)).
(** builder.rs:19-50: one call of a setter; [set_translation_symbols] stores its argument as it is, the others wrap it in [Some] *)
Definition apply_setter (b : builder) (s : setter) : builder :=
  match s with
  | SetMinus x => Bld (Some x) (b_fold b) (b_sub b) (b_diag b) (b_axis b) (b_trs b)
  | SetFold x => Bld (b_minus b) (Some x) (b_sub b) (b_diag b) (b_axis b) (b_trs b)
  | SetSub x => Bld (b_minus b) (b_fold b) (Some x) (b_diag b) (b_axis b) (b_trs b)
  | SetDiag x => Bld (b_minus b) (b_fold b) (b_sub b) (Some x) (b_axis b) (b_trs b)
  | SetAxis x => Bld (b_minus b) (b_fold b) (b_sub b) (b_diag b) (Some x) (b_trs b)
  | SetTrs x => Bld (b_minus b) (b_fold b) (b_sub b) (b_diag b) (b_axis b) x
  end.
(** [Option::unwrap_or] and [unwrap_or_default] *)
Definition unwrap_or {A} (d : A) (o : option A) : A :=
  match o with Some a => a | None => d end.
(** builder.rs:51-64 [build]; [None] is [Err(IncompleteFields)].  Defaults are the
    [#[default]] variants of notations/mod.rs: no sub, no diag, axis [Z]. *)
Definition build (b : builder) : option msym :=
  match b_fold b with
  | Some f => Some (MS (unwrap_or false (b_minus b)) f (unwrap_or SubNone (b_sub b))
                       (unwrap_or DiagNone (b_diag b)) (unwrap_or AxZ (b_axis b)) (b_trs b))
  | None => None
  end.

(** ** notations/mod.rs:132-189 [Ord for RotationType], arms in source order *)
Definition rtype_cmp (a b : rot_type) : comparison :=
  match a, b with
  | RE, RE => Eq
  | RE, _ => Lt
  | _, RE => Gt
  | RN2, RN2 => Eq
  | RN2, RM | RN2, RI => Lt
  | RN2, _ => Lt
  | RN3, RN2 | RN3, RM | RN3, RI | RN3, RM3 => Gt
  | RN3, RN3 => Eq
  | RN3, _ => Lt
  | RN4, RI | RN4, RN2 | RN4, RM | RN4, RM3 | RN4, RN3 | RN4, RM4 => Lt
  | RN4, RN4 => Eq
  | RN4, _ => Gt
  | RN6, RN6 => Eq
  | RN6, _ => Lt
  | RI, RI => Eq
  | RI, _ => Gt
  | RM, RI => Lt
  | RM, RM => Eq
  | RM, _ => Gt
  | RM3, RN2 | RM3, RM | RM3, RI => Lt
  | RM3, RM3 => Eq
  | RM3, _ => Gt
  | RM4, RI | RM4, RM | RM4, RN2 | RM4, RN3 | RM4, RM3 => Lt
  | RM4, RM4 => Eq
  | RM4, _ => Gt
  | RM6, RM6 => Eq
  | RM6, _ => Lt
  end.
