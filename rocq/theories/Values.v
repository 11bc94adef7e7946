(** * Values: the remaining small functions of the value types. *)
From Verif Require Import Base Notations Parser.
Open Scope string_scope.

(** U+0305 COMBINING OVERLINE as UTF-8 *)
Definition overline : string := String (ascii_of_nat 204) (String (ascii_of_nat 133) EmptyString).
(** src/hall_symbols/matrix_symbol/notations/mod.rs:191-206 [Display for RotationType] *)
Definition rtype_text (t : rot_type) : string :=
  match t with
  | RE => "1" | RN2 => "2" | RN3 => "3" | RN4 => "4" | RN6 => "6"
  | RI => "1" ++ overline | RM => "2" ++ overline | RM3 => "3" ++ overline | RM4 => "4" ++ overline | RM6 => "6" ++ overline
  end.
(** notations/mod.rs:51-62 [From<&str> for NFoldSub] *)
Definition sub_of_text (s : string) : nfold_sub :=
  if String.eqb s "1" then Sub1 else if String.eqb s "2" then Sub2 else if String.eqb s "3" then Sub3
  else if String.eqb s "4" then Sub4 else if String.eqb s "5" then Sub5 else SubNone.
(** src/hall_symbols/matrix_symbol/mod.rs:85-87 [set_minus_sign] *)
Definition set_ms_minus (b : bool) (m : msym) : msym := MS b (ms_fold m) (ms_sub m) (ms_diag m) (ms_axis m) (ms_trs m).
(** matrix_symbol/mod.rs:89-91 [set_nfold_body] *)
Definition set_ms_fold (f : nfold) (m : msym) : msym := MS (ms_minus m) f (ms_sub m) (ms_diag m) (ms_axis m) (ms_trs m).
(** matrix_symbol/mod.rs:93-95 [set_nfold_sub] *)
Definition set_ms_sub (s : nfold_sub) (m : msym) : msym := MS (ms_minus m) (ms_fold m) s (ms_diag m) (ms_axis m) (ms_trs m).
(** a call of one of the five setters, matrix_symbol/mod.rs:85-103 *)
Inductive ms_setter := PutMinus (b : bool) | PutFold (f : nfold) | PutSub (s : nfold_sub) | PutDiag (d : nfold_diag) | PutAxis (a : rot_axis).
(** matrix_symbol/mod.rs:85-103: the effect of one call *)
Definition put (m : msym) (s : ms_setter) : msym :=
  match s with
  | PutMinus b => set_ms_minus b m | PutFold f => set_ms_fold f m | PutSub x => set_ms_sub x m
  | PutDiag d => set_ms_diag d m | PutAxis a => set_ms_axis a m
  end.
