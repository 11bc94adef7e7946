(** * Messages: derived [Debug] texts, error texts and panic messages. *)
From Verif Require Import Base Notations Winnow Parser Seitz F64 Jones Rotations Tables Generate Positions.
Open Scope Z_scope.
Open Scope string_scope.

(** ** Derived [Debug] *)
(** derived [Debug] of [bool] *)
Definition bool_debug (b : bool) : string := if b then "true" else "false".
(** matrix_symbol/notations/mod.rs:3-12 derived [Debug] of [NFold] *)
Definition nfold_debug (n : nfold) : string :=
  match n with FInvalid => "Invalid" | F1 => "N1" | F2 => "N2" | F3 => "N3" | F4 => "N4" | F6 => "N6" end.
(** notations/mod.rs:27-36 derived [Debug] of [NFoldSub] *)
Definition sub_debug (s : nfold_sub) : string :=
  match s with SubNone => "None" | Sub1 => "N1" | Sub2 => "N2" | Sub3 => "N3" | Sub4 => "N4" | Sub5 => "N5" end.
(** notations/mod.rs:77-84 derived [Debug] of [NFoldDiag] *)
Definition diag_debug (d : nfold_diag) : string :=
  match d with DiagNone => "None" | SingleQuote => "SingleQuote" | DoubleQuote => "DoubleQuote" | Asterisk => "Asterisk" end.
(** notations/mod.rs:97-104 derived [Debug] of [RotationAxis] *)
Definition axis_debug (a : rot_axis) : string :=
  match a with AxOmitted => "Omitted" | AxX => "X" | AxY => "Y" | AxZ => "Z" end.
(** translation_symbol.rs:5-16 derived [Debug] of [TranslationSymbol] *)
Definition tsym_debug (t : tsym) : string :=
  match t with
  | TInvalid => "Invalid" | TA => "A" | TB => "B" | TC => "C" | TN => "N" | TU => "U" | TV => "V" | TW => "W" | TD => "D"
  end.
(** derived [Debug] of [Option<Vec<TranslationSymbol>>] *)
Definition trs_debug (o : option (list tsym)) : string :=
  match o with None => "None" | Some l => "Some([" ++ sjoin ", " (map tsym_debug l) ++ "])" end.
(** matrix_symbol/mod.rs:17-26 derived [Debug] of [MatrixSymbol] *)
Definition msym_debug (m : msym) : string :=
  "MatrixSymbol { minus_sign: " ++ bool_debug (ms_minus m) ++
  ", nfold_body: " ++ nfold_debug (ms_fold m) ++
  ", nfold_sub: " ++ sub_debug (ms_sub m) ++
  ", nfold_diag: " ++ diag_debug (ms_diag m) ++
  ", rotation_axis: " ++ axis_debug (ms_axis m) ++
  ", translation_symbols: " ++ trs_debug (ms_trs m) ++ " }".

(** ** [MatrixSymbolError] *)
(** matrix_symbol/mod.rs:106-110 [MatrixSymbolError] *)
Inductive msym_error := EInvalid (m : msym) | EIncomplete.
(** mod.rs:106 derived [Debug] *)
Definition error_debug (e : msym_error) : string :=
  match e with EInvalid m => "Invalid(" ++ msym_debug m ++ ")" | EIncomplete => "IncompleteFields" end.
(** mod.rs:112-121 [Display] *)
Definition error_text (e : msym_error) : string :=
  match e with EInvalid m => "Invalid symbol " ++ msym_debug m | EIncomplete => "Incomplete fields of `MatrixSymbol`" end.
(** matrices/mod.rs:28-44 [seitz_matrix] with its error: every [Err] in rotation_matrices.rs:168-392 is [Invalid(self)] *)
Definition seitz_matrix_e (m : msym) : seitz + msym_error :=
  match seitz_matrix m with Some s => inl s | None => inr (EInvalid m) end.
(** [Result::expect]: the message, a colon, the [Debug] of the error *)
Definition expect_text (msg err : string) : string := msg ++ ": " ++ err.

(** ** Panic messages of [general_positions] *)
(** src/hall_symbols/mod.rs:65-70 [max_equiv_pos].  The text for an operation that is not a rotation
    (seitz_mat_impl.rs:38) would go on with the matrix; it is cut short here. *)
Definition max_equiv_pos_m (h : hall) : outcome Z :=
  fold_left (fun acc ms =>
    obind acc (fun a =>
      match seitz_matrix_e ms with
      | inr e => Panic (expect_text "Invalid Seitz Matrix" (error_debug e))
      | inl m => match sz_equiv_num m with
                 | Some n => Done (a * n)%Z
                 | None => Panic (expect_text "Invalid Seitz Matrix" "NotRotationMatrix")
                 end
      end)) (h_syms h) (Done (lattice_equiv_num (h_lat h))).
(** mod.rs:175-181 *)
Definition symbol_generator_m (h : hall) (ms : msym) : outcome seitz :=
  match seitz_matrix_e ms with
  | inr _ => Panic ("SeitzMatrix generation failed for " ++ msym_text ms)
  | inl m => Done (shifted_matrix (h_shift h) m)
  end.
(** mod.rs:172-181 *)
Definition generators_m (h : hall) : outcome (list seitz) :=
  obind (omap (symbol_generator_m h) (h_syms h)) (fun gs => Done (lattice_seitz (h_lat h) ++ gs)%list).
(** mod.rs:168-196 [generate_positions] up to the sort *)
Definition generate_unsorted_m (fuel : nat) (h : hall) : outcome (list seitz) :=
  obind (max_equiv_pos_m h) (fun n =>
  if (capacity_limit <? n)%Z then Panic "capacity overflow" else
  obind (generators_m h) (fun gs =>
    let lt := translations (ls_char (h_lat h)) in
    gen_loop fuel lt (add_all lt (GS [] []) gs))).
(** mod.rs:72-73, 84-97: the sort of a list panics with a message naming one of the elements that
    have no place in the order; which one depends on the order in which [sort_by] compares *)
Inductive sort_panics_with (h : hall) (l : list seitz) : string -> Prop :=
| spw_no_symbol w : get_matrice_order h = Panic w -> sort_panics_with h l w
| spw_unlisted order m s : get_matrice_order h = Done order -> (2 <= List.length l)%nat -> In m l ->
    jones_rot m = Done s -> position (String.eqb s) order = None -> sort_panics_with h l (s ++ " fails to match").
(** mod.rs:200-205: the messages with which [general_positions] may panic *)
Definition panics_with (fuel : nat) (h : hall) (w : string) : Prop :=
  generate_unsorted_m fuel h = Panic w \/
  exists l, generate_unsorted_m fuel h = Done l /\ sort_panics_with h l w.

(** ** The error of [try_from_str] *)
(** winnow [ContextError]: the descriptions attached to the error, none for a plain mismatch *)
Definition parse_error := list string.
(** lattice_symbol/parser.rs:9-21, origin_shift/parser.rs:11-37, parser.rs:10-23: the error that is returned *)
Definition try_from_str_e (s : string) : outcome (hall + parse_error) :=
  match parse_lattice_symbol s with
  | PErr _ => Done (inr [])
  | POk lat r =>
      obind (parse_symbols (S (String.length r)) r) (fun '(ms, rest) =>
      obind (parse_origin_shift rest) (fun o =>
        match o with
        | None => Done (inr ["Incorrect input: not `i32`"])
        | Some sh => Done (inl (Hall lat (restore ms) sh))
        end))
  end.
