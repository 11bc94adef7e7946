(** * Positions: [GeneralPositions].
    Source: src/hall_symbols/general_positions.rs and src/hall_symbols/mod.rs:200-212. *)
From Verif Require Import Base Notations Parser Seitz F64 Jones Rotations Generate.

(** general_positions.rs:10-14 [GeneralPositions] *)
Record gpos := GP { gp_lattice : list vec3; gp_core : list seitz }.

(** src/hall_symbols/mod.rs:200-205 [general_positions] *)
Definition general_positions (fuel : nat) (h : hall) : outcome gpos :=
  obind (generate_positions fuel h) (fun l => Done (GP (translations (ls_char (h_lat h))) l)).

(** general_positions.rs:26-31 [derive_full_sets] *)
Definition derive_full_sets (g : gpos) : list (list seitz) :=
  map (fun v => map (fun m => sz_addv m v) (gp_core g)) (gp_lattice g).
(** general_positions.rs:37-39 [num_of_general_pos] *)
Definition num_of_general_pos (g : gpos) : nat := List.length (gp_core g).

(** the end of a line *)
Definition newline : string := String "010"%char EmptyString.
(** general_positions.rs:48-49 (and 85-86): the heading of a set *)
Definition set_heading (tr : vec3) : string :=
  ("[" ++ frac12_text (vx tr) ++ ", " ++ frac12_text (vy tr) ++ ", " ++ frac12_text (vz tr)
   ++ "] + set")%string.
(** general_positions.rs:50-62: the numbered lines of set number [set_i] *)
Definition set_lines (n set_i : nat) (set : list seitz) : outcome (list string) :=
  omap (fun p => obind (jones (snd p)) (fun j =>
                   Done (Z_text (Z.of_nat (set_i * n + fst p + 1)) ++ ", " ++ j)%string))
       (mapi_from (fun i m => (i, m)) 0 set).
(** general_positions.rs:41-65 [text_format] *)
Definition text_format (g : gpos) : outcome string :=
  obind (omap (fun p =>
           obind (set_lines (num_of_general_pos g) (fst (fst p)) (snd (fst p))) (fun ls =>
             Done (sjoin newline [set_heading (snd p); sjoin newline ls])))
         (combine (mapi_from (fun i s => (i, s)) 0 (derive_full_sets g)) (gp_lattice g)))
        (fun sets => Done (sjoin newline sets)).
(** general_positions.rs:66-76 [pure_txt] *)
Definition pure_txt (g : gpos) : outcome (list string) :=
  obind (omap (fun s => omap jones s) (derive_full_sets g)) (fun l => Done (List.concat l)).

(** seitz_mat_impl.rs:355-365 [Display for SeitzMatrix]: which operations can be printed.
    The text is the Jones text, the eigenvector and nalgebra's matrix layout; only the
    first two can fail; the text itself is in [Display.v]. *)
Definition display_ok (m : seitz) : bool :=
  match jones m, eigenvector m with Done _, Some _ => true | _, _ => false end.
(** general_positions.rs:78-98 [Display for GeneralPositions] *)
Definition positions_display_ok (g : gpos) : bool :=
  forallb (fun p => forallb display_ok (fst p)) (combine (derive_full_sets g) (gp_lattice g)).
