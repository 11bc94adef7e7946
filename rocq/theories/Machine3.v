(** * Machine3: the listings of [GeneralPositions] with machine integers. *)
From Verif Require Import Base Notations Parser Seitz F64 Jones Rotations Generate Positions Display Machine Machine2.
Open Scope Z_scope.

(** general_positions.rs:50-59: the numbered lines of one set; the numbers are [usize], [n] is the length of a set *)
Definition iset_lines p (n set_i : nat) (set : list seitz) : outcome (list string) :=
  omap (fun q => let* a := usize p (Z.of_nat set_i * Z.of_nat n) in let* b := usize p (a + Z.of_nat (fst q)) in let* c := usize p (b + 1) in
                 let* j := ijones p (snd q) in Done (Z_text c ++ ", " ++ j)%string)
       (mapi_from (fun i m => (i, m)) 0 set).
(** general_positions.rs:41-65 [text_format] *)
Definition itext_format p (g : gpos) : outcome string :=
  let* full := iderive_full_sets p g in
  let* sets := omap (fun q => let* ls := iset_lines p (num_of_general_pos g) (fst (fst q)) (snd (fst q)) in
                 Done (sjoin newline [set_heading (snd q); sjoin newline ls]))
               (combine (mapi_from (fun i s => (i, s)) 0 full) (gp_lattice g)) in
  Done (sjoin newline sets).
(** seitz_mat_impl.rs:355-365 [Display for SeitzMatrix]; the fractions are as in [Display] *)
Definition isz_display p (m : seitz) : outcome string :=
  let* j := ijones p m in let* e := ieigenvector p m in
  match e with
  | None => Panic "called `Option::unwrap()` on a `None` value"
  | Some e => Done (j ++ " | " ++ vec_debug e ++ newline ++ matrix_text 4 (map (map frac_text) (to_fraction m)))%string
  end.
(** general_positions.rs:78-98 [Display for GeneralPositions] *)
Definition ipositions_display p (g : gpos) : outcome string :=
  let* full := iderive_full_sets p g in
  let* sets := omap (fun q => let* ls := omap (isz_display p) (fst q) in Done (sjoin newline [set_heading (snd q); sjoin newline ls]))
               (combine full (gp_lattice g)) in
  Done (sjoin newline sets).
(** src/hall_symbols/mod.rs:61-63 [num_generators], a [usize] sum *)
Definition num_generators (h : hall) : Z := lattice_equiv_num (h_lat h) + Z.of_nat (List.length (h_syms h)).
