(** * SpecFamily: textbook families of the 230 space-group types (C78), from International Tables. *)
From Coq Require Import List Arith.
From Verif Require Import Base SpecTables.
Import ListNotations.
Open Scope nat_scope.

(** the numbers from [a] to [b] *)
Definition range (a b : nat) : list nat := seq a (b + 1 - a).
(** the classes -1, 2/m, mmm, 4/m, 4/mmm, -3, -3m, 6/m, 6/mmm, m-3, m-3m *)
Definition centrosymmetric_types : list nat :=
  range 2 2 ++ range 10 15 ++ range 47 74 ++ range 83 88 ++ range 123 142 ++ range 147 148 ++ range 162 167 ++
  range 175 176 ++ range 191 194 ++ range 200 206 ++ range 221 230.
(** only proper operations ("Sohncke"): the classes 1, 2, 222, 4, 422, 3, 32, 6, 622, 23, 432 *)
Definition sohncke_types : list nat :=
  range 1 1 ++ range 3 5 ++ range 16 24 ++ range 75 80 ++ range 89 98 ++ range 143 146 ++ range 149 155 ++
  range 168 173 ++ range 177 182 ++ range 195 199 ++ range 207 214.
(** a direction is distinguished: the classes 1, 2, m, mm2, 4, 4mm, 3, 3m, 6, 6mm *)
Definition polar_types : list nat :=
  range 1 1 ++ range 3 5 ++ range 6 9 ++ range 25 46 ++ range 75 80 ++ range 99 110 ++ range 143 146 ++
  range 156 161 ++ range 168 173 ++ range 183 186.
(** the symmorphic types: some point has the whole point group as its site symmetry *)
Definition symmorphic_types : list nat :=
  [1; 2; 3; 5; 6; 8; 10; 12; 16; 21; 22; 23; 25; 35; 38; 42; 44; 47; 65; 69; 71; 75; 79; 81; 82; 83; 87; 89; 97; 99; 107;
   111; 115; 119; 121; 123; 139; 143; 146; 147; 148; 149; 150; 155; 156; 157; 160; 162; 164; 166; 168; 174; 175; 177;
   183; 187; 189; 191; 195; 196; 197; 200; 202; 204; 207; 209; 211; 215; 216; 217; 221; 225; 229].
(** the fixed-point-free (Bieberbach) types: every point is in general position *)
Definition fixed_point_free_types : list nat := [1; 4; 7; 9; 19; 29; 33; 76; 78; 144; 145; 169; 170].
(** the space-group type of a row: the number in its label, except that row 24 of the full table
    is of type 23 (C57) *)
Definition row_type (full : bool) (label : string) : nat :=
  if full && Nat.eqb (leading_number label) 24 then 23 else leading_number label.
