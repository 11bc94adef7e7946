(** * Order: the derived equality and ordering of notations and of general positions.
    Source: the [derive(PartialEq, PartialOrd, Ord)] attributes of src/hall_symbols/mod.rs:37-42,
    matrix_symbol/mod.rs:17-26, matrix_symbol/notations/mod.rs:3, 27, 77, 97, lattice_symbol/mod.rs:17, 85,
    translation_symbol.rs:5, origin_shift/mod.rs:16, general_positions.rs:10-14 and
    matrices/mod.rs:12 (with its hand-written [PartialEq]).
    A derived comparison compares the fields in declaration order, enum variants in declaration
    order, [None] before [Some], vectors lexicographically. *)
From Verif Require Import Base Notations Parser Seitz F64 Jones Rotations Generate Positions.

(** fields in declaration order *)
Definition then_cmp (c d : comparison) : comparison := match c with Eq => d | _ => c end.
(** the same for partial comparisons *)
Definition then_pcmp (c d : option comparison) : option comparison :=
  match c with Some Eq => d | _ => c end.
(** variants in declaration order *)
Definition bool_cmp (a b : bool) : comparison :=
  match a, b with false, true => Lt | true, false => Gt | _, _ => Eq end.
(** notations/mod.rs:4-12 *)
Definition fold_index (f : nfold) : nat :=
  match f with FInvalid => 0 | F1 => 1 | F2 => 2 | F3 => 3 | F4 => 4 | F6 => 5 end.
(** notations/mod.rs:28-36 *)
Definition sub_index (s : nfold_sub) : nat :=
  match s with SubNone => 0 | Sub1 => 1 | Sub2 => 2 | Sub3 => 3 | Sub4 => 4 | Sub5 => 5 end.
(** notations/mod.rs:78-84 *)
Definition diag_index (d : nfold_diag) : nat :=
  match d with DiagNone => 0 | SingleQuote => 1 | DoubleQuote => 2 | Asterisk => 3 end.
(** notations/mod.rs:98-104 *)
Definition axis_index (a : rot_axis) : nat :=
  match a with AxOmitted => 0 | AxX => 1 | AxY => 2 | AxZ => 3 end.
(** translation_symbol.rs:6-16 *)
Definition tsym_index (t : tsym) : nat :=
  match t with TInvalid => 0 | TA => 1 | TB => 2 | TC => 3 | TN => 4 | TU => 5 | TV => 6 | TW => 7 | TD => 8 end.
(** lattice_symbol/mod.rs:86-94 *)
Definition lattice_index (l : lattice) : nat :=
  match l with LP => 0 | LA => 1 | LB => 2 | LC => 3 | LI => 4 | LR => 5 | LF => 6 end.
(** [Vec] and [Option] *)
Fixpoint list_cmp {A} (cmp : A -> A -> comparison) (l r : list A) : comparison :=
  match l, r with
  | [], [] => Eq
  | [], _ :: _ => Lt
  | _ :: _, [] => Gt
  | a :: l, b :: r => then_cmp (cmp a b) (list_cmp cmp l r)
  end.
(** [Ord for Option]: [None] first *)
Definition option_cmp {A} (cmp : A -> A -> comparison) (l r : option A) : comparison :=
  match l, r with
  | None, None => Eq
  | None, Some _ => Lt
  | Some _, None => Gt
  | Some a, Some b => cmp a b
  end.
(** lattice_symbol/mod.rs:17-21 *)
Definition lsym_cmp (a b : lattice_symbol) : comparison :=
  then_cmp (bool_cmp (ls_minus a) (ls_minus b)) (Nat.compare (lattice_index (ls_char a)) (lattice_index (ls_char b))).
(** matrix_symbol/mod.rs:17-26 *)
Definition msym_cmp (a b : msym) : comparison :=
  then_cmp (bool_cmp (ms_minus a) (ms_minus b))
  (then_cmp (Nat.compare (fold_index (ms_fold a)) (fold_index (ms_fold b)))
  (then_cmp (Nat.compare (sub_index (ms_sub a)) (sub_index (ms_sub b)))
  (then_cmp (Nat.compare (diag_index (ms_diag a)) (diag_index (ms_diag b)))
  (then_cmp (Nat.compare (axis_index (ms_axis a)) (axis_index (ms_axis b)))
   (option_cmp (list_cmp (fun x y => Nat.compare (tsym_index x) (tsym_index y))) (ms_trs a) (ms_trs b)))))).
(** origin_shift/mod.rs:16-21 *)
Definition shift_cmp (a b : vec3) : comparison :=
  then_cmp (Z.compare (vx a) (vx b)) (then_cmp (Z.compare (vy a) (vy b)) (Z.compare (vz a) (vz b))).
(** src/hall_symbols/mod.rs:37-42: only [PartialOrd] is derived, over fields that are [Ord] *)
Definition hall_partial_cmp (a b : hall) : option comparison :=
  then_pcmp (Some (lsym_cmp (h_lat a) (h_lat b)))
  (then_pcmp (Some (list_cmp msym_cmp (h_syms a) (h_syms b))) (Some (shift_cmp (h_shift a) (h_shift b)))).
(** the derived [PartialEq]: field by field *)
Fixpoint list_eqb {A} (eqb : A -> A -> bool) (l r : list A) : bool :=
  match l, r with
  | [], [] => true
  | a :: l, b :: r => if eqb a b then list_eqb eqb l r else false
  | _, _ => false
  end.
(** [PartialEq for Option] *)
Definition option_eqb {A} (eqb : A -> A -> bool) (l r : option A) : bool :=
  match l, r with None, None => true | Some a, Some b => eqb a b | _, _ => false end.
(** matrix_symbol/mod.rs:17 [derive(PartialEq)] *)
Definition msym_eqb (a b : msym) : bool :=
  Bool.eqb (ms_minus a) (ms_minus b) && Nat.eqb (fold_index (ms_fold a)) (fold_index (ms_fold b)) &&
  Nat.eqb (sub_index (ms_sub a)) (sub_index (ms_sub b)) && Nat.eqb (diag_index (ms_diag a)) (diag_index (ms_diag b)) &&
  Nat.eqb (axis_index (ms_axis a)) (axis_index (ms_axis b)) &&
  option_eqb (list_eqb (fun x y => Nat.eqb (tsym_index x) (tsym_index y))) (ms_trs a) (ms_trs b).
(** src/hall_symbols/mod.rs:37 [derive(PartialEq)] *)
Definition hall_eqb (a b : hall) : bool :=
  (Bool.eqb (ls_minus (h_lat a)) (ls_minus (h_lat b)) && Nat.eqb (lattice_index (ls_char (h_lat a))) (lattice_index (ls_char (h_lat b)))) &&
  list_eqb msym_eqb (h_syms a) (h_syms b) && veqb (h_shift a) (h_shift b).

(** general_positions.rs:10-14: [==] on the vectors and on the operations (sz_eqb) *)
Definition gpos_eqb (a b : gpos) : bool :=
  list_eqb veqb (gp_lattice a) (gp_lattice b) && list_eqb sz_eqb (gp_core a) (gp_core b).
(** nalgebra [Matrix::partial_cmp] on a [Vector3], [Vec::partial_cmp] *)
Definition vec_partial_cmp (a b : vec3) : option comparison :=
  partial_cmp_from (Z.compare (vx a) (vx b)) [(vy a, vy b); (vz a, vz b)].
(** [PartialOrd for Vec] *)
Fixpoint list_partial_cmp {A} (cmp : A -> A -> option comparison) (l r : list A) : option comparison :=
  match l, r with
  | [], [] => Some Eq
  | [], _ :: _ => Some Lt
  | _ :: _, [] => Some Gt
  | a :: l, b :: r => then_pcmp (cmp a b) (list_partial_cmp cmp l r)
  end.
(** general_positions.rs:10 [derive(PartialOrd)] *)
Definition gpos_partial_cmp (a b : gpos) : option comparison :=
  then_pcmp (list_partial_cmp vec_partial_cmp (gp_lattice a) (gp_lattice b))
            (list_partial_cmp sz_partial_cmp (gp_core a) (gp_core b)).
