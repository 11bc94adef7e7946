(** * SpecRelabel: a symbol written for relabelled axes, and the mirror image of a symbol (C79, C80). *)
From Verif Require Import Base Notations Parser Seitz Spec.
Open Scope Z_scope.

(** ** C79: the axes x, y, z are called y, z, x instead *)
Definition next_axis (a : rot_axis) : rot_axis :=
  match a with AxX => AxY | AxY => AxZ | AxZ => AxX | AxOmitted => AxOmitted end.
Definition next_letter (t : tsym) : tsym :=
  match t with TA => TB | TB => TC | TC => TA | TU => TV | TV => TW | TW => TU | t => t end.
Definition next_lattice (l : lattice) : lattice :=
  match l with LA => LB | LB => LC | LC => LA | l => l end.
(** what stood in the first place now stands in the second, and so on *)
Definition next_vec (v : vec3) : vec3 := V3 (vz v) (vx v) (vy v).
Definition next_symbol (m : msym) : msym :=
  MS (ms_minus m) (ms_fold m) (ms_sub m) (ms_diag m) (next_axis (ms_axis m)) (option_map (map next_letter) (ms_trs m)).
Definition next_hall (h : hall) : hall :=
  Hall (LS (ls_minus (h_lat h)) (next_lattice (ls_char (h_lat h)))) (map next_symbol (h_syms h)) (next_vec (h_shift h)).
(** an operation in the new names: if it sends v to w, the relabelled one sends next_vec v to next_vec w *)
Definition next_op (o : op) : op :=
  let R := fst o in
  (M3 (m33 R) (m31 R) (m32 R)
      (m13 R) (m11 R) (m12 R)
      (m23 R) (m21 R) (m22 R), next_vec (snd o)).

(** ** C80: the mirror image: the inversion at the origin exchanges left and right screws *)
Definition mirror_sub (f : nfold) (s : nfold_sub) : nfold_sub :=
  match f, s with
  | F3, Sub1 => Sub2 | F3, Sub2 => Sub1
  | F4, Sub1 => Sub3 | F4, Sub3 => Sub1
  | F6, Sub1 => Sub5 | F6, Sub5 => Sub1 | F6, Sub2 => Sub4 | F6, Sub4 => Sub2
  | _, s => s
  end.
(** minus a quarter is three quarters, minus a half is a half *)
Definition mirror_letter (t : tsym) : list tsym :=
  match t with TU => [TU; TU; TU] | TV => [TV; TV; TV] | TW => [TW; TW; TW] | TD => [TD; TD; TD] | t => [t] end.
Definition mirror_symbol (m : msym) : msym :=
  MS (ms_minus m) (ms_fold m) (mirror_sub (ms_fold m) (ms_sub m)) (ms_diag m) (ms_axis m)
     (option_map (flat_map mirror_letter) (ms_trs m)).
Definition mirror_hall (h : hall) : hall :=
  Hall (h_lat h) (map mirror_symbol (h_syms h)) (vopp (h_shift h)).
(** the operation seen in the mirror *)
Definition mirror_op (o : op) : op := (fst o, vopp (snd o)).
