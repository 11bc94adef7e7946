(** * SpecLabel: what the label behind a space-group number says (C100).

    International Tables vol. A, section 4.3 and Table 4.3.2.1.  A label such as 57:a-cb, 14:b2,
    48:2 or 146:R names a setting: the axes a', b', c' in which the group is written, given here by
    their columns over the axes a, b, c of the first setting listed for the number, divided by a
    common denominator.  The origin may be another one. *)
From Verif Require Import Base Seitz Spec SpecTables SpecType.
Open Scope Z_scope.
Open Scope string_scope.

(** the new axes: columns, and what to divide them by *)
Definition axes := (mat3 * Z)%type.
Definition axes_columns (a b c : vec3) : mat3 :=
  M3 (vx a) (vx b) (vx c) (vy a) (vy b) (vy c) (vz a) (vz b) (vz c).
(** first the axes [A], then [B] in terms of those *)
Definition then_axes (A B : axes) : axes := (mmul (fst A) (fst B), snd A * snd B).
Definition va : vec3 := V3 1 0 0.
Definition vb : vec3 := V3 0 1 0.
Definition vc : vec3 := V3 0 0 1.
Definition old_axes : axes := (axes_columns va vb vc, 1).

(** orthorhombic: the six ways to name three perpendicular axes *)
Definition orthorhombic_axes : list (string * axes) := [
  ("", old_axes);
  ("ba-c", (axes_columns vb va (vopp vc), 1));
  ("cab", (axes_columns vc va vb, 1));
  ("-cba", (axes_columns (vopp vc) vb va, 1));
  ("bca", (axes_columns vb vc va, 1));
  ("a-cb", (axes_columns va (vopp vc) vb, 1)) ].
(** monoclinic: cell choices 1, 2, 3 (in the setting with unique axis b), then a minus for
    exchanging a and c and reversing b, then the unique axis *)
Definition cell_choices : list (string * axes) := [
  ("", old_axes);
  ("1", old_axes);
  ("2", (axes_columns (vopp (vadd va vc)) vb va, 1));
  ("3", (axes_columns vc vb (vopp (vadd va vc)), 1)) ].
Definition exchanges : list (string * axes) := [
  ("", old_axes);
  ("-", (axes_columns vc (vopp vb) va, 1)) ].
Definition unique_axes : list (string * axes) := [
  ("b", old_axes);
  ("c", (axes_columns vc va vb, 1));
  ("a", (axes_columns vb vc va, 1)) ].
(** origin choices leave the axes alone *)
Definition origin_choices : list string := [""; "1"; "2"].
(** rhombohedral groups: hexagonal axes, and the rhombohedral axes (2a+b+c)/3, (-a+b+c)/3,
    (-a-2b+c)/3 (obverse) *)
Definition trigonal_axes : list (string * axes) := [
  ("H", old_axes);
  ("R", (axes_columns (V3 2 1 1) (V3 (-1) 1 1) (V3 (-1) (-2) 1), 3)) ].
(** all settings by label *)
Definition settings : list (string * axes) :=
  (flat_map (fun o => map (fun x => ((o ++ fst x)%string, snd x)) orthorhombic_axes) origin_choices ++
   flat_map (fun m => flat_map (fun u => map (fun k => ((fst m ++ fst u ++ fst k)%string, then_axes (snd k) (then_axes (snd m) (snd u))))
     cell_choices) unique_axes) exchanges ++
   trigonal_axes)%list.

(** the text behind the colon, if any *)
Fixpoint setting_code (label : string) : string :=
  match label with
  | EmptyString => EmptyString
  | String c r => if Ascii.eqb c ":" then r else setting_code r
  end.
(** the change of coordinates [f] refers points to the axes [A] *)
Definition refers_to_axes (f : change) (A : axes) : Prop :=
  0 < ch_d f /\ mmul (fst A) (ch_M f) = mscale (snd A * ch_d f) I3.
(** referred to the axes [A], and the same origin unless [moved], the operations of [G] are those
    of [G'] *)
Definition in_setting (A : axes) (moved : bool) (G G' : op -> Prop) : Prop :=
  exists f, refers_to_axes f A /\ (moved = false -> ch_q f = v0) /\ turns_into f G G'.
(** the first character of the code *)
Definition begins_with (c : Ascii.ascii) (code : string) : bool :=
  match code with String c' _ => Ascii.eqb c' c | EmptyString => false end.
(** inversion through the origin, through the point t/24 *)
Definition inversion_at_origin : op := (mopp I3, v0).
Definition inversion_at (t : vec3) : op := (mopp I3, t).
