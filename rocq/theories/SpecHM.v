(** * SpecHM: how a Hermann-Mauguin name is read (International Tables A, 2.2.4), independent of
    the model.  A name is a lattice letter followed by one word per symmetry direction; a word is
    [1] (nothing along this direction) or one or two element names joined by [/]. *)
From Verif Require Import Base Seitz Notations Spec SpecHall SpecText SpecDisplay SpecTables SpecRotation Lookup SpecMetric.
Open Scope Z_scope.
Local Notation length := List.length.

(** ** The elements a word can name *)
Inductive element :=
| Axis (n k : nat)        (* n_k: turns through 1/n of a circle, forward by k/n of the lattice vector *)
| BarAxis (n : nat)       (* -n: the inversion combined with an n-fold turn *)
| Plane (glide : ascii).  (* m, a, b, c, n, d *)
Definition element_names : list (string * element) :=
  [("2", Axis 2 0); ("21", Axis 2 1);
   ("3", Axis 3 0); ("31", Axis 3 1); ("32", Axis 3 2);
   ("4", Axis 4 0); ("41", Axis 4 1); ("42", Axis 4 2); ("43", Axis 4 3);
   ("6", Axis 6 0); ("61", Axis 6 1); ("62", Axis 6 2); ("63", Axis 6 3); ("64", Axis 6 4); ("65", Axis 6 5);
   ("-1", BarAxis 1); ("-3", BarAxis 3); ("-4", BarAxis 4); ("-6", BarAxis 6);
   ("m", Plane "m"); ("a", Plane "a"); ("b", Plane "b"); ("c", Plane "c"); ("n", Plane "n"); ("d", Plane "d")]%string.
(** the text before and after the first [/]; everything before the colon that marks a choice *)
Fixpoint before (c : ascii) (s : string) : string :=
  match s with EmptyString => EmptyString | String d r => if Ascii.eqb c d then EmptyString else String d (before c r) end.
Fixpoint after (c : ascii) (s : string) : string :=
  match s with EmptyString => EmptyString | String d r => if Ascii.eqb c d then r else after c r end.
(** the word names the element, alone or as one side of [/] *)
Definition names (w : string) (e : element) : Prop :=
  In (w, e) element_names \/
  (w = before "/" w ++ "/" ++ after "/" w)%string /\ (In (before "/" w, e) element_names \/ In (after "/" w, e) element_names).
(** lattice letter and words of a name *)
Definition hm_words (hm : string) : list string := words (before ":" hm).

(** ** Symmetry directions of the crystal systems, [uvw] *)
Definition dx := V3 1 0 0.
Definition dy := V3 0 1 0.
Definition dz := V3 0 0 1.
Definition rhombohedral_axes (label : string) : bool :=
  match system_of_number (leading_number label) with Trigonal => has_letter "R" label | _ => false end.
Definition directions (label : string) : list (list vec3) :=
  match system_of_number (leading_number label) with
  | Triclinic => [[dx]]
  | Monoclinic | Orthorhombic => [[dx]; [dy]; [dz]]
  | Tetragonal => [[dz]; [dx; dy]; [V3 1 (-1) 0; V3 1 1 0]]
  | Trigonal | Hexagonal =>
      if rhombohedral_axes label then [[V3 1 1 1]; [V3 1 (-1) 0; V3 0 1 (-1); V3 (-1) 0 1]]
      else [[dz]; [dx; dy; V3 1 1 0]; [V3 1 (-1) 0; V3 1 2 0; V3 2 1 0]]
  | Cubic => [[dx; dy; dz];
              [V3 1 1 1; V3 1 (-1) (-1); V3 (-1) 1 (-1); V3 (-1) (-1) 1];
              [V3 1 (-1) 0; V3 1 1 0; V3 0 1 (-1); V3 0 1 1; V3 (-1) 0 1; V3 1 0 1]]
  end.

(** ** What the elements are *)
Definition times (k : Z) (v : vec3) : vec3 := V3 (k * vx v) (k * vy v) (k * vz v).
(** volume spanned by three directions: positive when they are right-handed *)
Definition volume (a b c : vec3) : Z := det_spec (M3 (vx a) (vx b) (vx c) (vy a) (vy b) (vy c) (vz a) (vz b) (vz c)).
(** seen against the direction [d] the rotation turns counterclockwise, by less than half a turn:
    [d], an edge off the axis and its image are right-handed (for a rotation about [d] the sign is
    the same for every vector off the axis, so it does not matter which edge is taken) *)
Definition counterclockwise (R : mat3) (d : vec3) : Prop := exists x, In x [dx; dy; dz] /\ 0 < volume d x (mvmul R x).
(** the two vectors that span the plane of a glide with normal [d]: the other two edges, or the
    third edge and the other diagonal *)
Definition plane_vectors : list (vec3 * (vec3 * vec3)) :=
  [(dx, (dy, dz)); (dy, (dz, dx)); (dz, (dx, dy));
   (V3 1 (-1) 0, (V3 1 1 0, dz)); (V3 1 1 0, (V3 1 (-1) 0, dz));
   (V3 0 1 (-1), (V3 0 1 1, dx)); (V3 0 1 1, (V3 0 1 (-1), dx));
   (V3 (-1) 0 1, (V3 1 0 1, dy)); (V3 1 0 1, (V3 1 0 (-1), dy))].
(** [w] (in twelfths of a cell) is twice the glide vector that the letter stands for, for a plane
    with normal [d]: a, b, c half an edge (with rhombohedral axes c is half of a+b+c, the edge of
    the hexagonal cell), n half, d a quarter of the sum or difference of the plane's vectors *)
Definition twice_glide (rhombohedral : bool) (letter : ascii) (d w : vec3) : Prop :=
  (letter = "m"%char /\ w = V3 0 0 0) \/
  (rhombohedral = false /\ In (letter, w) [("a"%char, times 12 dx); ("b"%char, times 12 dy); ("c"%char, times 12 dz)]) \/
  (rhombohedral = true /\ letter = "c"%char /\ w = V3 12 12 12) \/
  (rhombohedral = false /\ exists f g s t k, In (d, (f, g)) plane_vectors /\ In s [1; -1] /\ In t [1; -1] /\
     In (letter, k) [("n"%char, 12); ("d"%char, 6)] /\ w = vadd (times (s * k) f) (times (t * k) g)).
(** the rotation part of an element of this kind along the direction *)
Definition turn_of (e : element) (d : vec3) (R : mat3) : Prop :=
  axis_of R d /\
  match e with
  | Axis n _ => det_spec R = 1 /\ has_order R n
  | BarAxis n => det_spec R = -1 /\ has_order (mopp R) n
  | Plane _ => det_spec R = -1 /\ has_order (mopp R) 2
  end.
(** the set of operations contains the element: for a screw axis n_k, n applications of the
    operation shift by k lattice vectors; for a glide plane, two applications shift by twice the
    glide vector *)
Definition has_element (rhombohedral : bool) (G : op -> Prop) (d : vec3) (e : element) : Prop :=
  exists R t, G (R, t) /\ turn_of e d R /\
  match e with
  | Axis n k => ((2 < n)%nat -> counterclockwise R d) /\ op_pow (R, t) n = (I3, times (12 * Z.of_nat k) d)
  | BarAxis _ => True
  | Plane letter => exists w, twice_glide rhombohedral letter d w /\ op_pow (R, t) 2 = (I3, w)
  end.

(** ** A name describes a group *)
Definition word_fits (rhombohedral : bool) (G : op -> Prop) (ds : list vec3) (w : string) : Prop :=
  (w = "1"%string /\ forall d R t, In d ds -> G (R, t) -> axis_of R d -> R = I3 \/ R = mopp I3) \/
  ((exists e, names w e) /\ forall e, names w e -> exists d, In d ds /\ has_element rhombohedral G d e).
(** the translations of the group are those the letter stands for (with rhombohedral axes the
    cell is primitive), and every word fits along its directions *)
Definition name_fits (label hm : string) (G : op -> Prop) : Prop :=
  exists l ws, hm_words hm = String (lattice_char l) EmptyString :: ws /\
    (forall v, G (I3, v) <-> centring (if rhombohedral_axes label then LP else l) v) /\
    (rhombohedral_axes label = true -> l = LR) /\
    (length ws <= length (directions label))%nat /\
    forall i w ds, nth_error ws i = Some w -> nth_error (directions label) i = Some ds ->
      word_fits (rhombohedral_axes label) G ds w.

(** ** A name says everything about the rotations *)
Definition named_turn (label hm : string) (G : op -> Prop) (R : mat3) : Prop :=
  exists i w ds e d, nth_error (tl (hm_words hm)) i = Some w /\ nth_error (directions label) i = Some ds /\
    names w e /\ In d ds /\ turn_of e d R /\ exists t, G (R, t).
Inductive product_of (P : mat3 -> Prop) : mat3 -> Prop :=
| product_none : product_of P I3
| product_more R S : P R -> product_of P S -> product_of P (mmul R S).
Definition name_complete (label hm : string) (G : op -> Prop) : Prop :=
  forall R, (exists t, G (R, t)) <-> product_of (named_turn label hm G) R.
(** a name describes a group when it fits and says everything about the rotations *)
Definition name_describes (label hm : string) (G : op -> Prop) : Prop :=
  name_fits label hm G /\ name_complete label hm G.
(** names of the default table that stop before the end of the symbol: the space groups whose
    full name has a [/] (number 155 runs its two words together instead) *)
Definition cut_names : list nat :=
  (seq 10 6 ++ seq 83 6 ++ seq 123 20 ++ [155] ++ seq 175 2 ++ seq 191 4)%nat%list.
