(** * SpecType: space-group types (specification vocabulary, C57-C59).

    Two groups of operations are of the same type when a change of coordinates turns one
    into the other.  A change of coordinates is an affine map with rational coefficients,
    written over a common denominator: it sends the point [p] (fractions of a cell) to
    [(M p + q/12) / d]. *)
From Coq Require Import QArith.
From Verif Require Import Base Spec.
Open Scope Z_scope.

Record change := Ch { ch_M : mat3; ch_q : vec3; ch_d : Z }.
Definition qsame (p p' : qvec) : Prop := (qx p == qx p' /\ qy p == qy p' /\ qz p == qz p')%Q.
(** the operation (R, t) sends the point p to R p + t/12 *)
Definition move (o : op) (p : qvec) : qvec :=
  let (R, t) := o in
  QV (qdot (m11 R) (m12 R) (m13 R) p + inject_Z (vx t) / 12)
     (qdot (m21 R) (m22 R) (m23 R) p + inject_Z (vy t) / 12)
     (qdot (m31 R) (m32 R) (m33 R) p + inject_Z (vz t) / 12).
Definition divide (d : Z) (p : qvec) : qvec :=
  QV (qx p / inject_Z d) (qy p / inject_Z d) (qz p / inject_Z d).
(** the new coordinates of a point *)
Definition image (f : change) (p : qvec) : qvec := divide (ch_d f) (move (ch_M f, ch_q f) p).
(** it is invertible; it also keeps right-handed axes right-handed *)
Definition invertible (f : change) : Prop := 0 < ch_d f /\ mdet (ch_M f) <> 0.
Definition keeps_handedness (f : change) : Prop := 0 < mdet (ch_M f).
(** [o'] is the operation [o] written in the new coordinates *)
Definition carries (f : change) (o o' : op) : Prop :=
  forall p, qsame (image f (move o p)) (move o' (image f p)).
(** in the new coordinates the operations of [G] are those of [G'] *)
Definition turns_into (f : change) (G G' : op -> Prop) : Prop :=
  (forall o, G o -> exists o', G' o' /\ carries f o o') /\
  (forall o', G' o' -> exists o, G o /\ carries f o o').
(** the same space-group type *)
Definition same_type (G G' : op -> Prop) : Prop :=
  exists f, invertible f /\ keeps_handedness f /\ turns_into f G G'.
(** the same type up to a mirror image *)
Definition same_type_or_mirror (G G' : op -> Prop) : Prop :=
  exists f, invertible f /\ turns_into f G G'.
(** International Tables: the eleven pairs of numbers that are mirror images of each other *)
Definition mirror_pairs : list (nat * nat) :=
  [(76, 78); (91, 95); (92, 96); (144, 145); (151, 153); (152, 154); (169, 170); (171, 172);
   (178, 179); (180, 181); (212, 213)]%nat.
