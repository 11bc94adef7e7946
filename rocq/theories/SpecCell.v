(** * SpecCell: the parameters of a cell (C94). *)
From Coq Require Import QArith.
From Verif Require Import Base Parser Tables Lookup Spec SpecHall SpecTables SpecType SpecMetric SpecKind PropTableGroups.
Open Scope Z_scope.

(** ** Free cell parameters *)
(** International Tables: how many cell parameters the crystal system leaves free *)
Definition free_parameters (c : crystal_system) : nat :=
  match c with
  | Triclinic => 6 | Monoclinic => 4 | Orthorhombic => 3 | Tetragonal | Trigonal | Hexagonal => 2 | Cubic => 1
  end.
Definition same_metric (g h : metric) : Prop :=
  (gaa g == gaa h /\ gbb g == gbb h /\ gcc g == gcc h /\ gbc g == gbc h /\ gac g == gac h /\ gab g == gab h)%Q.
(** k1 b1 + k2 b2 + ... *)
Definition zero_metric : metric := Metric 0 0 0 0 0 0.
Definition add_multiple (k : Q) (g h : metric) : metric :=
  Metric (k * gaa g + gaa h) (k * gbb g + gbb h) (k * gcc g + gcc h) (k * gbc g + gbc h) (k * gac g + gac h) (k * gab g + gab h).
Fixpoint combination (ks : list Q) (bs : list metric) : metric :=
  match ks, bs with k :: ks, b :: bs => add_multiple k b (combination ks bs) | _, _ => zero_metric end.
(** the metric is that of a real cell: every vector other than zero has a positive length *)
Definition positive_metric (g : metric) : Prop :=
  forall p, ~ qsame p (QV 0 0 0) -> (0 < length2 g p)%Q.

(** ** Linear maps that keep a metric *)
(** the linear map v |-> M v / d *)
Definition linear_image (M : mat3) (d : Z) (p : qvec) : qvec := divide d (move (M, V3 0 0 0) p).
(** the metric gives all directions the same length before and after every operation *)
Definition metric_of (G : op -> Prop) (g : metric) : Prop :=
  forall R t, G (R, t) -> forall p, (length2 g (linear_image R 1 p) == length2 g p)%Q.
