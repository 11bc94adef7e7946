(** * TypeData: data found by search outside Coq and checked in PropTypes (proof support for
    C57-C59): which formulas tell the space groups of a crystal class apart, and changes of
    coordinates between primitive cells.  Nothing here is trusted. *)
From Verif Require Import Base Seitz Spec SpecType TypeCount.
Open Scope Z_scope.

Definition ki6 : kind := ((-1), (-2)).
Definition ki4 : kind := ((-1), (-1)).
Definition ki3 : kind := ((-1), 0).
Definition km : kind := ((-1), 1).
Definition ki : kind := ((-1), (-3)).
Definition k1 : kind := (1, 3).
Definition k2 : kind := (1, (-1)).
Definition k3 : kind := (1, 0).
Definition k4 : kind := (1, 1).
Definition k6 : kind := (1, 2).
(** the formulas for each census of the kinds -6 -4 -3 m -1 1 2 3 4 6 *)
Definition formula_table : list (list Z * list formula) := [
  ([0; 0; 0; 0; 0; 1; 0; 0; 0; 0], []);
  ([0; 0; 0; 0; 1; 1; 0; 0; 0; 0], []);
  ([0; 0; 0; 0; 0; 1; 1; 0; 0; 0], [FJ 2 k2 2 k1 0 k1 1]);
  ([0; 0; 0; 1; 0; 1; 0; 0; 0; 0], [FJ 2 km 2 k1 0 k1 1; FJ 2 k1 1 km (-1) k1 1]);
  ([0; 0; 0; 1; 1; 1; 1; 0; 0; 0], [FJ 2 k2 2 k1 0 k1 1; FJ 2 km 2 k1 0 k1 1]);
  ([0; 0; 0; 0; 0; 1; 3; 0; 0; 0], [FJ 2 k2 2 k1 0 k1 1; FJ 2 k1 1 k2 (-1) k1 1; FJ 2 k1 1 k2 (-1) k2 (-1); FC 2 k2 2 k2 2]);
  ([0; 0; 0; 2; 0; 1; 1; 0; 0; 0], [FJ 2 k2 2 k1 0 k1 1; FJ 2 km 2 k1 0 k1 1; FJ 2 k1 1 km (-1) k1 1; FJ 2 k1 1 k2 (-1) km (-1); FJ 4 km 2 k2 1 k2 1; FJ 4 km 2 k2 (-1) k2 (-1)]);
  ([0; 0; 0; 3; 1; 1; 3; 0; 0; 0], [FJ 2 k2 2 k1 0 k1 1; FJ 2 km 2 k1 0 k1 1; FJ 2 k1 1 k2 (-1) k1 1; FJ 2 k1 1 k2 (-1) k2 (-1); FC 2 k2 2 ki 2; FC 2 k2 0 km 0; FJ 4 km 2 k2 (-1) k1 1]);
  ([0; 0; 0; 0; 0; 1; 1; 0; 2; 0], [FJ 2 k2 2 k1 0 k1 1; FJ 2 k4 4 k1 0 k1 1; FJ 4 k4 4 k1 0 k1 1; FX 4 k4 4 1]);
  ([0; 2; 0; 0; 0; 1; 1; 0; 0; 0], [FJ 2 k2 2 k1 0 k1 1]);
  ([0; 2; 0; 1; 1; 1; 1; 0; 2; 0], [FJ 2 km 2 k1 0 k1 1; FJ 2 k2 2 k1 0 k1 1; FJ 4 k4 4 k1 0 k1 1]);
  ([0; 0; 0; 0; 0; 1; 5; 0; 2; 0], [FJ 2 k4 4 k1 0 k1 1; FJ 2 k1 1 k4 (-1) k1 1; FJ 2 k2 2 k1 0 k1 1; FJ 4 k4 4 k1 0 k1 1; FX 4 k4 4 1]);
  ([0; 0; 0; 4; 0; 1; 1; 0; 2; 0], [FJ 2 k2 2 k1 0 k1 1; FJ 2 km 2 k1 0 k1 1; FJ 2 km 2 k2 (-1) k4 (-1); FJ 4 k4 4 k1 0 k1 1]);
  ([0; 2; 0; 2; 0; 1; 3; 0; 0; 0], [FJ 2 km 2 k1 0 k1 1; FJ 2 k2 2 k1 0 k1 1; FJ 2 km 2 ki4 (-1) k1 1; FJ 4 km 2 km (-1) k1 1]);
  ([0; 2; 0; 5; 1; 1; 5; 0; 2; 0], [FJ 2 k1 1 k4 (-1) k1 1; FJ 2 km 2 k1 0 k1 1; FJ 2 k2 2 k1 0 k1 1; FJ 2 km 2 k4 (-1) k1 1; FJ 4 k4 4 k1 0 k1 1]);
  ([0; 0; 0; 0; 0; 1; 0; 2; 0; 0], [FJ 3 k3 3 k1 0 k1 1; FX 3 k3 3 1]);
  ([0; 0; 2; 0; 1; 1; 0; 2; 0; 0], [FJ 3 k3 3 k1 0 k1 1]);
  ([0; 0; 0; 0; 0; 1; 3; 2; 0; 0], [FJ 3 k3 3 k1 0 k1 1; FJ 3 k2 2 k3 1 k1 1; FX 3 k3 3 1]);
  ([0; 0; 0; 3; 0; 1; 0; 2; 0; 0], [FJ 2 km 2 k1 0 k1 1; FJ 3 k3 3 k1 0 k1 1; FJ 3 k1 1 k3 1 km (-1)]);
  ([0; 0; 2; 3; 1; 1; 3; 2; 0; 0], [FJ 2 km 2 k1 0 k1 1; FJ 3 k3 3 k1 0 k1 1; FJ 3 k2 2 k3 1 k1 1]);
  ([0; 0; 0; 0; 0; 1; 1; 2; 0; 2], [FJ 2 k2 2 k1 0 k1 1; FJ 3 k3 3 k2 (-1) k2 (-1); FX 3 k3 3 1]);
  ([2; 0; 0; 1; 0; 1; 0; 2; 0; 0], []);
  ([2; 0; 2; 1; 1; 1; 1; 2; 0; 2], [FJ 2 k2 2 k1 0 k1 1]);
  ([0; 0; 0; 0; 0; 1; 7; 2; 0; 2], [FJ 2 k6 6 k1 0 k1 1; FJ 3 k3 3 k1 0 k1 1; FX 3 k3 3 1]);
  ([0; 0; 0; 6; 0; 1; 1; 2; 0; 2], [FJ 2 k2 2 k1 0 k1 1; FJ 2 km 2 k1 0 k1 1; FK 2 km 2 3 1 k3 1]);
  ([2; 0; 0; 4; 0; 1; 3; 2; 0; 0], [FJ 2 km 2 k1 0 k1 1; FJ 3 k2 2 k3 1 k1 1]);
  ([2; 0; 2; 7; 1; 1; 7; 2; 0; 2], [FJ 2 k6 6 k1 0 k1 1; FJ 2 km 2 k1 0 k1 1; FK 2 km 2 3 1 k3 1]);
  ([0; 0; 0; 0; 0; 1; 3; 8; 0; 0], [FJ 2 k2 2 k1 0 k1 1; FJ 2 k1 1 k2 (-1) k2 (-1); FC 2 k2 2 k2 2]);
  ([0; 0; 8; 3; 1; 1; 3; 8; 0; 0], [FJ 2 k2 2 k1 0 k1 1; FJ 2 km 2 k1 0 k1 1; FJ 2 k1 1 k2 (-1) k2 (-1)]);
  ([0; 0; 0; 0; 0; 1; 9; 8; 6; 0], [FJ 2 k4 4 k1 0 k1 1; FJ 2 k1 1 k4 (-1) k1 1; FJ 2 k1 1 k4 (-1) k4 (-1); FJ 4 k4 4 k1 0 k1 1; FX 4 k4 4 1]);
  ([0; 6; 0; 6; 0; 1; 3; 8; 0; 0], [FJ 2 k2 2 k1 0 k1 1; FJ 2 km 2 k1 0 k1 1; FJ 2 k1 1 k2 (-1) k2 (-1)]);
  ([0; 6; 8; 9; 1; 1; 9; 8; 6; 0], [FJ 2 km 2 k1 0 k1 1; FJ 2 k4 4 k1 0 k1 1; FJ 2 k1 1 k4 (-1) k4 (-1); FJ 2 km 2 k4 (-1) k1 1])].
(** for every row of the full table: the number of a default row, and a change U, q, e of
    primitive coordinates, p |-> U p + q/(12 e), that turns the first group into the second *)
Definition row_changes : list (nat * (mat3 * vec3 * Z)) := [
  (1%nat, ((M3 0 0 1 0 1 0 (-1) 0 0), (V3 0 0 0), 1));
  (2%nat, ((M3 0 0 1 0 1 0 (-1) 0 0), (V3 0 0 0), 1));
  (3%nat, ((M3 0 0 1 0 1 0 (-1) 0 0), (V3 0 0 0), 1));
  (3%nat, ((M3 0 1 0 0 0 1 1 0 0), (V3 0 0 0), 1));
  (3%nat, ((M3 0 0 1 1 0 0 0 1 0), (V3 0 0 0), 1));
  (4%nat, ((M3 0 0 1 0 1 0 (-1) 0 0), (V3 0 0 0), 1));
  (4%nat, ((M3 0 1 0 0 0 1 1 0 0), (V3 0 0 0), 1));
  (4%nat, ((M3 0 0 1 1 0 0 0 1 0), (V3 0 0 0), 1));
  (5%nat, ((M3 1 0 0 0 1 0 0 0 1), (V3 0 0 0), 1));
  (5%nat, ((M3 0 (-1) 0 0 2 1 (-1) 0 0), (V3 0 0 0), 1));
  (5%nat, ((M3 0 (-1) 0 0 2 1 (-1) 0 0), (V3 0 0 0), 1));
  (5%nat, ((M3 0 1 0 0 0 1 1 0 0), (V3 0 0 0), 1));
  (5%nat, ((M3 1 0 0 0 0 1 0 (-1) 0), (V3 0 0 0), 1));
  (5%nat, ((M3 0 1 0 0 0 1 1 1 1), (V3 0 0 0), 1));
  (5%nat, ((M3 (-1) 0 0 2 0 1 0 1 0), (V3 0 0 0), 1));
  (5%nat, ((M3 (-1) 0 0 2 1 0 0 0 (-1)), (V3 0 0 0), 1));
  (5%nat, ((M3 (-1) 0 0 2 0 1 0 1 1), (V3 0 0 0), 1));
  (6%nat, ((M3 0 0 1 0 1 0 (-1) 0 0), (V3 0 0 0), 1));
  (6%nat, ((M3 0 1 0 0 0 1 1 0 0), (V3 0 0 0), 1));
  (6%nat, ((M3 0 0 1 1 0 0 0 1 0), (V3 0 0 0), 1));
  (7%nat, ((M3 1 0 0 0 1 0 0 0 1), (V3 0 0 0), 1));
  (7%nat, ((M3 1 0 1 0 1 0 0 0 1), (V3 0 0 0), 1));
  (7%nat, ((M3 0 0 1 0 1 0 (-1) 0 0), (V3 0 0 0), 1));
  (7%nat, ((M3 0 1 0 0 0 1 1 0 0), (V3 0 0 0), 1));
  (7%nat, ((M3 1 1 0 0 0 1 0 (-1) 0), (V3 0 0 0), 1));
  (7%nat, ((M3 1 0 0 0 0 1 0 (-1) 0), (V3 0 0 0), 1));
  (7%nat, ((M3 0 0 1 1 0 0 0 1 0), (V3 0 0 0), 1));
  (7%nat, ((M3 0 1 1 1 0 0 0 0 (-1)), (V3 0 0 0), 1));
  (7%nat, ((M3 0 1 0 1 0 0 0 0 (-1)), (V3 0 0 0), 1));
  (8%nat, ((M3 1 0 0 0 1 0 0 0 1), (V3 0 0 0), 1));
  (8%nat, ((M3 0 (-1) 0 0 2 1 (-1) 0 0), (V3 0 0 0), 1));
  (8%nat, ((M3 0 (-1) 0 0 2 1 (-1) 0 0), (V3 0 0 0), 1));
  (8%nat, ((M3 0 1 0 0 0 1 1 0 0), (V3 0 0 0), 1));
  (8%nat, ((M3 1 0 0 0 0 1 0 (-1) 0), (V3 0 0 0), 1));
  (8%nat, ((M3 0 1 0 0 0 1 1 1 1), (V3 0 0 0), 1));
  (8%nat, ((M3 (-1) 0 0 2 0 1 0 1 0), (V3 0 0 0), 1));
  (8%nat, ((M3 (-1) 0 0 2 1 0 0 0 (-1)), (V3 0 0 0), 1));
  (8%nat, ((M3 (-1) 0 0 2 0 1 0 1 1), (V3 0 0 0), 1));
  (9%nat, ((M3 1 0 0 0 1 0 0 0 1), (V3 0 0 0), 1));
  (9%nat, ((M3 1 (-1) 0 0 2 1 (-1) 0 0), (V3 0 0 0), 1));
  (9%nat, ((M3 0 (-1) 0 0 2 1 (-1) 0 0), (V3 0 0 0), 1));
  (9%nat, ((M3 0 (-1) 0 0 2 1 (-1) 0 0), (V3 0 0 0), 1));
  (9%nat, ((M3 1 0 1 0 1 0 0 0 1), (V3 0 0 0), 1));
  (9%nat, ((M3 1 (-1) 0 0 2 1 1 0 1), (V3 0 0 0), 1));
  (9%nat, ((M3 0 1 0 0 0 1 1 0 0), (V3 0 0 0), 1));
  (9%nat, ((M3 1 1 0 0 0 1 0 (-1) 0), (V3 0 0 0), 1));
  (9%nat, ((M3 1 0 0 0 0 1 1 (-1) 0), (V3 0 0 0), 1));
  (9%nat, ((M3 1 0 0 0 0 1 0 (-1) 0), (V3 0 0 0), 1));
  (9%nat, ((M3 1 1 0 0 0 1 1 0 0), (V3 0 0 0), 1));
  (9%nat, ((M3 0 1 0 0 0 1 1 1 1), (V3 0 0 0), 1));
  (9%nat, ((M3 (-1) 0 0 2 0 1 0 1 0), (V3 0 0 0), 1));
  (9%nat, ((M3 (-1) 0 1 2 1 0 0 0 (-1)), (V3 0 0 0), 1));
  (9%nat, ((M3 (-1) 1 0 2 0 1 0 1 0), (V3 0 0 0), 1));
  (9%nat, ((M3 (-1) 0 0 2 1 0 0 0 (-1)), (V3 0 0 0), 1));
  (9%nat, ((M3 (-1) 1 0 2 0 1 0 1 0), (V3 0 0 0), 1));
  (9%nat, ((M3 (-1) 0 0 2 0 1 0 1 1), (V3 0 0 0), 1));
  (10%nat, ((M3 0 0 1 0 1 0 (-1) 0 0), (V3 0 0 0), 1));
  (10%nat, ((M3 0 1 0 0 0 1 1 0 0), (V3 0 0 0), 1));
  (10%nat, ((M3 0 0 1 1 0 0 0 1 0), (V3 0 0 0), 1));
  (11%nat, ((M3 0 0 1 0 1 0 (-1) 0 0), (V3 0 0 0), 1));
  (11%nat, ((M3 0 1 0 0 0 1 1 0 0), (V3 0 0 0), 1));
  (11%nat, ((M3 0 0 1 1 0 0 0 1 0), (V3 0 0 0), 1));
  (12%nat, ((M3 1 0 0 0 1 0 0 0 1), (V3 0 0 0), 1));
  (12%nat, ((M3 0 (-1) 0 0 2 1 (-1) 0 0), (V3 0 0 0), 1));
  (12%nat, ((M3 0 (-1) 0 0 2 1 (-1) 0 0), (V3 0 0 0), 1));
  (12%nat, ((M3 0 1 0 0 0 1 1 0 0), (V3 0 0 0), 1));
  (12%nat, ((M3 1 0 0 0 0 1 0 (-1) 0), (V3 0 0 0), 1));
  (12%nat, ((M3 0 1 0 0 0 1 1 1 1), (V3 0 0 0), 1));
  (12%nat, ((M3 (-1) 0 0 2 0 1 0 1 0), (V3 0 0 0), 1));
  (12%nat, ((M3 (-1) 0 0 2 1 0 0 0 (-1)), (V3 0 0 0), 1));
  (12%nat, ((M3 (-1) 0 0 2 0 1 0 1 1), (V3 0 0 0), 1));
  (13%nat, ((M3 1 0 0 0 1 0 0 0 1), (V3 0 0 0), 1));
  (13%nat, ((M3 1 0 1 0 1 0 0 0 1), (V3 0 0 0), 1));
  (13%nat, ((M3 0 0 1 0 1 0 (-1) 0 0), (V3 0 0 0), 1));
  (13%nat, ((M3 0 1 0 0 0 1 1 0 0), (V3 0 0 0), 1));
  (13%nat, ((M3 1 1 0 0 0 1 0 (-1) 0), (V3 0 0 0), 1));
  (13%nat, ((M3 1 0 0 0 0 1 0 (-1) 0), (V3 0 0 0), 1));
  (13%nat, ((M3 0 0 1 1 0 0 0 1 0), (V3 0 0 0), 1));
  (13%nat, ((M3 0 1 1 1 0 0 0 0 (-1)), (V3 0 0 0), 1));
  (13%nat, ((M3 0 1 0 1 0 0 0 0 (-1)), (V3 0 0 0), 1));
  (14%nat, ((M3 1 0 0 0 1 0 0 0 1), (V3 0 0 0), 1));
  (14%nat, ((M3 1 0 1 0 1 0 0 0 1), (V3 0 0 0), 1));
  (14%nat, ((M3 0 0 1 0 1 0 (-1) 0 0), (V3 0 0 0), 1));
  (14%nat, ((M3 0 1 0 0 0 1 1 0 0), (V3 0 0 0), 1));
  (14%nat, ((M3 1 1 0 0 0 1 0 (-1) 0), (V3 0 0 0), 1));
  (14%nat, ((M3 1 0 0 0 0 1 0 (-1) 0), (V3 0 0 0), 1));
  (14%nat, ((M3 0 0 1 1 0 0 0 1 0), (V3 0 0 0), 1));
  (14%nat, ((M3 0 1 1 1 0 0 0 0 (-1)), (V3 0 0 0), 1));
  (14%nat, ((M3 0 1 0 1 0 0 0 0 (-1)), (V3 0 0 0), 1));
  (15%nat, ((M3 1 0 0 0 1 0 0 0 1), (V3 0 0 0), 1));
  (15%nat, ((M3 1 (-1) 0 0 2 1 (-1) 0 0), (V3 0 0 0), 1));
  (15%nat, ((M3 0 (-1) 0 0 2 1 (-1) 0 0), (V3 0 0 0), 1));
  (15%nat, ((M3 0 (-1) 0 0 2 1 (-1) 0 0), (V3 0 0 0), 1));
  (15%nat, ((M3 1 0 1 0 1 0 0 0 1), (V3 0 0 0), 1));
  (15%nat, ((M3 1 (-1) 0 0 2 1 1 0 1), (V3 0 0 0), 1));
  (15%nat, ((M3 0 1 0 0 0 1 1 0 0), (V3 0 0 0), 1));
  (15%nat, ((M3 1 1 0 0 0 1 0 (-1) 0), (V3 0 0 0), 1));
  (15%nat, ((M3 1 0 0 0 0 1 1 (-1) 0), (V3 0 0 0), 1));
  (15%nat, ((M3 1 0 0 0 0 1 0 (-1) 0), (V3 0 0 0), 1));
  (15%nat, ((M3 1 1 0 0 0 1 1 0 0), (V3 0 0 0), 1));
  (15%nat, ((M3 0 1 0 0 0 1 1 1 1), (V3 0 0 0), 1));
  (15%nat, ((M3 (-1) 0 0 2 0 1 0 1 0), (V3 0 0 0), 1));
  (15%nat, ((M3 (-1) 0 1 2 1 0 0 0 (-1)), (V3 0 0 0), 1));
  (15%nat, ((M3 (-1) 1 0 2 0 1 0 1 0), (V3 0 0 0), 1));
  (15%nat, ((M3 (-1) 0 0 2 1 0 0 0 (-1)), (V3 0 0 0), 1));
  (15%nat, ((M3 (-1) 1 0 2 0 1 0 1 0), (V3 0 0 0), 1));
  (15%nat, ((M3 (-1) 0 0 2 0 1 0 1 1), (V3 0 0 0), 1));
  (16%nat, ((M3 1 0 0 0 1 0 0 0 1), (V3 0 0 0), 1));
  (17%nat, ((M3 1 0 0 0 1 0 0 0 1), (V3 0 0 0), 1));
  (17%nat, ((M3 0 1 0 0 0 1 1 0 0), (V3 0 0 0), 1));
  (17%nat, ((M3 0 0 1 1 0 0 0 1 0), (V3 0 0 0), 1));
  (18%nat, ((M3 1 0 0 0 1 0 0 0 1), (V3 0 0 0), 1));
  (18%nat, ((M3 0 1 0 0 0 1 1 0 0), (V3 0 0 0), 1));
  (18%nat, ((M3 1 0 0 0 0 1 0 (-1) 0), (V3 0 0 0), 1));
  (19%nat, ((M3 1 0 0 0 1 0 0 0 1), (V3 0 0 0), 1));
  (20%nat, ((M3 1 0 0 0 1 0 0 0 1), (V3 0 0 0), 1));
  (20%nat, ((M3 0 1 0 0 0 1 1 0 0), (V3 0 0 0), 1));
  (20%nat, ((M3 (-1) 0 0 2 0 1 0 1 0), (V3 0 0 0), 1));
  (21%nat, ((M3 1 0 0 0 1 0 0 0 1), (V3 0 0 0), 1));
  (21%nat, ((M3 0 1 0 0 0 1 1 0 0), (V3 0 0 0), 1));
  (21%nat, ((M3 1 0 0 0 0 1 0 (-1) 0), (V3 0 0 0), 1));
  (22%nat, ((M3 1 0 0 0 1 0 0 0 1), (V3 0 0 0), 1));
  (23%nat, ((M3 1 0 0 0 1 0 0 0 1), (V3 0 0 0), 1));
  (23%nat, ((M3 1 0 0 0 1 0 0 0 1), (V3 9 0 6), 1));
  (25%nat, ((M3 1 0 0 0 1 0 0 0 1), (V3 0 0 0), 1));
  (25%nat, ((M3 0 1 0 0 0 1 1 0 0), (V3 0 0 0), 1));
  (25%nat, ((M3 1 0 0 0 0 1 0 (-1) 0), (V3 0 0 0), 1));
  (26%nat, ((M3 1 0 0 0 1 0 0 0 1), (V3 0 0 0), 1));
  (26%nat, ((M3 0 1 0 1 0 0 0 0 (-1)), (V3 0 0 0), 1));
  (26%nat, ((M3 0 1 0 0 0 1 1 0 0), (V3 0 0 0), 1));
  (26%nat, ((M3 0 0 1 0 1 0 (-1) 0 0), (V3 0 0 0), 1));
  (26%nat, ((M3 0 0 1 1 0 0 0 1 0), (V3 0 0 0), 1));
  (26%nat, ((M3 1 0 0 0 0 1 0 (-1) 0), (V3 0 0 0), 1));
  (27%nat, ((M3 1 0 0 0 1 0 0 0 1), (V3 0 0 0), 1));
  (27%nat, ((M3 0 1 0 0 0 1 1 0 0), (V3 0 0 0), 1));
  (27%nat, ((M3 1 0 0 0 0 1 0 (-1) 0), (V3 0 0 0), 1));
  (28%nat, ((M3 1 0 0 0 1 0 0 0 1), (V3 0 0 0), 1));
  (28%nat, ((M3 0 1 0 1 0 0 0 0 (-1)), (V3 0 0 0), 1));
  (28%nat, ((M3 0 1 0 0 0 1 1 0 0), (V3 0 0 0), 1));
  (28%nat, ((M3 0 0 1 0 1 0 (-1) 0 0), (V3 0 0 0), 1));
  (28%nat, ((M3 0 0 1 1 0 0 0 1 0), (V3 0 0 0), 1));
  (28%nat, ((M3 1 0 0 0 0 1 0 (-1) 0), (V3 0 0 0), 1));
  (29%nat, ((M3 1 0 0 0 1 0 0 0 1), (V3 0 0 0), 1));
  (29%nat, ((M3 0 1 0 1 0 0 0 0 (-1)), (V3 0 0 0), 1));
  (29%nat, ((M3 0 1 0 0 0 1 1 0 0), (V3 0 0 0), 1));
  (29%nat, ((M3 0 0 1 0 1 0 (-1) 0 0), (V3 0 0 0), 1));
  (29%nat, ((M3 0 0 1 1 0 0 0 1 0), (V3 0 0 0), 1));
  (29%nat, ((M3 1 0 0 0 0 1 0 (-1) 0), (V3 0 0 0), 1));
  (30%nat, ((M3 1 0 0 0 1 0 0 0 1), (V3 0 0 0), 1));
  (30%nat, ((M3 0 1 0 1 0 0 0 0 (-1)), (V3 0 0 0), 1));
  (30%nat, ((M3 0 1 0 0 0 1 1 0 0), (V3 0 0 0), 1));
  (30%nat, ((M3 0 0 1 0 1 0 (-1) 0 0), (V3 0 0 0), 1));
  (30%nat, ((M3 0 0 1 1 0 0 0 1 0), (V3 0 0 0), 1));
  (30%nat, ((M3 1 0 0 0 0 1 0 (-1) 0), (V3 0 0 0), 1));
  (31%nat, ((M3 1 0 0 0 1 0 0 0 1), (V3 0 0 0), 1));
  (31%nat, ((M3 0 1 0 1 0 0 0 0 (-1)), (V3 0 0 0), 1));
  (31%nat, ((M3 0 1 0 0 0 1 1 0 0), (V3 0 0 0), 1));
  (31%nat, ((M3 0 0 1 0 1 0 (-1) 0 0), (V3 0 0 0), 1));
  (31%nat, ((M3 0 0 1 1 0 0 0 1 0), (V3 0 0 0), 1));
  (31%nat, ((M3 1 0 0 0 0 1 0 (-1) 0), (V3 0 0 0), 1));
  (32%nat, ((M3 1 0 0 0 1 0 0 0 1), (V3 0 0 0), 1));
  (32%nat, ((M3 0 1 0 0 0 1 1 0 0), (V3 0 0 0), 1));
  (32%nat, ((M3 1 0 0 0 0 1 0 (-1) 0), (V3 0 0 0), 1));
  (33%nat, ((M3 1 0 0 0 1 0 0 0 1), (V3 0 0 0), 1));
  (33%nat, ((M3 0 1 0 1 0 0 0 0 (-1)), (V3 0 0 0), 1));
  (33%nat, ((M3 0 1 0 0 0 1 1 0 0), (V3 0 0 0), 1));
  (33%nat, ((M3 0 0 1 0 1 0 (-1) 0 0), (V3 0 0 0), 1));
  (33%nat, ((M3 0 0 1 1 0 0 0 1 0), (V3 0 0 0), 1));
  (33%nat, ((M3 1 0 0 0 0 1 0 (-1) 0), (V3 0 0 0), 1));
  (34%nat, ((M3 1 0 0 0 1 0 0 0 1), (V3 0 0 0), 1));
  (34%nat, ((M3 0 1 0 0 0 1 1 0 0), (V3 0 0 0), 1));
  (34%nat, ((M3 1 0 0 0 0 1 0 (-1) 0), (V3 0 0 0), 1));
  (35%nat, ((M3 1 0 0 0 1 0 0 0 1), (V3 0 0 0), 1));
  (35%nat, ((M3 0 1 0 0 0 1 1 0 0), (V3 0 0 0), 1));
  (35%nat, ((M3 1 0 0 0 0 1 0 (-1) 0), (V3 0 0 0), 1));
  (36%nat, ((M3 1 0 0 0 1 0 0 0 1), (V3 0 0 0), 1));
  (36%nat, ((M3 (-1) 0 0 2 1 0 0 0 (-1)), (V3 0 0 0), 1));
  (36%nat, ((M3 0 1 0 0 0 1 1 0 0), (V3 0 0 0), 1));
  (36%nat, ((M3 0 (-1) 0 0 2 1 (-1) 0 0), (V3 0 0 0), 1));
  (36%nat, ((M3 (-1) 0 0 2 0 1 0 1 0), (V3 0 0 0), 1));
  (36%nat, ((M3 1 0 0 0 0 1 0 (-1) 0), (V3 0 0 0), 1));
  (37%nat, ((M3 1 0 0 0 1 0 0 0 1), (V3 0 0 0), 1));
  (37%nat, ((M3 0 1 0 0 0 1 1 0 0), (V3 0 0 0), 1));
  (37%nat, ((M3 1 0 0 0 0 1 0 (-1) 0), (V3 0 0 0), 1));
  (38%nat, ((M3 1 0 0 0 1 0 0 0 1), (V3 0 0 0), 1));
  (38%nat, ((M3 0 1 0 1 0 1 0 0 (-1)), (V3 0 0 0), 1));
  (38%nat, ((M3 0 1 0 (-1) 0 0 2 0 1), (V3 0 0 0), 1));
  (38%nat, ((M3 0 0 1 1 1 0 (-2) (-1) 0), (V3 0 0 0), 1));
  (38%nat, ((M3 0 0 1 1 0 0 0 1 0), (V3 0 0 0), 1));
  (38%nat, ((M3 1 0 0 0 1 1 0 (-2) (-1)), (V3 0 0 0), 1));
  (39%nat, ((M3 1 0 0 0 1 0 0 0 1), (V3 0 0 0), 1));
  (39%nat, ((M3 0 1 0 1 0 1 0 0 (-1)), (V3 0 0 0), 1));
  (39%nat, ((M3 0 1 0 (-1) 0 0 2 0 1), (V3 0 0 0), 1));
  (39%nat, ((M3 0 0 1 1 1 0 (-2) (-1) 0), (V3 0 0 0), 1));
  (39%nat, ((M3 0 0 1 1 0 0 0 1 0), (V3 0 0 0), 1));
  (39%nat, ((M3 1 0 0 0 1 1 0 (-2) (-1)), (V3 0 0 0), 1));
  (40%nat, ((M3 1 0 0 0 1 0 0 0 1), (V3 0 0 0), 1));
  (40%nat, ((M3 0 1 0 1 0 1 0 0 (-1)), (V3 0 0 0), 1));
  (40%nat, ((M3 0 1 0 (-1) 0 0 2 0 1), (V3 0 0 0), 1));
  (40%nat, ((M3 0 0 1 1 1 0 (-2) (-1) 0), (V3 0 0 0), 1));
  (40%nat, ((M3 0 0 1 1 0 0 0 1 0), (V3 0 0 0), 1));
  (40%nat, ((M3 1 0 0 0 1 1 0 (-2) (-1)), (V3 0 0 0), 1));
  (41%nat, ((M3 1 0 0 0 1 0 0 0 1), (V3 0 0 0), 1));
  (41%nat, ((M3 0 1 0 1 0 1 0 0 (-1)), (V3 0 0 0), 1));
  (41%nat, ((M3 0 1 0 (-1) 0 0 2 0 1), (V3 0 0 0), 1));
  (41%nat, ((M3 0 0 1 1 1 0 (-2) (-1) 0), (V3 0 0 0), 1));
  (41%nat, ((M3 0 0 1 1 0 0 0 1 0), (V3 0 0 0), 1));
  (41%nat, ((M3 1 0 0 0 1 1 0 (-2) (-1)), (V3 0 0 0), 1));
  (42%nat, ((M3 1 0 0 0 1 0 0 0 1), (V3 0 0 0), 1));
  (42%nat, ((M3 0 1 0 0 0 1 1 0 0), (V3 0 0 0), 1));
  (42%nat, ((M3 0 0 (-1) (-1) 0 0 1 1 1), (V3 0 0 0), 1));
  (43%nat, ((M3 1 0 0 0 1 0 0 0 1), (V3 0 0 0), 1));
  (43%nat, ((M3 0 1 0 0 0 1 1 0 0), (V3 0 0 0), 1));
  (43%nat, ((M3 0 0 1 1 0 0 0 1 0), (V3 0 0 0), 1));
  (44%nat, ((M3 1 0 0 0 1 0 0 0 1), (V3 0 0 0), 1));
  (44%nat, ((M3 (-1) 1 0 (-1) 0 0 2 0 1), (V3 0 0 0), 1));
  (44%nat, ((M3 1 1 1 0 1 1 0 (-2) (-1)), (V3 0 0 0), 1));
  (45%nat, ((M3 1 0 0 0 1 0 0 0 1), (V3 0 0 0), 1));
  (45%nat, ((M3 (-1) 1 0 (-1) 0 0 2 0 1), (V3 0 0 0), 1));
  (45%nat, ((M3 1 1 1 0 1 1 0 (-2) (-1)), (V3 0 0 0), 1));
  (46%nat, ((M3 1 0 0 0 1 0 0 0 1), (V3 0 0 0), 1));
  (46%nat, ((M3 0 1 1 1 0 1 0 0 (-1)), (V3 0 0 0), 1));
  (46%nat, ((M3 (-1) 1 0 (-1) 0 0 2 0 1), (V3 0 0 0), 1));
  (46%nat, ((M3 1 0 1 1 1 1 (-2) 0 (-1)), (V3 0 0 0), 1));
  (46%nat, ((M3 0 (-1) 0 1 (-1) 0 0 2 1), (V3 0 0 0), 1));
  (46%nat, ((M3 1 1 1 0 1 1 0 (-2) (-1)), (V3 0 0 0), 1));
  (47%nat, ((M3 1 0 0 0 1 0 0 0 1), (V3 0 0 0), 1));
  (48%nat, ((M3 1 0 0 0 1 0 0 0 1), (V3 3 3 3), 1));
  (48%nat, ((M3 1 0 0 0 1 0 0 0 1), (V3 0 0 0), 1));
  (49%nat, ((M3 1 0 0 0 1 0 0 0 1), (V3 0 0 0), 1));
  (49%nat, ((M3 0 1 0 0 0 1 1 0 0), (V3 0 0 0), 1));
  (49%nat, ((M3 1 0 0 0 0 1 0 (-1) 0), (V3 0 0 0), 1));
  (50%nat, ((M3 1 0 0 0 1 0 0 0 1), (V3 3 3 0), 1));
  (50%nat, ((M3 1 0 0 0 1 0 0 0 1), (V3 0 0 0), 1));
  (50%nat, ((M3 0 1 0 0 0 1 1 0 0), (V3 3 3 0), 1));
  (50%nat, ((M3 0 1 0 0 0 1 1 0 0), (V3 0 0 0), 1));
  (50%nat, ((M3 1 0 0 0 0 1 0 (-1) 0), (V3 3 3 0), 1));
  (50%nat, ((M3 1 0 0 0 0 1 0 (-1) 0), (V3 0 0 0), 1));
  (51%nat, ((M3 1 0 0 0 1 0 0 0 1), (V3 0 0 0), 1));
  (51%nat, ((M3 0 1 0 1 0 0 0 0 (-1)), (V3 0 0 0), 1));
  (51%nat, ((M3 0 1 0 0 0 1 1 0 0), (V3 0 0 0), 1));
  (51%nat, ((M3 0 0 1 0 1 0 (-1) 0 0), (V3 0 0 0), 1));
  (51%nat, ((M3 0 0 1 1 0 0 0 1 0), (V3 0 0 0), 1));
  (51%nat, ((M3 1 0 0 0 0 1 0 (-1) 0), (V3 0 0 0), 1));
  (52%nat, ((M3 1 0 0 0 1 0 0 0 1), (V3 0 0 0), 1));
  (52%nat, ((M3 0 1 0 1 0 0 0 0 (-1)), (V3 0 0 0), 1));
  (52%nat, ((M3 0 1 0 0 0 1 1 0 0), (V3 0 0 0), 1));
  (52%nat, ((M3 0 0 1 0 1 0 (-1) 0 0), (V3 0 0 0), 1));
  (52%nat, ((M3 0 0 1 1 0 0 0 1 0), (V3 0 0 0), 1));
  (52%nat, ((M3 1 0 0 0 0 1 0 (-1) 0), (V3 0 0 0), 1));
  (53%nat, ((M3 1 0 0 0 1 0 0 0 1), (V3 0 0 0), 1));
  (53%nat, ((M3 0 1 0 1 0 0 0 0 (-1)), (V3 0 0 0), 1));
  (53%nat, ((M3 0 1 0 0 0 1 1 0 0), (V3 0 0 0), 1));
  (53%nat, ((M3 0 0 1 0 1 0 (-1) 0 0), (V3 0 0 0), 1));
  (53%nat, ((M3 0 0 1 1 0 0 0 1 0), (V3 0 0 0), 1));
  (53%nat, ((M3 1 0 0 0 0 1 0 (-1) 0), (V3 0 0 0), 1));
  (54%nat, ((M3 1 0 0 0 1 0 0 0 1), (V3 0 0 0), 1));
  (54%nat, ((M3 0 1 0 1 0 0 0 0 (-1)), (V3 0 0 0), 1));
  (54%nat, ((M3 0 1 0 0 0 1 1 0 0), (V3 0 0 0), 1));
  (54%nat, ((M3 0 0 1 0 1 0 (-1) 0 0), (V3 0 0 0), 1));
  (54%nat, ((M3 0 0 1 1 0 0 0 1 0), (V3 0 0 0), 1));
  (54%nat, ((M3 1 0 0 0 0 1 0 (-1) 0), (V3 0 0 0), 1));
  (55%nat, ((M3 1 0 0 0 1 0 0 0 1), (V3 0 0 0), 1));
  (55%nat, ((M3 0 1 0 0 0 1 1 0 0), (V3 0 0 0), 1));
  (55%nat, ((M3 1 0 0 0 0 1 0 (-1) 0), (V3 0 0 0), 1));
  (56%nat, ((M3 1 0 0 0 1 0 0 0 1), (V3 0 0 0), 1));
  (56%nat, ((M3 0 1 0 0 0 1 1 0 0), (V3 0 0 0), 1));
  (56%nat, ((M3 1 0 0 0 0 1 0 (-1) 0), (V3 0 0 0), 1));
  (57%nat, ((M3 1 0 0 0 1 0 0 0 1), (V3 0 0 0), 1));
  (57%nat, ((M3 0 1 0 1 0 0 0 0 (-1)), (V3 0 0 0), 1));
  (57%nat, ((M3 0 1 0 0 0 1 1 0 0), (V3 0 0 0), 1));
  (57%nat, ((M3 0 0 1 0 1 0 (-1) 0 0), (V3 0 0 0), 1));
  (57%nat, ((M3 0 0 1 1 0 0 0 1 0), (V3 0 0 0), 1));
  (57%nat, ((M3 1 0 0 0 0 1 0 (-1) 0), (V3 0 0 0), 1));
  (58%nat, ((M3 1 0 0 0 1 0 0 0 1), (V3 0 0 0), 1));
  (58%nat, ((M3 0 1 0 0 0 1 1 0 0), (V3 0 0 0), 1));
  (58%nat, ((M3 1 0 0 0 0 1 0 (-1) 0), (V3 0 0 0), 1));
  (59%nat, ((M3 1 0 0 0 1 0 0 0 1), (V3 3 3 0), 1));
  (59%nat, ((M3 1 0 0 0 1 0 0 0 1), (V3 0 0 0), 1));
  (59%nat, ((M3 0 1 0 0 0 1 1 0 0), (V3 3 3 0), 1));
  (59%nat, ((M3 0 1 0 0 0 1 1 0 0), (V3 0 0 0), 1));
  (59%nat, ((M3 1 0 0 0 0 1 0 (-1) 0), (V3 3 3 0), 1));
  (59%nat, ((M3 1 0 0 0 0 1 0 (-1) 0), (V3 0 0 0), 1));
  (60%nat, ((M3 1 0 0 0 1 0 0 0 1), (V3 0 0 0), 1));
  (60%nat, ((M3 0 1 0 1 0 0 0 0 (-1)), (V3 0 0 0), 1));
  (60%nat, ((M3 0 1 0 0 0 1 1 0 0), (V3 0 0 0), 1));
  (60%nat, ((M3 0 0 1 0 1 0 (-1) 0 0), (V3 0 0 0), 1));
  (60%nat, ((M3 0 0 1 1 0 0 0 1 0), (V3 0 0 0), 1));
  (60%nat, ((M3 1 0 0 0 0 1 0 (-1) 0), (V3 0 0 0), 1));
  (61%nat, ((M3 1 0 0 0 1 0 0 0 1), (V3 0 0 0), 1));
  (61%nat, ((M3 1 0 0 0 0 1 0 (-1) 0), (V3 0 0 0), 1));
  (62%nat, ((M3 1 0 0 0 1 0 0 0 1), (V3 0 0 0), 1));
  (62%nat, ((M3 0 1 0 1 0 0 0 0 (-1)), (V3 0 0 0), 1));
  (62%nat, ((M3 0 1 0 0 0 1 1 0 0), (V3 0 0 0), 1));
  (62%nat, ((M3 0 0 1 0 1 0 (-1) 0 0), (V3 0 0 0), 1));
  (62%nat, ((M3 0 0 1 1 0 0 0 1 0), (V3 0 0 0), 1));
  (62%nat, ((M3 1 0 0 0 0 1 0 (-1) 0), (V3 0 0 0), 1));
  (63%nat, ((M3 1 0 0 0 1 0 0 0 1), (V3 0 0 0), 1));
  (63%nat, ((M3 (-1) 0 0 2 1 0 0 0 (-1)), (V3 0 0 0), 1));
  (63%nat, ((M3 0 1 0 0 0 1 1 0 0), (V3 0 0 0), 1));
  (63%nat, ((M3 0 (-1) 0 0 2 1 (-1) 0 0), (V3 0 0 0), 1));
  (63%nat, ((M3 (-1) 0 0 2 0 1 0 1 0), (V3 0 0 0), 1));
  (63%nat, ((M3 1 0 0 0 0 1 0 (-1) 0), (V3 0 0 0), 1));
  (64%nat, ((M3 1 0 0 0 1 0 0 0 1), (V3 0 0 0), 1));
  (64%nat, ((M3 (-1) 0 0 2 1 0 0 0 (-1)), (V3 0 0 0), 1));
  (64%nat, ((M3 0 1 0 0 0 1 1 0 0), (V3 0 0 0), 1));
  (64%nat, ((M3 0 (-1) 0 0 2 1 (-1) 0 0), (V3 0 0 0), 1));
  (64%nat, ((M3 (-1) 0 0 2 0 1 0 1 0), (V3 0 0 0), 1));
  (64%nat, ((M3 1 0 0 0 0 1 0 (-1) 0), (V3 0 0 0), 1));
  (65%nat, ((M3 1 0 0 0 1 0 0 0 1), (V3 0 0 0), 1));
  (65%nat, ((M3 0 1 0 0 0 1 1 0 0), (V3 0 0 0), 1));
  (65%nat, ((M3 1 0 0 0 0 1 0 (-1) 0), (V3 0 0 0), 1));
  (66%nat, ((M3 1 0 0 0 1 0 0 0 1), (V3 0 0 0), 1));
  (66%nat, ((M3 0 1 0 0 0 1 1 0 0), (V3 0 0 0), 1));
  (66%nat, ((M3 1 0 0 0 0 1 0 (-1) 0), (V3 0 0 0), 1));
  (67%nat, ((M3 1 0 0 0 1 0 0 0 1), (V3 0 0 0), 1));
  (67%nat, ((M3 (-1) 0 0 2 1 0 0 0 (-1)), (V3 0 0 0), 1));
  (67%nat, ((M3 0 1 0 0 0 1 1 0 0), (V3 0 0 0), 1));
  (67%nat, ((M3 0 (-1) 0 0 2 1 (-1) 0 0), (V3 0 0 0), 1));
  (67%nat, ((M3 (-1) 0 0 2 0 1 0 1 0), (V3 0 0 0), 1));
  (67%nat, ((M3 1 0 0 0 0 1 0 (-1) 0), (V3 0 0 0), 1));
  (68%nat, ((M3 1 0 0 0 1 0 0 0 1), (V3 9 6 3), 1));
  (68%nat, ((M3 1 0 0 0 1 0 0 0 1), (V3 0 0 0), 1));
  (68%nat, ((M3 1 0 0 0 1 0 0 0 1), (V3 9 6 3), 1));
  (68%nat, ((M3 (-1) 0 0 2 1 0 0 0 (-1)), (V3 0 0 0), 1));
  (68%nat, ((M3 0 1 0 0 0 1 1 0 0), (V3 9 6 3), 1));
  (68%nat, ((M3 0 1 0 0 0 1 1 0 0), (V3 0 0 0), 1));
  (68%nat, ((M3 0 1 0 0 0 1 1 0 0), (V3 9 6 3), 1));
  (68%nat, ((M3 0 (-1) 0 0 2 1 (-1) 0 0), (V3 0 0 0), 1));
  (68%nat, ((M3 1 0 0 0 0 1 0 (-1) 0), (V3 9 6 3), 1));
  (68%nat, ((M3 (-1) 0 0 2 0 1 0 1 0), (V3 0 0 0), 1));
  (68%nat, ((M3 1 0 0 0 0 1 0 (-1) 0), (V3 9 6 3), 1));
  (68%nat, ((M3 1 0 0 0 0 1 0 (-1) 0), (V3 0 0 0), 1));
  (69%nat, ((M3 1 0 0 0 1 0 0 0 1), (V3 0 0 0), 1));
  (70%nat, ((M3 1 0 0 0 1 0 0 0 1), (V3 9 9 9), 2));
  (70%nat, ((M3 1 0 0 0 1 0 0 0 1), (V3 0 0 0), 1));
  (71%nat, ((M3 1 0 0 0 1 0 0 0 1), (V3 0 0 0), 1));
  (72%nat, ((M3 1 0 0 0 1 0 0 0 1), (V3 0 0 0), 1));
  (72%nat, ((M3 (-1) 1 0 (-1) 0 0 2 0 1), (V3 0 0 0), 1));
  (72%nat, ((M3 1 1 1 0 1 1 0 (-2) (-1)), (V3 0 0 0), 1));
  (73%nat, ((M3 1 0 0 0 1 0 0 0 1), (V3 0 0 0), 1));
  (73%nat, ((M3 1 1 1 0 1 1 0 (-2) (-1)), (V3 0 0 0), 1));
  (74%nat, ((M3 1 0 0 0 1 0 0 0 1), (V3 0 0 0), 1));
  (74%nat, ((M3 0 1 1 1 0 1 0 0 (-1)), (V3 0 0 0), 1));
  (74%nat, ((M3 (-1) 1 0 (-1) 0 0 2 0 1), (V3 0 0 0), 1));
  (74%nat, ((M3 1 0 1 1 1 1 (-2) 0 (-1)), (V3 0 0 0), 1));
  (74%nat, ((M3 0 (-1) 0 1 (-1) 0 0 2 1), (V3 0 0 0), 1));
  (74%nat, ((M3 1 1 1 0 1 1 0 (-2) (-1)), (V3 0 0 0), 1));
  (75%nat, ((M3 1 0 0 0 1 0 0 0 1), (V3 0 0 0), 1));
  (76%nat, ((M3 1 0 0 0 1 0 0 0 1), (V3 0 0 0), 1));
  (77%nat, ((M3 1 0 0 0 1 0 0 0 1), (V3 0 0 0), 1));
  (78%nat, ((M3 1 0 0 0 1 0 0 0 1), (V3 0 0 0), 1));
  (79%nat, ((M3 1 0 0 0 1 0 0 0 1), (V3 0 0 0), 1));
  (80%nat, ((M3 1 0 0 0 1 0 0 0 1), (V3 0 0 0), 1));
  (81%nat, ((M3 1 0 0 0 1 0 0 0 1), (V3 0 0 0), 1));
  (82%nat, ((M3 1 0 0 0 1 0 0 0 1), (V3 0 0 0), 1));
  (83%nat, ((M3 1 0 0 0 1 0 0 0 1), (V3 0 0 0), 1));
  (84%nat, ((M3 1 0 0 0 1 0 0 0 1), (V3 0 0 0), 1));
  (85%nat, ((M3 1 0 0 0 1 0 0 0 1), (V3 3 9 0), 1));
  (85%nat, ((M3 1 0 0 0 1 0 0 0 1), (V3 0 0 0), 1));
  (86%nat, ((M3 1 0 0 0 1 0 0 0 1), (V3 3 3 3), 1));
  (86%nat, ((M3 1 0 0 0 1 0 0 0 1), (V3 0 0 0), 1));
  (87%nat, ((M3 1 0 0 0 1 0 0 0 1), (V3 0 0 0), 1));
  (88%nat, ((M3 1 0 0 0 1 0 0 0 1), (V3 15 9 18), 2));
  (88%nat, ((M3 1 0 0 0 1 0 0 0 1), (V3 0 0 0), 1));
  (89%nat, ((M3 1 0 0 0 1 0 0 0 1), (V3 0 0 0), 1));
  (90%nat, ((M3 1 0 0 0 1 0 0 0 1), (V3 0 0 0), 1));
  (91%nat, ((M3 1 0 0 0 1 0 0 0 1), (V3 0 0 0), 1));
  (92%nat, ((M3 1 0 0 0 1 0 0 0 1), (V3 0 0 0), 1));
  (93%nat, ((M3 1 0 0 0 1 0 0 0 1), (V3 0 0 0), 1));
  (94%nat, ((M3 1 0 0 0 1 0 0 0 1), (V3 0 0 0), 1));
  (95%nat, ((M3 1 0 0 0 1 0 0 0 1), (V3 0 0 0), 1));
  (96%nat, ((M3 1 0 0 0 1 0 0 0 1), (V3 0 0 0), 1));
  (97%nat, ((M3 1 0 0 0 1 0 0 0 1), (V3 0 0 0), 1));
  (98%nat, ((M3 1 0 0 0 1 0 0 0 1), (V3 0 0 0), 1));
  (99%nat, ((M3 1 0 0 0 1 0 0 0 1), (V3 0 0 0), 1));
  (100%nat, ((M3 1 0 0 0 1 0 0 0 1), (V3 0 0 0), 1));
  (101%nat, ((M3 1 0 0 0 1 0 0 0 1), (V3 0 0 0), 1));
  (102%nat, ((M3 1 0 0 0 1 0 0 0 1), (V3 0 0 0), 1));
  (103%nat, ((M3 1 0 0 0 1 0 0 0 1), (V3 0 0 0), 1));
  (104%nat, ((M3 1 0 0 0 1 0 0 0 1), (V3 0 0 0), 1));
  (105%nat, ((M3 1 0 0 0 1 0 0 0 1), (V3 0 0 0), 1));
  (106%nat, ((M3 1 0 0 0 1 0 0 0 1), (V3 0 0 0), 1));
  (107%nat, ((M3 1 0 0 0 1 0 0 0 1), (V3 0 0 0), 1));
  (108%nat, ((M3 1 0 0 0 1 0 0 0 1), (V3 0 0 0), 1));
  (109%nat, ((M3 1 0 0 0 1 0 0 0 1), (V3 0 0 0), 1));
  (110%nat, ((M3 1 0 0 0 1 0 0 0 1), (V3 0 0 0), 1));
  (111%nat, ((M3 1 0 0 0 1 0 0 0 1), (V3 0 0 0), 1));
  (112%nat, ((M3 1 0 0 0 1 0 0 0 1), (V3 0 0 0), 1));
  (113%nat, ((M3 1 0 0 0 1 0 0 0 1), (V3 0 0 0), 1));
  (114%nat, ((M3 1 0 0 0 1 0 0 0 1), (V3 0 0 0), 1));
  (115%nat, ((M3 1 0 0 0 1 0 0 0 1), (V3 0 0 0), 1));
  (116%nat, ((M3 1 0 0 0 1 0 0 0 1), (V3 0 0 0), 1));
  (117%nat, ((M3 1 0 0 0 1 0 0 0 1), (V3 0 0 0), 1));
  (118%nat, ((M3 1 0 0 0 1 0 0 0 1), (V3 0 0 0), 1));
  (119%nat, ((M3 1 0 0 0 1 0 0 0 1), (V3 0 0 0), 1));
  (120%nat, ((M3 1 0 0 0 1 0 0 0 1), (V3 0 0 0), 1));
  (121%nat, ((M3 1 0 0 0 1 0 0 0 1), (V3 0 0 0), 1));
  (122%nat, ((M3 1 0 0 0 1 0 0 0 1), (V3 0 0 0), 1));
  (123%nat, ((M3 1 0 0 0 1 0 0 0 1), (V3 0 0 0), 1));
  (124%nat, ((M3 1 0 0 0 1 0 0 0 1), (V3 0 0 0), 1));
  (125%nat, ((M3 1 0 0 0 1 0 0 0 1), (V3 3 3 0), 1));
  (125%nat, ((M3 1 0 0 0 1 0 0 0 1), (V3 0 0 0), 1));
  (126%nat, ((M3 1 0 0 0 1 0 0 0 1), (V3 3 3 3), 1));
  (126%nat, ((M3 1 0 0 0 1 0 0 0 1), (V3 0 0 0), 1));
  (127%nat, ((M3 1 0 0 0 1 0 0 0 1), (V3 0 0 0), 1));
  (128%nat, ((M3 1 0 0 0 1 0 0 0 1), (V3 0 0 0), 1));
  (129%nat, ((M3 1 0 0 0 1 0 0 0 1), (V3 3 9 0), 1));
  (129%nat, ((M3 1 0 0 0 1 0 0 0 1), (V3 0 0 0), 1));
  (130%nat, ((M3 1 0 0 0 1 0 0 0 1), (V3 3 9 0), 1));
  (130%nat, ((M3 1 0 0 0 1 0 0 0 1), (V3 0 0 0), 1));
  (131%nat, ((M3 1 0 0 0 1 0 0 0 1), (V3 0 0 0), 1));
  (132%nat, ((M3 1 0 0 0 1 0 0 0 1), (V3 0 0 0), 1));
  (133%nat, ((M3 1 0 0 0 1 0 0 0 1), (V3 3 9 3), 1));
  (133%nat, ((M3 1 0 0 0 1 0 0 0 1), (V3 0 0 0), 1));
  (134%nat, ((M3 1 0 0 0 1 0 0 0 1), (V3 3 9 3), 1));
  (134%nat, ((M3 1 0 0 0 1 0 0 0 1), (V3 0 0 0), 1));
  (135%nat, ((M3 1 0 0 0 1 0 0 0 1), (V3 0 0 0), 1));
  (136%nat, ((M3 1 0 0 0 1 0 0 0 1), (V3 0 0 0), 1));
  (137%nat, ((M3 1 0 0 0 1 0 0 0 1), (V3 3 9 3), 1));
  (137%nat, ((M3 1 0 0 0 1 0 0 0 1), (V3 0 0 0), 1));
  (138%nat, ((M3 1 0 0 0 1 0 0 0 1), (V3 3 9 3), 1));
  (138%nat, ((M3 1 0 0 0 1 0 0 0 1), (V3 0 0 0), 1));
  (139%nat, ((M3 1 0 0 0 1 0 0 0 1), (V3 0 0 0), 1));
  (140%nat, ((M3 1 0 0 0 1 0 0 0 1), (V3 0 0 0), 1));
  (141%nat, ((M3 1 0 0 0 1 0 0 0 1), (V3 15 21 18), 2));
  (141%nat, ((M3 1 0 0 0 1 0 0 0 1), (V3 0 0 0), 1));
  (142%nat, ((M3 1 0 0 0 1 0 0 0 1), (V3 15 21 18), 2));
  (142%nat, ((M3 1 0 0 0 1 0 0 0 1), (V3 0 0 0), 1));
  (143%nat, ((M3 1 0 0 0 1 0 0 0 1), (V3 0 0 0), 1));
  (144%nat, ((M3 1 0 0 0 1 0 0 0 1), (V3 0 0 0), 1));
  (145%nat, ((M3 1 0 0 0 1 0 0 0 1), (V3 0 0 0), 1));
  (146%nat, ((M3 1 0 0 0 1 0 0 0 1), (V3 0 0 0), 1));
  (146%nat, ((M3 0 (-1) (-1) 0 0 (-1) 1 1 1), (V3 0 0 0), 1));
  (147%nat, ((M3 1 0 0 0 1 0 0 0 1), (V3 0 0 0), 1));
  (148%nat, ((M3 1 0 0 0 1 0 0 0 1), (V3 0 0 0), 1));
  (148%nat, ((M3 0 (-1) (-1) 0 0 (-1) 1 1 1), (V3 0 0 0), 1));
  (149%nat, ((M3 1 0 0 0 1 0 0 0 1), (V3 0 0 0), 1));
  (150%nat, ((M3 1 0 0 0 1 0 0 0 1), (V3 0 0 0), 1));
  (151%nat, ((M3 1 0 0 0 1 0 0 0 1), (V3 0 0 0), 1));
  (152%nat, ((M3 1 0 0 0 1 0 0 0 1), (V3 0 0 0), 1));
  (153%nat, ((M3 1 0 0 0 1 0 0 0 1), (V3 0 0 0), 1));
  (154%nat, ((M3 1 0 0 0 1 0 0 0 1), (V3 0 0 0), 1));
  (155%nat, ((M3 1 0 0 0 1 0 0 0 1), (V3 0 0 0), 1));
  (155%nat, ((M3 0 (-1) (-1) 0 0 (-1) 1 1 1), (V3 0 0 0), 1));
  (156%nat, ((M3 1 0 0 0 1 0 0 0 1), (V3 0 0 0), 1));
  (157%nat, ((M3 1 0 0 0 1 0 0 0 1), (V3 0 0 0), 1));
  (158%nat, ((M3 1 0 0 0 1 0 0 0 1), (V3 0 0 0), 1));
  (159%nat, ((M3 1 0 0 0 1 0 0 0 1), (V3 0 0 0), 1));
  (160%nat, ((M3 1 0 0 0 1 0 0 0 1), (V3 0 0 0), 1));
  (160%nat, ((M3 0 (-1) (-1) 0 0 (-1) 1 1 1), (V3 0 0 0), 1));
  (161%nat, ((M3 1 0 0 0 1 0 0 0 1), (V3 0 0 0), 1));
  (161%nat, ((M3 0 (-1) (-1) 0 0 (-1) 1 1 1), (V3 0 0 0), 1));
  (162%nat, ((M3 1 0 0 0 1 0 0 0 1), (V3 0 0 0), 1));
  (163%nat, ((M3 1 0 0 0 1 0 0 0 1), (V3 0 0 0), 1));
  (164%nat, ((M3 1 0 0 0 1 0 0 0 1), (V3 0 0 0), 1));
  (165%nat, ((M3 1 0 0 0 1 0 0 0 1), (V3 0 0 0), 1));
  (166%nat, ((M3 1 0 0 0 1 0 0 0 1), (V3 0 0 0), 1));
  (166%nat, ((M3 0 (-1) (-1) 0 0 (-1) 1 1 1), (V3 0 0 0), 1));
  (167%nat, ((M3 1 0 0 0 1 0 0 0 1), (V3 0 0 0), 1));
  (167%nat, ((M3 0 (-1) (-1) 0 0 (-1) 1 1 1), (V3 0 0 0), 1));
  (168%nat, ((M3 1 0 0 0 1 0 0 0 1), (V3 0 0 0), 1));
  (169%nat, ((M3 1 0 0 0 1 0 0 0 1), (V3 0 0 0), 1));
  (170%nat, ((M3 1 0 0 0 1 0 0 0 1), (V3 0 0 0), 1));
  (171%nat, ((M3 1 0 0 0 1 0 0 0 1), (V3 0 0 0), 1));
  (172%nat, ((M3 1 0 0 0 1 0 0 0 1), (V3 0 0 0), 1));
  (173%nat, ((M3 1 0 0 0 1 0 0 0 1), (V3 0 0 0), 1));
  (174%nat, ((M3 1 0 0 0 1 0 0 0 1), (V3 0 0 0), 1));
  (175%nat, ((M3 1 0 0 0 1 0 0 0 1), (V3 0 0 0), 1));
  (176%nat, ((M3 1 0 0 0 1 0 0 0 1), (V3 0 0 0), 1));
  (177%nat, ((M3 1 0 0 0 1 0 0 0 1), (V3 0 0 0), 1));
  (178%nat, ((M3 1 0 0 0 1 0 0 0 1), (V3 0 0 0), 1));
  (179%nat, ((M3 1 0 0 0 1 0 0 0 1), (V3 0 0 0), 1));
  (180%nat, ((M3 1 0 0 0 1 0 0 0 1), (V3 0 0 0), 1));
  (181%nat, ((M3 1 0 0 0 1 0 0 0 1), (V3 0 0 0), 1));
  (182%nat, ((M3 1 0 0 0 1 0 0 0 1), (V3 0 0 0), 1));
  (183%nat, ((M3 1 0 0 0 1 0 0 0 1), (V3 0 0 0), 1));
  (184%nat, ((M3 1 0 0 0 1 0 0 0 1), (V3 0 0 0), 1));
  (185%nat, ((M3 1 0 0 0 1 0 0 0 1), (V3 0 0 0), 1));
  (186%nat, ((M3 1 0 0 0 1 0 0 0 1), (V3 0 0 0), 1));
  (187%nat, ((M3 1 0 0 0 1 0 0 0 1), (V3 0 0 0), 1));
  (188%nat, ((M3 1 0 0 0 1 0 0 0 1), (V3 0 0 0), 1));
  (189%nat, ((M3 1 0 0 0 1 0 0 0 1), (V3 0 0 0), 1));
  (190%nat, ((M3 1 0 0 0 1 0 0 0 1), (V3 0 0 0), 1));
  (191%nat, ((M3 1 0 0 0 1 0 0 0 1), (V3 0 0 0), 1));
  (192%nat, ((M3 1 0 0 0 1 0 0 0 1), (V3 0 0 0), 1));
  (193%nat, ((M3 1 0 0 0 1 0 0 0 1), (V3 0 0 0), 1));
  (194%nat, ((M3 1 0 0 0 1 0 0 0 1), (V3 0 0 0), 1));
  (195%nat, ((M3 1 0 0 0 1 0 0 0 1), (V3 0 0 0), 1));
  (196%nat, ((M3 1 0 0 0 1 0 0 0 1), (V3 0 0 0), 1));
  (197%nat, ((M3 1 0 0 0 1 0 0 0 1), (V3 0 0 0), 1));
  (198%nat, ((M3 1 0 0 0 1 0 0 0 1), (V3 0 0 0), 1));
  (199%nat, ((M3 1 0 0 0 1 0 0 0 1), (V3 0 0 0), 1));
  (200%nat, ((M3 1 0 0 0 1 0 0 0 1), (V3 0 0 0), 1));
  (201%nat, ((M3 1 0 0 0 1 0 0 0 1), (V3 3 3 3), 1));
  (201%nat, ((M3 1 0 0 0 1 0 0 0 1), (V3 0 0 0), 1));
  (202%nat, ((M3 1 0 0 0 1 0 0 0 1), (V3 0 0 0), 1));
  (203%nat, ((M3 1 0 0 0 1 0 0 0 1), (V3 9 9 9), 2));
  (203%nat, ((M3 1 0 0 0 1 0 0 0 1), (V3 0 0 0), 1));
  (204%nat, ((M3 1 0 0 0 1 0 0 0 1), (V3 0 0 0), 1));
  (205%nat, ((M3 1 0 0 0 1 0 0 0 1), (V3 0 0 0), 1));
  (206%nat, ((M3 1 0 0 0 1 0 0 0 1), (V3 0 0 0), 1));
  (207%nat, ((M3 1 0 0 0 1 0 0 0 1), (V3 0 0 0), 1));
  (208%nat, ((M3 1 0 0 0 1 0 0 0 1), (V3 0 0 0), 1));
  (209%nat, ((M3 1 0 0 0 1 0 0 0 1), (V3 0 0 0), 1));
  (210%nat, ((M3 1 0 0 0 1 0 0 0 1), (V3 0 0 0), 1));
  (211%nat, ((M3 1 0 0 0 1 0 0 0 1), (V3 0 0 0), 1));
  (212%nat, ((M3 1 0 0 0 1 0 0 0 1), (V3 0 0 0), 1));
  (213%nat, ((M3 1 0 0 0 1 0 0 0 1), (V3 0 0 0), 1));
  (214%nat, ((M3 1 0 0 0 1 0 0 0 1), (V3 0 0 0), 1));
  (215%nat, ((M3 1 0 0 0 1 0 0 0 1), (V3 0 0 0), 1));
  (216%nat, ((M3 1 0 0 0 1 0 0 0 1), (V3 0 0 0), 1));
  (217%nat, ((M3 1 0 0 0 1 0 0 0 1), (V3 0 0 0), 1));
  (218%nat, ((M3 1 0 0 0 1 0 0 0 1), (V3 0 0 0), 1));
  (219%nat, ((M3 1 0 0 0 1 0 0 0 1), (V3 0 0 0), 1));
  (220%nat, ((M3 1 0 0 0 1 0 0 0 1), (V3 0 0 0), 1));
  (221%nat, ((M3 1 0 0 0 1 0 0 0 1), (V3 0 0 0), 1));
  (222%nat, ((M3 1 0 0 0 1 0 0 0 1), (V3 3 3 3), 1));
  (222%nat, ((M3 1 0 0 0 1 0 0 0 1), (V3 0 0 0), 1));
  (223%nat, ((M3 1 0 0 0 1 0 0 0 1), (V3 0 0 0), 1));
  (224%nat, ((M3 1 0 0 0 1 0 0 0 1), (V3 3 3 3), 1));
  (224%nat, ((M3 1 0 0 0 1 0 0 0 1), (V3 0 0 0), 1));
  (225%nat, ((M3 1 0 0 0 1 0 0 0 1), (V3 0 0 0), 1));
  (226%nat, ((M3 1 0 0 0 1 0 0 0 1), (V3 0 0 0), 1));
  (227%nat, ((M3 1 0 0 0 1 0 0 0 1), (V3 9 9 9), 2));
  (227%nat, ((M3 1 0 0 0 1 0 0 0 1), (V3 0 0 0), 1));
  (228%nat, ((M3 1 0 0 0 1 0 0 0 1), (V3 3 3 3), 2));
  (228%nat, ((M3 1 0 0 0 1 0 0 0 1), (V3 0 0 0), 1));
  (229%nat, ((M3 1 0 0 0 1 0 0 0 1), (V3 0 0 0), 1));
  (230%nat, ((M3 1 0 0 0 1 0 0 0 1), (V3 0 0 0), 1))].
(** for the eleven mirror pairs: the same, of determinant -1 *)
Definition mirror_changes : list (nat * nat * (mat3 * vec3 * Z)) := [
  (76%nat, 78%nat, ((M3 (-1) 0 0 0 (-1) 0 0 0 (-1)), (V3 0 0 0), 1));
  (91%nat, 95%nat, ((M3 (-1) 0 0 0 (-1) 0 0 0 (-1)), (V3 0 0 0), 1));
  (92%nat, 96%nat, ((M3 (-1) 0 0 0 (-1) 0 0 0 (-1)), (V3 0 0 0), 1));
  (144%nat, 145%nat, ((M3 (-1) 0 0 0 (-1) 0 0 0 (-1)), (V3 0 0 0), 1));
  (151%nat, 153%nat, ((M3 (-1) 0 0 0 (-1) 0 0 0 (-1)), (V3 0 0 0), 1));
  (152%nat, 154%nat, ((M3 (-1) 0 0 0 (-1) 0 0 0 (-1)), (V3 0 0 0), 1));
  (169%nat, 170%nat, ((M3 (-1) 0 0 0 (-1) 0 0 0 (-1)), (V3 0 0 0), 1));
  (171%nat, 172%nat, ((M3 (-1) 0 0 0 (-1) 0 0 0 (-1)), (V3 0 0 0), 1));
  (178%nat, 179%nat, ((M3 (-1) 0 0 0 (-1) 0 0 0 (-1)), (V3 0 0 0), 1));
  (180%nat, 181%nat, ((M3 (-1) 0 0 0 (-1) 0 0 0 (-1)), (V3 0 0 0), 1));
  (212%nat, 213%nat, ((M3 (-1) 0 0 0 (-1) 0 0 0 (-1)), (V3 0 0 0), 1))].
