(** * ClassData: data found by search outside Coq and checked in PropOneType (proof support for
    C86): representatives of the 73 arithmetic crystal classes, where the subgroups of the
    largest ones are found among them, and, for each class, a certificate (see Cocycle) for
    the possible translations together with a change of coordinates to a row of the default
    table for each possibility.  Nothing here is trusted. *)
From Verif Require Import Base Seitz Spec Cocycle.
Open Scope Z_scope.

(** the rotation parts of these rows of the default table (counted from 0) represent the classes *)
Definition class_rows : list nat := [0; 1; 2; 4; 5; 7; 9; 11; 15; 19; 21; 22; 24; 34; 37; 41; 43; 46; 62; 68; 70; 74; 78; 80; 81; 82; 86; 88; 96; 98; 106; 110; 114; 118; 120; 122; 138; 142; 145; 146; 147; 148; 149; 154; 155; 156; 159; 161; 163; 165; 167; 173; 174; 176; 182; 186; 188; 190; 194; 195; 196; 199; 201; 203; 206; 208; 210; 214; 215; 216; 220; 224; 228]%nat.
(** the classes of the frames that [LatticeData] refers to *)
Definition frame_classes : list nat := [1; 6; 7; 17; 18; 19; 20; 35; 36; 47; 48; 49; 57; 70; 71; 72]%nat.
(** for each frame and each of its subgroups: a class, and a matrix U such that R |-> U R U^-1
    turns the subgroup into the representative of the class *)
Definition subgroup_classes : list (list (nat * mat3)) := [
  [(1%nat, M3 (-1) 0 0 0 (-1) 0 0 0 1); (0%nat, M3 (-1) 0 0 0 (-1) 0 0 0 1)];
  [(6%nat, M3 (-1) 0 0 0 (-1) 0 0 0 1); (1%nat, M3 (-1) 0 0 0 (-1) 0 0 0 1); (4%nat, M3 (-1) 0 0 0 (-1) 0 0 0 1); (2%nat, M3 (-1) 0 0 0 (-1) 0 0 0 1); (0%nat, M3 (-1) 0 0 0 (-1) 0 0 0 1)];
  [(7%nat, M3 (-1) 0 0 0 (-1) 0 0 0 1); (1%nat, M3 (-1) 0 0 0 (-1) 0 0 0 1); (5%nat, M3 (-1) 0 0 0 (-1) 0 0 0 1); (3%nat, M3 (-1) 0 0 0 (-1) 0 0 0 1); (0%nat, M3 (-1) 0 0 0 (-1) 0 0 0 1)];
  [(8%nat, M3 (-1) 0 0 0 (-1) 0 0 0 1); (12%nat, M3 (-1) 0 0 0 (-1) 0 0 0 1); (6%nat, M3 0 (-1) 0 (-1) 0 0 0 0 (-1)); (6%nat, M3 (-1) 0 0 0 (-1) 0 0 0 1); (17%nat, M3 (-1) 0 0 0 (-1) 0 0 0 1); (12%nat, M3 0 (-1) 0 0 0 (-1) 1 0 0); (12%nat, M3 (-1) 0 0 0 0 (-1) 0 (-1) 0); (6%nat, M3 (-1) 0 0 0 0 (-1) 0 (-1) 0); (4%nat, M3 (-1) 0 0 0 0 (-1) 0 (-1) 0); (1%nat, M3 (-1) 0 0 0 (-1) 0 0 0 1); (4%nat, M3 0 (-1) 0 (-1) 0 0 0 0 (-1)); (4%nat, M3 (-1) 0 0 0 (-1) 0 0 0 1); (2%nat, M3 0 (-1) 0 (-1) 0 0 0 0 (-1)); (2%nat, M3 (-1) 0 0 0 (-1) 0 0 0 1); (2%nat, M3 (-1) 0 0 0 0 (-1) 0 (-1) 0); (0%nat, M3 (-1) 0 0 0 (-1) 0 0 0 1)];
  [(9%nat, M3 (-1) 0 0 0 (-1) 0 0 0 1); (13%nat, M3 (-1) 0 0 0 (-1) 0 0 0 1); (7%nat, M3 1 0 0 (-2) (-1) 0 0 0 (-1)); (7%nat, M3 (-1) 0 0 0 (-1) 0 0 0 1); (18%nat, M3 (-1) 0 0 0 (-1) 0 0 0 1); (14%nat, M3 0 0 (-1) 1 0 0 (-2) (-1) 0); (14%nat, M3 0 0 1 (-1) 0 0 0 (-1) 0); (6%nat, M3 (-1) 0 0 0 0 (-1) 0 (-1) 0); (4%nat, M3 (-1) 0 0 0 0 (-1) 0 (-1) 0); (1%nat, M3 (-1) 0 0 0 (-1) 0 0 0 1); (5%nat, M3 1 0 0 (-2) (-1) 0 0 0 (-1)); (5%nat, M3 (-1) 0 0 0 (-1) 0 0 0 1); (3%nat, M3 1 0 0 (-2) (-1) 0 0 0 (-1)); (3%nat, M3 (-1) 0 0 0 (-1) 0 0 0 1); (2%nat, M3 (-1) 0 0 0 0 (-1) 0 (-1) 0); (0%nat, M3 (-1) 0 0 0 (-1) 0 0 0 1)];
  [(10%nat, M3 (-1) 0 0 0 0 (-1) 0 (-1) 0); (15%nat, M3 0 (-1) 0 (-1) 0 0 0 0 (-1)); (7%nat, M3 (-1) 0 0 0 (-1) (-1) (-1) (-1) 0); (7%nat, M3 (-1) 0 0 1 0 1 0 1 1); (19%nat, M3 (-1) 0 0 0 0 (-1) 0 (-1) 0); (15%nat, M3 0 0 (-1) 0 (-1) 0 (-1) 0 0); (15%nat, M3 (-1) 0 0 0 0 (-1) 0 (-1) 0); (7%nat, M3 (-1) 0 0 1 1 0 (-1) 0 (-1)); (5%nat, M3 (-1) 0 0 1 1 0 (-1) 0 (-1)); (1%nat, M3 (-1) 0 0 0 (-1) 0 0 0 1); (5%nat, M3 (-1) 0 0 0 (-1) (-1) (-1) (-1) 0); (5%nat, M3 (-1) 0 0 1 0 1 0 1 1); (3%nat, M3 (-1) 0 0 0 (-1) (-1) (-1) (-1) 0); (3%nat, M3 (-1) 0 0 1 0 1 0 1 1); (3%nat, M3 (-1) 0 0 1 1 0 (-1) 0 (-1)); (0%nat, M3 (-1) 0 0 0 (-1) 0 0 0 1)];
  [(11%nat, M3 0 (-1) 0 (-1) 0 0 0 0 (-1)); (16%nat, M3 0 (-1) 0 (-1) 0 0 0 0 (-1)); (7%nat, M3 (-1) 0 0 2 0 1 0 1 0); (7%nat, M3 0 (-1) 0 0 2 1 (-1) 0 0); (20%nat, M3 0 (-1) 0 (-1) 0 0 0 0 (-1)); (16%nat, M3 (-1) 1 0 (-1) 0 0 2 0 1); (16%nat, M3 0 (-1) 0 1 (-1) 0 0 2 1); (7%nat, M3 (-1) 0 0 0 0 (-1) 1 (-1) 0); (5%nat, M3 (-1) 0 0 0 0 (-1) 1 (-1) 0); (1%nat, M3 (-1) 0 0 0 (-1) 0 0 0 1); (5%nat, M3 (-1) 0 0 2 0 1 0 1 0); (5%nat, M3 0 (-1) 0 0 2 1 (-1) 0 0); (3%nat, M3 (-1) 0 0 2 0 1 0 1 0); (3%nat, M3 0 (-1) 0 0 2 1 (-1) 0 0); (3%nat, M3 (-1) 0 0 0 0 (-1) 1 (-1) 0); (0%nat, M3 (-1) 0 0 0 (-1) 0 0 0 1)];
  [(8%nat, M3 (-1) 0 0 0 (-1) 0 0 0 1); (12%nat, M3 (-1) 0 0 0 (-1) 0 0 0 1); (32%nat, M3 (-1) 0 0 0 (-1) 0 0 0 1); (27%nat, M3 (-1) 0 0 0 (-1) 0 0 0 1); (9%nat, M3 (-1) 0 0 1 (-1) 0 0 0 1); (6%nat, M3 0 (-1) 0 (-1) 0 0 0 0 (-1)); (6%nat, M3 (-1) 0 0 0 (-1) 0 0 0 1); (17%nat, M3 (-1) 0 0 0 (-1) 0 0 0 1); (12%nat, M3 0 (-1) 0 0 0 (-1) 1 0 0); (12%nat, M3 (-1) 0 0 0 0 (-1) 0 (-1) 0); (25%nat, M3 (-1) 0 0 0 (-1) 0 0 0 1); (6%nat, M3 (-1) 0 0 0 0 (-1) 0 (-1) 0); (14%nat, M3 0 0 (-1) 0 (-1) 0 (-1) 1 0); (7%nat, M3 (-1) 0 0 1 1 0 0 0 (-1)); (35%nat, M3 (-1) 0 0 0 (-1) 0 0 0 1); (18%nat, M3 (-1) 0 0 1 (-1) 0 0 0 1); (7%nat, M3 (-1) 0 0 1 (-1) 0 0 0 1); (14%nat, M3 0 0 (-1) (-1) 0 0 1 1 0); (31%nat, M3 (-1) 0 0 0 (-1) 0 0 0 1); (29%nat, M3 (-1) 0 0 0 (-1) 0 0 0 1); (13%nat, M3 (-1) 0 0 1 (-1) 0 0 0 1); (5%nat, M3 (-1) 0 0 1 (-1) 0 0 0 1); (5%nat, M3 (-1) 0 0 1 1 0 0 0 (-1)); (4%nat, M3 (-1) 0 0 0 0 (-1) 0 (-1) 0); (1%nat, M3 (-1) 0 0 0 (-1) 0 0 0 1); (3%nat, M3 (-1) 0 0 1 (-1) 0 0 0 1); (3%nat, M3 (-1) 0 0 1 1 0 0 0 (-1)); (4%nat, M3 0 (-1) 0 (-1) 0 0 0 0 (-1)); (4%nat, M3 (-1) 0 0 0 (-1) 0 0 0 1); (2%nat, M3 0 (-1) 0 (-1) 0 0 0 0 (-1)); (2%nat, M3 (-1) 0 0 0 (-1) 0 0 0 1); (23%nat, M3 (-1) 0 0 0 (-1) 0 0 0 1); (21%nat, M3 (-1) 0 0 0 (-1) 0 0 0 1); (2%nat, M3 (-1) 0 0 0 0 (-1) 0 (-1) 0); (0%nat, M3 (-1) 0 0 0 (-1) 0 0 0 1)];
  [(11%nat, M3 0 (-1) 0 (-1) 0 0 0 0 (-1)); (16%nat, M3 0 (-1) 0 (-1) 0 0 0 0 (-1)); (33%nat, M3 0 (-1) 0 (-1) 0 0 0 0 (-1)); (28%nat, M3 0 (-1) 0 (-1) 0 0 0 0 (-1)); (10%nat, M3 (-1) 0 (-1) 1 0 0 0 (-1) 0); (7%nat, M3 (-1) 0 0 2 0 1 0 1 0); (7%nat, M3 0 (-1) 0 0 2 1 (-1) 0 0); (20%nat, M3 0 (-1) 0 (-1) 0 0 0 0 (-1)); (16%nat, M3 (-1) 1 0 (-1) 0 0 2 0 1); (16%nat, M3 0 (-1) 0 1 (-1) 0 0 2 1); (26%nat, M3 0 (-1) 0 (-1) 0 0 0 0 (-1)); (7%nat, M3 (-1) 0 0 0 0 (-1) 1 (-1) 0); (15%nat, M3 (-1) 0 0 0 1 0 0 (-1) (-1)); (7%nat, M3 (-1) 0 0 1 1 1 0 0 (-1)); (36%nat, M3 0 (-1) 0 (-1) 0 0 0 0 (-1)); (19%nat, M3 (-1) 0 (-1) 1 0 0 0 (-1) 0); (7%nat, M3 (-1) 0 0 1 (-1) 0 0 0 1); (15%nat, M3 0 (-1) (-1) (-1) 0 0 0 1 0); (34%nat, M3 0 (-1) 0 (-1) 0 0 0 0 (-1)); (30%nat, M3 0 (-1) 0 (-1) 0 0 0 0 (-1)); (15%nat, M3 (-1) 0 (-1) 1 0 0 0 (-1) 0); (5%nat, M3 (-1) 0 0 1 (-1) 0 0 0 1); (5%nat, M3 (-1) 0 0 1 1 1 0 0 (-1)); (5%nat, M3 (-1) 0 0 0 0 (-1) 1 (-1) 0); (1%nat, M3 (-1) 0 0 0 (-1) 0 0 0 1); (3%nat, M3 (-1) 0 0 1 (-1) 0 0 0 1); (3%nat, M3 (-1) 0 0 1 1 1 0 0 (-1)); (5%nat, M3 (-1) 0 0 2 0 1 0 1 0); (5%nat, M3 0 (-1) 0 0 2 1 (-1) 0 0); (3%nat, M3 (-1) 0 0 2 0 1 0 1 0); (3%nat, M3 0 (-1) 0 0 2 1 (-1) 0 0); (24%nat, M3 0 (-1) 0 (-1) 0 0 0 0 (-1)); (22%nat, M3 0 (-1) 0 (-1) 0 0 0 0 (-1)); (3%nat, M3 (-1) 0 0 0 0 (-1) 1 (-1) 0); (0%nat, M3 (-1) 0 0 0 (-1) 0 0 0 1)];
  [(41%nat, M3 (-1) 0 0 0 (-1) 0 0 0 1); (7%nat, M3 (-1) 0 0 1 (-1) 0 0 0 1); (7%nat, M3 (-1) 0 0 0 1 0 0 0 (-1)); (7%nat, M3 0 (-1) 0 1 0 0 0 0 1); (47%nat, M3 (-1) 0 0 0 (-1) 0 0 0 1); (45%nat, M3 (-1) 0 0 0 (-1) 0 0 0 1); (5%nat, M3 0 (-1) 0 1 0 0 0 0 1); (5%nat, M3 (-1) 0 0 0 1 0 0 0 (-1)); (5%nat, M3 (-1) 0 0 1 (-1) 0 0 0 1); (39%nat, M3 (-1) 0 0 0 (-1) 0 0 0 1); (1%nat, M3 (-1) 0 0 0 (-1) 0 0 0 1); (3%nat, M3 0 (-1) 0 1 0 0 0 0 1); (3%nat, M3 (-1) 0 0 0 1 0 0 0 (-1)); (3%nat, M3 (-1) 0 0 1 (-1) 0 0 0 1); (37%nat, M3 (-1) 0 0 0 (-1) 0 0 0 1); (0%nat, M3 (-1) 0 0 0 (-1) 0 0 0 1)];
  [(42%nat, M3 (-1) 0 0 0 (-1) 0 0 0 1); (7%nat, M3 (-1) 0 0 1 1 0 0 0 (-1)); (7%nat, M3 (-1) 0 0 2 (-1) 0 0 0 1); (7%nat, M3 0 (-1) 0 (-1) 2 0 0 0 (-1)); (48%nat, M3 (-1) 0 0 0 (-1) 0 0 0 1); (44%nat, M3 (-1) 0 0 0 (-1) 0 0 0 1); (5%nat, M3 0 (-1) 0 (-1) 2 0 0 0 (-1)); (5%nat, M3 (-1) 0 0 2 (-1) 0 0 0 1); (5%nat, M3 (-1) 0 0 1 1 0 0 0 (-1)); (39%nat, M3 (-1) 0 0 0 (-1) 0 0 0 1); (1%nat, M3 (-1) 0 0 0 (-1) 0 0 0 1); (3%nat, M3 0 (-1) 0 (-1) 2 0 0 0 (-1)); (3%nat, M3 (-1) 0 0 2 (-1) 0 0 0 1); (3%nat, M3 (-1) 0 0 1 1 0 0 0 (-1)); (37%nat, M3 (-1) 0 0 0 (-1) 0 0 0 1); (0%nat, M3 (-1) 0 0 0 (-1) 0 0 0 1)];
  [(43%nat, M3 1 0 0 0 1 0 0 0 1); (7%nat, M3 (-1) 0 0 1 1 1 0 0 (-1)); (7%nat, M3 1 0 0 (-2) 1 (-1) 0 0 1); (7%nat, M3 0 (-1) 0 (-1) 2 0 0 0 (-1)); (49%nat, M3 1 0 0 0 1 0 0 0 1); (46%nat, M3 1 0 0 0 1 0 0 0 1); (5%nat, M3 0 (-1) 0 (-1) 2 0 0 0 (-1)); (5%nat, M3 1 0 0 (-2) 1 (-1) 0 0 1); (5%nat, M3 (-1) 0 0 1 1 1 0 0 (-1)); (40%nat, M3 1 0 0 0 1 0 0 0 1); (1%nat, M3 (-1) 0 0 0 (-1) 0 0 0 1); (3%nat, M3 0 (-1) 0 (-1) 2 0 0 0 (-1)); (3%nat, M3 1 0 0 (-2) 1 (-1) 0 0 1); (3%nat, M3 (-1) 0 0 1 1 1 0 0 (-1)); (38%nat, M3 1 0 0 0 1 0 0 0 1); (0%nat, M3 (-1) 0 0 0 (-1) 0 0 0 1)];
  [(42%nat, M3 (-1) 0 0 0 (-1) 0 0 0 1); (9%nat, M3 (-1) 0 0 1 (-1) 0 0 0 1); (9%nat, M3 (-1) 0 0 0 1 0 0 0 (-1)); (53%nat, M3 (-1) 0 0 0 (-1) 0 0 0 1); (9%nat, M3 0 (-1) 0 1 0 0 0 0 1); (41%nat, M3 (-1) 0 0 0 (-1) 0 0 0 1); (6%nat, M3 (-1) 0 0 0 0 (-1) 0 (-1) 0); (52%nat, M3 (-1) 0 0 0 (-1) 0 0 0 1); (14%nat, M3 0 0 (-1) 0 (-1) 0 (-1) 1 0); (7%nat, M3 (-1) 0 0 1 1 0 0 0 (-1)); (14%nat, M3 0 0 (-1) (-1) 0 0 0 1 0); (7%nat, M3 (-1) 0 0 2 (-1) 0 0 0 1); (14%nat, M3 0 0 1 0 (-1) 0 1 0 0); (55%nat, M3 (-1) 0 0 0 (-1) 0 0 0 1); (7%nat, M3 0 (-1) 0 (-1) 2 0 0 0 (-1)); (48%nat, M3 (-1) 0 0 0 (-1) 0 0 0 1); (44%nat, M3 (-1) 0 0 0 (-1) 0 0 0 1); (18%nat, M3 (-1) 0 0 1 (-1) 0 0 0 1); (7%nat, M3 (-1) 0 0 1 (-1) 0 0 0 1); (14%nat, M3 0 0 (-1) (-1) 0 0 1 1 0); (13%nat, M3 (-1) 0 0 1 (-1) 0 0 0 1); (18%nat, M3 (-1) 0 0 0 1 0 0 0 (-1)); (7%nat, M3 (-1) 0 0 0 1 0 0 0 (-1)); (14%nat, M3 0 0 1 1 0 0 (-2) 1 0); (13%nat, M3 (-1) 0 0 0 1 0 0 0 (-1)); (57%nat, M3 (-1) 0 0 0 (-1) 0 0 0 1); (18%nat, M3 0 (-1) 0 1 0 0 0 0 1); (7%nat, M3 0 (-1) 0 1 0 0 0 0 1); (47%nat, M3 (-1) 0 0 0 (-1) 0 0 0 1); (14%nat, M3 0 0 (-1) 0 (-1) 0 (-1) 2 0); (56%nat, M3 (-1) 0 0 0 (-1) 0 0 0 1); (54%nat, M3 (-1) 0 0 0 (-1) 0 0 0 1); (13%nat, M3 0 (-1) 0 1 0 0 0 0 1); (45%nat, M3 (-1) 0 0 0 (-1) 0 0 0 1); (5%nat, M3 0 (-1) 0 1 0 0 0 0 1); (5%nat, M3 (-1) 0 0 0 1 0 0 0 (-1)); (5%nat, M3 (-1) 0 0 1 (-1) 0 0 0 1); (5%nat, M3 0 (-1) 0 (-1) 2 0 0 0 (-1)); (5%nat, M3 (-1) 0 0 2 (-1) 0 0 0 1); (5%nat, M3 (-1) 0 0 1 1 0 0 0 (-1)); (51%nat, M3 (-1) 0 0 0 (-1) 0 0 0 1); (4%nat, M3 (-1) 0 0 0 0 (-1) 0 (-1) 0); (39%nat, M3 (-1) 0 0 0 (-1) 0 0 0 1); (1%nat, M3 (-1) 0 0 0 (-1) 0 0 0 1); (3%nat, M3 0 (-1) 0 1 0 0 0 0 1); (3%nat, M3 (-1) 0 0 0 1 0 0 0 (-1)); (3%nat, M3 (-1) 0 0 1 (-1) 0 0 0 1); (3%nat, M3 0 (-1) 0 (-1) 2 0 0 0 (-1)); (3%nat, M3 (-1) 0 0 2 (-1) 0 0 0 1); (3%nat, M3 (-1) 0 0 1 1 0 0 0 (-1)); (50%nat, M3 (-1) 0 0 0 (-1) 0 0 0 1); (2%nat, M3 (-1) 0 0 0 0 (-1) 0 (-1) 0); (37%nat, M3 (-1) 0 0 0 (-1) 0 0 0 1); (0%nat, M3 (-1) 0 0 0 (-1) 0 0 0 1)];
  [(58%nat, M3 (-1) 0 0 0 (-1) 0 0 0 1); (8%nat, M3 (-1) 0 0 0 (-1) 0 0 0 1); (12%nat, M3 (-1) 0 0 0 (-1) 0 0 0 1); (32%nat, M3 (-1) 0 0 0 (-1) 0 0 0 1); (27%nat, M3 (-1) 0 0 0 (-1) 0 0 0 1); (9%nat, M3 (-1) 0 0 1 (-1) 0 0 0 1); (9%nat, M3 0 (-1) 0 0 1 (-1) 1 0 0); (27%nat, M3 0 (-1) 0 0 0 (-1) 1 0 0); (43%nat, M3 (-1) (-1) 0 (-1) 0 0 1 1 (-1)); (43%nat, M3 (-1) 0 1 (-1) 0 0 1 (-1) (-1)); (9%nat, M3 (-1) 0 0 1 0 (-1) 0 (-1) 0); (64%nat, M3 (-1) 0 0 0 (-1) 0 0 0 1); (43%nat, M3 (-1) 0 (-1) 0 0 (-1) 1 (-1) 1); (43%nat, M3 (-1) (-1) 0 0 (-1) 0 1 1 1); (27%nat, M3 (-1) 0 0 0 0 (-1) 0 (-1) 0); (6%nat, M3 0 (-1) 0 (-1) 0 0 0 0 (-1)); (6%nat, M3 (-1) 0 0 0 (-1) 0 0 0 1); (17%nat, M3 (-1) 0 0 0 (-1) 0 0 0 1); (12%nat, M3 0 (-1) 0 0 0 (-1) 1 0 0); (12%nat, M3 (-1) 0 0 0 0 (-1) 0 (-1) 0); (25%nat, M3 (-1) 0 0 0 (-1) 0 0 0 1); (6%nat, M3 (-1) 0 0 0 0 (-1) 0 (-1) 0); (61%nat, M3 (-1) 0 0 0 (-1) 0 0 0 1); (14%nat, M3 0 0 (-1) 0 (-1) 0 (-1) 1 0); (7%nat, M3 (-1) 0 0 1 1 0 0 0 (-1)); (35%nat, M3 (-1) 0 0 0 (-1) 0 0 0 1); (18%nat, M3 (-1) 0 0 1 (-1) 0 0 0 1); (7%nat, M3 (-1) 0 0 1 (-1) 0 0 0 1); (14%nat, M3 0 0 (-1) (-1) 0 0 1 1 0); (31%nat, M3 (-1) 0 0 0 (-1) 0 0 0 1); (29%nat, M3 (-1) 0 0 0 (-1) 0 0 0 1); (13%nat, M3 (-1) 0 0 1 (-1) 0 0 0 1); (32%nat, M3 0 (-1) 0 0 0 (-1) 1 0 0); (25%nat, M3 0 (-1) 0 0 0 (-1) 1 0 0); (14%nat, M3 (-1) 0 0 0 0 (-1) 0 (-1) 1); (7%nat, M3 0 (-1) 0 0 1 1 (-1) 0 0); (18%nat, M3 0 (-1) 0 0 1 (-1) 1 0 0); (35%nat, M3 0 (-1) 0 0 0 (-1) 1 0 0); (7%nat, M3 0 (-1) 0 0 1 (-1) 1 0 0); (13%nat, M3 0 (-1) 0 0 1 (-1) 1 0 0); (14%nat, M3 (-1) 0 0 0 (-1) 0 0 1 1); (29%nat, M3 0 (-1) 0 0 0 (-1) 1 0 0); (31%nat, M3 0 (-1) 0 0 0 (-1) 1 0 0); (32%nat, M3 (-1) 0 0 0 0 (-1) 0 (-1) 0); (25%nat, M3 (-1) 0 0 0 0 (-1) 0 (-1) 0); (7%nat, M3 (-1) 0 0 1 0 1 0 1 0); (49%nat, M3 (-1) 0 1 (-1) 0 0 1 (-1) (-1)); (14%nat, M3 0 (-1) 0 (-1) 0 0 1 0 (-1)); (49%nat, M3 (-1) (-1) 0 (-1) 0 0 1 1 (-1)); (46%nat, M3 (-1) (-1) 0 (-1) 0 0 1 1 (-1)); (46%nat, M3 (-1) 0 1 (-1) 0 0 1 (-1) (-1)); (18%nat, M3 (-1) 0 0 1 0 (-1) 0 (-1) 0); (35%nat, M3 (-1) 0 0 0 0 (-1) 0 (-1) 0); (7%nat, M3 (-1) 0 0 1 0 (-1) 0 (-1) 0); (49%nat, M3 (-1) (-1) 0 0 (-1) 0 1 1 1); (29%nat, M3 (-1) 0 0 0 0 (-1) 0 (-1) 0); (14%nat, M3 0 (-1) 0 0 0 (-1) 1 0 1); (13%nat, M3 (-1) 0 0 1 0 (-1) 0 (-1) 0); (49%nat, M3 (-1) 0 (-1) 0 0 (-1) 1 (-1) 1); (70%nat, M3 (-1) 0 0 0 (-1) 0 0 0 1); (67%nat, M3 (-1) 0 0 0 (-1) 0 0 0 1); (46%nat, M3 (-1) 0 (-1) 0 0 (-1) 1 (-1) 1); (46%nat, M3 (-1) (-1) 0 0 (-1) 0 1 1 1); (31%nat, M3 (-1) 0 0 0 0 (-1) 0 (-1) 0); (5%nat, M3 (-1) 0 0 1 0 (-1) 0 (-1) 0); (5%nat, M3 (-1) 0 0 1 0 1 0 1 0); (23%nat, M3 (-1) 0 0 0 0 (-1) 0 (-1) 0); (5%nat, M3 0 (-1) 0 0 1 (-1) 1 0 0); (5%nat, M3 0 (-1) 0 0 1 1 (-1) 0 0); (23%nat, M3 0 (-1) 0 0 0 (-1) 1 0 0); (5%nat, M3 (-1) 0 0 1 (-1) 0 0 0 1); (5%nat, M3 (-1) 0 0 1 1 0 0 0 (-1)); (40%nat, M3 (-1) (-1) 0 (-1) 0 0 1 1 (-1)); (40%nat, M3 (-1) 0 1 (-1) 0 0 1 (-1) (-1)); (40%nat, M3 (-1) 0 (-1) 0 0 (-1) 1 (-1) 1); (40%nat, M3 (-1) (-1) 0 0 (-1) 0 1 1 1); (4%nat, M3 (-1) 0 0 0 0 (-1) 0 (-1) 0); (1%nat, M3 (-1) 0 0 0 (-1) 0 0 0 1); (3%nat, M3 (-1) 0 0 1 0 (-1) 0 (-1) 0); (3%nat, M3 (-1) 0 0 1 0 1 0 1 0); (21%nat, M3 (-1) 0 0 0 0 (-1) 0 (-1) 0); (3%nat, M3 0 (-1) 0 0 1 (-1) 1 0 0); (3%nat, M3 (-1) 0 0 1 (-1) 0 0 0 1); (3%nat, M3 (-1) 0 0 1 1 0 0 0 (-1)); (4%nat, M3 0 (-1) 0 (-1) 0 0 0 0 (-1)); (4%nat, M3 (-1) 0 0 0 (-1) 0 0 0 1); (2%nat, M3 0 (-1) 0 (-1) 0 0 0 0 (-1)); (2%nat, M3 (-1) 0 0 0 (-1) 0 0 0 1); (23%nat, M3 (-1) 0 0 0 (-1) 0 0 0 1); (3%nat, M3 0 (-1) 0 0 1 1 (-1) 0 0); (21%nat, M3 0 (-1) 0 0 0 (-1) 1 0 0); (21%nat, M3 (-1) 0 0 0 (-1) 0 0 0 1); (38%nat, M3 (-1) (-1) 0 (-1) 0 0 1 1 (-1)); (38%nat, M3 (-1) 0 1 (-1) 0 0 1 (-1) (-1)); (38%nat, M3 (-1) 0 (-1) 0 0 (-1) 1 (-1) 1); (38%nat, M3 (-1) (-1) 0 0 (-1) 0 1 1 1); (2%nat, M3 (-1) 0 0 0 0 (-1) 0 (-1) 0); (0%nat, M3 (-1) 0 0 0 (-1) 0 0 0 1)];
  [(59%nat, M3 (-1) 0 0 0 0 (-1) 0 (-1) 0); (10%nat, M3 (-1) 0 0 0 0 (-1) 0 (-1) 0); (15%nat, M3 0 (-1) 0 (-1) 0 0 0 0 (-1)); (34%nat, M3 (-1) 0 0 0 0 1 1 1 0); (28%nat, M3 (-1) 0 0 0 0 1 1 1 0); (11%nat, M3 (-1) 0 0 0 0 1 1 1 0); (11%nat, M3 (-1) 0 0 0 1 0 0 (-1) (-1)); (28%nat, M3 (-1) 0 0 0 1 0 0 (-1) (-1)); (43%nat, M3 (-1) (-1) 0 (-1) 0 0 0 0 (-1)); (43%nat, M3 (-1) 0 (-1) 0 1 0 1 0 0); (11%nat, M3 0 (-1) 0 0 0 1 (-1) 0 (-1)); (65%nat, M3 (-1) 0 0 0 0 (-1) 0 (-1) 0); (43%nat, M3 (-1) (-1) 0 0 0 1 0 1 0); (43%nat, M3 (-1) (-1) 0 0 (-1) 0 1 1 1); (28%nat, M3 0 (-1) 0 0 0 1 (-1) 0 (-1)); (7%nat, M3 (-1) 0 0 0 (-1) (-1) (-1) (-1) 0); (7%nat, M3 (-1) 0 0 1 0 1 0 1 1); (19%nat, M3 (-1) 0 0 0 0 (-1) 0 (-1) 0); (15%nat, M3 0 0 (-1) 0 (-1) 0 (-1) 0 0); (15%nat, M3 (-1) 0 0 0 0 (-1) 0 (-1) 0); (26%nat, M3 (-1) 0 0 0 0 1 1 1 0); (7%nat, M3 (-1) 0 0 1 1 0 (-1) 0 (-1)); (62%nat, M3 (-1) 0 0 0 0 (-1) 0 (-1) 0); (16%nat, M3 (-1) 0 (-1) 0 1 0 1 (-1) 0); (7%nat, M3 0 0 1 (-1) (-1) (-2) 0 (-1) 0); (36%nat, M3 (-1) 0 0 0 0 1 1 1 0); (20%nat, M3 (-1) 0 0 0 0 1 1 1 0); (7%nat, M3 (-1) 0 0 1 (-1) 0 0 0 1); (16%nat, M3 1 0 1 0 0 1 (-1) (-1) (-2)); (33%nat, M3 (-1) 0 0 0 0 1 1 1 0); (30%nat, M3 (-1) 0 0 0 0 1 1 1 0); (16%nat, M3 (-1) 0 0 0 0 1 1 1 0); (34%nat, M3 (-1) 0 0 0 1 0 0 (-1) (-1)); (26%nat, M3 (-1) 0 0 0 1 0 0 (-1) (-1)); (16%nat, M3 (-1) (-1) 0 0 0 1 0 1 (-1)); (7%nat, M3 (-1) 0 0 2 1 1 0 1 0); (20%nat, M3 (-1) 0 0 0 1 0 0 (-1) (-1)); (36%nat, M3 (-1) 0 0 0 1 0 0 (-1) (-1)); (7%nat, M3 0 (-1) 0 0 1 (-1) 1 0 0); (16%nat, M3 (-1) 0 0 0 1 0 0 (-1) (-1)); (16%nat, M3 1 0 0 1 0 1 (-2) (-1) (-1)); (30%nat, M3 (-1) 0 0 0 1 0 0 (-1) (-1)); (33%nat, M3 (-1) 0 0 0 1 0 0 (-1) (-1)); (34%nat, M3 0 (-1) 0 0 0 1 (-1) 0 (-1)); (26%nat, M3 0 (-1) 0 0 0 1 (-1) 0 (-1)); (7%nat, M3 0 1 0 (-1) (-2) (-1) (-1) 0 0); (49%nat, M3 (-1) 0 (-1) 0 1 0 1 0 0); (16%nat, M3 (-1) (-1) 0 (-1) 0 0 1 0 (-1)); (49%nat, M3 (-1) (-1) 0 (-1) 0 0 0 0 (-1)); (46%nat, M3 (-1) (-1) 0 (-1) 0 0 0 0 (-1)); (46%nat, M3 (-1) 0 (-1) 0 1 0 1 0 0); (20%nat, M3 0 (-1) 0 0 0 1 (-1) 0 (-1)); (36%nat, M3 0 (-1) 0 0 0 1 (-1) 0 (-1)); (7%nat, M3 (-1) 0 0 1 0 (-1) 0 (-1) 0); (49%nat, M3 (-1) (-1) 0 0 (-1) 0 1 1 1); (30%nat, M3 0 (-1) 0 0 0 1 (-1) 0 (-1)); (16%nat, M3 (-1) (-1) 0 0 (-1) 0 1 2 1); (16%nat, M3 0 (-1) 0 0 0 1 (-1) 0 (-1)); (49%nat, M3 (-1) (-1) 0 0 0 1 0 1 0); (71%nat, M3 (-1) 0 0 0 0 (-1) 0 (-1) 0); (68%nat, M3 (-1) 0 0 0 0 (-1) 0 (-1) 0); (46%nat, M3 (-1) (-1) 0 0 0 1 0 1 0); (46%nat, M3 (-1) (-1) 0 0 (-1) 0 1 1 1); (33%nat, M3 0 (-1) 0 0 0 1 (-1) 0 (-1)); (5%nat, M3 (-1) 0 0 1 0 (-1) 0 (-1) 0); (5%nat, M3 0 1 0 (-1) (-2) (-1) (-1) 0 0); (24%nat, M3 0 (-1) 0 0 0 1 (-1) 0 (-1)); (5%nat, M3 0 (-1) 0 0 1 (-1) 1 0 0); (5%nat, M3 (-1) 0 0 2 1 1 0 1 0); (24%nat, M3 (-1) 0 0 0 1 0 0 (-1) (-1)); (5%nat, M3 (-1) 0 0 1 (-1) 0 0 0 1); (5%nat, M3 0 0 1 (-1) (-1) (-2) 0 (-1) 0); (40%nat, M3 (-1) (-1) 0 (-1) 0 0 0 0 (-1)); (40%nat, M3 (-1) 0 (-1) 0 1 0 1 0 0); (40%nat, M3 (-1) (-1) 0 0 0 1 0 1 0); (40%nat, M3 (-1) (-1) 0 0 (-1) 0 1 1 1); (5%nat, M3 (-1) 0 0 1 1 0 (-1) 0 (-1)); (1%nat, M3 (-1) 0 0 0 (-1) 0 0 0 1); (3%nat, M3 (-1) 0 0 1 0 (-1) 0 (-1) 0); (3%nat, M3 0 1 0 (-1) (-2) (-1) (-1) 0 0); (22%nat, M3 0 (-1) 0 0 0 1 (-1) 0 (-1)); (3%nat, M3 0 (-1) 0 0 1 (-1) 1 0 0); (3%nat, M3 (-1) 0 0 1 (-1) 0 0 0 1); (3%nat, M3 0 0 1 (-1) (-1) (-2) 0 (-1) 0); (5%nat, M3 (-1) 0 0 0 (-1) (-1) (-1) (-1) 0); (5%nat, M3 (-1) 0 0 1 0 1 0 1 1); (3%nat, M3 (-1) 0 0 0 (-1) (-1) (-1) (-1) 0); (3%nat, M3 (-1) 0 0 1 0 1 0 1 1); (24%nat, M3 (-1) 0 0 0 0 1 1 1 0); (3%nat, M3 (-1) 0 0 2 1 1 0 1 0); (22%nat, M3 (-1) 0 0 0 1 0 0 (-1) (-1)); (22%nat, M3 (-1) 0 0 0 0 1 1 1 0); (38%nat, M3 (-1) (-1) 0 (-1) 0 0 0 0 (-1)); (38%nat, M3 (-1) 0 (-1) 0 1 0 1 0 0); (38%nat, M3 (-1) (-1) 0 0 0 1 0 1 0); (38%nat, M3 (-1) (-1) 0 0 (-1) 0 1 1 1); (3%nat, M3 (-1) 0 0 1 1 0 (-1) 0 (-1)); (0%nat, M3 (-1) 0 0 0 (-1) 0 0 0 1)];
  [(60%nat, M3 0 (-1) 0 (-1) 0 0 0 0 (-1)); (11%nat, M3 0 (-1) 0 (-1) 0 0 0 0 (-1)); (16%nat, M3 0 (-1) 0 (-1) 0 0 0 0 (-1)); (33%nat, M3 0 (-1) 0 (-1) 0 0 0 0 (-1)); (28%nat, M3 0 (-1) 0 (-1) 0 0 0 0 (-1)); (10%nat, M3 (-1) 0 (-1) 1 0 0 0 (-1) 0); (10%nat, M3 (-1) 0 (-1) 1 (-1) 0 (-1) 0 0); (28%nat, M3 (-1) 1 0 (-1) 0 0 2 0 1); (43%nat, M3 (-1) (-1) 0 0 (-1) 0 2 2 1); (43%nat, M3 (-1) 1 1 (-1) 0 0 2 (-2) (-1)); (10%nat, M3 (-1) 1 0 0 (-1) (-1) 0 (-1) 0); (66%nat, M3 0 (-1) 0 (-1) 0 0 0 0 (-1)); (43%nat, M3 (-1) 1 (-1) 0 1 0 2 (-2) 1); (43%nat, M3 1 2 2 1 1 1 (-2) (-2) (-3)); (28%nat, M3 0 (-1) 0 1 (-1) 0 0 2 1); (7%nat, M3 (-1) 0 0 2 0 1 0 1 0); (7%nat, M3 0 (-1) 0 0 2 1 (-1) 0 0); (20%nat, M3 0 (-1) 0 (-1) 0 0 0 0 (-1)); (16%nat, M3 (-1) 1 0 (-1) 0 0 2 0 1); (16%nat, M3 0 (-1) 0 1 (-1) 0 0 2 1); (26%nat, M3 0 (-1) 0 (-1) 0 0 0 0 (-1)); (7%nat, M3 (-1) 0 0 0 0 (-1) 1 (-1) 0); (63%nat, M3 0 (-1) 0 (-1) 0 0 0 0 (-1)); (15%nat, M3 (-1) 0 0 0 1 0 0 (-1) (-1)); (7%nat, M3 (-1) 0 0 1 1 1 0 0 (-1)); (36%nat, M3 0 (-1) 0 (-1) 0 0 0 0 (-1)); (19%nat, M3 (-1) 0 (-1) 1 0 0 0 (-1) 0); (7%nat, M3 (-1) 0 0 1 (-1) 0 0 0 1); (15%nat, M3 0 (-1) (-1) (-1) 0 0 0 1 0); (34%nat, M3 0 (-1) 0 (-1) 0 0 0 0 (-1)); (30%nat, M3 0 (-1) 0 (-1) 0 0 0 0 (-1)); (15%nat, M3 (-1) 0 (-1) 1 0 0 0 (-1) 0); (33%nat, M3 (-1) 1 0 (-1) 0 0 2 0 1); (26%nat, M3 (-1) 1 0 (-1) 0 0 2 0 1); (15%nat, M3 1 (-1) 0 (-1) 0 0 (-1) 0 (-1)); (7%nat, M3 (-1) 0 0 0 (-1) (-1) 0 (-1) 0); (19%nat, M3 (-1) 0 (-1) 1 (-1) 0 (-1) 0 0); (36%nat, M3 (-1) 1 0 (-1) 0 0 2 0 1); (7%nat, M3 (-1) 0 0 0 1 0 0 (-1) (-1)); (15%nat, M3 (-1) 0 0 (-1) 0 (-1) 1 (-1) 0); (15%nat, M3 (-1) 0 (-1) 1 (-1) 0 (-1) 0 0); (30%nat, M3 (-1) 1 0 (-1) 0 0 2 0 1); (34%nat, M3 (-1) 1 0 (-1) 0 0 2 0 1); (33%nat, M3 0 (-1) 0 1 (-1) 0 0 2 1); (26%nat, M3 0 (-1) 0 1 (-1) 0 0 2 1); (7%nat, M3 0 (-1) 0 (-1) 0 (-1) 1 0 0); (49%nat, M3 (-1) 1 1 (-1) 0 0 2 (-2) (-1)); (15%nat, M3 0 (-1) 0 (-1) 1 0 0 (-1) (-1)); (49%nat, M3 (-1) (-1) 0 0 (-1) 0 2 2 1); (46%nat, M3 (-1) (-1) 0 0 (-1) 0 2 2 1); (46%nat, M3 (-1) 1 1 (-1) 0 0 2 (-2) (-1)); (19%nat, M3 (-1) 1 0 0 (-1) (-1) 0 (-1) 0); (36%nat, M3 0 (-1) 0 1 (-1) 0 0 2 1); (7%nat, M3 0 (-1) 0 1 0 0 1 0 1); (49%nat, M3 1 2 2 1 1 1 (-2) (-2) (-3)); (30%nat, M3 0 (-1) 0 1 (-1) 0 0 2 1); (15%nat, M3 (-1) 1 0 0 (-1) (-1) 0 (-1) 0); (15%nat, M3 0 (-1) (-1) 0 (-1) 0 (-1) 1 0); (49%nat, M3 (-1) 1 (-1) 0 1 0 2 (-2) 1); (72%nat, M3 0 (-1) 0 (-1) 0 0 0 0 (-1)); (69%nat, M3 0 (-1) 0 (-1) 0 0 0 0 (-1)); (46%nat, M3 (-1) 1 (-1) 0 1 0 2 (-2) 1); (46%nat, M3 1 2 2 1 1 1 (-2) (-2) (-3)); (34%nat, M3 0 (-1) 0 1 (-1) 0 0 2 1); (5%nat, M3 0 (-1) 0 1 0 0 1 0 1); (5%nat, M3 0 (-1) 0 (-1) 0 (-1) 1 0 0); (24%nat, M3 0 (-1) 0 1 (-1) 0 0 2 1); (5%nat, M3 (-1) 0 0 0 1 0 0 (-1) (-1)); (5%nat, M3 (-1) 0 0 0 (-1) (-1) 0 (-1) 0); (24%nat, M3 (-1) 1 0 (-1) 0 0 2 0 1); (5%nat, M3 (-1) 0 0 1 (-1) 0 0 0 1); (5%nat, M3 (-1) 0 0 1 1 1 0 0 (-1)); (40%nat, M3 (-1) (-1) 0 0 (-1) 0 2 2 1); (40%nat, M3 (-1) 1 1 (-1) 0 0 2 (-2) (-1)); (40%nat, M3 (-1) 1 (-1) 0 1 0 2 (-2) 1); (40%nat, M3 1 2 2 1 1 1 (-2) (-2) (-3)); (5%nat, M3 (-1) 0 0 0 0 (-1) 1 (-1) 0); (1%nat, M3 (-1) 0 0 0 (-1) 0 0 0 1); (3%nat, M3 0 (-1) 0 1 0 0 1 0 1); (3%nat, M3 0 (-1) 0 (-1) 0 (-1) 1 0 0); (22%nat, M3 0 (-1) 0 1 (-1) 0 0 2 1); (3%nat, M3 (-1) 0 0 0 1 0 0 (-1) (-1)); (3%nat, M3 (-1) 0 0 1 (-1) 0 0 0 1); (3%nat, M3 (-1) 0 0 1 1 1 0 0 (-1)); (5%nat, M3 (-1) 0 0 2 0 1 0 1 0); (5%nat, M3 0 (-1) 0 0 2 1 (-1) 0 0); (3%nat, M3 (-1) 0 0 2 0 1 0 1 0); (3%nat, M3 0 (-1) 0 0 2 1 (-1) 0 0); (24%nat, M3 0 (-1) 0 (-1) 0 0 0 0 (-1)); (3%nat, M3 (-1) 0 0 0 (-1) (-1) 0 (-1) 0); (22%nat, M3 (-1) 1 0 (-1) 0 0 2 0 1); (22%nat, M3 0 (-1) 0 (-1) 0 0 0 0 (-1)); (38%nat, M3 (-1) (-1) 0 0 (-1) 0 2 2 1); (38%nat, M3 (-1) 1 1 (-1) 0 0 2 (-2) (-1)); (38%nat, M3 (-1) 1 (-1) 0 1 0 2 (-2) 1); (38%nat, M3 1 2 2 1 1 1 (-2) (-2) (-3)); (3%nat, M3 (-1) 0 0 0 0 (-1) 1 (-1) 0); (0%nat, M3 (-1) 0 0 0 (-1) 0 0 0 1)]].
Record certificate := Cert {
  ce_gens : list mat3; ce_words : list (list nat); ce_rels : list (list nat * list nat); ce_e : Z;
  ce_cols : list column; ce_changes : list (nat * (mat3 * vec3 * Z)) }.
Definition certificates : list certificate := [
  Cert []
    [[]%nat]
    [] 1
    []
    [(1%nat, (M3 1 0 0 0 1 0 0 0 1, V3 0 0 0, 1))];
  Cert [M3 (-1) 0 0 0 (-1) 0 0 0 (-1)]
    [[]%nat; [0]%nat]
    [] 2
    [Col [1; 0; 0] [1; 0; 0] (Free (V3 1 0 0));
     Col [0; 1; 0] [0; 1; 0] (Free (V3 0 1 0));
     Col [0; 0; 1] [0; 0; 1] (Free (V3 0 0 1))]
    [(2%nat, (M3 1 0 0 0 1 0 0 0 1, V3 0 0 0, 1))];
  Cert [M3 (-1) 0 0 0 1 0 0 0 (-1)]
    [[]%nat; [0]%nat]
    [([0; 0]%nat, []%nat)] 2
    [Col [0; 1; 0] [0; 1; 0] (Torsion 2 [0; 1; 0]);
     Col [1; 0; 0] [1; 0; 0] (Free (V3 1 0 0));
     Col [0; 0; 1] [0; 0; 1] (Free (V3 0 0 1))]
    [(3%nat, (M3 1 0 0 0 1 0 0 0 1, V3 0 0 0, 1)); (4%nat, (M3 (-1) 0 0 0 (-1) 0 0 0 1, V3 0 0 0, 1))];
  Cert [M3 (-1) (-1) 0 0 1 0 0 0 (-1)]
    [[]%nat; [0]%nat]
    [([0; 0]%nat, []%nat)] 2
    [Col [0; 1; 0] [0; 1; 0] (Torsion 1 [(-1); 0; 0]);
     Col [1; 0; 0] [1; 0; 0] (Free (V3 1 0 0));
     Col [0; 0; 1] [0; 0; 1] (Free (V3 0 0 1))]
    [(5%nat, (M3 1 0 0 0 1 0 0 0 1, V3 0 0 0, 1))];
  Cert [M3 1 0 0 0 (-1) 0 0 0 1]
    [[]%nat; [0]%nat]
    [([0; 0]%nat, []%nat)] 2
    [Col [1; 0; 0] [1; 0; 0] (Torsion 2 [1; 0; 0]);
     Col [0; 0; 1] [0; 0; 1] (Torsion 2 [0; 0; 1]);
     Col [0; 1; 0] [0; 1; 0] (Free (V3 0 1 0))]
    [(6%nat, (M3 1 0 0 0 1 0 0 0 1, V3 0 0 0, 1)); (7%nat, (M3 (-1) 0 0 0 (-1) 0 0 0 1, V3 0 0 0, 1)); (7%nat, (M3 (-2) 0 1 0 (-1) 0 (-1) 0 1, V3 0 0 0, 1)); (7%nat, (M3 (-1) 0 1 0 (-1) 0 0 0 1, V3 0 0 0, 1))];
  Cert [M3 1 1 0 0 (-1) 0 0 0 1]
    [[]%nat; [0]%nat]
    [([0; 0]%nat, []%nat)] 1
    [Col [0; 1; 0] [2; 1; 0] (Torsion 1 [1; 0; 0]);
     Col [0; 0; 1] [0; 0; 1] (Torsion 2 [0; 0; 1]);
     Col [1; (-2); 0] [1; 0; 0] (Free (V3 0 (-1) 0))]
    [(8%nat, (M3 1 0 0 0 1 0 0 0 1, V3 0 0 0, 1)); (9%nat, (M3 (-1) 0 0 0 (-1) 0 0 0 1, V3 0 0 0, 1))];
  Cert [M3 (-1) 0 0 0 (-1) 0 0 0 (-1); M3 (-1) 0 0 0 1 0 0 0 (-1)]
    [[]%nat; [0]%nat; [1]%nat; [0; 1]%nat]
    [([0; 1; 0]%nat, [1]%nat)] 2
    [Col [1; 0; 0; 0; 0; 0] [1; 0; 0; (-1); 0; 0] (Torsion 2 [1; 0; 0]);
     Col [0; 0; 0; 0; 1; 0] [0; 0; 0; 0; 1; 0] (Torsion 2 [0; (-1); 0]);
     Col [0; 0; 1; 0; 0; 0] [0; 0; 1; 0; 0; (-1)] (Torsion 2 [0; 0; 1]);
     Col [1; 0; 0; 1; 0; 0] [0; 0; 0; 1; 0; 0] (Free (V3 1 0 0));
     Col [0; 1; 0; 0; 0; 0] [0; 1; 0; 0; 0; 0] (Free (V3 0 1 0));
     Col [0; 0; 1; 0; 0; 1] [0; 0; 0; 0; 0; 1] (Free (V3 0 0 1))]
    [(10%nat, (M3 1 0 0 0 1 0 0 0 1, V3 0 0 0, 1)); (13%nat, (M3 (-1) 0 0 0 (-1) 0 0 0 1, V3 0 0 3, 1)); (11%nat, (M3 (-1) 0 0 0 (-1) 0 0 0 1, V3 0 0 0, 1)); (14%nat, (M3 (-1) 0 0 0 (-1) 0 0 0 1, V3 0 0 3, 1)); (13%nat, (M3 (-14) 0 (-5) 0 (-1) 0 25 0 9, V3 0 0 3, 1)); (13%nat, (M3 (-3) 0 (-1) 0 (-1) 0 5 0 2, V3 0 0 3, 1)); (14%nat, (M3 (-14) 0 (-5) 0 (-1) 0 25 0 9, V3 0 0 3, 1)); (14%nat, (M3 (-3) 0 (-1) 0 (-1) 0 5 0 2, V3 0 0 3, 1))];
  Cert [M3 (-1) (-1) 0 0 1 0 0 0 (-1); M3 (-1) 0 0 0 (-1) 0 0 0 (-1)]
    [[]%nat; [0]%nat; [1]%nat; [0; 1]%nat]
    [([0; 0]%nat, []%nat); ([0; 1; 0]%nat, [1]%nat)] 2
    [Col [0; 1; 0; 0; 0; 0] [0; 1; 0; 0; 0; 0] (Torsion 1 [(-1); 0; 0; 0; 0; 0]);
     Col [0; 0; 0; 0; 1; 0] [(-2); 0; 0; 2; 1; 0] (Torsion 1 [(-1); 0; 0; (-1); 0; 0]);
     Col [0; 0; 1; 0; 0; 0] [0; 0; 1; 0; 0; (-1)] (Torsion 2 [0; 0; 0; 0; 0; 1]);
     Col [0; 0; 0; 1; (-2); 0] [0; 0; 0; 1; 0; 0] (Free (V3 1 (-2) 0));
     Col [1; 0; 0; 0; 2; 0] [1; 0; 0; 0; 0; 0] (Free (V3 0 2 0));
     Col [0; 0; 1; 0; 0; 1] [0; 0; 0; 0; 0; 1] (Free (V3 0 0 1))]
    [(12%nat, (M3 1 0 0 0 1 0 0 0 1, V3 0 0 0, 1)); (15%nat, (M3 (-1) 0 0 0 (-1) 0 0 0 1, V3 0 0 0, 1))];
  Cert [M3 (-1) 0 0 0 (-1) 0 0 0 1; M3 (-1) 0 0 0 1 0 0 0 (-1)]
    [[]%nat; [0]%nat; [1]%nat; [0; 1]%nat]
    [([0; 0]%nat, []%nat); ([0; 1; 0]%nat, [1]%nat)] 2
    [Col [0; 0; 1; 0; 0; 0] [0; 0; 1; 0; 0; 0] (Torsion 2 [0; 0; 1; 0; 0; 0]);
     Col [1; 0; 0; 0; 0; 0] [1; 0; 0; (-1); 0; 0] (Torsion 2 [0; 0; 0; 1; 0; 0]);
     Col [0; 0; 0; 0; 1; 0] [0; 0; 0; 0; 1; 0] (Torsion 2 [0; 0; 0; 0; (-1); 0]);
     Col [1; 0; 0; 1; 0; 0] [0; 0; 0; 1; 0; 0] (Free (V3 1 0 0));
     Col [0; 1; 0; 0; 0; 0] [0; 1; 0; 0; 0; 0] (Free (V3 0 1 0));
     Col [0; 0; 0; 0; 0; 1] [0; 0; 0; 0; 0; 1] (Free (V3 0 0 1))]
    [(16%nat, (M3 1 0 0 0 1 0 0 0 1, V3 0 0 0, 1)); (17%nat, (M3 1 0 0 0 0 (-1) 0 1 0, V3 0 0 3, 1)); (17%nat, (M3 0 0 1 0 (-1) 0 1 0 0, V3 0 0 3, 1)); (18%nat, (M3 (-1) 0 0 0 (-1) 0 0 0 1, V3 3 0 0, 1)); (17%nat, (M3 (-1) 0 0 0 (-1) 0 0 0 1, V3 0 0 3, 1)); (18%nat, (M3 0 0 1 0 (-1) 0 1 0 0, V3 3 3 0, 1)); (18%nat, (M3 1 0 0 0 0 (-1) 0 1 0, V3 0 0 0, 1)); (19%nat, (M3 (-1) 0 0 0 (-1) 0 0 0 1, V3 0 0 3, 1))];
  Cert [M3 (-1) (-1) 0 0 1 0 0 0 (-1); M3 (-1) 0 0 0 (-1) 0 0 0 1]
    [[]%nat; [0]%nat; [1]%nat; [0; 1]%nat]
    [([0; 0]%nat, []%nat); ([0; 1; 0]%nat, [1]%nat)] 2
    [Col [0; 1; 0; 0; 0; 0] [0; 1; 0; 0; 0; 0] (Torsion 1 [(-1); 0; 0; 0; 0; 0]);
     Col [0; 0; 0; 0; 1; 0] [(-2); 0; 0; 2; 1; 0] (Torsion 1 [(-1); 0; 0; (-1); 0; 0]);
     Col [0; 0; 0; 0; 0; 1] [0; 0; 0; 0; 0; 1] (Torsion 2 [0; 0; 0; 0; 0; (-1)]);
     Col [0; 0; 0; 1; (-2); 0] [0; 0; 0; 1; 0; 0] (Free (V3 1 (-2) 0));
     Col [1; 0; 0; 0; 2; 0] [1; 0; 0; 0; 0; 0] (Free (V3 0 2 0));
     Col [0; 0; 1; 0; 0; 0] [0; 0; 1; 0; 0; 0] (Free (V3 0 0 1))]
    [(21%nat, (M3 (-1) 0 0 0 (-1) 0 0 0 1, V3 0 0 0, 1)); (20%nat, (M3 1 0 0 0 1 0 0 0 1, V3 0 0 3, 1))];
  Cert [M3 (-1) (-1) (-1) 0 0 1 0 1 0; M3 0 0 1 (-1) (-1) (-1) 1 0 0]
    [[]%nat; [0]%nat; [1]%nat; [0; 1]%nat]
    [([0; 0]%nat, []%nat); ([1; 1]%nat, []%nat); ([0; 1; 0]%nat, [1]%nat)] 4
    [Col [0; 1; 0; 0; 0; 0] [0; 1; 1; 0; 0; 0] (Torsion 1 [(-1); 0; 0; 0; 0; 0; 0; 0; 0]);
     Col [0; 0; 0; 1; 0; 0] [0; 0; 0; 1; 0; 1] (Torsion 1 [0; 0; 0; 1; 0; 0; 0; 0; 0]);
     Col [0; (-1); 1; 0; 0; 0] [(-1); 0; 1; 0; 1; (-1)] (Torsion 1 [(-1); 0; 0; (-2); 0; 0; (-1); 0; 0]);
     Col [1; (-1); 1; 0; 0; 0] [1; 0; 0; 0; 0; 0] (Free (V3 2 (-2) 2));
     Col [0; 1; (-1); 0; 1; 0] [0; 0; 0; 0; 1; 0] (Free (V3 (-1) 3 (-1)));
     Col [0; (-1); 1; (-1); 0; 1] [0; 0; 0; 0; 0; 1] (Free (V3 (-1) (-1) 3))]
    [(22%nat, (M3 1 0 0 0 1 0 0 0 1, V3 0 0 0, 1))];
  Cert [M3 (-1) 0 (-1) 0 (-1) (-1) 0 0 1; M3 (-1) 0 0 0 1 1 0 0 (-1)]
    [[]%nat; [0]%nat; [1]%nat; [0; 1]%nat]
    [([0; 0]%nat, []%nat); ([0; 1; 0]%nat, [1]%nat)] 2
    [Col [0; 0; 1; 0; 0; 0] [0; 0; 1; 0; 0; 0] (Torsion 1 [(-1); 0; 0; 0; 0; 0]);
     Col [0; 0; 0; 0; 0; 1] [(-2); 0; 0; 2; 0; 1] (Torsion 1 [(-1); 0; 0; (-1); 0; 0]);
     Col [1; 0; 0; 0; 0; 2] [1; 0; 0; (-1); 1; 0] (Torsion 2 [1; 0; 0; 1; (-1); 0]);
     Col [1; 0; 0; 1; 0; 0] [0; 0; 0; 1; 0; 0] (Free (V3 1 0 0));
     Col [(-1); 0; 0; 0; 1; (-2)] [0; 0; 0; 0; 1; 0] (Free (V3 0 1 (-2)));
     Col [0; 1; 0; 0; 0; 0] [0; 1; 0; 0; 0; 0] (Free (V3 0 1 0))]
    [(23%nat, (M3 1 0 0 0 1 0 0 0 1, V3 0 0 0, 1)); (24%nat, (M3 0 (-1) 0 (-1) 0 0 0 0 (-1), V3 3 3 6, 1))];
  Cert [M3 (-1) 0 0 0 (-1) 0 0 0 1; M3 (-1) 0 0 0 1 0 0 0 1]
    [[]%nat; [0]%nat; [1]%nat; [0; 1]%nat]
    [([1; 1]%nat, []%nat); ([0; 1; 0]%nat, [1]%nat)] 2
    [Col [0; 0; 0; 0; 1; 0] [0; 0; 0; 0; 1; 0] (Torsion 2 [0; 1; 0; 0; 0; 0]);
     Col [0; 0; 0; 0; 0; 1] [0; 0; 0; 0; 0; 1] (Torsion 2 [0; 0; 1; 0; 0; 0]);
     Col [0; 0; 0; 1; 0; 0] [(-1); 0; 0; 1; 0; 0] (Torsion 2 [0; 0; 0; (-1); 0; 0]);
     Col [0; 0; 1; 0; 0; 0] [0; 0; 1; 0; 0; 0] (Torsion 2 [0; 0; 0; 0; 0; 1]);
     Col [1; 0; 0; 1; 0; 0] [1; 0; 0; 0; 0; 0] (Free (V3 1 0 0));
     Col [0; 1; 0; 0; 0; 0] [0; 1; 0; 0; 0; 0] (Free (V3 0 1 0))]
    [(25%nat, (M3 1 0 0 0 1 0 0 0 1, V3 0 0 0, 1)); (26%nat, (M3 (-1) 0 0 0 (-1) 0 0 0 1, V3 0 0 0, 1)); (28%nat, (M3 (-1) 0 0 0 (-1) 0 0 0 1, V3 0 0 0, 1)); (31%nat, (M3 (-1) 0 0 0 (-1) 0 0 0 1, V3 3 0 0, 1)); (27%nat, (M3 (-1) 0 0 0 (-1) 0 0 0 1, V3 0 0 0, 1)); (26%nat, (M3 0 (-1) 0 1 0 0 0 0 1, V3 0 0 0, 1)); (30%nat, (M3 0 (-1) 0 1 0 0 0 0 1, V3 0 0 0, 1)); (29%nat, (M3 (-1) 0 0 0 (-1) 0 0 0 1, V3 0 0 0, 1)); (28%nat, (M3 0 (-1) 0 1 0 0 0 0 1, V3 0 0 0, 1)); (29%nat, (M3 0 (-1) 0 1 0 0 0 0 1, V3 0 0 0, 1)); (32%nat, (M3 (-1) 0 0 0 (-1) 0 0 0 1, V3 0 0 0, 1)); (33%nat, (M3 0 (-1) 0 1 0 0 0 0 1, V3 0 0 0, 1)); (30%nat, (M3 (-1) 0 0 0 (-1) 0 0 0 1, V3 0 0 0, 1)); (31%nat, (M3 0 (-1) 0 1 0 0 0 0 1, V3 3 0 0, 1)); (34%nat, (M3 (-1) 0 0 0 (-1) 0 0 0 1, V3 0 0 0, 1)); (33%nat, (M3 (-1) 0 0 0 (-1) 0 0 0 1, V3 0 0 0, 1))];
  Cert [M3 (-1) (-1) 0 0 1 0 0 0 1; M3 (-1) 0 0 0 (-1) 0 0 0 1]
    [[]%nat; [0]%nat; [1]%nat; [0; 1]%nat]
    [([0; 0]%nat, []%nat); ([1; 1]%nat, []%nat); ([0; 1; 0]%nat, [1]%nat)] 2
    [Col [0; 1; 0; 0; 0; 0] [0; 1; 0; 0; 0; 0] (Torsion 1 [(-1); 0; 0; 0; 0; 0; 0; 0; 0]);
     Col [0; 0; 0; 0; 1; 0] [(-2); 0; 0; 2; 1; 0] (Torsion 1 [(-1); 0; 0; 0; 0; 0; (-1); 0; 0]);
     Col [0; 0; 1; 0; 0; 0] [0; 0; 1; 0; 0; 0] (Torsion 2 [0; 0; 1; 0; 0; 0; 0; 0; 0]);
     Col [0; 0; 0; 0; 0; 1] [0; 0; 0; 0; 0; 1] (Torsion 2 [0; 0; 0; 0; 0; 1; 0; 0; 0]);
     Col [1; 0; 0; 0; 2; 0] [1; 0; 0; 0; 0; 0] (Free (V3 0 2 0));
     Col [0; 0; 0; 1; (-2); 0] [0; 0; 0; 1; 0; 0] (Free (V3 1 (-2) 0))]
    [(35%nat, (M3 1 0 0 0 1 0 0 0 1, V3 0 0 0, 1)); (36%nat, (M3 (-1) 0 0 0 (-1) 0 0 0 1, V3 0 0 0, 1)); (37%nat, (M3 (-1) 0 0 0 (-1) 0 0 0 1, V3 0 0 0, 1)); (36%nat, (M3 1 1 0 (-2) (-1) 0 0 0 1, V3 0 0 0, 1))];
  Cert [M3 (-1) 0 0 0 (-1) (-1) 0 0 1; M3 (-1) 0 0 0 1 0 0 0 1]
    [[]%nat; [0]%nat; [1]%nat; [0; 1]%nat]
    [([0; 0]%nat, []%nat); ([1; 1]%nat, []%nat); ([0; 1; 0]%nat, [1]%nat)] 2
    [Col [0; 0; 1; 0; 0; 0] [0; 0; 1; 0; 0; 0] (Torsion 1 [0; (-1); 0; 0; 0; 0; 0; 0; 0]);
     Col [0; 0; 0; 0; 0; 1] [0; 0; 0; 0; 2; 1] (Torsion 1 [0; 1; 0; 0; 0; 0; 0; (-1); 0]);
     Col [0; 0; 0; 0; 1; (-2)] [0; 0; 0; 0; 1; 0] (Torsion 2 [0; 0; 0; 0; 1; 0; 0; 0; 0]);
     Col [0; 0; 0; 1; 0; 0] [(-1); 0; 0; 1; 0; 0] (Torsion 2 [0; 0; 0; 0; 0; 0; (-1); 0; 0]);
     Col [1; 0; 0; 1; 0; 0] [1; 0; 0; 0; 0; 0] (Free (V3 1 0 0));
     Col [0; 1; 0; 0; 0; 0] [0; 1; 0; 0; 0; 0] (Free (V3 0 1 0))]
    [(38%nat, (M3 1 0 0 0 1 0 0 0 1, V3 0 0 0, 1)); (40%nat, (M3 1 0 0 0 (-1) 0 0 0 (-1), V3 0 0 0, 1)); (39%nat, (M3 1 0 0 0 (-1) 0 0 0 (-1), V3 0 0 0, 1)); (41%nat, (M3 1 0 0 0 (-1) 0 0 0 (-1), V3 0 0 0, 1))];
  Cert [M3 0 0 (-1) 1 1 1 (-1) 0 0; M3 0 1 0 1 0 0 (-1) (-1) (-1)]
    [[]%nat; [0]%nat; [1]%nat; [0; 1]%nat]
    [([0; 0]%nat, []%nat); ([1; 1]%nat, []%nat); ([0; 1; 0]%nat, [1]%nat)] 1
    [Col [1; 0; 0; 0; 0; 0] [1; 0; (-1); 0; 0; 0] (Torsion 1 [1; 0; 0; 0; 0; 0; 0; 0; 0]);
     Col [0; 0; 0; 1; 0; 0] [0; 0; 0; 1; 1; 0] (Torsion 1 [0; 0; 0; 1; 0; 0; 0; 0; 0]);
     Col [0; 1; 0; 0; 0; 0] [0; 1; 3; 0; 1; (-1)] (Torsion 1 [(-2); 0; 0; 1; 0; 0; 1; 0; 0]);
     Col [0; (-1); 0; (-1); 1; 0] [0; 0; 2; 0; 1; (-1)] (Torsion 2 [(-3); (-1); 0; 2; 0; 0; 2; 0; 0]);
     Col [1; (-1); 1; 2; (-2); 0] [0; 0; 1; 0; 0; 0] (Free (V3 1 (-1) 0));
     Col [0; 0; 0; (-1); 1; 1] [0; 0; 0; 0; 0; 1] (Free (V3 0 1 0))]
    [(42%nat, (M3 1 0 0 0 1 0 0 0 1, V3 0 0 0, 1)); (43%nat, (M3 0 (-1) 0 (-1) 0 0 0 0 (-1), V3 9 3 0, 1))];
  Cert [M3 (-1) 0 (-1) 0 (-1) (-1) 0 0 1; M3 (-1) 0 (-1) 0 1 0 0 0 1]
    [[]%nat; [0]%nat; [1]%nat; [0; 1]%nat]
    [([1; 1]%nat, []%nat); ([0; 1; 0]%nat, [1]%nat)] 2
    [Col [0; 0; 0; 0; 0; 1] [0; 0; 0; 0; 0; 1] (Torsion 1 [(-1); 0; 0; 0; 0; 0]);
     Col [0; 0; 1; 0; 0; 0] [0; 0; 1; 0; 2; 0] (Torsion 1 [1; 0; 0; 0; (-1); 0]);
     Col [0; 0; 0; 1; 0; 0] [(-1); 0; 0; 1; 0; 0] (Torsion 2 [1; 0; 0; (-1); 0; 0]);
     Col [0; 0; (-2); 0; 1; 0] [0; 0; 0; 0; 1; 0] (Torsion 2 [0; 1; 0; 0; 0; 0]);
     Col [0; 1; 0; 0; 0; 0] [0; 1; 0; 0; 0; 0] (Free (V3 0 1 0));
     Col [1; 0; 0; 1; 0; 0] [1; 0; 0; 0; 0; 0] (Free (V3 1 0 0))]
    [(44%nat, (M3 1 0 0 0 1 0 0 0 1, V3 0 0 0, 1)); (46%nat, (M3 0 (-1) 0 (-1) 0 0 0 0 (-1), V3 0 0 0, 1)); (46%nat, (M3 (-1) 0 (-1) 0 (-1) (-1) 0 0 1, V3 0 0 0, 1)); (45%nat, (M3 0 (-1) 0 (-1) 0 0 0 0 (-1), V3 0 0 0, 1))];
  Cert [M3 (-1) 0 0 0 (-1) 0 0 0 (-1); M3 (-1) 0 0 0 (-1) 0 0 0 1; M3 (-1) 0 0 0 1 0 0 0 (-1)]
    [[]%nat; [0]%nat; [1]%nat; [2]%nat; [0; 1]%nat; [0; 2]%nat; [1; 2]%nat; [0; 1; 2]%nat]
    [([0; 1; 0]%nat, [1]%nat); ([0; 2; 0]%nat, [2]%nat)] 2
    [Col [1; 0; 0; 0; 0; 0; 0; 0; 0] [1; 0; 0; (-1); 0; 0; 0; 0; 0] (Torsion 2 [1; 0; 0; 0; 0; 0]);
     Col [0; 1; 0; 0; 0; 0; 0; 0; 0] [0; 1; 0; 0; (-1); 0; 0; 0; 0] (Torsion 2 [0; 1; 0; 0; 0; 0]);
     Col [0; 0; 0; 0; 0; 1; 0; 0; 0] [0; 0; 0; 0; 0; 1; 0; 0; 0] (Torsion 2 [0; 0; (-1); 0; 0; 0]);
     Col [1; 0; 0; 1; 0; 0; 0; 0; 0] [0; 0; 0; 1; 0; 0; (-1); 0; 0] (Torsion 2 [(-1); 0; 0; 1; 0; 0]);
     Col [0; 0; 0; 0; 0; 0; 0; 1; 0] [0; 0; 0; 0; 0; 0; 0; 1; 0] (Torsion 2 [0; 0; 0; 0; (-1); 0]);
     Col [0; 0; 1; 0; 0; 0; 0; 0; 0] [0; 0; 1; 0; 0; 0; 0; 0; (-1)] (Torsion 2 [0; 0; 0; 0; 0; 1]);
     Col [1; 0; 0; 1; 0; 0; 1; 0; 0] [0; 0; 0; 0; 0; 0; 1; 0; 0] (Free (V3 1 0 0));
     Col [0; 1; 0; 0; 1; 0; 0; 0; 0] [0; 0; 0; 0; 1; 0; 0; 0; 0] (Free (V3 0 1 0));
     Col [0; 0; 1; 0; 0; 0; 0; 0; 1] [0; 0; 0; 0; 0; 0; 0; 0; 1] (Free (V3 0 0 1))]
    [(47%nat, (M3 1 0 0 0 1 0 0 0 1, V3 0 0 0, 1)); (49%nat, (M3 (-1) 0 0 0 (-1) 0 0 0 1, V3 0 0 3, 1)); (51%nat, (M3 0 (-1) 0 0 0 1 (-1) 0 0, V3 0 0 0, 1)); (53%nat, (M3 0 0 (-1) 1 0 0 0 (-1) 0, V3 3 0 0, 1)); (51%nat, (M3 1 0 0 0 0 (-1) 0 1 0, V3 3 0 0, 1)); (53%nat, (M3 0 0 (-1) 0 1 0 1 0 0, V3 3 0 3, 1)); (55%nat, (M3 (-1) 0 0 0 (-1) 0 0 0 1, V3 3 0 0, 1)); (58%nat, (M3 (-1) 0 0 0 (-1) 0 0 0 1, V3 3 0 3, 1)); (51%nat, (M3 0 0 (-1) 0 1 0 1 0 0, V3 0 0 0, 1)); (51%nat, (M3 0 0 (-1) 1 0 0 0 (-1) 0, V3 3 0 0, 1)); (59%nat, (M3 0 0 1 0 (-1) 0 1 0 0, V3 0 0 0, 1)); (57%nat, (M3 (-1) 0 0 0 (-1) 0 0 0 1, V3 0 0 3, 1)); (57%nat, (M3 0 (-1) 0 (-1) 0 0 0 0 (-1), V3 0 3 0, 1)); (59%nat, (M3 1 0 0 0 0 (-1) 0 1 0, V3 3 3 0, 1)); (62%nat, (M3 1 0 0 0 0 (-1) 0 1 0, V3 3 0 0, 1)); (62%nat, (M3 0 (-1) 0 0 0 1 (-1) 0 0, V3 0 3 3, 1)); (49%nat, (M3 1 0 0 0 0 (-1) 0 1 0, V3 0 0 3, 1)); (50%nat, (M3 0 0 1 0 (-1) 0 1 0 0, V3 3 3 0, 1)); (51%nat, (M3 0 (-1) 0 (-1) 0 0 0 0 (-1), V3 3 0 0, 1)); (54%nat, (M3 0 (-1) 0 (-1) 0 0 0 0 (-1), V3 3 0 3, 1)); (54%nat, (M3 1 0 0 0 0 (-1) 0 1 0, V3 3 0 3, 1)); (52%nat, (M3 0 (-1) 0 (-1) 0 0 0 0 (-1), V3 3 3 3, 1)); (57%nat, (M3 0 0 (-1) 0 1 0 1 0 0, V3 0 3 3, 1)); (60%nat, (M3 1 0 0 0 0 (-1) 0 1 0, V3 3 3 3, 1)); (53%nat, (M3 0 (-1) 0 (-1) 0 0 0 0 (-1), V3 3 0 0, 1)); (54%nat, (M3 0 0 (-1) 1 0 0 0 (-1) 0, V3 3 0 3, 1)); (57%nat, (M3 1 0 0 0 0 (-1) 0 1 0, V3 0 0 3, 1)); (55%nat, (M3 0 0 1 0 (-1) 0 1 0 0, V3 3 3 0, 1)); (60%nat, (M3 0 0 (-1) 0 1 0 1 0 0, V3 0 3 3, 1)); (56%nat, (M3 1 0 0 0 0 (-1) 0 1 0, V3 3 3 3, 1)); (61%nat, (M3 1 0 0 0 0 (-1) 0 1 0, V3 3 0 3, 1)); (62%nat, (M3 0 (-1) 0 (-1) 0 0 0 0 (-1), V3 3 3 3, 1)); (49%nat, (M3 0 0 1 0 (-1) 0 1 0 0, V3 0 0 3, 1)); (50%nat, (M3 1 0 0 0 0 (-1) 0 1 0, V3 3 3 0, 1)); (54%nat, (M3 0 (-1) 0 0 0 1 (-1) 0 0, V3 0 0 3, 1)); (52%nat, (M3 (-1) 0 0 0 (-1) 0 0 0 1, V3 3 0 3, 1)); (51%nat, (M3 (-1) 0 0 0 (-1) 0 0 0 1, V3 0 0 0, 1)); (54%nat, (M3 (-1) 0 0 0 (-1) 0 0 0 1, V3 0 0 3, 1)); (57%nat, (M3 0 0 (-1) 1 0 0 0 (-1) 0, V3 0 0 0, 1)); (60%nat, (M3 0 (-1) 0 0 0 1 (-1) 0 0, V3 0 3 0, 1)); (54%nat, (M3 0 0 (-1) 0 1 0 1 0 0, V3 0 0 3, 1)); (53%nat, (M3 (-1) 0 0 0 (-1) 0 0 0 1, V3 3 0 3, 1)); (56%nat, (M3 0 0 1 0 (-1) 0 1 0 0, V3 0 0 3, 1)); (60%nat, (M3 0 0 (-1) 1 0 0 0 (-1) 0, V3 3 3 0, 1)); (55%nat, (M3 1 0 0 0 0 (-1) 0 1 0, V3 0 0 0, 1)); (57%nat, (M3 0 (-1) 0 0 0 1 (-1) 0 0, V3 0 3 0, 1)); (62%nat, (M3 (-1) 0 0 0 (-1) 0 0 0 1, V3 0 0 0, 1)); (61%nat, (M3 (-1) 0 0 0 (-1) 0 0 0 1, V3 0 0 3, 1)); (50%nat, (M3 (-1) 0 0 0 (-1) 0 0 0 1, V3 3 3 0, 1)); (48%nat, (M3 (-1) 0 0 0 (-1) 0 0 0 1, V3 3 3 3, 1)); (53%nat, (M3 1 0 0 0 0 (-1) 0 1 0, V3 3 0 3, 1)); (52%nat, (M3 0 0 (-1) 0 1 0 1 0 0, V3 3 3 3, 1)); (53%nat, (M3 0 (-1) 0 0 0 1 (-1) 0 0, V3 3 0 0, 1)); (52%nat, (M3 0 0 (-1) 1 0 0 0 (-1) 0, V3 3 0 3, 1)); (59%nat, (M3 (-1) 0 0 0 (-1) 0 0 0 1, V3 0 3 0, 1)); (56%nat, (M3 (-1) 0 0 0 (-1) 0 0 0 1, V3 0 3 3, 1)); (52%nat, (M3 1 0 0 0 0 (-1) 0 1 0, V3 3 0 3, 1)); (52%nat, (M3 0 (-1) 0 0 0 1 (-1) 0 0, V3 3 3 3, 1)); (60%nat, (M3 0 (-1) 0 (-1) 0 0 0 0 (-1), V3 3 3 0, 1)); (58%nat, (M3 0 0 1 0 (-1) 0 1 0 0, V3 3 3 3, 1)); (58%nat, (M3 1 0 0 0 0 (-1) 0 1 0, V3 0 0 3, 1)); (60%nat, (M3 (-1) 0 0 0 (-1) 0 0 0 1, V3 0 3 3, 1)); (62%nat, (M3 0 0 (-1) 0 1 0 1 0 0, V3 0 3 0, 1)); (62%nat, (M3 0 0 (-1) 1 0 0 0 (-1) 0, V3 3 0 3, 1))];
  Cert [M3 (-1) (-1) 0 0 1 0 0 0 (-1); M3 (-1) (-1) 0 0 1 0 0 0 1; M3 (-1) 0 0 0 (-1) 0 0 0 (-1)]
    [[]%nat; [0]%nat; [1]%nat; [2]%nat; [0; 1]%nat; [0; 2]%nat; [1; 2]%nat; [0; 1; 2]%nat]
    [([0; 0]%nat, []%nat); ([1; 1]%nat, []%nat); ([0; 2; 0]%nat, [2]%nat); ([1; 2; 1]%nat, [2]%nat)] 2
    [Col [0; 1; 0; 0; 0; 0; 0; 0; 0] [0; 1; 0; 0; 0; 0; 0; 0; 0] (Torsion 1 [(-1); 0; 0; 0; 0; 0; 0; 0; 0; 0; 0; 0]);
     Col [0; 0; 0; 0; 1; 0; 0; 0; 0] [0; 0; 0; 0; 1; 0; 0; 0; 0] (Torsion 1 [0; 0; 0; (-1); 0; 0; 0; 0; 0; 0; 0; 0]);
     Col [0; 0; 0; 0; 0; 0; 0; 1; 0] [(-2); 0; 0; 0; 0; 0; 2; 1; 0] (Torsion 1 [(-1); 0; 0; 0; 0; 0; (-1); 0; 0; 0; 0; 0]);
     Col [0; 0; 0; 0; 0; 1; 0; 0; 0] [0; 0; 0; 0; 0; 1; 0; 0; 0] (Torsion 2 [0; 0; 0; 0; 0; 1; 0; 0; 0; 0; 0; 0]);
     Col [0; 0; 1; 0; 0; 0; 0; 0; 0] [0; 0; 1; 0; 0; 0; 0; 0; (-1)] (Torsion 2 [0; 0; 0; 0; 0; 0; 0; 0; 1; 0; 0; 0]);
     Col [0; 0; 0; 1; 0; 0; 0; 0; 0] [(-1); 0; 0; 1; 0; 0; 0; 0; 0] (Torsion 2 [(-1); 0; 0; 1; 0; 0; (-1); 0; 0; 1; 0; 0]);
     Col [0; 0; 0; 0; 0; 0; 1; (-2); 0] [0; 0; 0; 0; 0; 0; 1; 0; 0] (Free (V3 1 (-2) 0));
     Col [1; 0; 0; 1; 0; 0; 0; 2; 0] [1; 0; 0; 0; 0; 0; 0; 0; 0] (Free (V3 0 2 0));
     Col [0; 0; 1; 0; 0; 0; 0; 0; 1] [0; 0; 0; 0; 0; 0; 0; 0; 1] (Free (V3 0 0 1))]
    [(65%nat, (M3 (-1) 0 0 0 (-1) 0 0 0 1, V3 0 0 0, 1)); (67%nat, (M3 (-1) 0 0 0 (-1) 0 0 0 1, V3 0 6 0, 1)); (63%nat, (M3 1 0 0 0 1 0 0 0 1, V3 0 0 0, 1)); (64%nat, (M3 (-1) 0 0 0 (-1) 0 0 0 1, V3 0 6 0, 1)); (63%nat, (M3 (-1) (-1) 0 2 1 0 0 0 1, V3 0 0 0, 1)); (64%nat, (M3 1 1 0 (-2) (-1) 0 0 0 1, V3 0 0 0, 1)); (66%nat, (M3 (-1) 0 0 0 (-1) 0 0 0 1, V3 0 0 0, 1)); (68%nat, (M3 (-1) 0 0 0 (-1) 0 0 0 1, V3 0 0 0, 1))];
  Cert [M3 (-1) (-1) (-1) 0 0 1 0 1 0; M3 (-1) 0 0 0 (-1) 0 0 0 (-1); M3 0 (-1) 0 (-1) 0 0 1 1 1]
    [[]%nat; [0]%nat; [1]%nat; [2]%nat; [0; 1]%nat; [0; 2]%nat; [1; 2]%nat; [0; 1; 2]%nat]
    [([0; 0]%nat, []%nat); ([2; 2]%nat, []%nat); ([0; 1; 0]%nat, [1]%nat); ([0; 2; 0]%nat, [2]%nat); ([1; 2; 1]%nat, [2]%nat)] 2
    [Col [0; 1; 0; 0; 0; 0; 0; 0; 0] [0; 1; 1; 0; 0; 0; 0; 0; 0] (Torsion 1 [(-1); 0; 0; 0; 0; 0; 0; 0; 0; 0; 0; 0; 0; 0; 0]);
     Col [0; 0; 0; 0; 0; 0; 1; 0; 0] [0; 0; 0; 0; 0; 0; 1; (-1); 0] (Torsion 1 [0; 0; 0; 1; 0; 0; 0; 0; 0; 0; 0; 0; 0; 0; 0]);
     Col [0; 0; 0; 0; 1; 0; 0; 0; 0] [(-2); 0; 0; 2; 1; 1; 0; 0; 0] (Torsion 1 [(-1); 0; 0; 0; 0; 0; (-1); 0; 0; 0; 0; 0; 0; 0; 0]);
     Col [0; (-1); 1; 0; 0; 0; 0; 0; 0] [(-1); 0; 1; 0; 0; 0; 0; 3; 1] (Torsion 1 [0; 0; 0; (-2); 0; 0; 0; 0; 0; (-1); 0; 0; 0; 0; 0]);
     Col [0; 0; 0; 1; (-2); 0; 0; 0; 0] [(-2); 0; 0; 1; 0; 1; 0; 2; 0] (Torsion 1 [(-1); 0; 0; (-2); 0; 0; (-1); 0; 0; 0; 0; 0; (-1); 0; 0]);
     Col [0; 3; (-3); (-2); 4; 0; 1; 1; 0] [0; 0; 0; 0; 0; 0; 0; 1; 1] (Torsion 2 [0; 0; 0; (-1); 0; 1; 0; 0; 0; 0; 0; 0; 0; 0; 0]);
     Col [1; (-1); 1; 2; (-2); 0; 0; 0; 0] [1; 0; 0; 0; 0; 0; 0; 0; 0] (Free (V3 2 (-2) 0));
     Col [0; 0; 0; (-1); 1; 1; 0; 0; 0] [0; 0; 0; 0; 0; 1; 0; 0; 0] (Free (V3 (-1) 1 1));
     Col [0; (-2); 2; 2; (-4); 0; (-1); (-1); 1] [0; 0; 0; 0; 0; 0; 0; 0; 1] (Free (V3 2 (-4) 0))]
    [(69%nat, (M3 1 0 0 0 1 0 0 0 1, V3 0 0 0, 1)); (70%nat, (M3 (-1) 0 0 0 0 (-1) 0 (-1) 0, V3 0 0 6, 1))];
  Cert [M3 (-1) 0 (-1) 0 (-1) (-1) 0 0 1; M3 (-1) 0 (-1) 0 1 0 0 0 1; M3 (-1) 0 0 0 (-1) 0 0 0 (-1)]
    [[]%nat; [0]%nat; [1]%nat; [2]%nat; [0; 1]%nat; [0; 2]%nat; [1; 2]%nat; [0; 1; 2]%nat]
    [([0; 0]%nat, []%nat); ([1; 1]%nat, []%nat); ([0; 2; 0]%nat, [2]%nat); ([1; 2; 1]%nat, [2]%nat)] 2
    [Col [0; 0; 1; 0; 0; 0; 0; 0; 0] [0; 0; 1; 0; 0; 0; 0; 0; 0] (Torsion 1 [(-1); 0; 0; 0; 0; 0; 0; 0; 0; 0; 0; 0]);
     Col [0; 0; 0; 0; 0; 1; 0; 0; 0] [0; 0; 0; 0; 0; 1; 0; 0; 0] (Torsion 1 [0; 0; 0; (-1); 0; 0; 0; 0; 0; 0; 0; 0]);
     Col [0; 0; 0; 0; 0; 0; 0; 0; 1] [(-2); 0; 0; 0; 0; 0; 2; 0; 1] (Torsion 1 [(-1); 0; 0; 0; 0; 0; (-1); 0; 0; 0; 0; 0]);
     Col [0; 0; 0; 0; 1; 0; 0; 0; 0] [0; 0; 0; 0; 1; 0; 0; 0; 0] (Torsion 2 [0; 0; 0; 0; 1; 0; 0; 0; 0; 0; 0; 0]);
     Col [0; 1; 0; 0; 0; 0; 0; 0; 0] [(-1); 1; 0; 0; 0; 0; 1; (-1); 0] (Torsion 2 [0; 0; 0; 0; 0; 0; (-1); 1; 0; 0; 0; 0]);
     Col [0; 0; 0; 1; 0; 0; 0; 0; 0] [(-1); 0; 0; 1; 0; 0; 0; 0; 0] (Torsion 2 [(-1); 0; 0; 1; 0; 0; (-1); 0; 0; 1; 0; 0]);
     Col [0; (-1); 0; 0; 0; 0; 1; 0; (-2)] [0; 0; 0; 0; 0; 0; 1; 0; 0] (Free (V3 1 0 (-2)));
     Col [0; 1; 0; 0; 0; 0; 0; 1; 0] [0; 0; 0; 0; 0; 0; 0; 1; 0] (Free (V3 0 1 0));
     Col [1; 1; 0; 1; 0; 0; 0; 0; 2] [1; 0; 0; 0; 0; 0; 0; 0; 0] (Free (V3 0 0 2))]
    [(71%nat, (M3 1 0 0 0 1 0 0 0 1, V3 0 0 0, 1)); (74%nat, (M3 0 (-1) (-1) (-1) (-1) (-1) 0 2 1, V3 0 0 0, 1)); (74%nat, (M3 0 (-1) 0 (-1) 0 0 0 0 (-1), V3 0 0 6, 1)); (72%nat, (M3 1 (-1) 0 1 0 1 (-2) 0 (-1), V3 0 6 6, 1)); (74%nat, (M3 1 (-1) 0 1 0 1 (-2) 0 (-1), V3 0 6 6, 1)); (72%nat, (M3 0 (-1) 0 (-1) 0 0 0 0 (-1), V3 0 0 0, 1)); (72%nat, (M3 0 (-1) (-1) (-1) (-1) (-1) 0 2 1, V3 0 0 0, 1)); (73%nat, (M3 0 (-1) 0 (-1) 0 0 0 0 (-1), V3 0 0 6, 1))];
  Cert [M3 0 (-1) 0 1 0 0 0 0 1]
    [[]%nat; [0]%nat; [0; 0]%nat; [0; 0; 0]%nat]
    [([0; 0; 0; 0]%nat, []%nat)] 2
    [Col [0; 0; 1] [0; 0; 1] (Torsion 4 [0; 0; 1]);
     Col [0; 1; 0] [0; 1; 0] (Free (V3 (-1) 1 0));
     Col [1; 0; 0] [1; 0; 0] (Free (V3 1 1 0))]
    [(75%nat, (M3 1 0 0 0 1 0 0 0 1, V3 0 0 0, 1)); (76%nat, (M3 (-1) 0 0 0 (-1) 0 0 0 1, V3 0 0 0, 1)); (77%nat, (M3 (-1) 0 0 0 (-1) 0 0 0 1, V3 0 0 0, 1)); (78%nat, (M3 (-1) 0 0 0 (-1) 0 0 0 1, V3 0 0 0, 1))];
  Cert [M3 0 (-1) (-1) 1 0 0 0 0 1]
    [[]%nat; [0]%nat; [0; 0]%nat; [0; 0; 0]%nat]
    [([0; 0; 0; 0]%nat, []%nat)] 2
    [Col [0; 0; 1] [0; 0; 1] (Torsion 2 [(-1); 0; 0]);
     Col [0; 1; 0] [0; 1; 0] (Free (V3 (-1) 1 0));
     Col [1; 0; 0] [1; 0; 0] (Free (V3 1 1 0))]
    [(79%nat, (M3 1 0 0 0 1 0 0 0 1, V3 0 0 0, 1)); (80%nat, (M3 0 (-1) 0 (-1) 0 0 0 0 (-1), V3 6 9 0, 1))];
  Cert [M3 0 (-1) 0 1 0 0 0 0 (-1)]
    [[]%nat; [0]%nat; [0; 0]%nat; [0; 0; 0]%nat]
    [] 2
    [Col [1; 0; 0] [1; 0; 0] (Free (V3 1 1 0));
     Col [0; 1; 0] [0; 1; 0] (Free (V3 (-1) 1 0));
     Col [0; 0; 1] [0; 0; 1] (Free (V3 0 0 1))]
    [(81%nat, (M3 1 0 0 0 1 0 0 0 1, V3 0 0 0, 1))];
  Cert [M3 0 (-1) 0 1 0 1 0 0 (-1)]
    [[]%nat; [0]%nat; [0; 0]%nat; [0; 0; 0]%nat]
    [] 4
    [Col [1; 0; 0] [1; 0; 0] (Free (V3 2 2 0));
     Col [0; 1; 0] [0; 1; 0] (Free (V3 (-2) 2 0));
     Col [0; 0; 1] [0; 0; 1] (Free (V3 (-1) 1 2))]
    [(82%nat, (M3 1 0 0 0 1 0 0 0 1, V3 0 0 0, 1))];
  Cert [M3 (-1) 0 0 0 (-1) 0 0 0 (-1); M3 0 (-1) 0 1 0 0 0 0 (-1)]
    [[]%nat; [0]%nat; [1]%nat; [0; 1]%nat; [1; 1]%nat; [0; 1; 1]%nat; [1; 1; 1]%nat; [0; 1; 1; 1]%nat]
    [([0; 1; 0]%nat, [1]%nat)] 2
    [Col [1; 0; 0; 0; 0; 0] [1; 1; 0; (-2); 0; 0] (Torsion 1 [1; 0; 0]);
     Col [(-1); 1; 0; 0; 0; 0] [0; 1; 0; (-1); (-1); 0] (Torsion 2 [1; 1; 0]);
     Col [0; 0; 1; 0; 0; 0] [0; 0; 1; 0; 0; (-1)] (Torsion 2 [0; 0; 1]);
     Col [1; 1; 0; 1; 0; 0] [0; 0; 0; 1; 0; 0] (Free (V3 1 1 0));
     Col [(-1); 1; 0; 0; 1; 0] [0; 0; 0; 0; 1; 0] (Free (V3 (-1) 1 0));
     Col [0; 0; 1; 0; 0; 1] [0; 0; 0; 0; 0; 1] (Free (V3 0 0 1))]
    [(83%nat, (M3 1 0 0 0 1 0 0 0 1, V3 0 0 0, 1)); (84%nat, (M3 (-1) 0 0 0 (-1) 0 0 0 1, V3 0 0 3, 1)); (85%nat, (M3 (-1) 0 0 0 (-1) 0 0 0 1, V3 9 3 0, 1)); (86%nat, (M3 (-1) 0 0 0 (-1) 0 0 0 1, V3 3 3 3, 1))];
  Cert [M3 (-1) 0 0 0 (-1) 0 0 0 (-1); M3 0 (-1) (-1) 1 0 0 0 0 1]
    [[]%nat; [0]%nat; [1]%nat; [0; 1]%nat; [1; 1]%nat; [0; 1; 1]%nat; [1; 1; 1]%nat; [0; 1; 1; 1]%nat]
    [([0; 1; 0]%nat, [1]%nat)] 2
    [Col [1; 0; 0; 0; 0; 0] [1; 1; 1; (-2); 0; 0] (Torsion 1 [1; 0; 0]);
     Col [(-1); 0; 1; 0; 0; 0] [0; 2; 1; (-2); (-2); 0] (Torsion 1 [1; 1; 0]);
     Col [0; 0; 0; 0; 0; 1] [0; 0; 0; 0; 0; 1] (Torsion 2 [0; 0; (-1)]);
     Col [0; 0; 2; 1; 0; 0] [0; 0; 0; 1; 0; 0] (Free (V3 0 0 2));
     Col [(-2); 0; 2; 0; 1; 0] [0; 0; 0; 0; 1; 0] (Free (V3 (-2) 0 2));
     Col [1; 1; (-2); 0; 0; 0] [0; 1; 0; 0; 0; 0] (Free (V3 1 1 (-2)))]
    [(87%nat, (M3 1 0 0 0 1 0 0 0 1, V3 0 0 0, 1)); (88%nat, (M3 0 (-1) 0 (-1) 0 0 0 0 (-1), V3 0 0 0, 1))];
  Cert [M3 (-1) 0 0 0 1 0 0 0 (-1); M3 0 (-1) 0 (-1) 0 0 0 0 (-1)]
    [[]%nat; [0]%nat; [1]%nat; [0; 1]%nat; [1; 0]%nat; [0; 1; 0]%nat; [1; 0; 1]%nat; [0; 1; 0; 1]%nat]
    [([1; 1]%nat, []%nat); ([0; 1; 0; 1; 0]%nat, [1; 0; 1]%nat)] 2
    [Col [0; 0; 0; 1; 0; 0] [0; 0; 0; 1; (-1); 0] (Torsion 1 [1; 0; 0; 0; 0; 0]);
     Col [0; 1; 0; 0; 0; 0] [0; 1; 0; 0; 0; 0] (Torsion 2 [2; 0; 0; 1; 0; 0]);
     Col [0; 0; 1; 0; 0; 0] [0; 0; 1; 0; 0; (-1)] (Torsion 4 [0; 0; 0; 0; 0; 1]);
     Col [1; 0; 0; 0; 0; 0] [1; 0; 0; 0; 0; 0] (Free (V3 1 (-1) 0));
     Col [0; 0; 0; 1; 1; 0] [0; 0; 0; 0; 1; 0] (Free (V3 0 2 0));
     Col [0; 0; 1; 0; 0; 1] [0; 0; 0; 0; 0; 1] (Free (V3 0 0 1))]
    [(89%nat, (M3 1 0 0 0 1 0 0 0 1, V3 0 0 0, 1)); (95%nat, (M3 (-1) 0 0 0 (-1) 0 0 0 1, V3 0 0 9, 2)); (93%nat, (M3 (-1) 0 0 0 (-1) 0 0 0 1, V3 0 0 3, 1)); (91%nat, (M3 (-1) 0 0 0 (-1) 0 0 0 1, V3 0 0 3, 2)); (90%nat, (M3 (-1) 0 0 0 (-1) 0 0 0 1, V3 3 9 0, 1)); (96%nat, (M3 (-1) 0 0 0 (-1) 0 0 0 1, V3 3 9 3, 1)); (94%nat, (M3 (-1) 0 0 0 (-1) 0 0 0 1, V3 3 9 0, 1)); (92%nat, (M3 (-1) 0 0 0 (-1) 0 0 0 1, V3 3 9 3, 1))];
  Cert [M3 (-1) 0 0 0 1 1 0 0 (-1); M3 0 (-1) (-1) 1 0 0 0 0 1]
    [[]%nat; [0]%nat; [1]%nat; [0; 1]%nat; [1; 0]%nat; [1; 1]%nat; [0; 1; 0]%nat; [0; 1; 1]%nat]
    [([0; 1; 0; 1]%nat, []%nat); ([0; 1; 1; 1]%nat, [1; 0]%nat)] 2
    [Col [1; 0; 0; 0; 0; 0] [1; 1; 1; (-1); 1; 0] (Torsion 1 [1; 0; 0; 0; 0; 0]);
     Col [(-1); 0; 1; 0; 0; 0] [0; 2; 1; 0; 0; 2] (Torsion 1 [1; 0; 0; 0; 1; 0]);
     Col [2; 0; (-2); 0; 0; 1] [0; 0; 0; 0; 0; 1] (Torsion 2 [(-1); 0; 0; 1; 0; 0]);
     Col [1; 0; 0; 1; 0; 0] [0; 0; 0; 1; 0; 0] (Free (V3 1 1 0));
     Col [(-1); 0; 0; 0; 1; 0] [0; 0; 0; 0; 1; 0] (Free (V3 (-1) 1 0));
     Col [1; 1; (-2); 0; 0; 0] [0; 1; 0; 0; 0; 0] (Free (V3 1 1 (-2)))]
    [(97%nat, (M3 1 0 0 0 1 0 0 0 1, V3 0 0 0, 1)); (98%nat, (M3 0 (-1) 0 (-1) 0 0 0 0 (-1), V3 21 3 6, 2))];
  Cert [M3 (-1) 0 0 0 1 0 0 0 1; M3 0 (-1) 0 (-1) 0 0 0 0 1]
    [[]%nat; [0]%nat; [1]%nat; [0; 1]%nat; [1; 0]%nat; [0; 1; 0]%nat; [1; 0; 1]%nat; [0; 1; 0; 1]%nat]
    [([0; 0]%nat, []%nat); ([1; 1]%nat, []%nat)] 2
    [Col [0; 0; 0; 1; 0; 0] [0; 0; 0; 1; (-1); 0] (Torsion 1 [0; 0; 0; 1; 0; 0]);
     Col [0; 1; 0; 0; 0; 0] [0; 1; 0; 0; 0; 0] (Torsion 2 [0; 1; 0; 0; 0; 0]);
     Col [0; 0; 1; 0; 0; 0] [0; 0; 1; 0; 0; 0] (Torsion 2 [0; 0; 1; 0; 0; 0]);
     Col [0; 0; 0; 0; 0; 1] [0; 0; 0; 0; 0; 1] (Torsion 2 [0; 0; 0; 0; 0; 1]);
     Col [0; 0; 0; 1; 1; 0] [0; 0; 0; 0; 1; 0] (Free (V3 0 2 0));
     Col [1; 0; 0; 0; 0; 0] [1; 0; 0; 0; 0; 0] (Free (V3 1 (-1) 0))]
    [(99%nat, (M3 1 0 0 0 1 0 0 0 1, V3 0 0 0, 1)); (105%nat, (M3 (-1) 0 0 0 (-1) 0 0 0 1, V3 0 0 0, 1)); (101%nat, (M3 (-1) 0 0 0 (-1) 0 0 0 1, V3 0 0 0, 1)); (103%nat, (M3 (-1) 0 0 0 (-1) 0 0 0 1, V3 0 0 0, 1)); (100%nat, (M3 (-1) 0 0 0 (-1) 0 0 0 1, V3 3 3 0, 1)); (106%nat, (M3 (-1) 0 0 0 (-1) 0 0 0 1, V3 3 3 0, 1)); (102%nat, (M3 (-1) 0 0 0 (-1) 0 0 0 1, V3 3 9 0, 1)); (104%nat, (M3 (-1) 0 0 0 (-1) 0 0 0 1, V3 3 3 0, 1))];
  Cert [M3 (-1) 0 (-1) 0 1 0 0 0 1; M3 0 (-1) (-1) (-1) 0 (-1) 0 0 1]
    [[]%nat; [0]%nat; [1]%nat; [0; 1]%nat; [1; 0]%nat; [0; 1; 0]%nat; [1; 0; 1]%nat; [0; 1; 0; 1]%nat]
    [([0; 0]%nat, []%nat); ([1; 1]%nat, []%nat)] 2
    [Col [0; 0; 1; 0; 0; 0] [0; 0; 1; 0; 0; 0] (Torsion 1 [(-1); 0; 0; 0; 0; 0]);
     Col [0; 0; 0; 1; 0; 0] [0; 0; 0; 1; (-1); (-1)] (Torsion 1 [0; 0; 0; 1; 0; 0]);
     Col [0; 1; 0; 0; 0; 0] [0; 1; 0; 0; 0; 0] (Torsion 2 [0; 1; 0; 0; 0; 0]);
     Col [0; 0; 0; 1; 0; 1] [0; 0; 0; 0; 0; 1] (Torsion 2 [0; 0; 0; (-1); (-1); 0]);
     Col [0; 0; 0; 1; 1; 0] [0; 0; 0; 0; 1; 0] (Free (V3 0 2 0));
     Col [1; 0; 0; 0; 0; 0] [1; 0; 0; 0; 0; 0] (Free (V3 1 (-1) 0))]
    [(107%nat, (M3 1 0 0 0 1 0 0 0 1, V3 0 0 0, 1)); (109%nat, (M3 0 (-1) 0 (-1) 0 0 0 0 (-1), V3 9 0 0, 1)); (108%nat, (M3 0 (-1) 0 (-1) 0 0 0 0 (-1), V3 3 3 0, 1)); (110%nat, (M3 0 (-1) 0 (-1) 0 0 0 0 (-1), V3 0 3 0, 1))];
  Cert [M3 (-1) 0 0 0 1 0 0 0 (-1); M3 0 (-1) 0 (-1) 0 0 0 0 1]
    [[]%nat; [0]%nat; [1]%nat; [0; 1]%nat; [1; 0]%nat; [0; 1; 0]%nat; [1; 0; 1]%nat; [0; 1; 0; 1]%nat]
    [([0; 0]%nat, []%nat); ([1; 1]%nat, []%nat)] 2
    [Col [0; 0; 0; 1; 0; 0] [0; 0; 0; 1; (-1); 0] (Torsion 1 [0; 0; 0; 1; 0; 0]);
     Col [0; 1; 0; 0; 0; 0] [0; 1; 0; 0; 0; 0] (Torsion 2 [0; 1; 0; 0; 0; 0]);
     Col [0; 0; 0; 0; 0; 1] [0; 0; 0; 0; 0; 1] (Torsion 2 [0; 0; 0; 0; 0; 1]);
     Col [1; 0; 0; 0; 0; 0] [1; 0; 0; 0; 0; 0] (Free (V3 1 (-1) 0));
     Col [0; 0; 0; 1; 1; 0] [0; 0; 0; 0; 1; 0] (Free (V3 0 2 0));
     Col [0; 0; 1; 0; 0; 0] [0; 0; 1; 0; 0; 0] (Free (V3 0 0 1))]
    [(111%nat, (M3 1 0 0 0 1 0 0 0 1, V3 0 0 0, 1)); (112%nat, (M3 (-1) 0 0 0 (-1) 0 0 0 1, V3 0 0 3, 1)); (113%nat, (M3 (-1) 0 0 0 (-1) 0 0 0 1, V3 3 3 0, 1)); (114%nat, (M3 (-1) 0 0 0 (-1) 0 0 0 1, V3 3 3 3, 1))];
  Cert [M3 (-1) 0 0 0 1 0 0 0 1; M3 0 (-1) 0 (-1) 0 0 0 0 (-1)]
    [[]%nat; [0]%nat; [1]%nat; [0; 1]%nat; [1; 0]%nat; [0; 1; 0]%nat; [1; 0; 1]%nat; [0; 1; 0; 1]%nat]
    [([0; 0]%nat, []%nat); ([1; 1]%nat, []%nat)] 2
    [Col [0; 0; 0; 1; 0; 0] [0; 0; 0; 1; (-1); 0] (Torsion 1 [0; 0; 0; 1; 0; 0]);
     Col [0; 1; 0; 0; 0; 0] [0; 1; 0; 0; 0; 0] (Torsion 2 [0; 1; 0; 0; 0; 0]);
     Col [0; 0; 1; 0; 0; 0] [0; 0; 1; 0; 0; 0] (Torsion 2 [0; 0; 1; 0; 0; 0]);
     Col [1; 0; 0; 0; 0; 0] [1; 0; 0; 0; 0; 0] (Free (V3 1 (-1) 0));
     Col [0; 0; 0; 1; 1; 0] [0; 0; 0; 0; 1; 0] (Free (V3 0 2 0));
     Col [0; 0; 0; 0; 0; 1] [0; 0; 0; 0; 0; 1] (Free (V3 0 0 1))]
    [(115%nat, (M3 1 0 0 0 1 0 0 0 1, V3 0 0 0, 1)); (116%nat, (M3 (-1) 0 0 0 (-1) 0 0 0 1, V3 0 0 3, 1)); (117%nat, (M3 (-1) 0 0 0 (-1) 0 0 0 1, V3 3 3 0, 1)); (118%nat, (M3 (-1) 0 0 0 (-1) 0 0 0 1, V3 3 3 3, 1))];
  Cert [M3 (-1) 0 (-1) 0 1 0 0 0 1; M3 0 (-1) 0 (-1) 0 0 0 0 (-1)]
    [[]%nat; [0]%nat; [1]%nat; [0; 1]%nat; [1; 0]%nat; [0; 1; 0]%nat; [1; 0; 1]%nat; [0; 1; 0; 1]%nat]
    [([0; 0]%nat, []%nat); ([1; 1]%nat, []%nat)] 4
    [Col [0; 0; 1; 0; 0; 0] [0; 0; 1; 0; 0; 0] (Torsion 1 [(-1); 0; 0; 0; 0; 0]);
     Col [0; 0; 0; 1; 0; 0] [0; 0; 0; 1; (-1); 0] (Torsion 1 [0; 0; 0; 1; 0; 0]);
     Col [0; 1; 0; 0; 0; 0] [0; 1; 0; 0; 0; 0] (Torsion 2 [0; 1; 0; 0; 0; 0]);
     Col [1; 0; 0; 0; 0; 0] [1; 0; 0; 0; 0; 0] (Free (V3 2 (-2) 0));
     Col [0; 0; 0; 1; 1; 0] [0; 0; 0; 0; 1; 0] (Free (V3 0 4 0));
     Col [0; 0; 0; 0; 0; 1] [0; 0; 0; 0; 0; 1] (Free (V3 (-1) 1 2))]
    [(119%nat, (M3 1 0 0 0 1 0 0 0 1, V3 0 0 0, 1)); (120%nat, (M3 0 (-1) 0 (-1) 0 0 0 0 (-1), V3 3 3 0, 1))];
  Cert [M3 (-1) 0 0 0 1 1 0 0 (-1); M3 0 (-1) (-1) (-1) 0 (-1) 0 0 1]
    [[]%nat; [0]%nat; [1]%nat; [0; 1]%nat; [1; 0]%nat; [0; 1; 0]%nat; [1; 0; 1]%nat; [0; 1; 0; 1]%nat]
    [([0; 0]%nat, []%nat); ([1; 1]%nat, []%nat)] 2
    [Col [0; 0; 1; 0; 0; 0] [0; 2; 1; 0; 0; 0] (Torsion 1 [0; 1; 0; 0; 0; 0]);
     Col [0; 0; 0; 1; 0; 0] [0; 0; 0; 1; (-1); (-1)] (Torsion 1 [0; 0; 0; 1; 0; 0]);
     Col [0; 0; 0; 1; 0; 1] [0; 0; 0; 0; 0; 1] (Torsion 2 [0; 0; 0; (-1); (-1); 0]);
     Col [0; 1; (-2); 0; 0; 0] [0; 1; 0; 0; 0; 0] (Free (V3 0 2 (-2)));
     Col [0; 0; 0; 1; 1; 0] [0; 0; 0; 0; 1; 0] (Free (V3 0 2 0));
     Col [1; 0; 0; 0; 0; 0] [1; 0; 0; 0; 0; 0] (Free (V3 1 (-1) 0))]
    [(121%nat, (M3 1 0 0 0 1 0 0 0 1, V3 0 0 0, 1)); (122%nat, (M3 0 (-1) 0 (-1) 0 0 0 0 (-1), V3 9 3 6, 2))];
  Cert [M3 (-1) 0 0 0 (-1) 0 0 0 (-1); M3 (-1) 0 0 0 1 0 0 0 (-1); M3 0 (-1) 0 (-1) 0 0 0 0 (-1)]
    [[]%nat; [0]%nat; [1]%nat; [2]%nat; [0; 1]%nat; [0; 2]%nat; [1; 2]%nat; [2; 1]%nat; [0; 1; 2]%nat; [0; 2; 1]%nat; [1; 2; 1]%nat; [2; 1; 2]%nat; [0; 1; 2; 1]%nat; [0; 2; 1; 2]%nat; [1; 2; 1; 2]%nat; [0; 1; 2; 1; 2]%nat]
    [([2; 2]%nat, []%nat); ([0; 1; 0]%nat, [1]%nat); ([0; 2; 0]%nat, [2]%nat)] 2
    [Col [0; 0; 0; 0; 0; 0; 1; 0; 0] [0; 0; 0; 0; 0; 0; 1; (-1); 0] (Torsion 1 [1; 0; 0; 0; 0; 0; 0; 0; 0]);
     Col [0; 1; 0; 0; 0; 0; 0; 0; 0] [1; 1; 0; 0; 0; 0; 0; (-2); 0] (Torsion 1 [2; 0; 0; 0; 0; 0; 1; 0; 0]);
     Col [0; 0; 0; 1; 0; 0; 0; 0; 0] [(-1); 0; 0; 1; 0; 0; 0; 0; 0] (Torsion 2 [0; 0; 0; (-1); 0; 0; 0; 0; 0]);
     Col [0; 0; 0; 0; 1; 0; 0; 0; 0] [0; 0; 0; 0; 1; 0; 0; 0; 0] (Torsion 2 [0; 0; 0; 0; (-1); 0; 0; 0; 0]);
     Col [0; 0; 1; 0; 0; 0; 0; 0; 0] [0; 0; 1; 0; 0; (-1); 0; 0; 0] (Torsion 2 [0; 0; 0; 0; 0; 1; 0; 0; 0]);
     Col [0; 0; 1; 0; 0; 1; 0; 0; 0] [0; 0; 0; 0; 0; 1; 0; 0; (-1)] (Torsion 2 [0; 0; 0; 0; 0; (-1); 0; 0; 1]);
     Col [1; (-1); 0; 1; 0; 0; 0; 0; 0] [1; 0; 0; 0; 0; 0; 0; 0; 0] (Free (V3 1 (-1) 0));
     Col [0; 2; 0; 0; 0; 0; 1; 1; 0] [0; 0; 0; 0; 0; 0; 0; 1; 0] (Free (V3 0 2 0));
     Col [0; 0; 1; 0; 0; 1; 0; 0; 1] [0; 0; 0; 0; 0; 0; 0; 0; 1] (Free (V3 0 0 1))]
    [(123%nat, (M3 1 0 0 0 1 0 0 0 1, V3 0 0 0, 1)); (131%nat, (M3 (-1) 0 0 0 (-1) 0 0 0 1, V3 0 0 3, 1)); (124%nat, (M3 (-1) 0 0 0 (-1) 0 0 0 1, V3 0 0 3, 1)); (132%nat, (M3 (-1) 0 0 0 (-1) 0 0 0 1, V3 0 0 0, 1)); (129%nat, (M3 (-1) 0 0 0 (-1) 0 0 0 1, V3 0 0 0, 1)); (137%nat, (M3 (-1) 0 0 0 (-1) 0 0 0 1, V3 0 0 3, 1)); (130%nat, (M3 (-1) 0 0 0 (-1) 0 0 0 1, V3 0 0 3, 1)); (138%nat, (M3 (-1) 0 0 0 (-1) 0 0 0 1, V3 0 0 0, 1)); (125%nat, (M3 (-1) 0 0 0 (-1) 0 0 0 1, V3 0 6 0, 1)); (133%nat, (M3 (-1) 0 0 0 (-1) 0 0 0 1, V3 0 6 3, 1)); (126%nat, (M3 (-1) 0 0 0 (-1) 0 0 0 1, V3 0 6 3, 1)); (134%nat, (M3 (-1) 0 0 0 (-1) 0 0 0 1, V3 0 6 0, 1)); (127%nat, (M3 (-1) 0 0 0 (-1) 0 0 0 1, V3 0 6 0, 1)); (135%nat, (M3 (-1) 0 0 0 (-1) 0 0 0 1, V3 0 6 3, 1)); (128%nat, (M3 (-1) 0 0 0 (-1) 0 0 0 1, V3 0 6 3, 1)); (136%nat, (M3 (-1) 0 0 0 (-1) 0 0 0 1, V3 0 0 0, 1))];
  Cert [M3 (-1) 0 (-1) 0 1 0 0 0 1; M3 (-1) 0 0 0 (-1) 0 0 0 (-1); M3 0 (-1) (-1) (-1) 0 (-1) 0 0 1]
    [[]%nat; [0]%nat; [1]%nat; [2]%nat; [0; 1]%nat; [0; 2]%nat; [1; 2]%nat; [2; 0]%nat; [0; 1; 2]%nat; [0; 2; 0]%nat; [1; 2; 0]%nat; [2; 0; 2]%nat; [0; 1; 2; 0]%nat; [0; 2; 0; 2]%nat; [1; 2; 0; 2]%nat; [0; 1; 2; 0; 2]%nat]
    [([0; 0]%nat, []%nat); ([2; 2]%nat, []%nat); ([0; 1; 0]%nat, [1]%nat); ([1; 2; 1]%nat, [2]%nat)] 2
    [Col [0; 0; 1; 0; 0; 0; 0; 0; 0] [0; 0; 1; 0; 0; 0; 0; 0; 0] (Torsion 1 [(-1); 0; 0; 0; 0; 0; 0; 0; 0; 0; 0; 0]);
     Col [0; 0; 0; 0; 0; 0; 1; 0; 0] [0; 0; 0; 0; 0; 0; 1; (-1); (-1)] (Torsion 1 [0; 0; 0; 1; 0; 0; 0; 0; 0; 0; 0; 0]);
     Col [0; 0; 0; 0; 0; 1; 0; 0; 0] [(-2); 0; 0; 2; 0; 1; 0; 0; 0] (Torsion 1 [(-1); 0; 0; 0; 0; 0; (-1); 0; 0; 0; 0; 0]);
     Col [0; 0; 0; 1; 0; (-2); 0; 0; 0] [(-2); 0; 0; 1; (-1); 0; 0; 2; 2] (Torsion 1 [(-1); 0; 0; (-2); 0; 0; (-1); 0; 0; (-1); 0; 0]);
     Col [0; 0; 0; (-2); 0; 4; 1; 0; 1] [0; 0; 0; 0; 0; 0; 0; 0; 1] (Torsion 2 [0; 0; 0; (-1); (-1); 0; 0; 0; 0; 0; 0; 0]);
     Col [0; 1; 0; 0; 0; 0; 0; 0; 0] [0; 1; 0; 0; 0; 0; 0; 0; 0] (Torsion 2 [0; 1; 0; 0; 0; 0; 0; 0; 0; 0; 0; 0]);
     Col [1; 0; 0; 2; 0; (-2); 0; 0; 0] [1; 0; 0; 0; 0; 0; 0; 0; 0] (Free (V3 2 0 (-2)));
     Col [0; 0; 0; (-2); 0; 4; 1; 1; 0] [0; 0; 0; 0; 0; 0; 0; 1; 0] (Free (V3 (-2) 0 4));
     Col [0; 0; 0; 1; 1; (-2); 0; 0; 0] [0; 0; 0; 0; 1; 0; 0; 0; 0] (Free (V3 1 1 (-2)))]
    [(139%nat, (M3 1 0 0 0 1 0 0 0 1, V3 0 0 0, 1)); (140%nat, (M3 0 (-1) 0 (-1) 0 0 0 0 (-1), V3 0 0 6, 1)); (141%nat, (M3 0 (-1) 0 (-1) 0 0 0 0 (-1), V3 0 6 6, 1)); (142%nat, (M3 0 (-1) 0 (-1) 0 0 0 0 (-1), V3 0 6 0, 1))];
  Cert [M3 (-1) 1 0 (-1) 0 0 0 0 1]
    [[]%nat; [0]%nat; [0; 0]%nat]
    [([0; 0; 0]%nat, []%nat)] 3
    [Col [0; 0; 1] [0; 0; 1] (Torsion 3 [0; 0; 1]);
     Col [0; 1; 0] [0; 1; 0] (Free (V3 1 2 0));
     Col [1; 0; 0] [1; 0; 0] (Free (V3 1 (-1) 0))]
    [(143%nat, (M3 1 0 0 0 1 0 0 0 1, V3 0 0 0, 1)); (145%nat, (M3 (-1) 0 0 0 (-1) 0 0 0 1, V3 0 0 0, 1)); (144%nat, (M3 (-1) 0 0 0 (-1) 0 0 0 1, V3 0 0 0, 1))];
  Cert [M3 (-1) 1 (-1) (-1) 0 (-1) 0 0 1]
    [[]%nat; [0]%nat; [0; 0]%nat]
    [([0; 0; 0]%nat, []%nat)] 3
    [Col [0; 0; 1] [0; 0; 1] (Torsion 1 [0; (-1); 0]);
     Col [0; 1; 0] [0; 1; 0] (Free (V3 1 2 0));
     Col [1; 0; 0] [1; 0; 0] (Free (V3 1 (-1) 0))]
    [(146%nat, (M3 1 0 0 0 1 0 0 0 1, V3 0 0 0, 1))];
  Cert [M3 0 1 0 (-1) 1 0 0 0 (-1)]
    [[]%nat; [0]%nat; [0; 0]%nat; [0; 0; 0]%nat; [0; 0; 0; 0]%nat; [0; 0; 0; 0; 0]%nat]
    [] 2
    [Col [1; 0; 0] [1; 0; 0] (Free (V3 0 (-2) 0));
     Col [0; 1; 0] [0; 1; 0] (Free (V3 2 2 0));
     Col [0; 0; 1] [0; 0; 1] (Free (V3 0 0 1))]
    [(147%nat, (M3 1 0 0 0 1 0 0 0 1, V3 0 0 0, 1))];
  Cert [M3 0 1 1 (-1) 1 0 0 0 (-1)]
    [[]%nat; [0]%nat; [0; 0]%nat; [0; 0; 0]%nat; [0; 0; 0; 0]%nat; [0; 0; 0; 0; 0]%nat]
    [] 2
    [Col [1; 0; 0] [1; 0; 0] (Free (V3 0 (-2) 0));
     Col [0; 1; 0] [0; 1; 0] (Free (V3 2 2 0));
     Col [0; 0; 1] [0; 0; 1] (Free (V3 0 (-1) 1))]
    [(148%nat, (M3 1 0 0 0 1 0 0 0 1, V3 0 0 0, 1))];
  Cert [M3 (-1) 1 0 (-1) 0 0 0 0 1; M3 (-1) 1 0 0 1 0 0 0 (-1)]
    [[]%nat; [0]%nat; [1]%nat; [0; 0]%nat; [0; 1]%nat; [1; 0]%nat]
    [([1; 1]%nat, []%nat); ([0; 0; 0]%nat, []%nat); ([0; 1; 0]%nat, [1]%nat)] 6
    [Col [0; 0; 0; 0; 1; 0] [0; 0; 0; 0; 1; 0] (Torsion 1 [1; 0; 0; 0; 0; 0; 0; 0; 0]);
     Col [0; 0; 0; 1; 0; 0] [(-1); 0; 0; 1; 0; 0] (Torsion 1 [(-1); 0; 0; 0; 0; 0; 0; (-1); 0]);
     Col [0; 0; 1; 0; 0; 0] [0; 0; 1; 0; 0; 0] (Torsion 3 [0; 0; 0; 0; 0; 1; 0; 0; 0]);
     Col [0; 1; 0; 0; 0; 0] [0; 1; 0; 0; 0; 0] (Free (V3 2 4 0));
     Col [1; 0; 0; 1; 0; 0] [1; 0; 0; 0; 0; 0] (Free (V3 2 (-2) 0));
     Col [0; 0; 0; 0; 0; 1] [0; 0; 0; 0; 0; 1] (Free (V3 0 0 3))]
    [(149%nat, (M3 1 0 0 0 1 0 0 0 1, V3 0 0 0, 1)); (153%nat, (M3 (-1) 0 0 0 (-1) 0 0 0 1, V3 0 0 4, 1)); (151%nat, (M3 (-1) 0 0 0 (-1) 0 0 0 1, V3 0 0 2, 1))];
  Cert [M3 (-1) 0 0 (-1) 1 0 0 0 (-1); M3 (-1) 1 0 (-1) 0 0 0 0 1]
    [[]%nat; [0]%nat; [1]%nat; [0; 1]%nat; [1; 0]%nat; [1; 1]%nat]
    [([1; 1; 1]%nat, []%nat); ([1; 0; 1]%nat, [0]%nat)] 2
    [Col [0; 1; 0; 0; 0; 0] [(-2); 1; 0; 1; 1; 0] (Torsion 1 [0; 0; 0; 1; 0; 0]);
     Col [1; 0; 0; 2; 0; 0] [(-3); 0; 0; 2; 2; 0] (Torsion 1 [0; 0; 0; 1; 1; 0]);
     Col [0; 0; 0; 0; 0; 1] [0; 0; 0; 0; 0; 1] (Torsion 3 [0; 0; 1; 0; 0; 0]);
     Col [(-2); (-1); 0; (-3); 0; 0] [(-2); 0; 0; 1; 1; 0] (Free (V3 (-2) 2 0));
     Col [0; 0; 0; (-1); 1; 0] [0; 0; 0; 0; 1; 0] (Free (V3 0 2 0));
     Col [0; 0; 1; 0; 0; 0] [0; 0; 1; 0; 0; 0] (Free (V3 0 0 1))]
    [(150%nat, (M3 1 0 0 0 1 0 0 0 1, V3 0 0 0, 1)); (154%nat, (M3 (-1) 0 0 0 (-1) 0 0 0 1, V3 0 0 4, 1)); (152%nat, (M3 (-1) 0 0 0 (-1) 0 0 0 1, V3 0 0 2, 1))];
  Cert [M3 (-1) 0 0 (-1) 1 0 0 0 (-1); M3 (-1) 1 (-1) (-1) 0 (-1) 0 0 1]
    [[]%nat; [0]%nat; [1]%nat; [0; 1]%nat; [1; 0]%nat; [1; 1]%nat]
    [([1; 1; 1]%nat, []%nat); ([1; 0; 1]%nat, [0]%nat)] 2
    [Col [0; 0; 0; 0; 0; 1] [0; 0; 0; 0; 0; 1] (Torsion 1 [0; (-1); 0; 0; 0; 0]);
     Col [0; 1; 0; 0; 0; 0] [(-2); 1; (-1); 1; 1; 0] (Torsion 1 [0; 1; 0; 1; 0; 0]);
     Col [1; 1; (-1); 0; 0; 0] [3; 0; 2; (-2); (-2); 0] (Torsion 1 [0; (-2); 0; (-1); (-1); 0]);
     Col [0; 0; 1; 1; 0; 0] [0; 0; 0; 1; 0; 0] (Free (V3 0 (-1) 1));
     Col [0; 0; 1; 0; 1; 0] [0; 0; 0; 0; 1; 0] (Free (V3 0 1 1));
     Col [(-2); (-1); 3; 0; 0; 0] [1; 0; 1; (-1); (-1); 0] (Free (V3 (-2) (-1) 3))]
    [(155%nat, (M3 1 0 0 0 1 0 0 0 1, V3 0 0 0, 1))];
  Cert [M3 (-1) 1 0 (-1) 0 0 0 0 1; M3 (-1) 1 0 0 1 0 0 0 1]
    [[]%nat; [0]%nat; [1]%nat; [0; 0]%nat; [0; 1]%nat; [1; 0]%nat]
    [([1; 1]%nat, []%nat); ([0; 0; 0]%nat, []%nat); ([0; 1; 0]%nat, [1]%nat)] 3
    [Col [0; 0; 0; 0; 1; 0] [0; 0; 0; 0; 1; 0] (Torsion 1 [1; 0; 0; 0; 0; 0; 0; 0; 0]);
     Col [0; 0; 0; 1; 0; 0] [(-1); 0; 0; 1; 0; 0] (Torsion 1 [(-1); 0; 0; 0; 0; 0; 0; (-1); 0]);
     Col [0; 0; 1; 0; 0; (-1)] [0; 0; 3; 0; 0; 2] (Torsion 1 [0; 0; 1; 0; 0; 1; 0; 0; 0]);
     Col [0; 0; (-2); 0; 0; 3] [0; 0; 1; 0; 0; 1] (Torsion 2 [0; 0; 1; 0; 0; 0; 0; 0; 1]);
     Col [1; 0; 0; 1; 0; 0] [1; 0; 0; 0; 0; 0] (Free (V3 1 (-1) 0));
     Col [0; 1; 0; 0; 0; 0] [0; 1; 0; 0; 0; 0] (Free (V3 1 2 0))]
    [(156%nat, (M3 1 0 0 0 1 0 0 0 1, V3 0 0 0, 1)); (158%nat, (M3 (-1) 0 0 0 (-1) 0 0 0 1, V3 0 0 0, 1))];
  Cert [M3 (-1) 0 0 (-1) 1 0 0 0 1; M3 (-1) 1 0 (-1) 0 0 0 0 1]
    [[]%nat; [0]%nat; [1]%nat; [0; 1]%nat; [1; 0]%nat; [1; 1]%nat]
    [([0; 0]%nat, []%nat); ([1; 1; 1]%nat, []%nat); ([1; 0; 1]%nat, [0]%nat)] 1
    [Col [1; 0; 0; 0; 0; 0] [1; (-2); 0; 0; 0; 0] (Torsion 1 [0; (-1); 0; 0; 0; 0; 0; 0; 0]);
     Col [0; 0; 0; 1; 0; 0] [0; (-3); 0; 1; 1; 0] (Torsion 1 [0; (-2); 0; 0; 0; 0; 1; 0; 0]);
     Col [0; 0; (-1); 0; 0; 1] [0; 0; 2; 0; 0; 3] (Torsion 1 [0; 0; 1; 0; 0; 1; 0; 0; 0]);
     Col [0; 0; 3; 0; 0; (-2)] [0; 0; 1; 0; 0; 1] (Torsion 2 [0; 0; 1; 0; 0; 0; 0; 0; 1]);
     Col [0; 0; 0; (-1); 1; 0] [0; 0; 0; 0; 1; 0] (Free (V3 0 1 0));
     Col [2; 1; 0; 3; 0; 0] [0; 1; 0; 0; 0; 0] (Free (V3 1 (-1) 0))]
    [(157%nat, (M3 1 0 0 0 1 0 0 0 1, V3 0 0 0, 1)); (159%nat, (M3 (-1) 0 0 0 (-1) 0 0 0 1, V3 0 0 0, 1))];
  Cert [M3 (-1) 1 (-1) (-1) 0 (-1) 0 0 1; M3 (-1) 1 (-1) 0 1 0 0 0 1]
    [[]%nat; [0]%nat; [1]%nat; [0; 0]%nat; [0; 1]%nat; [1; 0]%nat]
    [([1; 1]%nat, []%nat); ([0; 0; 0]%nat, []%nat); ([0; 1; 0]%nat, [1]%nat)] 3
    [Col [0; 0; 0; 0; 1; 0] [0; 0; 0; 0; 1; (-1)] (Torsion 1 [1; 0; 0; 0; 0; 0; 0; 0; 0]);
     Col [0; 0; 1; 0; 0; 0] [0; 0; 1; 0; 0; 0] (Torsion 1 [0; 0; 0; 0; (-1); 0; 0; 0; 0]);
     Col [0; 0; 0; 1; 0; 0] [(-1); 0; 0; 1; 0; 2] (Torsion 1 [(-1); 0; 0; 0; 0; 0; 0; (-1); 0]);
     Col [0; 0; 0; (-2); 1; 1] [0; 0; 0; 0; 0; 1] (Torsion 2 [(-2); 1; 0; 0; 0; 0; 0; 0; 0]);
     Col [1; 0; 0; 1; 0; 0] [1; 0; 0; 0; 0; 0] (Free (V3 1 (-1) 0));
     Col [0; 1; 0; 0; 0; 0] [0; 1; 0; 0; 0; 0] (Free (V3 1 2 0))]
    [(160%nat, (M3 1 0 0 0 1 0 0 0 1, V3 0 0 0, 1)); (161%nat, (M3 1 0 0 0 1 0 0 0 1, V3 0 0 0, 1))];
  Cert [M3 (-1) 0 0 (-1) 1 0 0 0 1; M3 (-1) 1 0 0 1 0 0 0 (-1)]
    [[]%nat; [0]%nat; [1]%nat; [0; 1]%nat; [1; 0]%nat; [0; 1; 0]%nat; [1; 0; 1]%nat; [0; 1; 0; 1]%nat; [1; 0; 1; 0]%nat; [0; 1; 0; 1; 0]%nat; [1; 0; 1; 0; 1]%nat; [0; 1; 0; 1; 0; 1]%nat]
    [([0; 0]%nat, []%nat); ([1; 1]%nat, []%nat)] 2
    [Col [1; 0; 0; 0; 0; 0] [1; (-2); 0; 0; 0; 0] (Torsion 1 [0; (-1); 0; 0; 0; 0]);
     Col [0; 0; 0; 0; 1; 0] [0; 0; 0; 0; 1; 0] (Torsion 1 [0; 0; 0; 1; 0; 0]);
     Col [0; 0; 1; 0; 0; 0] [0; 0; 1; 0; 0; 0] (Torsion 2 [0; 0; 1; 0; 0; 0]);
     Col [0; 0; 0; 1; 0; 0] [0; 0; 0; 1; 0; 0] (Free (V3 0 (-2) 0));
     Col [2; 1; 0; 0; 0; 0] [0; 1; 0; 0; 0; 0] (Free (V3 2 4 0));
     Col [0; 0; 0; 0; 0; 1] [0; 0; 0; 0; 0; 1] (Free (V3 0 0 1))]
    [(162%nat, (M3 1 0 0 0 1 0 0 0 1, V3 0 0 0, 1)); (163%nat, (M3 (-1) 0 0 0 (-1) 0 0 0 1, V3 0 0 3, 1))];
  Cert [M3 (-1) 0 0 (-1) 1 0 0 0 (-1); M3 (-1) 1 0 0 1 0 0 0 1]
    [[]%nat; [0]%nat; [1]%nat; [0; 1]%nat; [1; 0]%nat; [0; 1; 0]%nat; [1; 0; 1]%nat; [0; 1; 0; 1]%nat; [1; 0; 1; 0]%nat; [0; 1; 0; 1; 0]%nat; [1; 0; 1; 0; 1]%nat; [0; 1; 0; 1; 0; 1]%nat]
    [([0; 0]%nat, []%nat); ([1; 1]%nat, []%nat)] 2
    [Col [1; 0; 0; 0; 0; 0] [1; (-2); 0; 0; 0; 0] (Torsion 1 [0; (-1); 0; 0; 0; 0]);
     Col [0; 0; 0; 0; 1; 0] [0; 0; 0; 0; 1; 0] (Torsion 1 [0; 0; 0; 1; 0; 0]);
     Col [0; 0; 0; 0; 0; 1] [0; 0; 0; 0; 0; 1] (Torsion 2 [0; 0; 0; 0; 0; 1]);
     Col [0; 0; 0; 1; 0; 0] [0; 0; 0; 1; 0; 0] (Free (V3 0 (-2) 0));
     Col [2; 1; 0; 0; 0; 0] [0; 1; 0; 0; 0; 0] (Free (V3 2 4 0));
     Col [0; 0; 1; 0; 0; 0] [0; 0; 1; 0; 0; 0] (Free (V3 0 0 1))]
    [(164%nat, (M3 1 0 0 0 1 0 0 0 1, V3 0 0 0, 1)); (165%nat, (M3 (-1) 0 0 0 (-1) 0 0 0 1, V3 0 0 3, 1))];
  Cert [M3 (-1) 0 0 (-1) 1 0 0 0 (-1); M3 (-1) 1 (-1) 0 1 0 0 0 1]
    [[]%nat; [0]%nat; [1]%nat; [0; 1]%nat; [1; 0]%nat; [0; 1; 0]%nat; [1; 0; 1]%nat; [0; 1; 0; 1]%nat; [1; 0; 1; 0]%nat; [0; 1; 0; 1; 0]%nat; [1; 0; 1; 0; 1]%nat; [0; 1; 0; 1; 0; 1]%nat]
    [([0; 0]%nat, []%nat); ([1; 1]%nat, []%nat)] 2
    [Col [1; 0; 0; 0; 0; 0] [1; (-2); 0; 0; 0; 0] (Torsion 1 [0; (-1); 0; 0; 0; 0]);
     Col [0; 0; 0; 0; 1; 0] [0; 0; 0; 0; 1; (-1)] (Torsion 1 [0; 0; 0; 1; 0; 0]);
     Col [0; 0; 0; 0; 1; 1] [0; 0; 0; 0; 0; 1] (Torsion 2 [0; 0; 0; (-2); 1; 0]);
     Col [0; 0; 0; 1; 0; 0] [0; 0; 0; 1; 0; 0] (Free (V3 0 (-2) 0));
     Col [2; 1; 0; 0; 0; 0] [0; 1; 0; 0; 0; 0] (Free (V3 2 4 0));
     Col [0; 0; 1; 0; 0; 0] [0; 0; 1; 0; 0; 0] (Free (V3 0 1 1))]
    [(166%nat, (M3 1 0 0 0 1 0 0 0 1, V3 0 0 0, 1)); (167%nat, (M3 1 0 0 0 1 0 0 0 1, V3 6 3 3, 1))];
  Cert [M3 0 1 0 (-1) 1 0 0 0 1]
    [[]%nat; [0]%nat; [0; 0]%nat; [0; 0; 0]%nat; [0; 0; 0; 0]%nat; [0; 0; 0; 0; 0]%nat]
    [([0; 0; 0; 0; 0; 0]%nat, []%nat)] 1
    [Col [0; 0; 1] [0; 0; 1] (Torsion 6 [0; 0; 1]);
     Col [0; 1; 0] [0; 1; 0] (Free (V3 1 1 0));
     Col [1; 0; 0] [1; 0; 0] (Free (V3 0 (-1) 0))]
    [(168%nat, (M3 1 0 0 0 1 0 0 0 1, V3 0 0 0, 1)); (170%nat, (M3 (-1) 0 0 0 (-1) 0 0 0 1, V3 0 0 0, 1)); (172%nat, (M3 (-1) 0 0 0 (-1) 0 0 0 1, V3 0 0 0, 1)); (173%nat, (M3 (-1) 0 0 0 (-1) 0 0 0 1, V3 0 0 0, 1)); (171%nat, (M3 (-1) 0 0 0 (-1) 0 0 0 1, V3 0 0 0, 1)); (169%nat, (M3 (-1) 0 0 0 (-1) 0 0 0 1, V3 0 0 0, 1))];
  Cert [M3 (-1) 1 0 (-1) 0 0 0 0 (-1)]
    [[]%nat; [0]%nat; [0; 0]%nat; [0; 0; 0]%nat; [0; 0; 0; 0]%nat; [0; 0; 0; 0; 0]%nat]
    [] 6
    [Col [1; 0; 0] [1; 0; 0] (Free (V3 2 (-2) 0));
     Col [0; 1; 0] [0; 1; 0] (Free (V3 2 4 0));
     Col [0; 0; 1] [0; 0; 1] (Free (V3 0 0 3))]
    [(174%nat, (M3 1 0 0 0 1 0 0 0 1, V3 0 0 0, 1))];
  Cert [M3 (-1) 0 0 0 (-1) 0 0 0 (-1); M3 (-1) 1 0 (-1) 0 0 0 0 (-1)]
    [[]%nat; [0]%nat; [1]%nat; [0; 1]%nat; [1; 1]%nat; [0; 1; 1]%nat; [1; 1; 1]%nat; [0; 1; 1; 1]%nat; [1; 1; 1; 1]%nat; [0; 1; 1; 1; 1]%nat; [1; 1; 1; 1; 1]%nat; [0; 1; 1; 1; 1; 1]%nat]
    [([0; 1; 0]%nat, [1]%nat)] 2
    [Col [0; 1; 0; 0; 0; 0] [(-2); 1; 0; 2; 0; 0] (Torsion 1 [(-1); 0; 0]);
     Col [1; (-2); 0; 2; 0; 0] [(-3); 0; 0; 2; 2; 0] (Torsion 1 [(-1); (-1); 0]);
     Col [0; 0; 1; 0; 0; 0] [0; 0; 1; 0; 0; (-1)] (Torsion 2 [0; 0; 1]);
     Col [(-2); 2; 0; (-3); 0; 0] [(-2); 0; 0; 1; 1; 0] (Free (V3 (-2) 2 0));
     Col [0; 2; 0; (-1); 1; 0] [0; 0; 0; 0; 1; 0] (Free (V3 0 2 0));
     Col [0; 0; 1; 0; 0; 1] [0; 0; 0; 0; 0; 1] (Free (V3 0 0 1))]
    [(175%nat, (M3 1 0 0 0 1 0 0 0 1, V3 0 0 0, 1)); (176%nat, (M3 (-1) 0 0 0 (-1) 0 0 0 1, V3 0 0 3, 1))];
  Cert [M3 (-1) 0 0 (-1) 1 0 0 0 (-1); M3 (-1) 1 0 0 1 0 0 0 (-1)]
    [[]%nat; [0]%nat; [1]%nat; [0; 1]%nat; [1; 0]%nat; [0; 1; 0]%nat; [1; 0; 1]%nat; [0; 1; 0; 1]%nat; [1; 0; 1; 0]%nat; [0; 1; 0; 1; 0]%nat; [1; 0; 1; 0; 1]%nat; [0; 1; 0; 1; 0; 1]%nat]
    [([1; 1]%nat, []%nat); ([0; 1; 0; 1; 0; 1; 0]%nat, [1; 0; 1; 0; 1]%nat)] 2
    [Col [0; 0; 0; 0; 1; 0] [0; 0; 0; 0; 1; 0] (Torsion 1 [1; 0; 0; 0; 0; 0]);
     Col [1; 0; 0; 0; 0; 0] [1; (-2); 0; 0; 0; 0] (Torsion 1 [2; 0; 0; 0; 1; 0]);
     Col [0; 0; 1; 0; 0; 0] [0; 0; 1; 0; 0; (-1)] (Torsion 6 [0; 0; 0; 0; 0; 1]);
     Col [0; 0; 0; 1; 0; 0] [0; 0; 0; 1; 0; 0] (Free (V3 0 (-2) 0));
     Col [2; 1; 0; 0; 0; 0] [0; 1; 0; 0; 0; 0] (Free (V3 2 4 0));
     Col [0; 0; 1; 0; 0; 1] [0; 0; 0; 0; 0; 1] (Free (V3 0 0 1))]
    [(177%nat, (M3 1 0 0 0 1 0 0 0 1, V3 0 0 0, 1)); (178%nat, (M3 (-1) 0 0 0 (-1) 0 0 0 1, V3 0 0 3, 1)); (180%nat, (M3 (-1) 0 0 0 (-1) 0 0 0 1, V3 0 0 0, 1)); (182%nat, (M3 (-1) 0 0 0 (-1) 0 0 0 1, V3 0 0 3, 1)); (181%nat, (M3 (-1) 0 0 0 (-1) 0 0 0 1, V3 0 0 0, 1)); (179%nat, (M3 (-1) 0 0 0 (-1) 0 0 0 1, V3 0 0 3, 1))];
  Cert [M3 (-1) 0 0 (-1) 1 0 0 0 1; M3 (-1) 1 0 0 1 0 0 0 1]
    [[]%nat; [0]%nat; [1]%nat; [0; 1]%nat; [1; 0]%nat; [0; 1; 0]%nat; [1; 0; 1]%nat; [0; 1; 0; 1]%nat; [1; 0; 1; 0]%nat; [0; 1; 0; 1; 0]%nat; [1; 0; 1; 0; 1]%nat; [0; 1; 0; 1; 0; 1]%nat]
    [([0; 0]%nat, []%nat); ([1; 1]%nat, []%nat)] 1
    [Col [1; 0; 0; 0; 0; 0] [1; (-2); 0; 0; 0; 0] (Torsion 1 [0; (-1); 0; 0; 0; 0]);
     Col [0; 0; 0; 0; 1; 0] [0; 0; 0; 0; 1; 0] (Torsion 1 [0; 0; 0; 1; 0; 0]);
     Col [0; 0; 1; 0; 0; 0] [0; 0; 1; 0; 0; 0] (Torsion 2 [0; 0; 1; 0; 0; 0]);
     Col [0; 0; 0; 0; 0; 1] [0; 0; 0; 0; 0; 1] (Torsion 2 [0; 0; 0; 0; 0; 1]);
     Col [2; 1; 0; 0; 0; 0] [0; 1; 0; 0; 0; 0] (Free (V3 1 2 0));
     Col [0; 0; 0; 1; 0; 0] [0; 0; 0; 1; 0; 0] (Free (V3 0 (-1) 0))]
    [(183%nat, (M3 1 0 0 0 1 0 0 0 1, V3 0 0 0, 1)); (185%nat, (M3 (-1) 0 0 0 (-1) 0 0 0 1, V3 0 0 0, 1)); (186%nat, (M3 (-1) 0 0 0 (-1) 0 0 0 1, V3 0 0 0, 1)); (184%nat, (M3 (-1) 0 0 0 (-1) 0 0 0 1, V3 0 0 0, 1))];
  Cert [M3 (-1) 1 0 (-1) 0 0 0 0 (-1); M3 (-1) 1 0 0 1 0 0 0 (-1)]
    [[]%nat; [0]%nat; [1]%nat; [0; 0]%nat; [0; 1]%nat; [1; 0]%nat; [0; 0; 0]%nat; [0; 0; 1]%nat; [1; 0; 0]%nat; [1; 0; 1]%nat; [0; 0; 0; 0]%nat; [0; 0; 0; 1]%nat]
    [([1; 1]%nat, []%nat); ([1; 0; 1; 0]%nat, []%nat)] 6
    [Col [0; 0; 0; 0; 1; 0] [0; 0; 0; 0; 1; 0] (Torsion 1 [1; 0; 0; 0; 0; 0]);
     Col [0; 0; 0; 1; 0; 0] [(-1); 0; 0; 1; 0; 0] (Torsion 1 [1; 0; 0; 1; 0; 0]);
     Col [0; 0; 1; 0; 0; 0] [0; 0; 1; 0; 0; (-1)] (Torsion 2 [0; 0; 0; 0; 0; (-1)]);
     Col [0; 1; 0; 0; 0; 0] [0; 1; 0; 0; 0; 0] (Free (V3 2 4 0));
     Col [1; 0; 0; 1; 0; 0] [1; 0; 0; 0; 0; 0] (Free (V3 2 (-2) 0));
     Col [0; 0; 1; 0; 0; 1] [0; 0; 0; 0; 0; 1] (Free (V3 0 0 3))]
    [(187%nat, (M3 1 0 0 0 1 0 0 0 1, V3 0 0 0, 1)); (188%nat, (M3 (-1) 0 0 0 (-1) 0 0 0 1, V3 0 0 0, 1))];
  Cert [M3 (-1) 0 0 (-1) 1 0 0 0 (-1); M3 (-1) 1 0 (-1) 0 0 0 0 (-1)]
    [[]%nat; [0]%nat; [1]%nat; [0; 1]%nat; [1; 0]%nat; [1; 1]%nat; [0; 1; 0]%nat; [0; 1; 1]%nat; [1; 1; 0]%nat; [1; 1; 1]%nat; [0; 1; 1; 0]%nat; [0; 1; 1; 1]%nat]
    [([0; 0]%nat, []%nat); ([0; 1; 0; 1]%nat, []%nat)] 2
    [Col [1; 0; 0; 0; 0; 0] [1; (-2); 0; 0; 0; 0] (Torsion 1 [0; (-1); 0; 0; 0; 0]);
     Col [0; 0; 0; 1; 0; 0] [0; (-3); 0; 1; 1; 0] (Torsion 1 [0; (-2); 0; (-1); 0; 0]);
     Col [0; 0; 1; 0; 0; 0] [0; 0; 1; 0; 0; (-1)] (Torsion 2 [0; 0; 0; 0; 0; 1]);
     Col [2; 1; 0; 3; 0; 0] [0; 1; 0; 0; 0; 0] (Free (V3 2 (-2) 0));
     Col [0; 0; 0; (-1); 1; 0] [0; 0; 0; 0; 1; 0] (Free (V3 0 2 0));
     Col [0; 0; 1; 0; 0; 1] [0; 0; 0; 0; 0; 1] (Free (V3 0 0 1))]
    [(189%nat, (M3 1 0 0 0 1 0 0 0 1, V3 0 0 0, 1)); (190%nat, (M3 (-1) 0 0 0 (-1) 0 0 0 1, V3 0 0 3, 1))];
  Cert [M3 (-1) 0 0 (-1) 1 0 0 0 (-1); M3 (-1) 0 0 (-1) 1 0 0 0 1; M3 (-1) 1 0 0 1 0 0 0 (-1)]
    [[]%nat; [0]%nat; [1]%nat; [2]%nat; [0; 1]%nat; [0; 2]%nat; [1; 2]%nat; [2; 0]%nat; [2; 1]%nat; [0; 1; 2]%nat; [0; 2; 0]%nat; [0; 2; 1]%nat; [2; 0; 2]%nat; [2; 1; 2]%nat; [0; 2; 0; 2]%nat; [0; 2; 1; 2]%nat; [2; 0; 2; 0]%nat; [2; 0; 2; 1]%nat; [0; 2; 0; 2; 0]%nat; [0; 2; 0; 2; 1]%nat; [2; 0; 2; 0; 2]%nat; [2; 0; 2; 1; 2]%nat; [0; 2; 0; 2; 0; 2]%nat; [0; 2; 0; 2; 1; 2]%nat]
    [([0; 0]%nat, []%nat); ([1; 1]%nat, []%nat); ([2; 2]%nat, []%nat); ([0; 2; 1; 0]%nat, [1; 2]%nat)] 2
    [Col [1; 0; 0; 0; 0; 0; 0; 0; 0] [1; (-2); 0; 0; 0; 0; 0; 0; 0] (Torsion 1 [0; (-1); 0; 0; 0; 0; 0; 0; 0; 0; 0; 0]);
     Col [0; 0; 0; 1; 0; 0; 0; 0; 0] [0; 0; 0; 1; (-2); 0; 0; 0; 0] (Torsion 1 [0; 0; 0; 0; (-1); 0; 0; 0; 0; 0; 0; 0]);
     Col [0; 0; 0; 0; 0; 0; 0; 1; 0] [0; 0; 0; 0; 0; 0; 0; 1; 0] (Torsion 1 [0; 0; 0; 0; 0; 0; 1; 0; 0; 0; 0; 0]);
     Col [2; 1; 0; 0; 0; 0; 0; 0; 0] [0; 1; 0; 0; (-1); 0; 0; 0; 0] (Torsion 1 [0; 1; 0; 0; 0; 0; 0; 0; 0; 1; 0; 0]);
     Col [0; 0; 0; 0; 0; 1; 0; 0; 0] [0; 0; 0; 0; 0; 1; 0; 0; 0] (Torsion 2 [0; 0; 0; 0; 0; 1; 0; 0; 0; 0; 0; 0]);
     Col [0; 0; 1; 0; 0; 0; 0; 0; 0] [0; 0; 1; 0; 0; 0; 0; 0; (-1)] (Torsion 2 [0; 0; 0; 0; 0; 0; 0; 0; 0; 0; 0; 1]);
     Col [0; 0; 0; 0; 0; 0; 1; 0; 0] [0; 0; 0; 0; 0; 0; 1; 0; 0] (Free (V3 0 (-2) 0));
     Col [2; 1; 0; 2; 1; 0; 0; 0; 0] [0; 0; 0; 0; 1; 0; 0; 0; 0] (Free (V3 2 4 0));
     Col [0; 0; 1; 0; 0; 0; 0; 0; 1] [0; 0; 0; 0; 0; 0; 0; 0; 1] (Free (V3 0 0 1))]
    [(191%nat, (M3 1 0 0 0 1 0 0 0 1, V3 0 0 0, 1)); (193%nat, (M3 (-1) 0 0 0 (-1) 0 0 0 1, V3 0 0 0, 1)); (192%nat, (M3 (-1) 0 0 0 (-1) 0 0 0 1, V3 0 0 3, 1)); (194%nat, (M3 (-1) 0 0 0 (-1) 0 0 0 1, V3 0 0 3, 1))];
  Cert [M3 (-1) 0 0 0 (-1) 0 0 0 1; M3 0 (-1) 0 0 0 (-1) 1 0 0]
    [[]%nat; [0]%nat; [1]%nat; [0; 1]%nat; [1; 0]%nat; [1; 1]%nat; [0; 1; 0]%nat; [0; 1; 1]%nat; [1; 0; 1]%nat; [1; 1; 0]%nat; [1; 0; 1; 1]%nat; [1; 1; 0; 1]%nat]
    [([1; 1; 1]%nat, []%nat); ([1; 0; 1; 0]%nat, [0; 1; 1]%nat)] 2
    [Col [0; 0; 0; 1; 0; 0] [0; 0; 0; 1; (-1); 1] (Torsion 1 [1; 0; 0; 0; 0; 0]);
     Col [0; 1; 0; 0; 0; 0] [1; 1; 1; 0; (-2); 2] (Torsion 1 [2; 0; 0; (-1); 0; 0]);
     Col [0; (-1); 1; 0; 0; 0] [0; 0; 1; 0; 0; 0] (Torsion 2 [0; 0; 0; (-1); 0; (-1)]);
     Col [1; (-1); 0; 0; 0; 0] [1; 0; 0; 0; 0; 0] (Free (V3 1 (-1) 1));
     Col [0; 2; 0; 1; 1; 0] [0; 0; 0; 0; 1; 0] (Free (V3 0 2 0));
     Col [0; (-2); 0; (-1); 0; 1] [0; 0; 0; 0; 0; 1] (Free (V3 0 (-2) 2))]
    [(195%nat, (M3 1 0 0 0 1 0 0 0 1, V3 0 0 0, 1)); (198%nat, (M3 (-1) 0 0 0 (-1) 0 0 0 1, V3 3 9 3, 1))];
  Cert [M3 (-1) (-1) (-1) 0 0 1 0 1 0; M3 (-1) (-1) (-1) 0 1 0 1 0 0]
    [[]%nat; [0]%nat; [1]%nat; [0; 1]%nat; [1; 0]%nat; [1; 1]%nat; [0; 1; 0]%nat; [0; 1; 1]%nat; [1; 0; 1]%nat; [1; 1; 0]%nat; [1; 0; 1; 1]%nat; [1; 1; 0; 1]%nat]
    [([0; 0]%nat, []%nat); ([1; 1; 1]%nat, []%nat); ([1; 0; 1; 0]%nat, [0; 1; 1]%nat)] 4
    [Col [0; 1; 0; 0; 0; 0] [0; 1; 1; 0; 0; 0] (Torsion 1 [(-1); 0; 0; 0; 0; 0; 0; 0; 0]);
     Col [0; 0; 0; 0; 1; 0] [0; 0; 0; 0; 1; 0] (Torsion 1 [0; 0; 0; (-1); 0; 0; 0; 0; 0]);
     Col [0; 0; 0; 1; 0; 0] [(-1); 0; 0; 1; 0; 0] (Torsion 1 [0; 0; 0; (-1); 0; 0; 0; (-1); 0]);
     Col [0; (-1); 1; 0; 0; 0] [0; 0; 1; 0; 0; 0] (Free (V3 1 (-3) 1));
     Col [1; 0; 0; 1; 0; 0] [1; 0; 0; 0; 0; 0] (Free (V3 1 1 1));
     Col [0; 0; 0; 0; 0; 1] [0; 0; 0; 0; 0; 1] (Free (V3 (-2) 2 2))]
    [(196%nat, (M3 1 0 0 0 1 0 0 0 1, V3 0 0 0, 1))];
  Cert [M3 (-1) (-1) (-1) (-1) 0 (-1) 2 0 1; M3 (-1) 0 (-1) 0 (-1) (-1) 0 0 1]
    [[]%nat; [0]%nat; [1]%nat; [0; 0]%nat; [0; 1]%nat; [1; 0]%nat; [0; 0; 1]%nat; [0; 1; 0]%nat; [1; 0; 0]%nat; [1; 0; 1]%nat; [0; 0; 1; 0]%nat; [0; 1; 0; 0]%nat]
    [([1; 0; 1; 0]%nat, [0; 0; 1]%nat)] 1
    [Col [0; 0; 0; 0; 0; 1] [0; 0; 0; 0; 0; 1] (Torsion 1 [(-1); 0; 0]);
     Col [0; 0; 1; 0; 0; 0] [2; (-2); 1; 0; 0; 0] (Torsion 1 [0; 1; 0]);
     Col [0; 0; 0; 1; 0; 0] [0; (-2); 0; 1; 1; 0] (Torsion 2 [3; 2; 1]);
     Col [0; 1; 2; 2; 0; 0] [0; 1; 0; 0; 0; 0] (Free (V3 (-1) (-2) 4));
     Col [0; 0; 0; (-1); 1; 0] [0; 0; 0; 0; 1; 0] (Free (V3 0 1 (-1)));
     Col [1; 0; (-2); 0; 0; 0] [1; 0; 0; 0; 0; 0] (Free (V3 1 1 (-2)))]
    [(197%nat, (M3 1 0 0 0 1 0 0 0 1, V3 0 0 0, 1)); (199%nat, (M3 0 (-1) 0 (-1) 0 0 0 0 (-1), V3 6 6 0, 1))];
  Cert [M3 (-1) 0 0 0 (-1) 0 0 0 1; M3 0 (-1) 0 0 0 (-1) (-1) 0 0]
    [[]%nat; [0]%nat; [1]%nat; [0; 1]%nat; [1; 0]%nat; [1; 1]%nat; [0; 1; 0]%nat; [0; 1; 1]%nat; [1; 0; 1]%nat; [1; 1; 0]%nat; [1; 1; 1]%nat; [0; 1; 1; 1]%nat; [1; 0; 1; 1]%nat; [1; 1; 0; 1]%nat; [1; 1; 1; 1]%nat; [0; 1; 1; 1; 1]%nat; [1; 0; 1; 1; 1]%nat; [1; 1; 0; 1; 1]%nat; [1; 1; 1; 1; 1]%nat; [0; 1; 1; 1; 1; 1]%nat; [1; 0; 1; 1; 1; 1]%nat; [1; 1; 0; 1; 1; 1]%nat; [1; 0; 1; 1; 1; 1; 1]%nat; [1; 1; 0; 1; 1; 1; 1]%nat]
    [([0; 0]%nat, []%nat); ([1; 0; 1; 0]%nat, [0; 1; 1]%nat)] 2
    [Col [1; 0; 0; 0; 0; 0] [1; 1; 1; (-2); 0; 0] (Torsion 1 [0; 0; 0; (-1); 0; 0]);
     Col [(-1); 0; 1; 0; 0; 0] [0; 0; 1; 0; 0; 0] (Torsion 2 [0; 0; 1; 0; 0; 0]);
     Col [(-1); 1; 0; 0; 0; 0] [0; 1; 0; (-1); (-1); 1] (Torsion 2 [0; 0; (-1); (-1); (-1); 0]);
     Col [1; 1; 0; 1; 0; 0] [0; 0; 0; 1; 0; 0] (Free (V3 1 1 (-1)));
     Col [(-1); 1; 0; 0; 1; 0] [0; 0; 0; 0; 1; 0] (Free (V3 (-1) 1 1));
     Col [1; (-1); 0; 0; 0; 1] [0; 0; 0; 0; 0; 1] (Free (V3 1 (-1) 1))]
    [(200%nat, (M3 1 0 0 0 1 0 0 0 1, V3 0 0 0, 1)); (201%nat, (M3 (-1) 0 0 0 (-1) 0 0 0 1, V3 6 6 0, 1)); (205%nat, (M3 (-1) 0 0 0 (-1) 0 0 0 1, V3 0 6 0, 1)); (205%nat, (M3 (-1) 0 0 0 0 1 0 1 0, V3 6 6 0, 1))];
  Cert [M3 (-1) (-1) (-1) 0 0 1 0 1 0; M3 (-1) 0 0 0 0 (-1) 1 1 1]
    [[]%nat; [0]%nat; [1]%nat; [0; 1]%nat; [1; 0]%nat; [1; 1]%nat; [0; 1; 0]%nat; [0; 1; 1]%nat; [1; 0; 1]%nat; [1; 1; 0]%nat; [1; 1; 1]%nat; [0; 1; 1; 1]%nat; [1; 0; 1; 1]%nat; [1; 1; 0; 1]%nat; [1; 1; 1; 1]%nat; [0; 1; 1; 1; 1]%nat; [1; 0; 1; 1; 1]%nat; [1; 1; 0; 1; 1]%nat; [1; 1; 1; 1; 1]%nat; [0; 1; 1; 1; 1; 1]%nat; [1; 0; 1; 1; 1; 1]%nat; [1; 1; 0; 1; 1; 1]%nat; [1; 0; 1; 1; 1; 1; 1]%nat; [1; 1; 0; 1; 1; 1; 1]%nat]
    [([0; 0]%nat, []%nat); ([1; 0; 1; 0]%nat, [0; 1; 1]%nat)] 2
    [Col [0; 1; 0; 0; 0; 0] [0; 1; 1; 0; 0; 0] (Torsion 1 [(-1); 0; 0; 0; 0; 0]);
     Col [0; (-1); 1; 0; 0; 0] [2; 0; 1; (-3); (-3); (-2)] (Torsion 1 [(-1); 0; 0; (-1); 0; 0]);
     Col [1; 2; (-2); 0; 0; 0] [1; 0; 0; (-1); (-1); 0] (Torsion 2 [0; 0; 0; (-1); (-1); 0]);
     Col [1; (-1); 1; 1; 0; 0] [0; 0; 0; 1; 0; 0] (Free (V3 1 (-1) 1));
     Col [1; (-1); 1; 0; 1; 0] [0; 0; 0; 0; 1; 0] (Free (V3 0 0 2));
     Col [0; (-2); 2; 0; 0; 1] [0; 0; 0; 0; 0; 1] (Free (V3 0 (-2) 2))]
    [(202%nat, (M3 1 0 0 0 1 0 0 0 1, V3 0 0 0, 1)); (203%nat, (M3 (-1) 0 0 0 0 (-1) 0 (-1) 0, V3 0 6 6, 1))];
  Cert [M3 (-1) (-1) (-1) (-1) 0 (-1) 2 0 1; M3 (-1) (-1) (-1) (-1) 0 0 2 0 1]
    [[]%nat; [0]%nat; [1]%nat; [0; 0]%nat; [0; 1]%nat; [1; 0]%nat; [1; 1]%nat; [0; 0; 1]%nat; [0; 1; 0]%nat; [0; 1; 1]%nat; [1; 0; 0]%nat; [1; 0; 1]%nat; [1; 1; 0]%nat; [1; 1; 1]%nat; [0; 0; 1; 0]%nat; [0; 0; 1; 1]%nat; [0; 1; 0; 0]%nat; [0; 1; 0; 1]%nat; [0; 1; 1; 0]%nat; [0; 1; 1; 1]%nat; [0; 0; 1; 0; 0]%nat; [0; 0; 1; 0; 1]%nat; [0; 0; 1; 1; 0]%nat; [0; 0; 1; 1; 1]%nat]
    [([1; 0; 0; 1]%nat, [0]%nat)] 1
    [Col [0; 0; 1; 0; 0; 0] [0; 0; 1; 0; 0; (-1)] (Torsion 1 [0; 1; 0]);
     Col [0; 0; 1; 0; 0; 1] [2; (-2); 0; 0; 0; 1] (Torsion 1 [0; 1; 1]);
     Col [1; 0; (-2); 0; 0; (-2)] [1; 0; 0; (-1); 0; 0] (Torsion 2 [(-1); 0; 0]);
     Col [1; 0; (-2); 1; 0; (-2)] [0; 0; 0; 1; 0; 0] (Free (V3 1 (-1) 0));
     Col [0; 0; 0; 0; 1; 0] [0; 0; 0; 0; 1; 0] (Free (V3 0 1 (-1)));
     Col [0; 1; 2; 0; 0; 2] [0; 1; 0; 0; 0; 0] (Free (V3 (-1) 1 1))]
    [(204%nat, (M3 1 0 0 0 1 0 0 0 1, V3 0 0 0, 1)); (206%nat, (M3 0 (-1) 0 (-1) 0 0 0 0 (-1), V3 6 0 6, 1))];
  Cert [M3 (-1) 0 0 0 0 (-1) 0 (-1) 0; M3 0 (-1) 0 0 0 (-1) 1 0 0]
    [[]%nat; [0]%nat; [1]%nat; [0; 1]%nat; [1; 0]%nat; [1; 1]%nat; [0; 1; 0]%nat; [0; 1; 1]%nat; [1; 0; 1]%nat; [1; 1; 0]%nat; [0; 1; 0; 1]%nat; [0; 1; 1; 0]%nat; [1; 0; 1; 0]%nat; [1; 0; 1; 1]%nat; [1; 1; 0; 1]%nat; [0; 1; 0; 1; 0]%nat; [0; 1; 0; 1; 1]%nat; [0; 1; 1; 0; 1]%nat; [1; 0; 1; 1; 0]%nat; [1; 1; 0; 1; 0]%nat; [0; 1; 0; 1; 1; 0]%nat; [0; 1; 1; 0; 1; 0]%nat; [1; 0; 1; 1; 0; 1]%nat; [0; 1; 0; 1; 1; 0; 1]%nat]
    [([0; 1; 0; 1; 0; 1]%nat, [1; 1; 0]%nat)] 2
    [Col [0; 1; 0; 0; 0; 0] [0; 1; (-1); (-1); 1; (-1)] (Torsion 1 [1; 0; 0]);
     Col [0; 1; 0; 1; 0; 0] [0; 0; 0; 1; (-1); 1] (Torsion 1 [0; 1; 0]);
     Col [0; 1; 1; 0; 0; 0] [0; 0; 1; 0; (-1); 0] (Torsion 4 [(-1); 0; 1]);
     Col [1; 0; 0; 0; 0; 0] [1; 0; 0; 0; 0; 0] (Free (V3 1 (-1) 1));
     Col [0; 1; 1; 1; 1; 0] [0; 0; 0; 0; 1; 0] (Free (V3 0 2 0));
     Col [0; 0; 0; (-1); 0; 1] [0; 0; 0; 0; 0; 1] (Free (V3 0 (-2) 2))]
    [(207%nat, (M3 1 0 0 0 1 0 0 0 1, V3 0 0 0, 1)); (212%nat, (M3 (-1) 0 0 0 (-1) 0 0 0 1, V3 9 15 3, 2)); (208%nat, (M3 (-1) 0 0 0 (-1) 0 0 0 1, V3 3 9 9, 1)); (213%nat, (M3 (-1) 0 0 0 (-1) 0 0 0 1, V3 3 21 9, 2))];
  Cert [M3 (-1) (-1) (-1) 0 1 0 1 0 0; M3 (-1) 0 0 0 0 (-1) 0 (-1) 0]
    [[]%nat; [0]%nat; [1]%nat; [0; 0]%nat; [0; 1]%nat; [1; 0]%nat; [0; 0; 1]%nat; [0; 1; 0]%nat; [1; 0; 0]%nat; [1; 0; 1]%nat; [0; 0; 1; 0]%nat; [0; 1; 0; 0]%nat; [0; 1; 0; 1]%nat; [1; 0; 0; 1]%nat; [1; 0; 1; 0]%nat; [0; 0; 1; 0; 0]%nat; [0; 0; 1; 0; 1]%nat; [0; 1; 0; 0; 1]%nat; [1; 0; 0; 1; 0]%nat; [1; 0; 1; 0; 0]%nat; [0; 1; 0; 0; 1; 0]%nat; [1; 0; 0; 1; 0; 1]%nat; [1; 0; 1; 0; 0; 1]%nat; [0; 1; 0; 0; 1; 0; 1]%nat]
    [([0; 0; 0]%nat, []%nat); ([0; 1; 0; 1; 0]%nat, [1; 0; 0; 1]%nat)] 2
    [Col [0; 1; 0; 0; 0; 0] [0; 1; 0; 0; 0; 0] (Torsion 1 [(-1); 0; 0; 0; 0; 0]);
     Col [0; 0; 0; 0; 1; 0] [(-2); 0; 0; 2; 1; 1] (Torsion 1 [(-1); 0; 0; (-1); 0; 0]);
     Col [0; 0; 0; 1; (-2); 0] [(-1); 0; 0; 1; 0; 1] (Torsion 2 [(-3); 0; 0; (-2); 0; (-1)]);
     Col [0; 0; 1; 0; 0; 0] [0; 0; 1; 0; 0; 0] (Free (V3 0 (-2) 2));
     Col [1; 0; 0; 1; 0; 0] [1; 0; 0; 0; 0; 0] (Free (V3 1 (-1) 1));
     Col [0; 0; 0; (-1); 1; 1] [0; 0; 0; 0; 0; 1] (Free (V3 (-1) 3 (-1)))]
    [(209%nat, (M3 1 0 0 0 1 0 0 0 1, V3 0 0 0, 1)); (210%nat, (M3 (-1) 0 0 0 0 (-1) 0 (-1) 0, V3 21 21 9, 2))];
  Cert [M3 (-1) (-1) (-1) (-1) 0 (-1) 2 0 1; M3 (-1) 0 (-1) (-1) 1 0 2 0 1]
    [[]%nat; [0]%nat; [1]%nat; [0; 0]%nat; [0; 1]%nat; [1; 0]%nat; [1; 1]%nat; [0; 0; 1]%nat; [0; 1; 0]%nat; [0; 1; 1]%nat; [1; 0; 0]%nat; [1; 1; 0]%nat; [0; 0; 1; 0]%nat; [0; 0; 1; 1]%nat; [0; 1; 0; 0]%nat; [0; 1; 1; 0]%nat; [1; 0; 0; 1]%nat; [1; 1; 0; 0]%nat; [0; 0; 1; 0; 0]%nat; [0; 0; 1; 1; 0]%nat; [0; 1; 1; 0; 0]%nat; [1; 0; 0; 1; 1]%nat; [1; 1; 0; 0; 1]%nat; [0; 1; 1; 0; 0; 1]%nat]
    [([0; 0; 0]%nat, []%nat); ([1; 1; 1]%nat, [0; 1; 0]%nat)] 1
    [Col [0; 0; 1; 0; 0; 0] [2; (-2); 1; 0; 0; 0] (Torsion 1 [0; (-1); 0; 0; 0; 0]);
     Col [0; 1; 2; 0; 0; 0] [(-1); 1; 0; 0; 1; 0] (Torsion 1 [0; 0; 0; 1; 0; 0]);
     Col [0; 0; 0; 0; 0; 1] [0; 0; 0; 0; 2; 1] (Torsion 2 [0; 0; 0; 1; 1; 0]);
     Col [0; 0; 0; 1; 0; 0] [0; 0; 0; 1; 0; 0] (Free (V3 0 (-1) 1));
     Col [0; (-1); (-2); 0; 1; (-2)] [0; 0; 0; 0; 1; 0] (Free (V3 1 0 (-2)));
     Col [1; 1; 0; 0; 0; 0] [1; 0; 0; 0; 0; 0] (Free (V3 0 1 0))]
    [(211%nat, (M3 1 0 0 0 1 0 0 0 1, V3 0 0 0, 1)); (214%nat, (M3 0 (-1) 0 (-1) 0 0 0 0 (-1), V3 0 6 6, 1))];
  Cert [M3 (-1) 0 0 0 0 (-1) 0 1 0; M3 0 (-1) 0 (-1) 0 0 0 0 1]
    [[]%nat; [0]%nat; [1]%nat; [0; 0]%nat; [0; 1]%nat; [1; 0]%nat; [0; 0; 0]%nat; [0; 0; 1]%nat; [0; 1; 0]%nat; [1; 0; 0]%nat; [1; 0; 1]%nat; [0; 0; 0; 1]%nat; [0; 0; 1; 0]%nat; [0; 1; 0; 0]%nat; [0; 1; 0; 1]%nat; [1; 0; 0; 1]%nat; [0; 0; 0; 1; 0]%nat; [0; 0; 1; 0; 0]%nat; [0; 0; 1; 0; 1]%nat; [0; 1; 0; 0; 1]%nat; [1; 0; 0; 1; 0]%nat; [0; 0; 0; 1; 0; 0]%nat; [0; 0; 0; 1; 0; 1]%nat; [0; 0; 1; 0; 0; 1]%nat]
    [([1; 1]%nat, []%nat); ([0; 1; 0; 1; 0]%nat, [1]%nat)] 2
    [Col [0; 0; 0; 1; 0; 0] [0; 0; 0; 1; (-1); 0] (Torsion 1 [1; 0; 0; 0; 0; 0]);
     Col [0; 1; 0; 0; 0; 0] [1; 1; (-1); 0; (-2); (-1)] (Torsion 1 [2; 0; 0; 1; 0; 0]);
     Col [0; 1; 0; 0; 0; 1] [0; 0; 0; 0; 0; 1] (Torsion 2 [0; 0; 1; 0; 0; 0]);
     Col [1; (-1); 0; 0; 0; 0] [1; 0; 0; 0; 0; 0] (Free (V3 1 (-1) (-1)));
     Col [0; 2; 0; 1; 1; 0] [0; 0; 0; 0; 1; 0] (Free (V3 0 2 2));
     Col [0; 1; 1; 0; 0; 0] [0; 0; 1; 0; 0; 0] (Free (V3 0 0 2))]
    [(215%nat, (M3 1 0 0 0 1 0 0 0 1, V3 0 0 0, 1)); (218%nat, (M3 (-1) 0 0 0 (-1) 0 0 0 1, V3 3 3 3, 1))];
  Cert [M3 (-1) (-1) (-1) 0 0 1 1 0 0; M3 (-1) (-1) (-1) 0 1 0 0 0 1]
    [[]%nat; [0]%nat; [1]%nat; [0; 0]%nat; [0; 1]%nat; [1; 0]%nat; [0; 0; 0]%nat; [0; 0; 1]%nat; [0; 1; 0]%nat; [1; 0; 0]%nat; [1; 0; 1]%nat; [0; 0; 0; 1]%nat; [0; 0; 1; 0]%nat; [0; 1; 0; 0]%nat; [0; 1; 0; 1]%nat; [1; 0; 0; 1]%nat; [0; 0; 0; 1; 0]%nat; [0; 0; 1; 0; 0]%nat; [0; 0; 1; 0; 1]%nat; [0; 1; 0; 0; 1]%nat; [1; 0; 0; 1; 0]%nat; [0; 0; 0; 1; 0; 0]%nat; [0; 0; 0; 1; 0; 1]%nat; [0; 0; 1; 0; 0; 1]%nat]
    [([1; 1]%nat, []%nat); ([0; 1; 0; 1; 0]%nat, [1]%nat)] 4
    [Col [0; 0; 0; 0; 1; 0] [0; 0; 0; 0; 1; 1] (Torsion 1 [(-1); 0; 0; 0; 0; 0]);
     Col [0; 0; 0; 1; 0; 0] [(-1); 0; 0; 1; 0; 2] (Torsion 1 [(-1); 0; 0; 0; 1; 0]);
     Col [0; 0; 0; (-2); (-1); 1] [0; 0; 0; 0; 0; 1] (Torsion 2 [0; 0; 1; 0; 0; 0]);
     Col [0; 1; 0; 0; 0; 0] [0; 1; 0; 0; 0; 0] (Free (V3 (-1) 3 (-1)));
     Col [1; 0; 0; 1; 0; 0] [1; 0; 0; 0; 0; 0] (Free (V3 1 1 1));
     Col [0; 0; 1; 0; 0; 0] [0; 0; 1; 0; 0; 0] (Free (V3 (-2) 2 2))]
    [(216%nat, (M3 1 0 0 0 1 0 0 0 1, V3 0 0 0, 1)); (219%nat, (M3 (-1) 0 0 0 0 (-1) 0 (-1) 0, V3 9 3 9, 1))];
  Cert [M3 (-1) (-1) (-1) (-1) 0 (-1) 2 0 1; M3 (-1) (-1) (-1) 0 (-1) (-1) 0 2 1]
    [[]%nat; [0]%nat; [1]%nat; [0; 0]%nat; [0; 1]%nat; [1; 0]%nat; [1; 1]%nat; [0; 0; 1]%nat; [0; 1; 0]%nat; [0; 1; 1]%nat; [1; 0; 0]%nat; [1; 0; 1]%nat; [1; 1; 0]%nat; [1; 1; 1]%nat; [0; 0; 1; 0]%nat; [0; 0; 1; 1]%nat; [0; 1; 0; 0]%nat; [0; 1; 0; 1]%nat; [1; 0; 1; 0]%nat; [1; 0; 1; 1]%nat; [1; 1; 0; 0]%nat; [1; 1; 0; 1]%nat; [0; 1; 0; 1; 0]%nat; [0; 1; 0; 1; 1]%nat]
    [([1; 0; 0; 1]%nat, [0]%nat)] 1
    [Col [1; 0; 0; 0; 0; 0] [1; 2; 1; (-1); (-2); (-1)] (Torsion 1 [0; (-1); 0]);
     Col [(-1); 0; 1; 0; 0; 0] [0; (-2); 1; 2; 0; 0] (Torsion 1 [0; 0; (-1)]);
     Col [1; 0; 0; 0; 0; 1] [0; (-4); 0; 2; 2; 1] (Torsion 2 [(-1); 2; (-2)]);
     Col [1; 0; (-2); 1; 0; (-2)] [0; 0; 0; 1; 0; 0] (Free (V3 1 1 (-2)));
     Col [0; 0; 0; 0; 1; (-2)] [0; 0; 0; 0; 1; 0] (Free (V3 0 1 (-1)));
     Col [0; 1; 2; 0; 0; 4] [0; 1; 0; 0; 0; 0] (Free (V3 (-1) (-2) 4))]
    [(217%nat, (M3 1 0 0 0 1 0 0 0 1, V3 0 0 0, 1)); (220%nat, (M3 0 (-1) 0 (-1) 0 0 0 0 (-1), V3 6 0 6, 1))];
  Cert [M3 (-1) 0 0 0 0 (-1) 0 (-1) 0; M3 0 (-1) 0 0 0 1 1 0 0]
    [[]%nat; [0]%nat; [1]%nat; [0; 1]%nat; [1; 0]%nat; [1; 1]%nat; [0; 1; 0]%nat; [0; 1; 1]%nat; [1; 0; 1]%nat; [1; 1; 0]%nat; [1; 1; 1]%nat; [0; 1; 0; 1]%nat; [0; 1; 1; 0]%nat; [0; 1; 1; 1]%nat; [1; 0; 1; 0]%nat; [1; 0; 1; 1]%nat; [1; 1; 0; 1]%nat; [1; 1; 1; 1]%nat; [0; 1; 0; 1; 0]%nat; [0; 1; 0; 1; 1]%nat; [0; 1; 1; 0; 1]%nat; [0; 1; 1; 1; 1]%nat; [1; 0; 1; 0; 1]%nat; [1; 0; 1; 1; 0]%nat; [1; 0; 1; 1; 1]%nat; [1; 1; 0; 1; 0]%nat; [1; 1; 1; 1; 1]%nat; [0; 1; 0; 1; 0; 1]%nat; [0; 1; 0; 1; 1; 0]%nat; [0; 1; 0; 1; 1; 1]%nat; [0; 1; 1; 0; 1; 0]%nat; [0; 1; 1; 1; 1; 1]%nat; [1; 0; 1; 0; 1; 1]%nat; [1; 0; 1; 1; 0; 1]%nat; [1; 0; 1; 1; 1; 1]%nat; [1; 1; 0; 1; 0; 1]%nat; [0; 1; 0; 1; 0; 1; 1]%nat; [0; 1; 0; 1; 1; 0; 1]%nat; [0; 1; 0; 1; 1; 1; 1]%nat; [0; 1; 1; 0; 1; 0; 1]%nat; [1; 0; 1; 0; 1; 1; 0]%nat; [1; 0; 1; 0; 1; 1; 1]%nat; [1; 0; 1; 1; 1; 1; 1]%nat; [1; 1; 0; 1; 0; 1; 1]%nat; [0; 1; 0; 1; 0; 1; 1; 0]%nat; [0; 1; 0; 1; 0; 1; 1; 1]%nat; [0; 1; 0; 1; 1; 1; 1; 1]%nat; [0; 1; 1; 0; 1; 0; 1; 1]%nat]
    [([0; 0]%nat, []%nat); ([0; 1; 1; 1; 0]%nat, [1; 1; 1]%nat)] 2
    [Col [0; 1; 0; 0; 0; 0] [0; 1; (-1); 0; 0; 0] (Torsion 1 [0; 1; 0; 0; 0; 0]);
     Col [1; 0; 0; 0; 0; 0] [1; 0; 0; (-1); 1; 1] (Torsion 2 [0; 0; 0; 1; 0; 0]);
     Col [0; 1; 1; 0; 0; 0] [0; 0; 1; (-1); 0; (-1)] (Torsion 2 [0; (-1); 0; 0; 1; 0]);
     Col [1; 1; 1; 1; 0; 0] [0; 0; 0; 1; 0; 0] (Free (V3 1 1 1));
     Col [(-1); 0; 0; 0; 1; 0] [0; 0; 0; 0; 1; 0] (Free (V3 (-1) 1 (-1)));
     Col [(-1); 1; 1; 0; 0; 1] [0; 0; 0; 0; 0; 1] (Free (V3 (-1) 1 1))]
    [(221%nat, (M3 1 0 0 0 1 0 0 0 1, V3 0 0 0, 1)); (224%nat, (M3 (-1) 0 0 0 (-1) 0 0 0 1, V3 0 0 0, 1)); (222%nat, (M3 (-1) 0 0 0 (-1) 0 0 0 1, V3 0 0 0, 1)); (223%nat, (M3 (-1) 0 0 0 (-1) 0 0 0 1, V3 0 0 0, 1))];
  Cert [M3 (-1) (-1) (-1) 0 0 1 1 0 0; M3 (-1) 0 0 0 0 (-1) 0 (-1) 0]
    [[]%nat; [0]%nat; [1]%nat; [0; 0]%nat; [0; 1]%nat; [1; 0]%nat; [0; 0; 0]%nat; [0; 0; 1]%nat; [0; 1; 0]%nat; [1; 0; 0]%nat; [1; 0; 1]%nat; [0; 0; 0; 1]%nat; [0; 0; 1; 0]%nat; [0; 1; 0; 0]%nat; [0; 1; 0; 1]%nat; [1; 0; 0; 0]%nat; [1; 0; 0; 1]%nat; [1; 0; 1; 0]%nat; [0; 0; 0; 1; 0]%nat; [0; 0; 1; 0; 0]%nat; [0; 0; 1; 0; 1]%nat; [0; 1; 0; 0; 0]%nat; [0; 1; 0; 0; 1]%nat; [0; 1; 0; 1; 0]%nat; [1; 0; 0; 0; 1]%nat; [1; 0; 0; 1; 0]%nat; [1; 0; 1; 0; 0]%nat; [1; 0; 1; 0; 1]%nat; [0; 0; 0; 1; 0; 0]%nat; [0; 0; 0; 1; 0; 1]%nat; [0; 0; 1; 0; 0; 0]%nat; [0; 0; 1; 0; 0; 1]%nat; [0; 0; 1; 0; 1; 0]%nat; [0; 1; 0; 0; 0; 1]%nat; [0; 1; 0; 1; 0; 0]%nat; [0; 1; 0; 1; 0; 1]%nat; [1; 0; 0; 0; 1; 0]%nat; [1; 0; 1; 0; 0; 0]%nat; [0; 0; 0; 1; 0; 0; 0]%nat; [0; 0; 0; 1; 0; 1; 0]%nat; [0; 0; 1; 0; 1; 0; 1]%nat; [0; 1; 0; 0; 0; 1; 0]%nat; [0; 1; 0; 1; 0; 0; 0]%nat; [1; 0; 0; 0; 1; 0; 1]%nat; [1; 0; 1; 0; 0; 0; 1]%nat; [0; 0; 0; 1; 0; 1; 0; 1]%nat; [0; 1; 0; 0; 0; 1; 0; 1]%nat; [0; 1; 0; 1; 0; 0; 0; 1]%nat]
    [([1; 1]%nat, []%nat); ([0; 1; 0; 0; 1; 0]%nat, [1; 0; 0; 1]%nat)] 2
    [Col [0; 0; 0; 0; 1; 0] [0; 0; 0; 0; 1; (-1)] (Torsion 1 [0; 1; 0; 0; 0; 0]);
     Col [0; 0; 0; 1; 0; 0] [(-1); 0; 0; 1; 0; 1] (Torsion 2 [0; 0; 0; (-1); 0; 0]);
     Col [0; 1; 0; 0; 0; 0] [1; 1; 2; 0; 0; (-2)] (Torsion 2 [0; 1; 0; 1; 0; 1]);
     Col [0; (-2); 1; 0; 0; 0] [0; 0; 1; 0; 0; 0] (Free (V3 0 (-2) 2));
     Col [1; (-1); 0; 1; 0; 0] [1; 0; 0; 0; 0; 0] (Free (V3 1 (-1) 1));
     Col [0; 2; 0; (-1); 1; 1] [0; 0; 0; 0; 0; 1] (Free (V3 (-1) 3 (-1)))]
    [(225%nat, (M3 1 0 0 0 1 0 0 0 1, V3 0 0 0, 1)); (228%nat, (M3 (-1) 0 0 0 0 (-1) 0 (-1) 0, V3 9 3 3, 1)); (226%nat, (M3 (-1) 0 0 0 0 (-1) 0 (-1) 0, V3 0 6 0, 1)); (227%nat, (M3 (-1) 0 0 0 0 (-1) 0 (-1) 0, V3 3 3 9, 1))];
  Cert [M3 (-1) (-1) (-1) (-1) 0 0 2 0 1; M3 (-1) (-1) (-1) 0 (-1) (-1) 0 2 1]
    [[]%nat; [0]%nat; [1]%nat; [0; 0]%nat; [0; 1]%nat; [1; 0]%nat; [1; 1]%nat; [0; 0; 0]%nat; [0; 0; 1]%nat; [0; 1; 0]%nat; [0; 1; 1]%nat; [1; 0; 0]%nat; [1; 0; 1]%nat; [1; 1; 0]%nat; [1; 1; 1]%nat; [0; 0; 0; 0]%nat; [0; 0; 0; 1]%nat; [0; 0; 1; 0]%nat; [0; 0; 1; 1]%nat; [0; 1; 0; 0]%nat; [0; 1; 0; 1]%nat; [0; 1; 1; 0]%nat; [0; 1; 1; 1]%nat; [1; 0; 1; 0]%nat; [1; 0; 1; 1]%nat; [1; 1; 0; 0]%nat; [1; 1; 0; 1]%nat; [1; 1; 1; 0]%nat; [0; 0; 0; 0; 0]%nat; [0; 0; 0; 0; 1]%nat; [0; 0; 0; 1; 0]%nat; [0; 0; 0; 1; 1]%nat; [0; 0; 1; 1; 0]%nat; [0; 0; 1; 1; 1]%nat; [0; 1; 0; 1; 0]%nat; [0; 1; 0; 1; 1]%nat; [0; 1; 1; 0; 0]%nat; [0; 1; 1; 0; 1]%nat; [1; 0; 1; 1; 0]%nat; [1; 0; 1; 1; 1]%nat; [1; 1; 1; 0; 0]%nat; [1; 1; 1; 0; 1]%nat; [0; 0; 0; 0; 1; 0]%nat; [0; 0; 0; 0; 1; 1]%nat; [0; 0; 0; 1; 1; 0]%nat; [0; 0; 0; 1; 1; 1]%nat; [0; 0; 1; 1; 0; 0]%nat; [0; 0; 1; 1; 0; 1]%nat]
    [([0; 1; 1; 1; 0]%nat, [1]%nat); ([1; 0; 1; 0; 1]%nat, [0; 1; 0]%nat)] 1
    [Col [1; 0; 0; 0; 0; 0] [1; 0; 0; (-1); 0; 0] (Torsion 1 [0; 1; 0; 0; 0; 0]);
     Col [0; (-1); 1; 0; 0; 0] [0; 2; 3; 2; (-2); 0] (Torsion 1 [0; (-3); 0; (-1); 0; 0]);
     Col [0; 0; 0; 0; 0; 1] [0; 4; 4; 2; (-2); 1] (Torsion 2 [0; (-6); 0; (-2); (-1); 0]);
     Col [1; (-1); 0; 1; 0; 2] [0; 0; 0; 1; 0; 0] (Free (V3 0 (-1) 2));
     Col [0; 1; 0; 0; 1; (-2)] [0; 0; 0; 0; 1; 0] (Free (V3 0 1 (-1)));
     Col [0; 3; (-2); 0; 0; (-4)] [0; 1; 1; 1; (-1); 0] (Free (V3 1 2 (-4)))]
    [(229%nat, (M3 1 0 0 0 1 0 0 0 1, V3 0 0 0, 1)); (230%nat, (M3 0 (-1) 0 (-1) 0 0 0 0 (-1), V3 6 0 6, 1))]].
