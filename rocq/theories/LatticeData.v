(** * LatticeData: data found by search outside Coq and checked in PropOneType (proof support
    for C86).  For every lattice between 12 Z^3 and Z^3, in the order of [LatticeBasis.bases]:
    the number of a matrix group (in [ClassData.frames]) and a basis of the lattice, in which
    the cubic (or hexagonal) rotations that carry the lattice into itself belong to that group.
    Nothing here is trusted. *)
From Verif Require Import Base Seitz Spec.
Open Scope Z_scope.

Definition cubic_frames : list (nat * mat3) := [
(13%nat, M3 (-1) 0 0 0 (-1) 0 0 0 1);
(7%nat, M3 (-1) 0 0 0 (-1) 0 0 0 2);
(7%nat, M3 1 (-1) 0 0 0 (-1) 1 1 0);
(7%nat, M3 0 0 1 (-1) 1 0 (-1) (-1) 0);
(14%nat, M3 (-1) 0 (-1) 0 (-1) (-1) (-1) (-1) 0);
(7%nat, M3 (-1) 0 0 0 (-1) 0 0 0 3);
(4%nat, M3 1 2 0 0 0 1 1 (-1) 0);
(4%nat, M3 1 (-1) 0 0 0 1 (-1) (-2) 0);
(4%nat, M3 0 0 (-1) (-1) (-2) 0 (-1) 1 0);
(10%nat, M3 (-1) 0 1 0 1 1 (-1) 1 (-1));
(10%nat, M3 0 1 1 (-1) 1 (-1) (-1) 0 1);
(4%nat, M3 0 0 (-1) (-1) 1 0 1 2 0);
(10%nat, M3 1 (-1) 1 0 (-1) (-1) 1 0 (-1));
(10%nat, M3 (-1) 0 (-1) 0 1 (-1) 1 (-1) (-1));
(7%nat, M3 (-1) 0 0 0 (-1) 0 0 0 4);
(3%nat, M3 0 1 2 1 0 0 0 1 (-2));
(4%nat, M3 2 1 0 0 0 (-1) 0 2 0);
(3%nat, M3 0 1 2 (-1) 0 0 0 (-1) 2);
(3%nat, M3 (-1) 0 0 0 (-1) (-2) 0 (-1) 2);
(11%nat, M3 1 0 2 0 (-1) 1 1 (-1) (-1));
(4%nat, M3 0 (-1) 0 2 1 1 (-2) (-1) 1);
(11%nat, M3 (-1) 0 (-2) (-1) 1 1 0 1 (-1));
(4%nat, M3 0 0 1 (-2) (-1) 0 0 (-2) 0);
(4%nat, M3 (-2) (-1) (-1) 0 1 0 2 1 (-1));
(8%nat, M3 (-1) (-1) (-1) (-1) 1 0 0 0 (-2));
(4%nat, M3 (-2) (-1) (-1) 0 (-1) 0 (-2) (-1) 1);
(3%nat, M3 1 0 0 0 (-1) (-2) 0 1 (-2));
(11%nat, M3 1 (-1) (-1) 1 0 2 0 (-1) 1);
(4%nat, M3 0 1 0 2 1 1 2 1 (-1));
(11%nat, M3 (-1) 0 (-2) 0 1 (-1) 1 (-1) (-1));
(7%nat, M3 (-1) 0 0 0 (-1) 0 0 0 6);
(3%nat, M3 0 1 3 1 0 0 0 1 (-3));
(1%nat, M3 1 0 (-2) 0 1 0 2 0 2);
(4%nat, M3 2 1 0 0 0 (-1) 0 3 0);
(1%nat, M3 1 0 (-2) 0 (-1) 0 (-2) 0 (-2));
(3%nat, M3 0 1 3 (-1) 0 0 0 (-1) 3);
(3%nat, M3 (-1) 0 0 0 (-1) (-3) 0 (-1) 3);
(10%nat, M3 (-1) 0 2 0 1 2 (-1) 1 (-2));
(1%nat, M3 1 0 (-2) (-1) 1 (-1) 1 1 1);
(6%nat, M3 0 2 1 (-1) 0 (-2) (-1) 0 1);
(1%nat, M3 1 0 (-2) 1 (-1) 1 (-1) (-1) (-1));
(10%nat, M3 0 1 2 (-1) 1 (-2) (-1) 0 2);
(1%nat, M3 0 (-1) 0 (-1) 0 2 (-2) 0 (-2));
(1%nat, M3 1 (-1) 1 (-1) 0 2 (-1) (-1) (-1));
(2%nat, M3 (-1) (-1) 1 (-1) 0 1 (-4) (-2) (-2));
(2%nat, M3 0 (-1) 0 2 1 1 (-2) (-1) 2);
(2%nat, M3 (-1) 0 (-2) 1 1 2 4 2 2);
(1%nat, M3 1 (-1) 1 1 0 (-2) 1 1 1);
(4%nat, M3 0 0 1 (-2) (-1) 0 0 (-3) 0);
(6%nat, M3 1 0 2 0 (-2) (-1) 1 0 (-1));
(2%nat, M3 (-2) (-1) (-1) 0 1 0 2 1 (-2));
(8%nat, M3 (-1) (-1) (-1) (-1) 1 0 0 0 (-3));
(2%nat, M3 2 1 1 0 (-1) 0 2 1 (-2));
(6%nat, M3 1 0 2 0 2 1 (-1) 0 1);
(1%nat, M3 0 1 0 (-1) 0 2 2 0 2);
(1%nat, M3 (-1) 1 (-1) (-1) 0 2 1 1 1);
(2%nat, M3 (-1) (-1) (-2) 1 0 2 (-4) (-2) (-2));
(2%nat, M3 0 1 0 (-2) (-1) (-1) (-2) (-1) 2);
(2%nat, M3 1 1 (-1) 1 0 (-1) (-4) (-2) (-2));
(1%nat, M3 (-1) 1 (-1) 1 0 (-2) (-1) (-1) (-1));
(3%nat, M3 1 0 0 0 (-1) (-3) 0 1 (-3));
(10%nat, M3 1 (-1) 2 0 (-1) (-2) 1 0 (-2));
(1%nat, M3 (-1) 0 2 (-1) 1 (-1) (-1) (-1) (-1));
(6%nat, M3 0 (-2) (-1) (-1) 0 (-2) 1 0 (-1));
(1%nat, M3 (-1) 0 2 1 (-1) 1 1 1 1);
(10%nat, M3 (-1) 0 (-2) 0 1 (-2) 1 (-1) (-2));
(7%nat, M3 (-1) 0 0 0 (-1) 0 0 0 12);
(3%nat, M3 0 1 6 1 0 0 0 1 (-6));
(1%nat, M3 1 0 (-5) 0 1 0 2 0 2);
(1%nat, M3 1 0 (-4) 0 1 0 3 0 0);
(1%nat, M3 3 0 (-1) 0 (-1) 0 0 0 (-4));
(3%nat, M3 0 2 3 (-1) 0 0 0 (-2) 3);
(4%nat, M3 2 1 0 0 0 (-1) 0 6 0);
(3%nat, M3 0 2 (-3) (-1) 0 0 0 2 3);
(1%nat, M3 3 0 (-1) 0 1 0 0 0 4);
(1%nat, M3 1 0 (-4) 0 (-1) 0 (-3) 0 0);
(1%nat, M3 1 0 (-5) 0 (-1) 0 (-2) 0 (-2));
(3%nat, M3 0 1 6 (-1) 0 0 0 (-1) 6);
(3%nat, M3 (-1) 0 0 0 (-1) (-6) 0 (-1) 6);
(10%nat, M3 (-1) 0 4 0 1 4 (-1) 1 (-4));
(1%nat, M3 1 0 (-4) (-1) 1 (-2) 1 1 2);
(2%nat, M3 2 1 4 (-3) (-2) 0 3 1 0);
(1%nat, M3 3 0 (-1) 0 (-1) 2 0 (-1) (-2));
(2%nat, M3 6 3 2 (-3) (-2) 1 3 1 (-1));
(4%nat, M3 2 1 0 0 (-3) (-1) 0 3 (-1));
(2%nat, M3 (-2) (-1) (-2) (-5) (-2) 1 5 3 (-1));
(1%nat, M3 1 0 (-3) 2 (-1) 0 (-2) (-1) 0);
(2%nat, M3 2 1 4 3 2 0 (-3) (-1) 0);
(1%nat, M3 1 0 (-4) 1 (-1) 2 (-1) (-1) (-2));
(10%nat, M3 0 1 4 (-1) 1 (-4) (-1) 0 4);
(1%nat, M3 0 (-1) 0 (-1) 0 5 (-2) 0 (-2));
(1%nat, M3 1 (-1) 2 (-1) 0 4 (-1) (-1) (-2));
(2%nat, M3 (-1) (-1) 2 (-1) 0 2 (-4) (-2) (-4));
(0%nat, M3 (-1) 0 (-3) 1 (-1) (-1) (-1) (-2) 1);
(0%nat, M3 0 1 2 1 (-2) 2 2 0 0);
(2%nat, M3 (-2) (-2) (-1) (-2) (-1) 2 (-2) 0 (-1));
(2%nat, M3 0 (-1) 0 4 2 1 (-4) (-2) 2);
(2%nat, M3 2 2 (-1) (-2) (-1) (-2) (-2) 0 1);
(0%nat, M3 0 1 2 (-1) 2 (-2) (-2) 0 0);
(0%nat, M3 (-1) 0 (-3) (-1) 1 1 1 2 (-1));
(2%nat, M3 (-1) 0 (-3) 1 1 3 4 2 0);
(1%nat, M3 1 (-1) 2 1 0 (-4) 1 1 2);
(1%nat, M3 0 (-1) 0 (-1) 0 4 (-3) 0 0);
(2%nat, M3 3 2 0 (-2) (-1) (-4) (-3) (-1) 0);
(0%nat, M3 (-1) 1 1 1 0 3 1 2 (-1));
(2%nat, M3 1 1 2 1 0 2 6 3 0);
(0%nat, M3 1 (-2) 1 (-1) (-1) (-2) 1 1 (-2));
(2%nat, M3 1 2 1 2 1 (-2) (-1) 1 (-1));
(2%nat, M3 0 (-1) 0 4 2 1 0 0 3);
(2%nat, M3 (-1) 1 (-1) 2 1 (-2) (-1) (-2) (-1));
(0%nat, M3 1 (-2) 1 1 1 2 (-1) (-1) 2);
(2%nat, M3 (-1) 0 (-2) 1 1 2 6 3 0);
(0%nat, M3 (-1) (-1) (-1) (-1) 0 3 (-1) 2 (-1));
(2%nat, M3 3 2 0 2 1 4 3 1 0);
(1%nat, M3 0 1 0 (-3) 0 1 0 0 4);
(1%nat, M3 0 1 (-2) (-3) 0 1 0 1 2);
(0%nat, M3 (-1) 2 (-2) 0 (-1) (-2) (-2) 0 0);
(0%nat, M3 1 1 2 (-1) 2 (-1) (-1) (-1) 2);
(2%nat, M3 3 2 1 3 1 1 0 0 (-4));
(1%nat, M3 1 (-2) (-1) (-1) 0 (-2) 1 2 (-1));
(2%nat, M3 0 (-1) 0 2 1 3 (-4) (-2) 0);
(1%nat, M3 1 (-2) (-1) 1 0 2 (-1) (-2) 1);
(2%nat, M3 (-3) (-2) (-2) 3 1 2 0 0 4);
(0%nat, M3 1 (-1) (-2) 1 2 (-1) 1 (-1) 2);
(0%nat, M3 (-1) 2 (-2) 0 1 2 2 0 0);
(1%nat, M3 0 1 (-2) 3 0 (-1) 0 (-1) (-2));
(3%nat, M3 1 0 0 0 (-2) (-3) 0 2 (-3));
(2%nat, M3 3 2 (-1) (-6) (-3) (-2) (-3) (-1) 1);
(2%nat, M3 2 1 (-2) 2 2 1 2 0 1);
(2%nat, M3 (-2) (-1) 2 (-1) (-2) (-1) 1 (-1) 1);
(1%nat, M3 1 0 2 (-1) 2 1 (-1) (-2) 1);
(2%nat, M3 5 3 1 5 2 1 2 1 (-2));
(4%nat, M3 0 (-1) 0 2 1 3 (-2) (-1) 3);
(2%nat, M3 (-5) (-2) (-1) 5 3 1 2 1 (-2));
(1%nat, M3 1 0 (-2) 1 2 1 1 (-2) 1);
(2%nat, M3 (-2) (-1) (-2) 1 (-1) (-1) (-1) (-2) 1);
(2%nat, M3 2 1 (-2) (-2) (-2) (-1) (-2) 0 (-1));
(2%nat, M3 3 2 (-1) 6 3 2 3 1 (-1));
(4%nat, M3 0 0 1 (-2) (-1) 0 0 (-6) 0);
(4%nat, M3 0 3 1 (-2) (-1) 0 0 (-3) 1);
(2%nat, M3 (-4) (-2) (-1) 0 1 0 4 2 (-2));
(2%nat, M3 (-4) (-2) (-1) 0 1 0 0 0 (-3));
(2%nat, M3 (-2) (-1) (-3) 0 1 0 4 2 0);
(4%nat, M3 (-2) (-1) (-3) 0 1 0 2 1 (-3));
(8%nat, M3 (-1) (-1) (-1) (-1) 1 0 0 0 (-6));
(4%nat, M3 0 (-1) (-3) 2 1 0 0 (-1) 3);
(2%nat, M3 (-2) (-1) (-3) 0 (-1) 0 (-4) (-2) 0);
(2%nat, M3 4 2 (-1) 0 1 0 0 0 3);
(2%nat, M3 4 2 (-1) 0 1 0 4 2 2);
(4%nat, M3 0 3 1 2 1 0 0 3 (-1));
(3%nat, M3 1 0 0 0 (-2) 3 0 (-2) (-3));
(2%nat, M3 5 2 (-1) 2 1 2 (-5) (-3) 1);
(2%nat, M3 2 1 2 (-2) (-2) 1 2 0 (-1));
(2%nat, M3 (-2) (-1) 2 1 (-1) 1 1 2 1);
(1%nat, M3 (-1) 0 (-2) (-1) 2 1 1 2 (-1));
(2%nat, M3 (-5) (-3) (-1) 5 2 1 (-2) (-1) 2);
(4%nat, M3 (-2) (-1) 0 0 1 3 0 1 (-3));
(2%nat, M3 (-3) (-1) 1 (-3) (-2) 1 6 3 2);
(1%nat, M3 (-1) 0 2 1 2 1 (-1) 2 (-1));
(2%nat, M3 (-2) (-1) (-2) (-1) (-2) 1 (-1) 1 1);
(2%nat, M3 2 1 2 2 2 (-1) (-2) 0 1);
(2%nat, M3 5 2 (-1) (-2) (-1) (-2) 5 3 (-1));
(1%nat, M3 0 (-1) 0 (-3) 0 1 0 0 (-4));
(1%nat, M3 (-2) 1 0 (-1) 0 3 2 1 0);
(0%nat, M3 1 (-2) 2 0 (-1) (-2) 2 0 0);
(0%nat, M3 (-1) (-1) (-2) (-1) 2 (-1) 1 1 (-2));
(2%nat, M3 (-3) (-1) (-2) 3 2 2 0 0 (-4));
(1%nat, M3 (-1) (-2) (-1) (-1) 0 2 (-1) 2 (-1));
(2%nat, M3 0 1 0 2 1 3 4 2 0);
(1%nat, M3 (-1) (-2) (-1) 1 0 (-2) 1 (-2) 1);
(2%nat, M3 (-3) (-2) (-1) (-3) (-1) (-1) 0 0 (-4));
(0%nat, M3 (-1) (-1) (-2) 1 (-2) 1 (-1) (-1) 2);
(0%nat, M3 1 (-2) 2 0 1 2 (-2) 0 0);
(1%nat, M3 (-2) 1 0 1 0 (-3) (-2) (-1) 0);
(1%nat, M3 0 1 0 (-1) 0 4 3 0 0);
(2%nat, M3 (-3) (-2) 0 (-2) (-1) (-4) 3 1 0);
(0%nat, M3 1 (-1) (-1) 1 0 3 (-1) (-2) 1);
(2%nat, M3 (-1) (-1) (-2) 1 0 2 (-6) (-3) 0);
(0%nat, M3 (-1) (-2) 1 (-1) 1 2 (-1) 1 (-2));
(2%nat, M3 (-1) 1 1 2 1 2 1 2 (-1));
(2%nat, M3 0 (-1) 0 (-4) (-2) 1 0 0 (-3));
(2%nat, M3 1 2 (-1) 2 1 2 1 (-1) (-1));
(0%nat, M3 (-1) 2 (-1) 1 1 2 1 1 (-2));
(2%nat, M3 1 1 (-2) 1 0 (-2) (-6) (-3) 0);
(0%nat, M3 1 (-1) (-1) (-1) 0 (-3) 1 2 (-1));
(2%nat, M3 (-3) (-2) 0 2 1 4 (-3) (-1) 0);
(1%nat, M3 0 1 0 (-1) 0 5 2 0 2);
(1%nat, M3 (-1) 1 (-2) (-1) 0 4 1 1 2);
(2%nat, M3 (-1) (-1) (-3) 1 0 3 (-4) (-2) 0);
(0%nat, M3 1 0 (-3) 1 1 1 1 (-2) 1);
(0%nat, M3 0 (-1) (-2) 1 (-2) 2 (-2) 0 0);
(2%nat, M3 2 2 1 (-2) (-1) 2 2 0 1);
(2%nat, M3 0 (-1) 0 (-4) (-2) 1 (-4) (-2) (-2));
(2%nat, M3 (-2) (-2) 1 (-2) (-1) (-2) 2 0 (-1));
(0%nat, M3 0 (-1) (-2) (-1) 2 (-2) 2 0 0);
(0%nat, M3 1 0 3 (-1) 1 1 (-1) (-2) 1);
(2%nat, M3 1 1 (-2) 1 0 (-2) (-4) (-2) (-4));
(1%nat, M3 (-1) 1 (-2) 1 0 (-4) (-1) (-1) (-2));
(3%nat, M3 1 0 0 0 (-1) (-6) 0 1 (-6));
(10%nat, M3 1 (-1) 4 0 (-1) (-4) 1 0 (-4));
(1%nat, M3 (-1) 0 4 (-1) 1 (-2) (-1) (-1) (-2));
(2%nat, M3 (-2) (-1) (-4) (-3) (-2) 0 (-3) (-1) 0);
(1%nat, M3 (-3) 0 1 0 (-1) 2 0 1 2);
(2%nat, M3 (-6) (-3) (-2) (-3) (-2) 1 (-3) (-1) 1);
(4%nat, M3 (-2) (-1) 0 0 (-3) (-1) 0 (-3) 1);
(2%nat, M3 2 1 2 (-5) (-2) 1 (-5) (-3) 1);
(1%nat, M3 (-1) 0 3 2 (-1) 0 2 1 0);
(2%nat, M3 (-2) (-1) (-4) 3 2 0 3 1 0);
(1%nat, M3 (-1) 0 4 1 (-1) 2 1 1 2);
(10%nat, M3 (-1) 0 (-4) 0 1 (-4) 1 (-1) (-4));
(7%nat, M3 1 0 0 0 0 (-2) 0 1 0);
(7%nat, M3 (-1) 1 0 (-1) (-1) 0 0 0 1);
(7%nat, M3 0 0 1 (-2) 0 0 0 (-2) 0);
(7%nat, M3 1 (-1) 0 0 0 (-2) 1 1 0);
(7%nat, M3 (-1) 1 0 (-1) (-1) 0 0 0 2);
(15%nat, M3 0 (-2) (-1) 0 0 (-1) 2 0 1);
(4%nat, M3 0 0 (-1) 0 2 0 2 1 0);
(8%nat, M3 (-1) 1 0 0 0 2 1 1 1);
(4%nat, M3 2 1 1 (-2) (-1) 1 0 (-1) 0);
(4%nat, M3 0 (-1) 1 0 (-1) (-1) 2 1 0);
(3%nat, M3 (-1) 0 0 0 (-2) 0 0 0 3);
(4%nat, M3 (-1) (-2) 0 0 0 2 (-1) 1 0);
(4%nat, M3 (-1) 1 0 0 0 2 1 2 0);
(7%nat, M3 (-1) 1 0 (-1) (-1) 0 0 0 3);
(2%nat, M3 (-2) (-1) 2 0 1 0 (-2) (-1) (-1));
(2%nat, M3 (-2) (-1) (-2) 0 1 0 2 1 (-1));
(1%nat, M3 0 (-1) 0 (-2) 0 2 (-1) 0 (-2));
(2%nat, M3 1 0 2 (-4) (-2) (-2) (-1) (-1) (-2));
(2%nat, M3 1 0 1 4 2 (-2) 1 1 1);
(1%nat, M3 1 (-1) (-1) (-1) (-1) 1 (-1) 0 (-2));
(1%nat, M3 1 (-1) (-1) 1 1 (-1) 1 0 2);
(2%nat, M3 0 (-1) 0 2 1 2 (-2) (-1) 1);
(1%nat, M3 0 1 0 (-2) 0 2 1 0 2);
(2%nat, M3 (-3) (-2) (-2) 0 0 (-2) 3 1 2);
(2%nat, M3 (-3) (-1) (-1) 0 0 (-2) (-3) (-2) (-1));
(1%nat, M3 1 1 (-1) (-1) 1 1 1 0 2);
(2%nat, M3 0 1 0 (-2) (-1) (-2) (-2) (-1) 1);
(1%nat, M3 1 1 (-1) 1 (-1) (-1) (-1) 0 (-2));
(3%nat, M3 (-1) 0 0 0 (-2) 0 0 0 4);
(3%nat, M3 (-1) 0 (-2) 0 (-2) 0 (-1) 0 2);
(4%nat, M3 2 1 0 0 0 (-2) 0 2 0);
(3%nat, M3 (-1) 0 (-2) 0 2 0 1 0 (-2));
(7%nat, M3 (-1) 1 0 (-1) (-1) 0 0 0 4);
(4%nat, M3 0 1 (-2) (-2) (-1) 0 0 1 2);
(8%nat, M3 0 (-2) (-1) (-2) 0 (-1) 0 0 (-2));
(4%nat, M3 (-2) (-1) (-2) 0 1 0 2 1 (-2));
(7%nat, M3 0 0 1 (-2) 2 0 (-2) (-2) 0);
(4%nat, M3 (-2) (-1) (-1) 0 2 0 2 1 (-1));
(8%nat, M3 0 0 1 2 (-2) 0 2 2 2);
(4%nat, M3 (-2) (-1) (-1) 0 (-2) 0 (-2) (-1) 1);
(4%nat, M3 0 (-1) (-1) 0 1 (-1) 4 2 0);
(4%nat, M3 0 1 0 (-2) (-1) (-2) (-2) (-1) 2);
(4%nat, M3 0 (-1) 1 0 (-1) (-1) 4 2 0);
(4%nat, M3 0 (-1) 0 2 1 2 (-2) (-1) 2);
(3%nat, M3 (-1) 0 0 0 (-2) 0 0 0 6);
(3%nat, M3 (-1) 0 (-3) 0 (-2) 0 (-1) 0 3);
(1%nat, M3 1 0 (-2) 0 2 0 2 0 2);
(4%nat, M3 2 1 0 0 0 (-2) 0 3 0);
(1%nat, M3 1 0 (-2) 0 (-2) 0 (-2) 0 (-2));
(3%nat, M3 (-1) 0 (-3) 0 2 0 1 0 (-3));
(7%nat, M3 (-1) 1 0 (-1) (-1) 0 0 0 6);
(5%nat, M3 (-1) (-3) (-4) (-1) (-1) 0 (-1) 3 2);
(2%nat, M3 2 1 (-2) 0 1 0 4 2 2);
(8%nat, M3 0 (-2) (-1) (-2) 0 (-1) 0 0 (-3));
(2%nat, M3 2 1 2 0 1 0 (-4) (-2) 2);
(5%nat, M3 3 1 4 (-1) (-1) 0 3 (-1) 2);
(1%nat, M3 0 (-1) 0 (-2) 0 2 (-1) 0 (-5));
(2%nat, M3 1 0 3 (-4) (-2) 0 (-1) (-1) (-3));
(0%nat, M3 (-1) 0 (-2) 0 (-2) 0 (-2) (-1) 2);
(2%nat, M3 0 (-1) 0 4 2 2 (-4) (-2) 1);
(0%nat, M3 0 1 2 (-2) 0 0 (-1) (-2) 2);
(2%nat, M3 1 0 3 4 2 0 1 1 3);
(1%nat, M3 1 (-1) (-2) (-1) (-1) 2 (-1) 0 (-4));
(1%nat, M3 1 (-1) (-2) 1 1 (-2) 1 0 4);
(0%nat, M3 (-1) 0 (-3) 1 (-2) (-1) (-1) (-1) 1);
(2%nat, M3 2 2 1 (-2) 0 (-1) (-2) (-1) 2);
(2%nat, M3 (-2) (-2) 1 (-2) 0 1 (-2) (-1) (-2));
(0%nat, M3 (-1) 0 (-3) (-1) 2 1 1 1 (-1));
(4%nat, M3 0 0 (-1) (-2) (-4) 0 (-2) 2 0);
(1%nat, M3 1 (-1) 2 (-2) 0 2 (-1) (-1) (-2));
(2%nat, M3 (-2) (-1) 3 2 2 0 (-2) 0 0);
(2%nat, M3 0 (-1) 0 4 2 2 (-2) (-1) 2);
(2%nat, M3 (-2) (-1) (-1) (-2) 0 2 2 2 (-2));
(1%nat, M3 1 (-1) 2 2 0 (-2) 1 1 2);
(1%nat, M3 1 (-1) (-2) (-1) (-1) 2 (-2) 0 (-2));
(5%nat, M3 (-1) 0 (-1) (-1) (-4) (-3) (-1) 2 3);
(1%nat, M3 1 (-1) (-2) 1 1 (-2) 2 0 2);
(10%nat, M3 0 2 1 (-2) 2 (-1) (-2) 0 1);
(2%nat, M3 0 (-1) 0 2 1 2 (-4) (-2) 2);
(10%nat, M3 0 2 1 2 (-2) 1 2 0 (-1));
(4%nat, M3 0 0 1 0 2 0 (-6) (-3) 0);
(6%nat, M3 1 0 2 0 (-4) (-2) 1 0 (-1));
(2%nat, M3 (-2) (-1) (-1) 0 2 0 2 1 (-2));
(5%nat, M3 0 1 1 2 0 2 3 3 0);
(2%nat, M3 (-2) (-1) (-1) 0 (-2) 0 (-2) (-1) 2);
(6%nat, M3 1 0 2 0 4 2 (-1) 0 1);
(4%nat, M3 2 1 1 (-2) (-1) 1 0 (-3) 0);
(0%nat, M3 (-1) 2 1 (-1) 0 (-3) (-1) (-1) 1);
(0%nat, M3 (-1) 2 1 1 0 3 1 1 (-1));
(4%nat, M3 2 1 1 2 1 (-1) 0 3 0);
(0%nat, M3 1 (-2) (-1) (-1) 0 (-3) 1 1 (-1));
(0%nat, M3 1 (-2) (-1) 1 0 3 (-1) (-1) 1);
(4%nat, M3 0 0 (-1) (-2) 2 0 2 4 0);
(1%nat, M3 (-1) 1 (-2) (-2) 0 2 1 1 2);
(2%nat, M3 2 1 (-3) 2 2 0 2 0 0);
(2%nat, M3 0 1 0 4 2 2 2 1 (-2));
(2%nat, M3 (-2) (-1) (-3) 2 2 0 2 0 0);
(1%nat, M3 (-1) 1 (-2) 2 0 (-2) (-1) (-1) (-2));
(1%nat, M3 1 1 (-2) (-1) 1 2 2 0 2);
(10%nat, M3 0 (-2) (-1) (-2) 2 (-1) 2 0 (-1));
(2%nat, M3 0 1 0 2 1 2 4 2 (-2));
(10%nat, M3 2 (-2) (-1) 2 0 1 0 (-2) 1);
(1%nat, M3 1 1 (-2) 1 (-1) (-2) (-2) 0 (-2));
(5%nat, M3 1 0 1 1 4 3 (-1) 2 3);
(1%nat, M3 0 1 0 (-2) 0 2 1 0 5);
(2%nat, M3 (-1) (-1) 2 (-4) (-2) (-4) 1 0 (-2));
(0%nat, M3 1 0 2 0 (-2) 0 2 1 (-2));
(2%nat, M3 0 (-1) 0 (-4) (-2) 2 (-4) (-2) (-1));
(0%nat, M3 (-1) 0 (-2) 0 2 0 2 (-1) (-2));
(2%nat, M3 (-1) 0 (-3) 4 2 0 (-1) (-1) (-3));
(1%nat, M3 1 1 (-2) (-1) 1 2 1 0 4);
(0%nat, M3 1 0 3 1 (-2) (-1) 1 1 (-1));
(2%nat, M3 (-2) (-2) (-1) (-2) 0 (-1) 2 1 (-2));
(2%nat, M3 2 2 (-1) (-2) 0 1 2 1 2);
(0%nat, M3 1 0 3 (-1) 2 1 (-1) (-1) 1);
(1%nat, M3 1 1 (-2) 1 (-1) (-2) (-1) 0 (-4));
(3%nat, M3 (-1) 0 0 0 (-2) 0 0 0 12);
(3%nat, M3 (-1) 0 (-6) 0 (-2) 0 (-1) 0 6);
(1%nat, M3 1 0 (-5) 0 2 0 2 0 2);
(1%nat, M3 1 0 (-4) 0 2 0 3 0 0);
(1%nat, M3 3 0 (-1) 0 (-2) 0 0 0 (-4));
(3%nat, M3 0 2 3 (-2) 0 0 0 (-2) 3);
(4%nat, M3 2 1 0 0 0 (-2) 0 6 0);
(3%nat, M3 0 2 (-3) (-2) 0 0 0 2 3);
(1%nat, M3 3 0 (-1) 0 2 0 0 0 4);
(1%nat, M3 1 0 (-4) 0 (-2) 0 (-3) 0 0);
(1%nat, M3 1 0 (-5) 0 (-2) 0 (-2) 0 (-2));
(3%nat, M3 (-1) 0 (-6) 0 2 0 1 0 (-6));
(7%nat, M3 (-1) 1 0 (-1) (-1) 0 0 0 12);
(4%nat, M3 0 1 (-6) (-2) (-1) 0 0 1 6);
(2%nat, M3 2 1 (-4) 0 1 0 4 2 4);
(2%nat, M3 2 1 (-4) 0 1 0 6 3 0);
(2%nat, M3 (-6) (-3) (-2) 0 (-1) 0 0 0 4);
(4%nat, M3 0 3 (-2) (-2) (-1) 0 0 3 2);
(8%nat, M3 0 (-2) (-1) (-2) 0 (-1) 0 0 (-6));
(4%nat, M3 0 (-3) (-2) (-2) (-1) 0 0 3 (-2));
(2%nat, M3 6 3 4 0 (-1) 0 0 0 (-4));
(2%nat, M3 2 1 4 0 1 0 (-6) (-3) 0);
(2%nat, M3 2 1 6 0 1 0 (-4) (-2) 0);
(4%nat, M3 (-2) (-1) (-6) 0 1 0 2 1 (-6));
(3%nat, M3 (-1) 0 0 0 (-2) (-6) 0 (-2) 6);
(1%nat, M3 1 (-1) 4 (-2) 0 4 (-1) (-1) (-4));
(2%nat, M3 (-2) (-1) 4 2 2 2 (-2) 0 (-2));
(0%nat, M3 (-1) 0 (-3) 2 (-2) (-2) (-1) (-2) 1);
(1%nat, M3 3 0 (-1) 0 (-2) 2 0 (-2) (-2));
(2%nat, M3 (-2) (-2) (-1) (-4) (-2) 4 (-2) 0 (-1));
(6%nat, M3 (-2) 0 (-1) 0 2 4 0 2 (-2));
(2%nat, M3 4 1 1 4 2 4 (-4) (-3) (-1));
(1%nat, M3 1 0 (-3) 2 (-2) 0 (-2) (-2) 0);
(0%nat, M3 (-1) 0 (-3) (-2) 2 2 1 2 (-1));
(2%nat, M3 (-2) (-1) (-4) (-2) 0 2 2 2 (-2));
(1%nat, M3 1 (-1) 4 2 0 (-4) 1 1 4);
(1%nat, M3 1 (-1) (-4) (-1) (-1) 4 (-2) 0 (-4));
(4%nat, M3 0 1 0 (-2) (-1) (-6) (-2) (-1) 6);
(1%nat, M3 1 (-1) (-4) 1 1 (-4) 2 0 4);
(1%nat, M3 (-1) 0 (-4) 1 (-2) (-2) (-1) (-2) 2);
(0%nat, M3 (-1) 0 (-3) 1 (-2) (-1) (-2) (-2) 2);
(2%nat, M3 6 3 4 0 1 (-2) 0 1 2);
(2%nat, M3 (-4) (-3) (-3) 4 1 3 (-4) (-2) 0);
(4%nat, M3 (-2) (-1) 0 0 3 (-2) 0 (-3) (-2));
(2%nat, M3 (-2) (-2) 3 (-2) 0 3 (-4) (-2) 0);
(2%nat, M3 (-2) (-1) 2 (-4) (-3) (-2) 4 1 2);
(0%nat, M3 (-1) 0 (-3) (-1) 2 1 2 2 (-2));
(1%nat, M3 (-1) 0 (-4) (-1) 2 2 1 2 (-2));
(1%nat, M3 0 (-1) 0 (-2) 0 4 (-4) 0 (-4));
(1%nat, M3 2 (-1) 2 (-2) 0 4 (-2) (-1) (-2));
(0%nat, M3 (-1) 2 (-3) 0 (-2) (-2) (-2) 0 2);
(0%nat, M3 (-1) 1 2 2 0 2 1 3 (-2));
(0%nat, M3 1 2 1 (-2) 2 0 0 0 4);
(1%nat, M3 1 (-2) (-2) (-2) 0 (-2) 1 2 (-2));
(2%nat, M3 0 (-1) 0 4 2 2 (-4) (-2) 4);
(1%nat, M3 1 (-2) (-2) 2 0 2 (-1) (-2) 2);
(0%nat, M3 1 (-2) (-1) 2 2 0 0 0 4);
(0%nat, M3 (-1) (-1) (-2) (-2) 0 2 (-1) 3 (-2));
(0%nat, M3 (-1) 2 (-3) 0 2 2 2 0 (-2));
(1%nat, M3 2 (-1) 2 2 0 (-4) 2 1 2);
(1%nat, M3 3 1 (-1) (-3) 1 1 0 0 4);
(1%nat, M3 (-1) 2 2 (-1) 0 (-4) (-1) (-2) 2);
(2%nat, M3 0 (-1) 0 (-2) (-1) 4 (-4) (-2) (-4));
(1%nat, M3 (-1) 2 2 1 0 4 1 2 (-2));
(1%nat, M3 1 (-1) (-3) 1 1 (-3) 4 0 0);
(0%nat, M3 1 (-3) 1 (-1) (-1) (-3) 1 1 (-3));
(2%nat, M3 (-4) (-1) (-1) 4 3 1 4 2 (-2));
(2%nat, M3 (-4) (-3) (-2) 2 1 4 (-4) (-1) (-2));
(2%nat, M3 0 (-1) 0 6 3 2 0 0 4);
(2%nat, M3 0 (-1) (-2) 6 3 2 0 (-1) 2);
(2%nat, M3 (-4) (-1) (-1) (-4) (-3) (-1) (-4) (-2) 2);
(0%nat, M3 1 (-3) 1 1 1 3 (-1) (-1) 3);
(4%nat, M3 0 0 1 (-4) (-2) 0 0 (-6) 0);
(4%nat, M3 0 3 1 (-4) (-2) 0 0 (-3) 1);
(2%nat, M3 (-4) (-2) (-1) 0 2 0 4 2 (-2));
(2%nat, M3 (-4) (-2) (-1) 0 2 0 0 0 (-3));
(2%nat, M3 2 1 (-3) 0 (-2) 0 (-4) (-2) 0);
(4%nat, M3 (-2) (-1) (-3) 0 2 0 2 1 (-3));
(5%nat, M3 0 1 1 2 0 2 6 6 0);
(4%nat, M3 0 (-1) (-3) 4 2 0 0 (-1) 3);
(2%nat, M3 2 1 3 0 (-2) 0 4 2 0);
(2%nat, M3 (-4) (-2) (-1) 0 (-2) 0 0 0 3);
(2%nat, M3 (-4) (-2) (-1) 0 (-2) 0 (-4) (-2) 2);
(4%nat, M3 0 3 1 4 2 0 0 3 (-1));
(4%nat, M3 2 1 1 (-2) (-1) 1 0 (-6) 0);
(0%nat, M3 1 1 3 1 (-3) 1 1 1 (-3));
(0%nat, M3 (-1) 2 1 (-1) 0 (-3) (-2) (-2) 2);
(2%nat, M3 0 1 0 2 1 4 6 3 0);
(0%nat, M3 (-1) 2 1 1 0 3 2 2 (-2));
(0%nat, M3 1 1 3 (-1) 3 (-1) (-1) (-1) 3);
(4%nat, M3 2 1 1 2 1 (-1) 0 6 0);
(0%nat, M3 1 (-1) 3 (-1) (-3) (-1) 1 (-1) (-3));
(0%nat, M3 1 (-2) (-1) (-1) 0 (-3) 2 2 (-2));
(2%nat, M3 0 (-1) 0 2 1 4 (-6) (-3) 0);
(0%nat, M3 1 (-2) (-1) 1 0 3 (-2) (-2) 2);
(0%nat, M3 1 (-1) 3 1 3 1 (-1) 1 3);
(1%nat, M3 0 1 0 (-2) 0 4 4 0 4);
(1%nat, M3 (-2) 1 (-2) (-2) 0 4 2 1 2);
(0%nat, M3 1 (-2) 3 0 (-2) (-2) 2 0 (-2));
(0%nat, M3 1 (-1) (-2) 2 0 2 (-1) (-3) 2);
(0%nat, M3 (-1) (-2) (-1) (-2) 2 0 0 0 (-4));
(1%nat, M3 (-1) (-2) (-2) (-2) 0 2 (-1) 2 (-2));
(2%nat, M3 0 1 0 4 2 2 4 2 (-4));
(1%nat, M3 1 2 (-2) (-2) 0 (-2) (-1) 2 2);
(0%nat, M3 (-1) 2 1 2 2 0 0 0 (-4));
(0%nat, M3 1 (-1) (-2) (-2) 0 (-2) 1 3 (-2));
(0%nat, M3 1 (-2) 3 0 2 2 (-2) 0 2);
(1%nat, M3 (-2) 1 (-2) 2 0 (-4) (-2) (-1) (-2));
(1%nat, M3 1 1 (-3) (-1) 1 3 4 0 0);
(0%nat, M3 1 3 1 1 (-1) 3 1 (-1) (-3));
(2%nat, M3 (-4) (-3) (-1) (-4) (-1) (-1) 4 2 (-2));
(2%nat, M3 0 1 (-2) 6 3 (-4) 0 (-1) (-2));
(2%nat, M3 0 1 0 6 3 2 0 0 (-4));
(2%nat, M3 0 1 2 6 3 2 0 1 (-2));
(2%nat, M3 (-4) (-3) (-1) 4 1 1 (-4) (-2) 2);
(0%nat, M3 1 3 1 (-1) 1 (-3) (-1) 1 3);
(1%nat, M3 1 1 (-3) 1 (-1) (-3) (-4) 0 0);
(1%nat, M3 1 (-2) (-2) (-1) 0 (-4) 1 2 (-2));
(2%nat, M3 0 (-1) 0 2 1 6 (-4) (-2) 0);
(1%nat, M3 1 (-2) (-2) 1 0 4 (-1) (-2) 2);
(3%nat, M3 1 0 0 0 (-2) (-6) 0 2 (-6));
(1%nat, M3 (-1) 1 (-4) (-2) 0 4 1 1 4);
(2%nat, M3 2 1 (-4) 2 2 2 2 0 2);
(0%nat, M3 1 0 (-3) 2 2 2 1 (-2) 1);
(1%nat, M3 (-3) 0 1 0 (-2) 2 0 2 2);
(2%nat, M3 (-2) 0 (-3) 4 2 0 (-2) (-2) (-3));
(6%nat, M3 (-2) 0 (-1) 0 2 (-2) 0 (-2) (-4));
(2%nat, M3 2 2 3 4 2 0 (-2) 0 (-3));
(1%nat, M3 (-1) 0 3 2 (-2) 0 2 2 0);
(0%nat, M3 1 0 3 (-2) 2 2 (-1) (-2) 1);
(2%nat, M3 (-2) (-1) (-4) 2 2 (-2) 2 0 (-2));
(1%nat, M3 (-1) 1 (-4) 2 0 (-4) (-1) (-1) (-4));
(1%nat, M3 1 1 (-4) (-1) 1 4 2 0 4);
(1%nat, M3 1 0 4 1 (-2) (-2) 1 2 (-2));
(0%nat, M3 1 0 3 1 (-2) (-1) 2 2 (-2));
(2%nat, M3 (-2) (-1) 2 (-4) (-1) (-2) (-4) (-3) (-2));
(2%nat, M3 4 3 3 4 1 3 4 2 0);
(4%nat, M3 2 1 0 0 3 (-2) 0 3 2);
(2%nat, M3 (-2) 0 1 2 2 (-1) (-4) (-2) (-4));
(2%nat, M3 (-2) (-1) (-4) 4 3 2 4 1 2);
(0%nat, M3 1 0 3 (-1) 2 1 (-2) (-2) 2);
(1%nat, M3 1 0 4 (-1) 2 2 (-1) (-2) 2);
(1%nat, M3 1 1 (-4) 1 (-1) (-4) (-2) 0 (-4));
(4%nat, M3 0 (-1) 0 2 1 6 (-2) (-1) 6);
(7%nat, M3 1 0 0 0 0 (-3) 0 1 0);
(4%nat, M3 (-1) (-2) 0 (-1) 1 0 0 0 (-1));
(4%nat, M3 (-1) 1 0 1 2 0 0 0 (-1));
(3%nat, M3 1 0 0 0 0 (-3) 0 2 0);
(7%nat, M3 1 (-1) 0 0 0 (-3) 1 1 0);
(4%nat, M3 1 2 0 1 (-1) 0 0 0 (-2));
(2%nat, M3 2 1 (-2) 2 1 1 0 (-1) 0);
(4%nat, M3 1 (-1) 0 (-1) (-2) 0 0 0 (-2));
(2%nat, M3 2 1 2 (-2) (-1) 1 0 (-1) 0);
(4%nat, M3 0 0 (-1) 0 3 0 2 1 0);
(8%nat, M3 (-1) 1 0 0 0 3 1 1 1);
(6%nat, M3 1 0 2 1 0 (-1) 0 2 1);
(2%nat, M3 2 1 (-1) 2 1 2 0 (-1) 0);
(2%nat, M3 2 1 1 (-2) (-1) 2 0 (-1) 0);
(6%nat, M3 0 1 (-1) 0 (-1) (-2) (-2) 0 (-1));
(7%nat, M3 0 0 1 (-3) 0 0 0 (-3) 0);
(4%nat, M3 1 2 0 0 0 3 1 (-1) 0);
(4%nat, M3 1 (-1) 0 0 0 3 (-1) (-2) 0);
(4%nat, M3 (-1) (-2) 0 (-1) 1 0 0 0 (-3));
(9%nat, M3 (-2) 1 (-1) 1 1 (-1) 1 (-2) (-1));
(9%nat, M3 (-1) 2 (-1) (-1) (-1) (-1) (-2) 1 1);
(4%nat, M3 (-1) 1 0 1 2 0 0 0 (-3));
(9%nat, M3 1 (-2) 1 2 (-1) (-1) 1 1 1);
(9%nat, M3 1 1 1 2 (-1) (-1) (-1) 2 (-1));
(3%nat, M3 (-1) 0 0 0 (-3) 0 0 0 4);
(3%nat, M3 1 (-2) 0 0 0 (-3) 1 2 0);
(4%nat, M3 2 1 0 0 0 (-3) 0 2 0);
(3%nat, M3 1 (-2) 0 0 0 3 (-1) (-2) 0);
(4%nat, M3 (-1) (-2) 0 (-1) 1 0 0 0 (-4));
(0%nat, M3 (-1) 1 (-2) (-1) (-2) 1 (-1) 1 2);
(2%nat, M3 (-2) (-1) (-2) (-2) (-1) 1 0 2 0);
(0%nat, M3 (-1) (-1) (-2) (-1) 2 1 1 1 (-2));
(4%nat, M3 (-1) 1 0 1 2 0 0 0 (-4));
(0%nat, M3 (-1) 1 2 1 2 1 (-1) 1 (-2));
(2%nat, M3 (-2) (-1) 2 2 1 1 0 2 0);
(0%nat, M3 (-1) 1 (-2) 1 2 (-1) 1 (-1) (-2));
(1%nat, M3 0 (-1) 0 (-3) 0 0 (-1) 0 (-4));
(2%nat, M3 1 0 2 (-6) (-3) 0 (-1) (-1) (-2));
(2%nat, M3 0 (-1) 0 0 0 3 (-4) (-2) 1);
(2%nat, M3 1 0 2 6 3 0 1 1 2);
(2%nat, M3 3 2 3 (-3) (-1) (-3) (-2) (-1) 2);
(0%nat, M3 (-1) 1 (-1) (-1) (-2) (-1) (-1) 0 3);
(2%nat, M3 1 2 (-1) 1 (-1) (-1) (-2) (-1) (-2));
(0%nat, M3 1 (-2) (-1) 1 1 2 (-1) (-1) 2);
(0%nat, M3 (-1) 1 (-1) 1 2 1 1 0 (-3));
(2%nat, M3 3 2 (-3) 3 1 (-3) (-6) (-3) 2);
(0%nat, M3 1 2 1 (-1) 1 2 1 (-1) 2);
(2%nat, M3 (-1) (-2) (-1) 1 (-1) 1 (-2) (-1) 2);
(4%nat, M3 0 0 1 0 3 0 (-4) (-2) 0);
(4%nat, M3 (-2) (-1) 1 0 (-3) 0 2 1 1);
(5%nat, M3 0 (-1) (-1) (-3) (-3) 0 (-2) 0 (-2));
(4%nat, M3 (-2) (-1) (-1) 0 (-3) 0 (-2) (-1) 1);
(6%nat, M3 1 3 2 1 (-3) (-1) 0 0 (-2));
(0%nat, M3 (-1) 2 (-1) (-1) (-1) (-1) (-1) 0 3);
(2%nat, M3 2 1 (-1) 2 1 2 0 (-2) 0);
(0%nat, M3 (-1) (-2) (-1) (-1) 1 (-1) 1 0 (-3));
(2%nat, M3 2 1 1 (-2) (-1) 2 0 (-2) 0);
(0%nat, M3 (-1) 2 (-1) 1 1 1 1 0 (-3));
(6%nat, M3 (-1) (-3) (-2) 1 (-3) (-1) 0 0 2);
(0%nat, M3 1 (-2) 1 (-1) (-1) (-1) 1 0 (-3));
(1%nat, M3 0 (-1) 0 (-3) 0 0 1 0 (-4));
(2%nat, M3 (-1) 0 (-2) (-6) (-3) 0 1 1 2);
(2%nat, M3 0 (-1) 0 0 0 3 (-4) (-2) (-1));
(2%nat, M3 (-1) (-1) 2 6 3 0 (-1) 0 2);
(2%nat, M3 3 2 0 (-3) (-1) 0 2 1 4);
(0%nat, M3 (-1) 2 1 (-1) (-1) (-2) (-1) (-1) 2);
(2%nat, M3 (-1) (-2) 1 (-1) 1 1 (-2) (-1) (-2));
(0%nat, M3 (-1) (-1) (-1) (-1) 2 (-1) 1 0 (-3));
(0%nat, M3 (-1) 1 1 1 2 (-1) (-1) 0 (-3));
(2%nat, M3 1 2 1 (-1) 1 (-1) (-2) (-1) 2);
(0%nat, M3 (-1) 2 1 1 1 2 1 1 (-2));
(2%nat, M3 (-3) (-1) 0 (-3) (-2) 0 2 1 4);
(3%nat, M3 (-1) 0 0 0 (-3) 0 0 0 6);
(3%nat, M3 (-1) 0 (-3) 0 (-3) 0 (-1) 0 3);
(1%nat, M3 1 0 (-2) 0 3 0 2 0 2);
(4%nat, M3 (-2) (-1) 0 0 0 (-3) 0 (-3) 0);
(1%nat, M3 1 0 (-2) 0 (-3) 0 (-2) 0 (-2));
(3%nat, M3 (-1) 0 (-3) 0 3 0 1 0 (-3));
(4%nat, M3 (-1) (-2) 0 (-1) 1 0 0 0 (-6));
(1%nat, M3 (-1) 3 1 (-1) 0 (-2) (-1) (-3) 1);
(2%nat, M3 (-3) (-3) (-1) (-3) 0 (-1) 0 0 (-2));
(2%nat, M3 2 1 2 2 1 (-1) 0 3 0);
(2%nat, M3 3 3 1 3 0 1 0 0 (-2));
(1%nat, M3 (-1) 3 (-1) (-1) 0 2 1 3 1);
(4%nat, M3 (-1) 1 0 1 2 0 0 0 (-6));
(1%nat, M3 (-1) (-3) 1 1 0 2 (-1) 3 1);
(2%nat, M3 1 (-1) (-2) (-1) (-2) 2 (-4) (-2) 2);
(2%nat, M3 (-2) (-1) (-2) 2 1 (-1) 0 (-3) 0);
(2%nat, M3 (-3) (-3) (-1) 3 0 1 0 0 2);
(1%nat, M3 (-1) 3 1 1 0 2 1 3 (-1));
(7%nat, M3 0 0 1 (-3) 3 0 (-3) (-3) 0);
(6%nat, M3 1 0 2 0 (-6) (-3) 1 0 (-1));
(2%nat, M3 (-2) (-1) 1 0 (-3) 0 2 1 2);
(8%nat, M3 0 0 1 3 (-3) 0 3 3 3);
(2%nat, M3 (-2) (-1) (-1) 0 (-3) 0 (-2) (-1) 2);
(6%nat, M3 1 0 2 0 6 3 (-1) 0 1);
(6%nat, M3 1 3 2 1 (-3) (-1) 0 0 (-3));
(1%nat, M3 (-1) 0 2 (-1) 3 (-1) (-1) (-3) (-1));
(9%nat, M3 (-1) 2 (-2) (-1) (-1) (-2) (-2) 1 2);
(2%nat, M3 2 1 1 2 1 (-2) 0 3 0);
(9%nat, M3 (-2) 1 (-2) 1 1 (-2) 1 (-2) (-2));
(1%nat, M3 1 0 (-2) 1 (-3) 1 (-1) (-3) (-1));
(2%nat, M3 2 1 1 (-2) (-1) 2 0 (-3) 0);
(9%nat, M3 (-1) 2 2 (-2) 1 (-2) (-1) (-1) 2);
(1%nat, M3 (-1) 0 2 1 (-3) 1 1 3 1);
(6%nat, M3 (-1) (-3) (-2) 1 (-3) (-1) 0 0 3);
(1%nat, M3 1 0 (-2) (-1) 3 (-1) 1 3 1);
(9%nat, M3 1 (-2) (-2) 2 (-1) 2 (-1) (-1) 2);
(3%nat, M3 (-1) 0 0 0 (-3) 0 0 0 12);
(3%nat, M3 (-1) 0 (-6) 0 (-3) 0 (-1) 0 6);
(1%nat, M3 (-1) 0 (-5) 0 (-3) 0 (-2) 0 2);
(1%nat, M3 1 0 (-4) 0 3 0 3 0 0);
(1%nat, M3 3 0 (-1) 0 (-3) 0 0 0 (-4));
(3%nat, M3 (-2) 0 (-3) 0 3 0 2 0 (-3));
(4%nat, M3 (-2) (-1) 0 0 0 (-3) 0 (-6) 0);
(3%nat, M3 (-2) 0 3 0 3 0 (-2) 0 (-3));
(1%nat, M3 3 0 (-1) 0 3 0 0 0 4);
(1%nat, M3 1 0 (-4) 0 (-3) 0 (-3) 0 0);
(1%nat, M3 (-1) 0 (-5) 0 3 0 2 0 (-2));
(3%nat, M3 (-1) 0 (-6) 0 3 0 1 0 (-6));
(4%nat, M3 (-1) (-2) 0 (-1) 1 0 0 0 (-12));
(1%nat, M3 (-1) 6 1 (-1) 0 (-2) (-1) (-6) 1);
(0%nat, M3 (-1) 0 (-5) (-1) (-3) 1 (-2) 0 2);
(0%nat, M3 0 1 4 3 1 1 0 3 0);
(2%nat, M3 (-3) (-3) (-1) (-3) 0 (-1) 0 0 (-4));
(1%nat, M3 0 (-3) 2 (-3) 0 (-1) 0 (-3) (-2));
(2%nat, M3 2 1 2 2 1 (-1) 0 6 0);
(1%nat, M3 0 3 2 (-3) 0 (-1) 0 (-3) 2);
(2%nat, M3 3 3 1 3 0 1 0 0 (-4));
(0%nat, M3 0 1 4 (-3) 1 1 0 (-3) 0);
(0%nat, M3 (-1) 0 (-5) (-1) 3 1 2 0 (-2));
(1%nat, M3 (-1) 6 (-1) (-1) 0 2 1 6 1);
(4%nat, M3 (-1) 1 0 1 2 0 0 0 (-12));
(1%nat, M3 (-1) (-6) 1 1 0 2 (-1) 6 1);
(0%nat, M3 (-1) 1 5 1 2 1 (-2) 2 (-2));
(0%nat, M3 0 1 4 3 (-1) (-1) 0 3 0);
(2%nat, M3 3 3 1 (-3) 0 (-1) 0 0 4);
(1%nat, M3 0 (-3) 2 (-3) 0 1 0 (-3) (-2));
(2%nat, M3 (-2) (-1) (-2) 2 1 (-1) 0 (-6) 0);
(1%nat, M3 0 3 2 (-3) 0 1 0 (-3) 2);
(2%nat, M3 (-3) (-3) (-1) 3 0 1 0 0 4);
(0%nat, M3 0 1 4 (-3) (-1) (-1) 0 (-3) 0);
(0%nat, M3 (-1) 0 (-5) 1 3 (-1) 2 0 (-2));
(1%nat, M3 (-1) 6 1 1 0 2 1 6 (-1));
(3%nat, M3 (-1) 0 0 0 (-3) (-6) 0 (-3) 6);
(2%nat, M3 3 2 (-3) (-6) (-3) (-6) (-3) (-1) 3);
(0%nat, M3 (-1) 1 (-4) 0 (-3) (-3) (-2) (-1) 1);
(2%nat, M3 (-2) (-1) 4 3 3 0 (-3) 0 0);
(0%nat, M3 (-3) (-1) (-1) 0 3 0 0 (-1) (-4));
(2%nat, M3 1 2 2 6 3 0 (-1) 1 (-2));
(4%nat, M3 (-2) (-1) 0 0 3 (-3) 0 (-3) (-3));
(2%nat, M3 (-1) (-2) 2 6 3 0 (-1) 1 2);
(0%nat, M3 3 (-1) 1 0 (-3) 0 0 1 (-4));
(2%nat, M3 (-2) (-1) (-4) (-3) 0 0 3 3 0);
(0%nat, M3 (-1) 1 (-4) 0 3 3 2 1 (-1));
(2%nat, M3 (-3) (-2) (-6) (-6) (-3) 0 (-3) (-1) (-6));
(2%nat, M3 3 2 6 (-3) (-1) (-6) (-6) (-3) 0);
(1%nat, M3 (-1) 0 2 (-1) 6 (-1) (-1) (-6) (-1));
(9%nat, M3 (-1) 2 (-4) (-1) (-1) (-4) (-2) 1 4);
(0%nat, M3 (-1) 1 4 2 1 1 0 3 (-3));
(2%nat, M3 3 3 (-4) 6 3 (-4) 3 0 (-4));
(1%nat, M3 3 0 (-1) 0 (-3) 2 0 (-3) (-2));
(2%nat, M3 1 2 (-2) 1 (-1) (-2) (-6) (-3) 0);
(2%nat, M3 2 1 2 2 (-2) (-1) 2 4 (-1));
(2%nat, M3 (-2) (-1) 2 (-5) (-4) (-1) 5 1 1);
(0%nat, M3 3 (-1) (-1) 0 (-1) (-4) 0 3 0);
(2%nat, M3 3 0 (-4) 3 3 (-4) 6 3 (-4));
(1%nat, M3 (-1) 0 (-4) (-1) 3 2 1 3 (-2));
(0%nat, M3 (-1) 1 4 (-2) (-1) (-1) 0 (-3) 3);
(9%nat, M3 (-1) 2 4 (-2) 1 (-4) (-1) (-1) 4);
(1%nat, M3 (-1) 0 2 1 (-6) 1 1 6 1);
(2%nat, M3 9 5 (-6) 9 4 (-6) (-6) (-3) 0);
(1%nat, M3 (-1) 0 (-4) 1 (-3) (-2) (-1) (-3) 2);
(2%nat, M3 3 0 (-1) (-3) (-3) 1 (-6) (-3) (-2));
(0%nat, M3 3 (-1) (-1) 0 1 4 0 (-3) 0);
(2%nat, M3 6 3 2 (-3) (-3) 1 3 0 (-1));
(2%nat, M3 (-2) (-1) (-2) 2 4 (-1) 2 (-2) (-1));
(2%nat, M3 (-1) (-2) (-2) 1 (-1) 2 (-6) (-3) 0);
(1%nat, M3 1 0 (-3) 2 (-3) 0 (-2) (-3) 0);
(2%nat, M3 (-5) (-4) 4 2 1 (-4) 5 1 (-4));
(4%nat, M3 0 0 1 (-6) (-3) 0 0 (-6) 0);
(4%nat, M3 (-6) (-3) (-1) 0 3 0 6 3 (-1));
(2%nat, M3 (-4) (-2) (-1) 0 3 0 4 2 (-2));
(2%nat, M3 (-4) (-2) (-1) 0 3 0 0 0 (-3));
(2%nat, M3 2 1 (-3) 0 (-3) 0 (-4) (-2) 0);
(4%nat, M3 (-2) (-1) 3 0 (-3) 0 2 1 3);
(5%nat, M3 0 1 1 3 0 3 6 6 0);
(4%nat, M3 2 1 3 0 (-3) 0 2 1 (-3));
(2%nat, M3 (-2) (-1) 3 0 3 0 (-4) (-2) 0);
(2%nat, M3 (-4) (-2) (-1) 0 (-3) 0 0 0 3);
(2%nat, M3 (-4) (-2) (-1) 0 (-3) 0 (-4) (-2) 2);
(4%nat, M3 (-6) (-3) (-1) 0 (-3) 0 (-6) (-3) 1);
(6%nat, M3 1 3 2 1 (-3) (-1) 0 0 (-6));
(1%nat, M3 (-1) 3 2 (-1) 0 (-4) (-1) (-3) 2);
(0%nat, M3 (-1) 3 1 (-1) 0 (-5) (-2) 0 2);
(0%nat, M3 (-2) 1 1 1 1 4 0 3 (-3));
(2%nat, M3 (-1) 1 (-3) (-1) (-2) (-3) (-4) (-2) 0);
(2%nat, M3 2 4 1 2 1 (-2) (-2) 2 (-1));
(2%nat, M3 2 1 1 2 1 (-2) 0 6 0);
(2%nat, M3 (-2) 2 1 (-2) (-1) (-2) (-2) (-4) 1);
(2%nat, M3 1 (-1) 3 1 2 3 (-4) (-2) 0);
(0%nat, M3 2 1 1 (-1) 1 4 0 (-3) 3);
(0%nat, M3 1 (-3) (-1) 1 0 5 (-2) 0 2);
(1%nat, M3 1 (-3) (-2) 1 0 4 (-1) (-3) 2);
(2%nat, M3 2 1 1 (-2) (-1) 2 0 (-6) 0);
(2%nat, M3 2 4 1 (-2) (-1) 2 2 (-2) 1);
(2%nat, M3 1 2 3 (-1) 1 (-3) (-4) (-2) 0);
(0%nat, M3 (-2) (-1) (-1) (-1) 1 4 0 3 (-3));
(0%nat, M3 (-1) 3 1 1 0 5 2 0 (-2));
(1%nat, M3 (-1) 3 2 1 0 4 1 3 (-2));
(6%nat, M3 1 (-3) (-1) (-1) (-3) (-2) 0 0 (-6));
(1%nat, M3 1 (-3) (-2) (-1) 0 (-4) 1 3 (-2));
(0%nat, M3 1 (-2) (-1) (-1) (-1) (-5) 2 2 (-2));
(0%nat, M3 2 (-1) (-1) 1 1 4 0 (-3) 3);
(2%nat, M3 (-1) (-2) (-3) 1 (-1) 3 (-4) (-2) 0);
(2%nat, M3 (-2) 2 1 2 1 2 2 4 (-1));
(3%nat, M3 1 0 0 0 (-3) (-6) 0 3 (-6));
(2%nat, M3 (-3) (-2) 3 (-6) (-3) (-6) 3 1 (-3));
(0%nat, M3 1 (-1) 4 0 (-3) (-3) 2 1 (-1));
(2%nat, M3 2 1 (-4) 3 3 0 3 0 0);
(0%nat, M3 (-3) 1 (-1) 0 3 0 0 1 (-4));
(2%nat, M3 (-1) (-2) (-2) 6 3 0 1 (-1) 2);
(4%nat, M3 (-2) (-1) 0 0 (-3) (-3) 0 (-3) 3);
(2%nat, M3 1 (-1) 2 6 3 0 1 2 2);
(0%nat, M3 (-3) 1 (-1) 0 (-3) 0 0 (-1) 4);
(2%nat, M3 (-2) (-1) (-4) 3 3 0 3 0 0);
(0%nat, M3 1 (-1) 4 0 3 3 (-2) (-1) 1);
(2%nat, M3 (-3) (-2) 3 6 3 6 (-3) (-1) 3);
(2%nat, M3 3 1 6 (-3) (-2) (-6) 6 3 0);
(1%nat, M3 1 0 4 1 (-3) (-2) 1 3 (-2));
(2%nat, M3 5 1 (-4) 5 4 (-4) (-2) (-1) 4);
(0%nat, M3 (-3) 1 1 0 1 4 0 3 0);
(2%nat, M3 (-6) (-3) 4 (-3) (-3) 4 (-3) 0 4);
(2%nat, M3 2 1 2 2 4 (-1) (-2) 2 1);
(2%nat, M3 (-1) 1 (-2) (-1) (-2) (-2) (-6) (-3) 0);
(1%nat, M3 (-3) 0 (-1) 0 (-3) 2 0 3 2);
(2%nat, M3 3 0 (-1) 6 3 2 (-3) (-3) 1);
(0%nat, M3 1 1 4 (-2) 1 1 0 (-3) 3);
(9%nat, M3 1 (-2) 4 1 1 4 (-2) 1 4);
(1%nat, M3 1 0 (-2) 1 (-6) 1 (-1) (-6) (-1));
(0%nat, M3 1 1 4 2 (-1) (-1) 0 3 (-3));
(2%nat, M3 3 3 1 (-6) (-3) 2 3 0 1);
(1%nat, M3 1 0 3 2 (-3) 0 2 3 0);
(2%nat, M3 1 2 2 (-1) 1 (-2) (-6) (-3) 0);
(2%nat, M3 (-2) (-1) (-2) 2 (-2) (-1) (-2) (-4) 1);
(2%nat, M3 2 1 (-2) (-5) (-4) (-1) (-5) (-1) (-1));
(0%nat, M3 (-3) 1 1 0 (-1) (-4) 0 (-3) 0);
(2%nat, M3 (-5) (-4) (-1) 5 1 1 (-2) (-1) 2);
(1%nat, M3 1 0 4 (-1) 3 2 (-1) (-3) 2);
(2%nat, M3 3 2 (-3) 3 1 (-3) (-6) (-3) (-6));
(1%nat, M3 1 0 (-2) (-1) 6 (-1) 1 6 1);
(9%nat, M3 1 (-2) (-4) 2 (-1) 4 (-1) (-1) 4);
(7%nat, M3 1 0 0 0 0 (-4) 0 1 0);
(3%nat, M3 0 (-1) (-2) 0 (-1) 2 (-1) 0 0);
(4%nat, M3 (-2) (-1) 0 0 (-2) 0 0 0 1);
(3%nat, M3 0 (-1) (-2) 0 1 (-2) 1 0 0);
(3%nat, M3 1 0 0 0 0 (-4) 0 2 0);
(7%nat, M3 1 (-1) 0 0 0 (-4) 1 1 0);
(3%nat, M3 1 0 2 1 0 (-2) 0 2 0);
(4%nat, M3 0 (-1) 2 0 (-1) (-2) 2 1 0);
(4%nat, M3 (-2) (-1) 0 0 (-2) 0 0 0 2);
(8%nat, M3 0 2 1 0 0 2 2 0 1);
(3%nat, M3 1 0 2 (-1) 0 2 0 (-2) 0);
(4%nat, M3 2 1 2 (-2) (-1) 2 0 (-1) 0);
(3%nat, M3 1 0 0 0 0 (-4) 0 3 0);
(4%nat, M3 1 2 0 0 0 4 1 (-1) 0);
(4%nat, M3 1 (-1) 0 0 0 4 (-1) (-2) 0);
(3%nat, M3 (-1) 2 0 (-1) (-2) 0 0 0 3);
(0%nat, M3 1 (-1) 2 1 (-1) (-2) 1 2 (-1));
(0%nat, M3 1 (-1) (-2) 1 (-1) 2 (-1) (-2) (-1));
(4%nat, M3 (-2) (-1) 0 0 (-2) 0 0 0 3);
(2%nat, M3 2 1 2 0 (-2) 0 2 1 (-1));
(2%nat, M3 2 1 (-2) 0 (-2) 0 (-2) (-1) (-1));
(3%nat, M3 (-1) 2 0 1 2 0 0 0 (-3));
(0%nat, M3 1 1 2 (-1) (-1) 2 1 (-2) (-1));
(0%nat, M3 1 (-1) 2 (-1) 1 2 (-1) (-2) 1);
(1%nat, M3 0 1 0 0 0 4 3 0 1);
(2%nat, M3 3 2 2 0 0 (-4) (-3) (-1) (-2));
(2%nat, M3 1 0 1 8 4 (-4) 1 1 1);
(1%nat, M3 0 1 (-2) 0 1 2 3 0 1);
(0%nat, M3 1 (-1) 2 1 (-1) (-2) 1 2 1);
(1%nat, M3 1 2 (-1) 1 (-2) (-1) (-1) 0 (-2));
(0%nat, M3 (-1) 2 2 (-2) 0 0 0 (-1) 2);
(0%nat, M3 (-2) (-1) 2 0 2 0 (-1) 0 (-2));
(2%nat, M3 0 (-1) 0 4 2 4 (-2) (-1) 1);
(0%nat, M3 1 (-1) 2 (-1) 1 2 (-1) (-2) (-1));
(1%nat, M3 0 1 (-2) 0 (-1) (-2) (-3) 0 (-1));
(1%nat, M3 1 (-2) 1 (-1) (-2) (-1) 1 0 (-2));
(1%nat, M3 0 1 0 0 0 4 3 0 (-1));
(2%nat, M3 (-3) (-2) (-2) 0 0 (-4) 3 1 2);
(2%nat, M3 (-1) (-1) 2 8 4 (-4) (-1) 0 2);
(1%nat, M3 0 1 (-2) 0 1 2 3 0 (-1));
(1%nat, M3 1 (-2) (-1) 1 2 (-1) 1 0 2);
(0%nat, M3 1 (-1) (-2) 1 (-1) 2 (-1) (-2) 1);
(0%nat, M3 (-1) 2 (-2) (-2) 0 0 0 1 2);
(2%nat, M3 0 1 0 4 2 0 2 1 (-3));
(0%nat, M3 2 (-1) 2 0 2 0 (-1) 0 2);
(0%nat, M3 1 1 2 (-1) (-1) 2 1 (-2) 1);
(1%nat, M3 1 (-2) (-1) (-1) (-2) 1 (-1) 0 (-2));
(1%nat, M3 0 1 (-2) 0 (-1) (-2) (-3) 0 1);
(7%nat, M3 0 0 1 (-4) 0 0 0 (-4) 0);
(3%nat, M3 1 (-2) 0 0 0 (-4) 1 2 0);
(4%nat, M3 2 1 0 0 0 (-4) 0 2 0);
(3%nat, M3 1 (-2) 0 0 0 4 (-1) (-2) 0);
(3%nat, M3 (-1) 2 0 (-1) (-2) 0 0 0 4);
(11%nat, M3 (-4) 0 (-3) 0 4 1 4 (-4) 1);
(4%nat, M3 0 (-1) 2 0 (-1) (-2) 4 2 0);
(11%nat, M3 0 4 1 (-4) 0 (-3) (-4) 4 (-1));
(4%nat, M3 (-2) (-1) 0 0 (-2) 0 0 0 4);
(4%nat, M3 0 1 (-2) (-4) (-2) 0 0 1 2);
(8%nat, M3 0 0 1 4 0 2 0 4 2);
(4%nat, M3 (-2) (-1) (-2) 0 2 0 2 1 (-2));
(3%nat, M3 (-1) 2 0 1 2 0 0 0 (-4));
(11%nat, M3 (-4) 0 (-3) (-4) 4 (-1) 0 4 1);
(4%nat, M3 (-2) (-1) (-2) 2 1 (-2) 0 (-2) 0);
(11%nat, M3 0 4 1 (-4) 4 (-1) 4 0 3);
(3%nat, M3 (-1) 0 0 0 (-4) 0 0 0 6);
(3%nat, M3 (-1) 0 (-3) 0 (-4) 0 (-1) 0 3);
(1%nat, M3 1 0 (-2) 0 4 0 2 0 2);
(4%nat, M3 2 1 0 0 0 (-4) 0 3 0);
(1%nat, M3 1 0 (-2) 0 (-4) 0 (-2) 0 (-2));
(3%nat, M3 (-1) 0 (-3) 0 4 0 1 0 (-3));
(3%nat, M3 (-1) 2 0 (-1) (-2) 0 0 0 6);
(0%nat, M3 (-1) 1 (-3) (-1) (-3) 1 (-1) 1 3);
(0%nat, M3 1 (-3) (-2) 1 1 (-2) 2 0 2);
(4%nat, M3 (-2) (-1) 2 (-2) (-1) (-2) 0 (-3) 0);
(0%nat, M3 1 (-3) 2 1 1 2 (-2) 0 2);
(0%nat, M3 (-1) (-1) (-3) (-1) 3 1 1 1 (-3));
(4%nat, M3 (-2) (-1) 0 0 (-2) 0 0 0 6);
(5%nat, M3 2 (-1) 3 0 2 2 (-4) (-1) (-3));
(2%nat, M3 (-2) (-1) 2 0 2 0 (-4) (-2) (-2));
(6%nat, M3 2 0 1 0 0 2 0 (-6) (-3));
(2%nat, M3 2 1 (-2) 0 (-2) 0 (-4) (-2) (-2));
(5%nat, M3 (-1) (-4) (-3) (-2) 0 (-2) 1 (-2) (-3));
(3%nat, M3 (-1) 2 0 1 2 0 0 0 (-6));
(0%nat, M3 (-1) 1 3 1 3 1 (-1) 1 (-3));
(0%nat, M3 1 3 (-2) (-1) 1 2 2 0 2);
(4%nat, M3 (-2) (-1) (-2) 2 1 (-2) 0 (-3) 0);
(0%nat, M3 1 (-3) (-2) (-1) (-1) 2 (-2) 0 (-2));
(0%nat, M3 (-1) 1 (-3) 1 3 (-1) 1 (-1) (-3));
(1%nat, M3 0 (-1) 0 (-4) 0 4 (-2) 0 (-4));
(1%nat, M3 (-3) 1 (-1) 0 0 4 3 1 1);
(0%nat, M3 1 (-2) 1 0 0 (-4) 2 2 0);
(2%nat, M3 0 (-1) 0 0 0 4 (-6) (-3) (-4));
(0%nat, M3 1 (-2) 1 0 0 4 (-2) (-2) 0);
(1%nat, M3 (-3) 1 (-1) 0 0 (-4) (-3) (-1) (-1));
(1%nat, M3 2 (-1) (-2) (-2) (-1) 2 (-2) 0 (-4));
(1%nat, M3 (-1) 2 (-2) (-1) (-2) (-2) (-1) 0 4);
(0%nat, M3 (-1) 1 (-2) (-1) (-3) (-2) (-2) 0 2);
(2%nat, M3 0 (-1) (-2) 0 (-1) 2 (-6) (-3) (-4));
(1%nat, M3 (-1) (-2) (-2) (-1) 2 (-2) 2 0 (-2));
(0%nat, M3 1 (-3) (-1) 1 1 3 (-1) (-1) 3);
(0%nat, M3 (-1) 2 3 (-2) 0 (-2) 0 (-2) 2);
(2%nat, M3 0 (-1) 0 (-4) (-2) 0 (-2) (-1) (-6));
(0%nat, M3 (-1) 2 3 2 0 2 0 2 (-2));
(2%nat, M3 4 1 1 4 2 (-2) 4 3 1);
(2%nat, M3 0 (-1) 0 4 2 4 (-4) (-2) 2);
(2%nat, M3 4 3 (-1) (-4) (-2) (-2) (-4) (-1) 1);
(0%nat, M3 (-1) 1 (-2) 1 3 2 2 0 (-2));
(1%nat, M3 (-1) 2 (-2) 1 2 2 1 0 (-4));
(1%nat, M3 2 (-1) (-2) 2 1 (-2) 2 0 4);
(0%nat, M3 1 3 1 (-1) 1 3 1 (-1) 3);
(1%nat, M3 1 (-2) 2 (-1) (-2) (-2) 2 0 (-2));
(2%nat, M3 0 (-1) 2 0 1 2 (-6) (-3) (-4));
(1%nat, M3 0 1 0 (-4) 0 4 2 0 4);
(1%nat, M3 (-3) 1 1 0 0 4 3 1 (-1));
(0%nat, M3 1 (-2) (-1) 0 0 (-4) 2 2 0);
(2%nat, M3 0 (-1) 0 0 0 4 (-6) (-3) (-2));
(0%nat, M3 1 (-2) (-1) 0 0 4 (-2) (-2) 0);
(1%nat, M3 (-1) (-1) 3 4 0 0 (-1) 1 3);
(1%nat, M3 2 1 (-2) (-2) 1 2 2 0 4);
(0%nat, M3 (-1) 3 1 (-1) (-1) (-3) (-1) (-1) 3);
(1%nat, M3 (-1) 2 (-2) (-1) (-2) (-2) (-2) 0 2);
(2%nat, M3 0 (-1) (-2) 0 (-1) 2 (-6) (-3) (-2));
(0%nat, M3 (-1) (-1) (-2) (-1) 3 (-2) 2 0 (-2));
(1%nat, M3 (-1) (-2) (-2) (-1) 2 (-2) 1 0 (-4));
(0%nat, M3 1 2 3 2 0 (-2) 0 2 (-2));
(2%nat, M3 4 1 (-1) (-4) (-2) (-2) 4 3 (-1));
(2%nat, M3 0 1 0 4 2 4 4 2 (-2));
(2%nat, M3 (-4) (-3) 1 (-4) (-2) (-2) 4 1 (-1));
(0%nat, M3 1 2 3 (-2) 0 2 0 (-2) 2);
(2%nat, M3 0 1 0 4 2 0 (-2) (-1) (-6));
(0%nat, M3 (-1) (-1) (-2) 1 (-3) 2 (-2) 0 2);
(2%nat, M3 (-4) (-1) (-2) (-4) (-3) (-2) (-2) (-1) 2);
(1%nat, M3 (-1) 2 (-2) 1 2 2 2 0 (-2));
(0%nat, M3 (-1) 3 1 1 1 3 1 1 (-3));
(1%nat, M3 2 1 (-2) 2 (-1) (-2) (-2) 0 (-4));
(1%nat, M3 1 (-2) 2 (-1) (-2) (-2) 1 0 (-4));
(3%nat, M3 (-1) 0 0 0 (-4) 0 0 0 12);
(3%nat, M3 (-1) 0 (-6) 0 (-4) 0 (-1) 0 6);
(1%nat, M3 (-1) 0 (-5) 0 (-4) 0 (-2) 0 2);
(1%nat, M3 (-1) 0 (-4) 0 (-4) 0 (-3) 0 0);
(1%nat, M3 (-3) 0 (-1) 0 4 0 0 0 (-4));
(3%nat, M3 (-2) 0 (-3) 0 4 0 2 0 (-3));
(4%nat, M3 (-2) (-1) 0 0 0 (-4) 0 (-6) 0);
(3%nat, M3 (-2) 0 3 0 4 0 (-2) 0 (-3));
(1%nat, M3 (-3) 0 (-1) 0 (-4) 0 0 0 4);
(1%nat, M3 (-1) 0 (-4) 0 4 0 3 0 0);
(1%nat, M3 (-1) 0 (-5) 0 4 0 2 0 (-2));
(3%nat, M3 (-1) 0 (-6) 0 4 0 1 0 (-6));
(3%nat, M3 (-1) 2 0 (-1) (-2) 0 0 0 12);
(2%nat, M3 (-2) 5 1 2 1 (-3) (-2) (-7) 1);
(0%nat, M3 (-1) 1 (-5) (-1) (-3) (-1) (-2) 2 2);
(2%nat, M3 (-4) (-4) (-1) (-4) 0 (-1) 0 0 (-3));
(0%nat, M3 (-3) 0 (-1) 1 4 (-1) 0 0 (-4));
(2%nat, M3 0 2 3 (-4) (-2) (-1) 0 (-2) 3);
(4%nat, M3 (-2) (-1) 2 (-2) (-1) (-2) 0 (-6) 0);
(2%nat, M3 0 2 (-3) (-4) (-2) 1 0 2 3);
(0%nat, M3 (-3) 0 (-1) 1 (-4) (-1) 0 0 4);
(2%nat, M3 4 4 1 4 0 1 0 0 (-3));
(0%nat, M3 (-1) (-1) (-5) (-1) 3 (-1) 2 2 (-2));
(2%nat, M3 (-2) (-7) 1 2 1 (-3) 2 (-5) (-1));
(4%nat, M3 (-2) (-1) 0 0 (-2) 0 0 0 12);
(4%nat, M3 0 1 (-6) (-4) (-2) 0 0 1 6);
(2%nat, M3 (-2) (-1) 4 0 2 0 (-4) (-2) (-4));
(2%nat, M3 (-2) (-1) 4 0 2 0 (-6) (-3) 0);
(2%nat, M3 (-6) (-3) 2 0 2 0 0 0 (-4));
(4%nat, M3 0 (-3) (-2) 4 2 0 0 (-3) 2);
(6%nat, M3 0 (-2) (-1) (-4) 0 (-2) 0 0 (-6));
(4%nat, M3 0 3 (-2) 4 2 0 0 (-3) (-2));
(2%nat, M3 6 3 (-2) 0 (-2) 0 0 0 (-4));
(2%nat, M3 (-2) (-1) (-4) 0 2 0 6 3 0);
(2%nat, M3 (-2) (-1) (-4) 0 2 0 4 2 (-4));
(4%nat, M3 (-2) (-1) (-6) 0 2 0 2 1 (-6));
(3%nat, M3 (-1) 2 0 1 2 0 0 0 (-12));
(2%nat, M3 (-2) 5 (-1) (-2) (-1) (-3) (-2) (-7) (-1));
(0%nat, M3 (-1) 1 5 1 3 (-1) (-2) 2 (-2));
(2%nat, M3 4 4 1 (-4) 0 (-1) 0 0 3);
(0%nat, M3 (-3) 0 (-1) (-1) 4 1 0 0 (-4));
(2%nat, M3 0 2 3 (-4) (-2) 1 0 (-2) 3);
(4%nat, M3 (-2) (-1) (-2) 2 1 (-2) 0 (-6) 0);
(2%nat, M3 0 2 (-3) (-4) (-2) (-1) 0 2 3);
(0%nat, M3 (-3) 0 (-1) (-1) (-4) 1 0 0 4);
(2%nat, M3 (-4) (-4) (-1) 4 0 1 0 0 3);
(0%nat, M3 (-1) 1 (-5) 1 3 1 2 (-2) (-2));
(2%nat, M3 (-2) (-7) (-1) (-2) (-1) (-3) 2 (-5) 1);
(4%nat, M3 0 0 (-1) (-4) (-8) 0 (-4) 4 0);
(1%nat, M3 2 (-1) 4 (-4) 0 4 (-2) (-1) (-4));
(0%nat, M3 (-1) 2 (-3) 0 (-4) (-4) (-2) 0 2);
(0%nat, M3 1 (-4) 1 0 0 (-4) 3 0 (-1));
(2%nat, M3 (-2) (-1) 3 4 4 0 (-4) 0 0);
(1%nat, M3 (-1) (-2) 3 4 0 0 (-1) 2 3);
(2%nat, M3 0 (-1) 0 8 4 4 (-4) (-2) 4);
(1%nat, M3 1 2 3 4 0 0 (-1) 2 (-3));
(2%nat, M3 (-2) (-1) (-3) (-4) 0 0 4 4 0);
(0%nat, M3 1 (-4) 1 0 0 4 (-3) 0 1);
(0%nat, M3 (-1) 2 (-3) 0 4 4 2 0 (-2));
(1%nat, M3 2 (-1) 4 4 0 (-4) 2 1 4);
(1%nat, M3 2 (-1) (-4) (-2) (-1) 4 (-4) 0 (-4));
(2%nat, M3 2 1 3 (-2) 5 (-1) (-2) (-7) (-1));
(1%nat, M3 (-1) 2 (-4) (-1) (-2) (-4) (-2) 0 4);
(2%nat, M3 (-2) (-1) 3 2 3 3 (-2) 1 (-3));
(0%nat, M3 1 4 1 (-3) 0 1 0 0 4);
(2%nat, M3 (-2) 1 1 (-2) (-3) 1 2 1 5);
(2%nat, M3 (-4) (-3) (-2) 4 1 2 (-4) (-2) 4);
(2%nat, M3 (-4) (-2) (-1) 0 2 3 0 2 (-3));
(1%nat, M3 1 2 (-3) 1 (-2) (-3) (-4) 0 0);
(2%nat, M3 (-2) (-3) 1 2 1 5 (-2) 1 1);
(0%nat, M3 1 (-3) 1 1 1 5 (-2) (-2) 2);
(10%nat, M3 0 4 1 4 (-4) 1 4 0 (-1));
(0%nat, M3 (-1) 2 3 (-2) 0 (-2) 0 (-4) 4);
(1%nat, M3 (-1) 2 4 (-2) 0 (-4) (-1) (-2) 4);
(5%nat, M3 (-1) (-1) 0 (-6) (-2) (-8) 6 (-2) 4);
(1%nat, M3 (-1) 2 4 2 0 4 1 2 (-4));
(0%nat, M3 (-1) 2 3 2 0 2 0 4 (-4));
(0%nat, M3 1 3 1 (-2) 2 2 1 (-1) 5);
(2%nat, M3 (-6) (-3) (-1) 0 2 2 0 2 (-2));
(2%nat, M3 (-4) (-3) 2 4 2 4 (-4) (-1) 2);
(2%nat, M3 0 (-1) 0 4 2 4 (-8) (-4) 4);
(2%nat, M3 4 1 (-2) 4 2 4 (-4) (-3) 2);
(2%nat, M3 (-6) (-3) (-1) 0 (-2) (-2) 0 (-2) 2);
(0%nat, M3 1 (-3) (-1) 2 2 2 (-1) (-1) 5);
(0%nat, M3 1 4 1 3 0 (-1) 0 0 (-4));
(2%nat, M3 (-2) (-1) (-3) (-2) 1 3 2 3 (-3));
(1%nat, M3 (-1) 2 (-4) 1 2 4 2 0 (-4));
(2%nat, M3 2 1 (-3) 2 7 (-1) 2 (-5) (-1));
(1%nat, M3 2 (-1) (-4) 2 1 (-4) 4 0 4);
(10%nat, M3 0 4 1 (-4) 4 (-1) (-4) 0 1);
(0%nat, M3 1 (-3) 1 (-1) (-1) (-5) 2 2 (-2));
(2%nat, M3 2 (-1) (-1) 2 1 5 (-2) (-3) 1);
(1%nat, M3 (-3) 2 (-1) 3 2 1 0 0 (-4));
(2%nat, M3 (-4) (-2) 1 0 2 3 0 2 (-3));
(2%nat, M3 4 1 2 4 3 2 (-4) (-2) 4);
(2%nat, M3 (-2) (-3) (-3) 2 (-1) 3 (-2) (-1) 3);
(4%nat, M3 0 0 (-1) (-4) 4 0 4 8 0);
(1%nat, M3 (-2) 1 (-4) (-4) 0 4 2 1 4);
(0%nat, M3 1 (-2) 3 0 (-4) (-4) 2 0 (-2));
(0%nat, M3 1 (-4) (-1) 0 0 (-4) 3 0 1);
(2%nat, M3 (-2) (-1) (-3) (-4) (-4) 0 (-4) 0 0);
(1%nat, M3 1 (-2) 3 4 0 0 1 2 3);
(2%nat, M3 0 1 0 8 4 4 4 2 (-4));
(1%nat, M3 (-1) (-2) (-3) 4 0 0 1 (-2) 3);
(2%nat, M3 (-2) (-1) (-3) 4 4 0 4 0 0);
(0%nat, M3 1 (-4) (-1) 0 0 4 (-3) 0 (-1));
(0%nat, M3 1 (-2) 3 0 4 4 (-2) 0 2);
(1%nat, M3 (-2) 1 (-4) 4 0 (-4) (-2) (-1) (-4));
(1%nat, M3 2 1 (-4) (-2) 1 4 4 0 4);
(10%nat, M3 0 (-4) (-1) (-4) 4 (-1) 4 0 (-1));
(0%nat, M3 (-1) 3 (-1) (-1) (-1) (-5) (-2) (-2) 2);
(2%nat, M3 2 3 (-3) (-2) (-1) (-3) (-2) 1 3);
(1%nat, M3 1 (-2) (-3) 1 2 (-3) 4 0 0);
(2%nat, M3 (-4) (-2) 1 0 2 (-3) 0 (-2) (-3));
(2%nat, M3 (-4) (-1) (-2) 4 3 2 4 2 (-4));
(2%nat, M3 (-2) 1 (-1) (-2) (-3) (-1) (-2) (-1) 5);
(0%nat, M3 (-1) 4 1 3 0 1 0 0 (-4));
(2%nat, M3 2 1 (-5) (-2) (-3) (-1) (-2) 1 (-1));
(1%nat, M3 1 (-2) 4 1 2 4 (-2) 0 4);
(2%nat, M3 (-2) (-1) 3 2 7 (-1) (-2) 5 1);
(0%nat, M3 1 2 5 2 0 (-2) 0 4 0);
(0%nat, M3 1 3 (-1) 2 (-2) 2 1 (-1) (-5));
(2%nat, M3 6 3 1 0 2 2 0 (-2) 2);
(2%nat, M3 4 1 2 4 2 (-4) 4 3 2);
(2%nat, M3 0 1 0 4 2 4 8 4 (-4));
(2%nat, M3 (-4) (-1) 2 4 2 4 4 3 (-2));
(2%nat, M3 6 3 1 0 (-2) (-2) 0 2 (-2));
(0%nat, M3 1 3 (-1) (-2) 2 (-2) (-1) 1 5);
(0%nat, M3 1 2 5 (-2) 0 2 0 (-4) 0);
(1%nat, M3 1 (-2) (-4) (-2) 0 (-4) 1 2 (-4));
(5%nat, M3 0 (-1) (-1) (-4) (-6) 2 (-8) (-6) (-2));
(1%nat, M3 1 (-2) (-4) 2 0 4 (-1) (-2) 4);
(0%nat, M3 (-1) 4 1 (-3) 0 (-1) 0 0 4);
(2%nat, M3 (-2) (-3) 3 2 (-1) (-3) 2 1 3);
(2%nat, M3 (-4) (-1) (-2) (-4) (-3) (-2) (-4) (-2) 4);
(2%nat, M3 4 2 1 0 2 3 0 (-2) 3);
(1%nat, M3 (-3) 2 1 3 2 (-1) 0 0 (-4));
(2%nat, M3 2 3 (-1) 2 1 5 2 (-1) (-1));
(0%nat, M3 (-1) 3 (-1) 1 1 5 2 2 (-2));
(10%nat, M3 0 (-4) (-1) 4 (-4) 1 (-4) 0 1);
(1%nat, M3 2 1 (-4) 2 (-1) (-4) (-4) 0 (-4));
(2%nat, M3 (-2) (-1) 3 (-2) (-7) 1 2 (-5) (-1));
(1%nat, M3 1 (-2) 4 (-1) (-2) (-4) 2 0 (-4));
(2%nat, M3 2 1 3 2 (-1) (-3) 2 3 (-3));
(7%nat, M3 1 0 0 0 0 (-6) 0 1 0);
(3%nat, M3 0 (-1) (-3) 0 (-1) 3 (-1) 0 0);
(1%nat, M3 (-1) 0 2 (-2) 0 (-2) 0 (-1) 0);
(4%nat, M3 (-2) (-1) 0 0 (-3) 0 0 0 1);
(1%nat, M3 (-1) 0 2 2 0 2 0 1 0);
(3%nat, M3 0 (-1) (-3) 0 1 (-3) 1 0 0);
(3%nat, M3 1 0 0 0 0 (-6) 0 2 0);
(7%nat, M3 1 (-1) 0 0 0 (-6) 1 1 0);
(3%nat, M3 1 0 3 1 0 (-3) 0 2 0);
(5%nat, M3 1 3 4 1 (-3) (-2) 1 1 0);
(1%nat, M3 (-1) 0 2 (-2) 0 (-2) 0 (-2) 0);
(2%nat, M3 (-2) (-1) 2 (-4) (-2) (-2) 0 (-1) 0);
(4%nat, M3 (-2) (-1) 0 0 (-3) 0 0 0 2);
(8%nat, M3 0 2 1 0 0 3 2 0 1);
(1%nat, M3 (-1) 0 2 2 0 2 0 2 0);
(2%nat, M3 (-2) (-1) (-2) 4 2 (-2) 0 (-1) 0);
(3%nat, M3 1 0 3 (-1) 0 3 0 (-2) 0);
(5%nat, M3 (-3) (-1) (-4) (-3) 1 (-2) 1 1 0);
(4%nat, M3 0 0 (-1) 0 6 0 2 1 0);
(8%nat, M3 (-1) 1 0 0 0 6 1 1 1);
(4%nat, M3 0 3 1 0 (-3) 1 2 1 0);
(4%nat, M3 0 (-1) 3 0 (-1) (-3) 2 1 0);
(2%nat, M3 (-4) (-2) (-1) 4 2 (-2) 0 (-1) 0);
(2%nat, M3 (-2) (-1) 1 (-4) (-2) (-4) 0 (-1) 0);
(2%nat, M3 (-4) (-2) (-1) 0 0 (-3) 0 (-1) 0);
(2%nat, M3 (-4) (-2) 1 0 0 (-3) 0 (-1) 0);
(2%nat, M3 (-2) (-1) (-3) 4 2 0 0 (-1) 0);
(2%nat, M3 (-4) (-2) (-1) (-4) (-2) 2 0 1 0);
(4%nat, M3 2 1 3 (-2) (-1) 3 0 (-1) 0);
(4%nat, M3 0 3 1 0 3 (-1) (-2) (-1) 0);
(3%nat, M3 1 0 0 0 0 (-6) 0 3 0);
(4%nat, M3 1 2 0 0 0 6 1 (-1) 0);
(4%nat, M3 1 (-1) 0 0 0 6 (-1) (-2) 0);
(3%nat, M3 1 0 3 1 0 (-3) 0 3 0);
(1%nat, M3 1 (-3) (-1) 1 3 (-1) 1 0 2);
(1%nat, M3 1 3 (-1) 1 (-3) (-1) (-1) 0 (-2));
(1%nat, M3 (-1) 0 2 (-2) 0 (-2) 0 (-3) 0);
(2%nat, M3 3 3 1 0 0 2 3 0 1);
(2%nat, M3 (-1) 1 2 4 2 (-2) 1 2 (-2));
(4%nat, M3 2 1 0 0 3 0 0 0 3);
(2%nat, M3 (-2) (-1) (-2) 0 (-3) 0 (-2) (-1) 1);
(2%nat, M3 2 1 2 0 3 0 (-2) (-1) 1);
(1%nat, M3 (-1) 0 2 2 0 2 0 3 0);
(2%nat, M3 (-3) (-3) (-1) 0 0 2 (-3) 0 (-1));
(2%nat, M3 3 3 1 0 0 (-2) (-3) 0 (-1));
(3%nat, M3 1 0 3 (-1) 0 3 0 (-3) 0);
(1%nat, M3 1 (-3) 1 (-1) (-3) (-1) 1 0 (-2));
(1%nat, M3 1 (-3) (-1) (-1) (-3) 1 (-1) 0 (-2));
(3%nat, M3 1 0 0 0 0 (-6) 0 4 0);
(3%nat, M3 1 (-2) 0 0 0 (-6) 1 2 0);
(4%nat, M3 2 1 0 0 0 (-6) 0 2 0);
(3%nat, M3 1 (-2) 0 0 0 6 (-1) (-2) 0);
(3%nat, M3 1 0 3 1 0 (-3) 0 4 0);
(0%nat, M3 1 (-1) 3 1 (-1) (-3) 1 3 (-1));
(5%nat, M3 (-2) 1 (-3) 4 1 3 0 (-2) (-2));
(0%nat, M3 1 (-1) (-3) 1 (-1) 3 (-1) (-3) (-1));
(1%nat, M3 (-1) 0 2 (-2) 0 (-2) 0 (-4) 0);
(0%nat, M3 (-1) 3 2 (-2) 0 (-2) (-1) (-1) 2);
(2%nat, M3 2 1 (-2) 4 2 2 0 (-2) 0);
(0%nat, M3 (-1) (-3) 2 (-2) 0 (-2) 1 (-1) (-2));
(4%nat, M3 (-2) (-1) 0 0 (-3) 0 0 0 4);
(4%nat, M3 2 1 (-2) 0 3 0 2 1 2);
(6%nat, M3 (-2) 0 (-1) 0 6 3 0 0 (-2));
(4%nat, M3 2 1 2 0 3 0 (-2) (-1) 2);
(1%nat, M3 (-1) 0 2 2 0 2 0 4 0);
(0%nat, M3 (-1) 3 (-2) 2 0 (-2) (-1) (-1) (-2));
(2%nat, M3 (-2) (-1) 2 4 2 2 0 2 0);
(0%nat, M3 (-1) 3 2 2 0 2 1 1 (-2));
(3%nat, M3 1 0 3 (-1) 0 3 0 (-4) 0);
(0%nat, M3 1 1 3 (-1) (-1) 3 1 (-3) (-1));
(5%nat, M3 1 4 3 (-1) 2 3 2 0 2);
(0%nat, M3 1 (-1) 3 (-1) 1 3 (-1) (-3) 1);
(4%nat, M3 0 0 (-1) 0 6 0 4 2 0);
(4%nat, M3 (-2) (-1) (-1) 0 6 0 2 1 (-1));
(5%nat, M3 1 1 0 (-6) 0 (-6) 0 2 2);
(4%nat, M3 (-2) (-1) 1 0 6 0 (-2) (-1) (-1));
(4%nat, M3 0 3 1 0 (-3) 1 4 2 0);
(0%nat, M3 1 (-1) 3 1 (-1) (-3) 1 3 1);
(4%nat, M3 0 (-1) 3 0 (-1) (-3) 4 2 0);
(0%nat, M3 1 (-1) (-3) 1 (-1) 3 (-1) (-3) 1);
(2%nat, M3 4 2 1 (-4) (-2) 2 0 (-2) 0);
(0%nat, M3 (-1) 2 (-1) (-2) (-2) (-2) (-1) 0 3);
(2%nat, M3 (-2) (-1) (-3) (-4) (-2) 0 0 2 0);
(0%nat, M3 (-1) (-2) (-1) (-2) 2 (-2) 1 0 (-3));
(2%nat, M3 4 2 1 0 0 3 0 (-2) 0);
(2%nat, M3 0 1 0 6 3 0 2 1 (-4));
(2%nat, M3 4 2 (-1) 0 0 3 0 (-2) 0);
(2%nat, M3 0 1 0 6 3 0 (-2) (-1) (-4));
(2%nat, M3 (-2) (-1) 3 4 2 0 0 2 0);
(0%nat, M3 (-1) 2 (-1) 2 2 2 1 0 (-3));
(2%nat, M3 4 2 1 4 2 (-2) 0 2 0);
(0%nat, M3 (-1) 2 1 2 2 (-2) (-1) 0 (-3));
(4%nat, M3 2 1 3 (-2) (-1) 3 0 (-2) 0);
(0%nat, M3 1 (-1) 3 (-1) 1 3 (-1) (-3) (-1));
(4%nat, M3 0 3 1 0 3 (-1) (-4) (-2) 0);
(0%nat, M3 1 1 3 (-1) (-1) 3 1 (-3) 1);
(7%nat, M3 0 0 1 (-6) 0 0 0 (-6) 0);
(3%nat, M3 1 (-3) 0 0 0 (-6) 1 3 0);
(1%nat, M3 1 0 (-2) 0 6 0 2 0 2);
(4%nat, M3 2 1 0 0 0 (-6) 0 3 0);
(1%nat, M3 1 0 (-2) 0 (-6) 0 (-2) 0 (-2));
(3%nat, M3 1 (-3) 0 0 0 6 (-1) (-3) 0);
(3%nat, M3 (-1) 3 0 (-1) (-3) 0 0 0 6);
(9%nat, M3 (-2) (-2) (-1) (-2) 4 (-1) 4 (-2) (-1));
(1%nat, M3 1 (-3) (-2) 1 3 (-2) 2 0 2);
(5%nat, M3 3 2 (-1) (-3) (-4) (-1) (-3) 0 (-3));
(1%nat, M3 1 3 (-2) 1 (-3) (-2) (-2) 0 (-2));
(9%nat, M3 (-2) 4 1 4 (-2) 1 2 2 (-1));
(1%nat, M3 (-1) 0 2 (-2) 0 (-2) 0 (-6) 0);
(1%nat, M3 (-1) 3 2 (-2) 0 (-2) (-1) (-3) 2);
(2%nat, M3 (-2) (-1) 3 2 (-2) 0 2 4 0);
(2%nat, M3 (-2) (-1) (-2) (-4) (-2) 2 0 3 0);
(2%nat, M3 2 1 (-3) (-2) 2 0 2 4 0);
(1%nat, M3 (-1) 3 (-2) (-2) 0 2 1 3 2);
(4%nat, M3 (-2) (-1) 0 0 (-3) 0 0 0 6);
(5%nat, M3 (-3) (-2) 1 3 0 3 3 4 1);
(2%nat, M3 (-2) (-1) 2 0 3 0 (-4) (-2) (-2));
(8%nat, M3 0 0 1 6 0 3 0 6 3);
(2%nat, M3 2 1 (-2) 0 (-3) 0 (-4) (-2) (-2));
(5%nat, M3 1 3 4 3 3 0 (-1) 3 2);
(1%nat, M3 (-1) 0 2 2 0 2 0 6 0);
(1%nat, M3 (-1) (-3) 2 2 0 2 (-1) 3 2);
(2%nat, M3 (-2) (-1) 1 (-2) (-4) (-2) 2 (-2) 2);
(2%nat, M3 (-2) (-1) 2 4 2 2 0 3 0);
(2%nat, M3 (-2) (-1) (-3) (-2) (-4) 0 (-2) 2 0);
(1%nat, M3 (-1) (-3) (-2) 2 0 (-2) 1 (-3) 2);
(3%nat, M3 (-1) 3 0 1 3 0 0 0 (-6));
(9%nat, M3 2 (-4) (-1) (-2) (-2) 1 (-4) 2 (-1));
(1%nat, M3 1 (-3) 2 (-1) (-3) (-2) 2 0 (-2));
(5%nat, M3 3 4 1 3 2 (-1) (-3) 0 (-3));
(1%nat, M3 1 3 2 (-1) 3 (-2) (-2) 0 2);
(9%nat, M3 2 2 (-1) (-2) 4 1 4 (-2) 1);
(4%nat, M3 0 0 (-1) 0 6 0 6 3 0);
(6%nat, M3 3 1 2 0 0 (-6) (-3) 1 (-1));
(2%nat, M3 (-2) (-1) (-1) 0 6 0 2 1 (-2));
(5%nat, M3 1 1 0 (-6) 0 (-6) 0 3 3);
(2%nat, M3 (-2) (-1) 1 0 6 0 (-2) (-1) (-2));
(6%nat, M3 1 3 2 0 0 (-6) (-1) 3 1);
(4%nat, M3 6 3 1 (-6) (-3) 1 0 (-3) 0);
(1%nat, M3 (-1) 3 (-2) (-1) (-3) (-2) (-1) 0 4);
(2%nat, M3 (-2) 2 1 (-2) (-4) 1 2 1 2);
(4%nat, M3 2 1 3 2 1 (-3) 0 3 0);
(2%nat, M3 (-2) 2 (-1) (-2) (-4) (-1) (-2) (-1) 2);
(1%nat, M3 (-1) (-3) (-2) (-1) 3 (-2) 1 0 (-4));
(2%nat, M3 4 2 1 (-4) (-2) 2 0 (-3) 0);
(0%nat, M3 (-1) 3 (-1) (-2) 0 (-2) (-1) 0 5);
(2%nat, M3 1 2 (-3) (-4) (-2) 0 (-1) 1 3);
(2%nat, M3 2 1 (-3) 4 2 0 0 (-3) 0);
(2%nat, M3 1 (-1) (-3) (-4) (-2) 0 1 2 (-3));
(0%nat, M3 (-1) (-3) (-1) (-2) 0 (-2) 1 0 (-5));
(2%nat, M3 4 2 1 0 0 3 0 (-3) 0);
(0%nat, M3 (-2) 1 (-1) 0 3 3 1 1 (-4));
(0%nat, M3 (-2) (-1) 1 0 3 3 (-1) 1 (-4));
(2%nat, M3 4 2 1 0 0 (-3) 0 3 0);
(0%nat, M3 2 (-1) 1 0 3 3 (-1) (-1) 4);
(0%nat, M3 2 1 (-1) 0 3 3 1 (-1) 4);
(2%nat, M3 (-2) (-1) 3 4 2 0 0 3 0);
(2%nat, M3 (-1) 1 3 (-4) (-2) 0 (-1) (-2) 3);
(0%nat, M3 (-1) 3 (-1) 2 0 2 1 0 (-5));
(2%nat, M3 4 2 1 4 2 (-2) 0 3 0);
(0%nat, M3 1 2 (-1) (-2) 2 2 1 (-1) 5);
(2%nat, M3 1 2 3 4 2 0 (-1) 1 (-3));
(4%nat, M3 (-2) (-1) (-3) 2 1 (-3) 0 (-3) 0);
(2%nat, M3 (-2) 2 1 2 4 (-1) (-2) (-1) (-2));
(1%nat, M3 (-1) 3 (-2) 1 3 2 1 0 (-4));
(4%nat, M3 0 (-3) (-1) 0 (-3) 1 (-6) (-3) 0);
(1%nat, M3 (-1) 3 2 1 3 (-2) (-1) 0 (-4));
(2%nat, M3 (-2) 2 (-1) 2 4 1 2 1 (-2));
(3%nat, M3 (-1) 0 0 0 (-6) 0 0 0 12);
(3%nat, M3 (-1) 0 (-6) 0 (-6) 0 (-1) 0 6);
(1%nat, M3 1 0 (-5) 0 6 0 2 0 2);
(1%nat, M3 1 0 (-4) 0 6 0 3 0 0);
(1%nat, M3 3 0 (-1) 0 (-6) 0 0 0 (-4));
(3%nat, M3 2 (-3) 0 0 0 6 (-2) (-3) 0);
(4%nat, M3 (-2) (-1) 0 0 0 (-6) 0 (-6) 0);
(3%nat, M3 2 3 0 0 0 6 2 (-3) 0);
(1%nat, M3 3 0 (-1) 0 6 0 0 0 4);
(1%nat, M3 1 0 (-4) 0 (-6) 0 (-3) 0 0);
(1%nat, M3 1 0 (-5) 0 (-6) 0 (-2) 0 (-2));
(3%nat, M3 (-1) 0 (-6) 0 6 0 1 0 (-6));
(3%nat, M3 (-1) 3 0 (-1) (-3) 0 0 0 12);
(1%nat, M3 (-1) 6 2 (-1) 0 (-4) (-1) (-6) 2);
(2%nat, M3 (-4) 1 1 (-4) (-5) 1 4 2 2);
(0%nat, M3 (-1) 4 (-3) (-1) (-2) (-3) (-3) 0 3);
(1%nat, M3 1 (-3) (-3) 1 3 (-3) 4 0 0);
(2%nat, M3 (-4) 1 (-2) 2 1 4 4 5 2);
(5%nat, M3 (-3) 1 (-2) 3 1 4 6 6 0);
(2%nat, M3 (-4) 1 2 2 1 (-4) (-4) (-5) 2);
(1%nat, M3 1 (-3) 3 1 3 3 (-4) 0 0);
(0%nat, M3 1 (-4) 3 1 2 3 (-3) 0 3);
(2%nat, M3 (-4) 1 (-1) (-4) (-5) (-1) (-4) (-2) 2);
(1%nat, M3 (-1) 6 (-2) (-1) 0 4 1 6 2);
(1%nat, M3 (-1) 0 2 (-2) 0 (-2) 0 (-12) 0);
(1%nat, M3 (-1) 6 2 (-2) 0 (-2) (-1) (-6) 2);
(0%nat, M3 (-1) 1 (-5) (-2) (-4) 2 (-2) 2 2);
(0%nat, M3 1 (-3) 1 2 0 (-4) 3 3 3);
(0%nat, M3 3 (-1) (-1) 0 (-2) 4 0 (-4) (-4));
(1%nat, M3 2 (-3) 2 (-2) 0 4 (-2) (-3) (-2));
(2%nat, M3 2 1 4 4 2 2 0 6 0);
(1%nat, M3 2 3 2 (-2) 0 4 2 (-3) 2);
(0%nat, M3 3 (-1) 1 0 (-2) (-4) 0 4 (-4));
(0%nat, M3 1 (-3) (-1) 2 0 4 (-3) (-3) 3);
(0%nat, M3 (-1) (-1) (-5) (-2) 4 2 2 2 (-2));
(1%nat, M3 (-1) 6 (-2) (-2) 0 2 1 6 2);
(4%nat, M3 (-2) (-1) 0 0 (-3) 0 0 0 12);
(4%nat, M3 (-2) (-1) (-6) 0 (-3) 0 (-2) (-1) 6);
(2%nat, M3 (-2) (-1) 4 0 3 0 (-4) (-2) (-4));
(2%nat, M3 2 1 4 0 (-3) 0 6 3 0);
(2%nat, M3 (-6) (-3) 2 0 3 0 0 0 (-4));
(4%nat, M3 0 3 2 6 3 0 0 3 (-2));
(6%nat, M3 0 (-2) (-1) (-6) 0 (-3) 0 0 (-6));
(4%nat, M3 6 3 (-2) 0 (-3) 0 (-6) (-3) (-2));
(2%nat, M3 6 3 (-2) 0 (-3) 0 0 0 (-4));
(2%nat, M3 (-2) (-1) (-4) 0 3 0 6 3 0);
(2%nat, M3 (-2) (-1) (-4) 0 3 0 4 2 (-4));
(4%nat, M3 2 1 6 0 3 0 (-2) (-1) 6);
(1%nat, M3 (-1) 0 2 2 0 2 0 12 0);
(1%nat, M3 (-1) (-6) 2 2 0 2 (-1) 6 2);
(0%nat, M3 (-1) 1 5 2 4 2 (-2) 2 (-2));
(0%nat, M3 1 3 1 (-2) 0 4 3 (-3) 3);
(0%nat, M3 (-3) (-1) (-1) 0 2 (-4) 0 (-4) (-4));
(1%nat, M3 2 (-3) (-2) 2 0 4 (-2) (-3) 2);
(2%nat, M3 (-2) (-1) (-2) 4 2 (-2) 0 (-6) 0);
(1%nat, M3 2 3 (-2) 2 0 4 2 (-3) (-2));
(0%nat, M3 3 (-1) (-1) 0 2 (-4) 0 4 4);
(0%nat, M3 1 (-3) 1 (-2) 0 4 (-3) (-3) (-3));
(0%nat, M3 (-1) 1 (-5) 2 4 (-2) 2 (-2) (-2));
(1%nat, M3 (-1) 6 2 2 0 2 1 6 (-2));
(3%nat, M3 (-1) 3 0 1 3 0 0 0 (-12));
(1%nat, M3 (-1) (-6) 2 1 0 4 (-1) 6 2);
(2%nat, M3 (-4) (-5) 1 4 (-1) (-1) 4 2 2);
(0%nat, M3 1 4 (-3) (-1) 2 3 3 0 3);
(1%nat, M3 (-1) 3 3 1 3 (-3) (-4) 0 0);
(2%nat, M3 (-4) (-5) (-2) (-2) (-1) (-4) 4 (-1) 2);
(5%nat, M3 3 1 4 3 (-1) 2 6 6 0);
(2%nat, M3 (-4) 1 (-2) (-2) (-1) (-4) (-4) (-5) (-2));
(1%nat, M3 1 (-3) (-3) (-1) (-3) 3 (-4) 0 0);
(0%nat, M3 1 (-4) (-3) (-1) (-2) 3 (-3) 0 (-3));
(2%nat, M3 (-4) 1 1 4 5 (-1) (-4) (-2) (-2));
(1%nat, M3 (-1) (-6) (-2) 1 0 (-4) 1 (-6) 2);
(7%nat, M3 0 0 1 (-6) 6 0 (-6) (-6) 0);
(4%nat, M3 (-6) (-3) (-1) 0 6 0 6 3 (-1));
(2%nat, M3 4 2 5 0 6 0 (-4) (-2) (-2));
(2%nat, M3 (-4) (-2) (-1) 0 6 0 0 0 (-3));
(2%nat, M3 2 1 1 0 6 0 (-4) (-2) 4);
(4%nat, M3 2 1 3 0 6 0 (-2) (-1) 3);
(8%nat, M3 0 0 1 6 (-6) 0 6 6 6);
(4%nat, M3 2 1 (-3) 0 6 0 2 1 3);
(2%nat, M3 2 1 (-1) 0 6 0 4 2 4);
(2%nat, M3 (-4) (-2) 1 0 6 0 0 0 (-3));
(2%nat, M3 (-4) (-2) 5 0 6 0 (-4) (-2) 2);
(4%nat, M3 (-6) (-3) (-1) 0 (-6) 0 (-6) (-3) 1);
(4%nat, M3 0 (-3) (-1) 0 3 (-1) 12 6 0);
(1%nat, M3 (-1) 0 4 (-1) 6 (-2) (-1) (-6) (-2));
(1%nat, M3 (-1) 3 (-4) (-1) (-3) (-4) (-2) 0 4);
(0%nat, M3 (-1) 2 (-3) (-1) (-4) (-3) (-3) 0 3);
(2%nat, M3 (-2) 2 3 (-2) (-4) 3 4 2 0);
(2%nat, M3 2 1 (-4) (-4) 1 2 4 5 (-2));
(4%nat, M3 (-2) (-1) 3 (-2) (-1) (-3) 0 (-6) 0);
(2%nat, M3 (-6) (-3) 4 0 3 (-2) 0 (-3) (-2));
(2%nat, M3 (-2) 2 (-3) (-2) (-4) (-3) (-4) (-2) 0);
(0%nat, M3 1 (-2) 3 1 4 3 (-3) 0 3);
(1%nat, M3 1 (-3) 4 1 3 4 (-2) 0 4);
(1%nat, M3 1 0 (-4) 1 (-6) 2 (-1) (-6) (-2));
(2%nat, M3 4 2 (-5) (-4) (-2) 2 0 6 0);
(1%nat, M3 (-1) 3 4 (-2) 0 (-4) (-1) (-3) 4);
(1%nat, M3 (-1) 0 3 (-2) 6 0 (-2) (-6) 0);
(0%nat, M3 (-2) 1 5 2 2 4 0 3 (-3));
(2%nat, M3 (-2) (-1) (-4) 2 (-2) (-2) (-2) (-4) 2);
(2%nat, M3 (-2) (-4) 1 (-4) (-2) (-4) 2 (-2) (-1));
(2%nat, M3 (-2) (-1) 1 (-4) (-2) (-4) 0 (-6) 0);
(2%nat, M3 (-2) 2 1 (-4) (-2) (-4) (-2) (-4) 1);
(2%nat, M3 (-2) (-1) 4 2 (-2) 2 2 4 2);
(0%nat, M3 2 1 5 (-2) 2 4 0 (-3) 3);
(1%nat, M3 1 0 (-3) 2 (-6) 0 (-2) (-6) 0);
(1%nat, M3 1 (-3) (-4) 2 0 4 (-1) (-3) 4);
(2%nat, M3 4 2 1 0 0 3 0 (-6) 0);
(0%nat, M3 (-1) 2 3 (-3) 0 (-3) (-1) (-4) 3);
(0%nat, M3 (-2) 1 (-5) 0 3 3 2 2 (-4));
(4%nat, M3 (-2) (-1) 0 0 (-3) (-6) 0 (-3) 6);
(0%nat, M3 (-2) (-1) 5 0 3 3 (-2) 2 (-4));
(0%nat, M3 (-1) 2 3 3 0 3 1 4 (-3));
(2%nat, M3 4 2 1 0 0 (-3) 0 6 0);
(0%nat, M3 1 2 3 (-3) 0 3 1 (-4) 3);
(0%nat, M3 2 (-1) 5 0 3 3 (-2) (-2) 4);
(4%nat, M3 2 1 0 0 (-3) (-6) 0 3 (-6));
(0%nat, M3 2 1 (-5) 0 3 3 2 (-2) 4);
(0%nat, M3 1 (-2) (-3) 3 0 3 (-1) (-4) 3);
(2%nat, M3 (-2) (-1) 1 4 2 4 0 6 0);
(2%nat, M3 (-2) 2 (-3) 4 2 0 (-2) (-4) (-3));
(2%nat, M3 (-2) (-1) 4 (-2) (-4) (-2) 2 (-2) 2);
(0%nat, M3 (-2) (-1) (-5) (-2) 2 4 0 3 (-3));
(1%nat, M3 (-1) 0 3 2 (-6) 0 2 6 0);
(1%nat, M3 (-1) 3 4 2 0 4 1 3 (-4));
(2%nat, M3 4 2 (-5) 4 2 (-2) 0 (-6) 0);
(1%nat, M3 1 3 4 (-2) 0 4 1 (-3) 4);
(1%nat, M3 3 0 (-1) 0 (-6) 2 0 (-6) (-2));
(0%nat, M3 2 (-1) (-5) 2 2 4 0 (-3) 3);
(2%nat, M3 2 1 4 2 (-2) (-2) 2 4 (-2));
(2%nat, M3 (-2) 2 3 4 2 0 2 4 (-3));
(4%nat, M3 (-2) (-1) 3 2 1 3 0 6 0);
(2%nat, M3 (-2) (-1) 4 (-4) (-5) 2 4 (-1) (-2));
(2%nat, M3 2 (-2) 1 (-2) (-4) (-1) 4 2 (-4));
(0%nat, M3 (-1) 2 (-3) 1 4 3 3 0 (-3));
(1%nat, M3 (-1) 3 (-4) 1 3 4 2 0 (-4));
(1%nat, M3 (-1) 0 4 1 (-6) 2 1 6 2);
(4%nat, M3 0 (-3) (-1) 0 (-3) 1 (-12) (-6) 0);
(1%nat, M3 1 0 (-4) (-1) 6 (-2) 1 6 2);
(1%nat, M3 1 (-3) 4 (-1) (-3) (-4) 2 0 (-4));
(0%nat, M3 1 (-2) 3 (-1) (-4) (-3) 3 0 (-3));
(2%nat, M3 2 4 1 (-2) 2 (-1) (-4) (-2) 4);
(2%nat, M3 2 1 4 4 (-1) 2 4 5 2);
(7%nat, M3 1 0 0 0 0 (-12) 0 1 0);
(3%nat, M3 0 (-1) (-6) 0 (-1) 6 (-1) 0 0);
(1%nat, M3 (-1) 0 5 (-2) 0 (-2) 0 (-1) 0);
(1%nat, M3 (-1) 0 4 (-3) 0 0 0 (-1) 0);
(1%nat, M3 (-3) 0 1 0 0 4 0 1 0);
(3%nat, M3 0 (-2) (-3) 0 2 (-3) 1 0 0);
(4%nat, M3 (-2) (-1) 0 0 (-6) 0 0 0 1);
(3%nat, M3 0 (-2) 3 0 (-2) (-3) 1 0 0);
(1%nat, M3 (-3) 0 1 0 0 (-4) 0 (-1) 0);
(1%nat, M3 (-1) 0 4 3 0 0 0 1 0);
(1%nat, M3 (-1) 0 5 2 0 2 0 1 0);
(3%nat, M3 0 (-1) (-6) 0 1 (-6) 1 0 0);
(3%nat, M3 1 0 0 0 0 (-12) 0 2 0);
(7%nat, M3 1 (-1) 0 0 0 (-12) 1 1 0);
(3%nat, M3 1 0 6 1 0 (-6) 0 2 0);
(4%nat, M3 0 (-1) 6 0 (-1) (-6) 2 1 0);
(1%nat, M3 (-1) 0 5 (-2) 0 (-2) 0 (-2) 0);
(2%nat, M3 (-2) (-1) 4 (-4) (-2) (-4) 0 (-1) 0);
(1%nat, M3 (-1) 0 4 (-3) 0 0 0 (-2) 0);
(2%nat, M3 (-2) (-1) 4 (-6) (-3) 0 0 (-1) 0);
(1%nat, M3 (-3) 0 1 0 0 4 0 2 0);
(2%nat, M3 6 3 2 0 0 (-4) 0 1 0);
(3%nat, M3 0 (-2) (-3) 0 2 (-3) 2 0 0);
(4%nat, M3 0 (-3) 2 0 (-3) (-2) 2 1 0);
(4%nat, M3 (-2) (-1) 0 0 (-6) 0 0 0 2);
(8%nat, M3 0 2 1 0 0 6 2 0 1);
(3%nat, M3 0 (-2) 3 0 (-2) (-3) 2 0 0);
(4%nat, M3 0 3 2 0 (-3) 2 2 1 0);
(1%nat, M3 (-3) 0 1 0 0 (-4) 0 (-2) 0);
(2%nat, M3 (-6) (-3) (-4) 0 0 4 0 1 0);
(1%nat, M3 (-1) 0 4 3 0 0 0 2 0);
(2%nat, M3 (-2) (-1) (-4) 6 3 0 0 (-1) 0);
(1%nat, M3 (-1) 0 5 2 0 2 0 2 0);
(2%nat, M3 (-2) (-1) (-6) 4 2 0 0 (-1) 0);
(3%nat, M3 1 0 6 (-1) 0 6 0 (-2) 0);
(4%nat, M3 2 1 6 (-2) (-1) 6 0 (-1) 0);
(3%nat, M3 1 0 0 0 0 (-12) 0 3 0);
(4%nat, M3 1 2 0 0 0 12 1 (-1) 0);
(4%nat, M3 1 (-1) 0 0 0 12 (-1) (-2) 0);
(3%nat, M3 1 0 6 1 0 (-6) 0 3 0);
(1%nat, M3 1 (-6) (-1) 1 6 (-1) 1 0 2);
(1%nat, M3 1 6 (-1) 1 (-6) (-1) (-1) 0 (-2));
(1%nat, M3 1 0 5 2 0 (-2) 0 3 0);
(0%nat, M3 1 0 5 2 0 (-2) 1 3 (-1));
(0%nat, M3 1 (-1) (-5) 2 (-2) 2 (-1) (-2) (-1));
(1%nat, M3 (-1) 0 4 (-3) 0 0 0 (-3) 0);
(0%nat, M3 0 (-1) (-4) 0 (-3) 0 (-3) (-1) (-1));
(0%nat, M3 0 (-1) (-4) 0 (-3) 0 (-3) 1 1);
(1%nat, M3 (-3) 0 1 0 0 4 0 3 0);
(2%nat, M3 3 3 1 0 0 4 3 0 1);
(2%nat, M3 (-3) (-3) (-1) 0 0 (-4) 3 0 1);
(3%nat, M3 2 0 3 (-2) 0 3 0 (-3) 0);
(1%nat, M3 0 3 (-2) 0 3 2 3 0 1);
(1%nat, M3 0 3 (-2) 0 3 2 3 0 (-1));
(4%nat, M3 2 1 0 0 6 0 0 0 3);
(2%nat, M3 (-2) (-1) (-2) 0 (-6) 0 (-2) (-1) 1);
(2%nat, M3 2 1 2 0 6 0 (-2) (-1) 1);
(3%nat, M3 2 0 (-3) 2 0 3 0 (-3) 0);
(1%nat, M3 0 (-3) (-2) 0 3 (-2) 3 0 1);
(1%nat, M3 0 (-3) (-2) 0 3 (-2) 3 0 (-1));
(1%nat, M3 (-3) 0 1 0 0 (-4) 0 (-3) 0);
(2%nat, M3 (-3) (-3) (-1) 0 0 4 (-3) 0 (-1));
(2%nat, M3 3 3 1 0 0 (-4) (-3) 0 (-1));
(1%nat, M3 (-1) 0 4 3 0 0 0 3 0);
(0%nat, M3 0 (-1) (-4) 0 3 0 3 (-1) (-1));
(0%nat, M3 0 (-1) (-4) 0 3 0 3 1 1);
(1%nat, M3 1 0 5 (-2) 0 2 0 (-3) 0);
(0%nat, M3 1 0 5 (-2) 0 2 1 (-3) (-1));
(0%nat, M3 1 0 5 (-2) 0 2 (-1) (-3) 1);
(3%nat, M3 1 0 6 (-1) 0 6 0 (-3) 0);
(1%nat, M3 1 (-6) 1 (-1) (-6) (-1) 1 0 (-2));
(1%nat, M3 1 (-6) (-1) (-1) (-6) 1 (-1) 0 (-2));
(3%nat, M3 1 0 0 0 0 (-12) 0 4 0);
(3%nat, M3 1 (-2) 0 0 0 (-12) 1 2 0);
(4%nat, M3 2 1 0 0 0 (-12) 0 2 0);
(3%nat, M3 1 (-2) 0 0 0 12 (-1) (-2) 0);
(3%nat, M3 1 0 6 1 0 (-6) 0 4 0);
(2%nat, M3 2 (-5) (-1) 2 7 (-1) (-2) (-1) 3);
(4%nat, M3 0 (-1) 6 0 (-1) (-6) 4 2 0);
(2%nat, M3 2 (-5) 1 2 7 1 2 1 3);
(1%nat, M3 1 0 5 2 0 (-2) 0 4 0);
(0%nat, M3 1 (-1) 5 2 (-2) (-2) 1 3 1);
(2%nat, M3 2 1 (-4) 4 2 4 0 (-2) 0);
(0%nat, M3 1 (-1) (-5) 2 (-2) 2 (-1) (-3) 1);
(1%nat, M3 1 0 4 3 0 0 0 4 0);
(2%nat, M3 4 4 1 0 0 3 4 0 1);
(2%nat, M3 2 1 (-4) 6 3 0 0 (-2) 0);
(2%nat, M3 (-4) (-4) (-1) 0 0 (-3) 4 0 1);
(1%nat, M3 3 0 1 0 0 4 0 (-4) 0);
(0%nat, M3 3 0 1 0 0 4 (-1) (-4) 1);
(2%nat, M3 6 3 (-2) 0 0 4 0 (-2) 0);
(0%nat, M3 3 0 1 0 0 4 1 (-4) (-1));
(3%nat, M3 2 0 3 (-2) 0 3 0 (-4) 0);
(2%nat, M3 0 (-2) (-3) 0 2 (-3) 4 2 1);
(4%nat, M3 0 3 2 0 3 (-2) (-4) (-2) 0);
(2%nat, M3 0 (-2) (-3) 0 2 (-3) 4 2 (-1));
(4%nat, M3 2 1 0 0 6 0 0 0 4);
(4%nat, M3 2 1 (-2) 0 6 0 2 1 2);
(6%nat, M3 0 2 1 0 0 6 4 0 2);
(4%nat, M3 2 1 2 0 6 0 (-2) (-1) 2);
(3%nat, M3 2 0 (-3) 2 0 3 0 (-4) 0);
(2%nat, M3 0 (-2) 3 0 (-2) (-3) 4 2 (-1));
(4%nat, M3 0 (-3) 2 0 3 2 (-4) (-2) 0);
(2%nat, M3 0 (-2) 3 0 (-2) (-3) 4 2 1);
(1%nat, M3 3 0 1 0 0 (-4) 0 4 0);
(0%nat, M3 3 0 1 0 0 (-4) (-1) 4 1);
(2%nat, M3 (-6) (-3) 2 0 0 4 0 2 0);
(0%nat, M3 3 0 1 0 0 (-4) 1 4 (-1));
(1%nat, M3 1 0 4 (-3) 0 0 0 (-4) 0);
(2%nat, M3 (-4) (-4) (-1) 0 0 3 (-4) 0 (-1));
(2%nat, M3 2 1 4 (-6) (-3) 0 0 (-2) 0);
(2%nat, M3 4 4 1 0 0 (-3) (-4) 0 (-1));
(1%nat, M3 1 0 5 (-2) 0 2 0 (-4) 0);
(0%nat, M3 1 1 5 (-2) (-2) 2 1 (-3) 1);
(2%nat, M3 2 1 4 (-4) (-2) 4 0 (-2) 0);
(0%nat, M3 1 (-1) 5 (-2) 2 2 (-1) (-3) (-1));
(3%nat, M3 1 0 6 (-1) 0 6 0 (-4) 0);
(2%nat, M3 2 7 (-1) (-2) 5 1 (-2) (-1) 3);
(4%nat, M3 2 1 6 (-2) (-1) 6 0 (-2) 0);
(2%nat, M3 2 7 1 (-2) 5 (-1) 2 1 3);
(3%nat, M3 1 0 0 0 0 (-12) 0 6 0);
(3%nat, M3 1 (-3) 0 0 0 (-12) 1 3 0);
(1%nat, M3 1 0 (-2) 0 12 0 2 0 2);
(4%nat, M3 2 1 0 0 0 (-12) 0 3 0);
(1%nat, M3 1 0 (-2) 0 (-12) 0 (-2) 0 (-2));
(3%nat, M3 1 (-3) 0 0 0 12 (-1) (-3) 0);
(3%nat, M3 1 0 6 1 0 (-6) 0 6 0);
(1%nat, M3 1 (-6) (-2) 1 6 (-2) 1 0 4);
(1%nat, M3 1 (-6) (-2) 1 6 (-2) 2 0 2);
(4%nat, M3 2 1 6 2 1 (-6) 0 3 0);
(1%nat, M3 1 6 (-2) 1 (-6) (-2) (-2) 0 (-2));
(1%nat, M3 1 6 (-2) 1 (-6) (-2) (-1) 0 (-4));
(1%nat, M3 (-1) 0 5 (-2) 0 (-2) 0 (-6) 0);
(2%nat, M3 4 (-1) (-1) (-4) (-2) (-2) 4 5 (-1));
(0%nat, M3 1 (-1) 5 2 (-2) (-2) 2 4 (-2));
(2%nat, M3 2 1 (-4) 4 2 4 0 (-3) 0);
(0%nat, M3 1 (-1) (-5) 2 (-2) 2 (-2) (-4) (-2));
(2%nat, M3 4 5 (-1) (-4) (-2) (-2) (-4) 1 1);
(1%nat, M3 (-1) 0 4 (-3) 0 0 0 (-6) 0);
(0%nat, M3 1 (-4) 3 3 0 (-3) 1 2 3);
(0%nat, M3 (-1) 3 (-1) (-3) (-3) (-3) (-2) 0 4);
(2%nat, M3 (-2) (-1) (-4) (-6) (-3) 0 0 3 0);
(0%nat, M3 (-1) (-3) (-1) (-3) 3 (-3) 2 0 (-4));
(0%nat, M3 (-1) (-4) 3 (-3) 0 (-3) 1 (-2) (-3));
(1%nat, M3 (-3) 0 1 0 0 4 0 6 0);
(1%nat, M3 (-1) 3 3 (-4) 0 0 (-1) (-3) 3);
(0%nat, M3 (-3) 1 1 0 4 4 0 2 (-4));
(2%nat, M3 6 3 (-2) 0 0 4 0 (-3) 0);
(0%nat, M3 3 1 1 0 4 4 0 (-2) 4);
(1%nat, M3 1 (-3) (-3) 4 0 0 (-1) (-3) 3);
(3%nat, M3 (-2) 3 0 2 3 0 0 0 (-6));
(2%nat, M3 4 (-1) 2 (-4) (-5) (-2) (-2) (-1) (-4));
(1%nat, M3 (-2) 3 (-2) 2 3 2 2 0 (-4));
(4%nat, M3 0 (-3) (-2) 0 (-3) 2 (-6) (-3) 0);
(1%nat, M3 (-2) 3 2 2 3 (-2) (-2) 0 (-4));
(2%nat, M3 4 5 2 (-4) 1 (-2) 2 1 4);
(4%nat, M3 2 1 0 0 6 0 0 0 6);
(5%nat, M3 3 (-1) 2 (-6) (-6) 0 (-3) (-1) (-4));
(2%nat, M3 (-2) (-1) (-4) 0 (-6) 0 (-4) (-2) (-2));
(6%nat, M3 0 2 1 0 0 6 6 0 3);
(2%nat, M3 2 1 2 0 6 0 (-4) (-2) 2);
(5%nat, M3 (-3) (-1) (-4) (-6) (-6) 0 (-3) 1 (-2));
(3%nat, M3 (-2) (-3) 0 (-2) 3 0 0 0 (-6));
(2%nat, M3 4 (-1) (-2) 4 5 (-2) (-2) (-1) 4);
(1%nat, M3 (-2) (-3) (-2) (-2) 3 (-2) 2 0 (-4));
(4%nat, M3 (-6) (-3) 2 6 3 2 0 3 0);
(1%nat, M3 (-2) (-3) 2 (-2) 3 2 (-2) 0 (-4));
(2%nat, M3 4 (-1) 2 4 5 2 2 1 4);
(1%nat, M3 (-3) 0 1 0 0 (-4) 0 (-6) 0);
(1%nat, M3 (-1) 3 (-3) 4 0 0 (-1) (-3) (-3));
(0%nat, M3 (-3) 1 (-1) 0 (-4) 4 0 2 4);
(2%nat, M3 (-6) (-3) 2 0 0 4 0 3 0);
(0%nat, M3 (-3) 1 1 0 (-4) (-4) 0 (-2) 4);
(1%nat, M3 (-1) 3 3 4 0 0 1 3 (-3));
(1%nat, M3 (-1) 0 4 3 0 0 0 6 0);
(0%nat, M3 (-1) 4 (-3) 3 0 (-3) (-1) (-2) (-3));
(0%nat, M3 (-1) 3 1 3 3 (-3) (-2) 0 (-4));
(2%nat, M3 2 1 4 (-6) (-3) 0 0 (-3) 0);
(0%nat, M3 (-1) 3 (-1) 3 3 3 2 0 (-4));
(0%nat, M3 (-1) 4 3 3 0 3 1 2 (-3));
(1%nat, M3 (-1) 0 5 2 0 2 0 6 0);
(2%nat, M3 4 (-1) 1 4 2 (-2) 4 5 1);
(0%nat, M3 1 1 5 (-2) (-2) 2 2 (-4) (-2));
(2%nat, M3 2 1 4 (-4) (-2) 4 0 (-3) 0);
(0%nat, M3 1 (-1) 5 (-2) 2 2 (-2) (-4) 2);
(2%nat, M3 4 (-1) (-1) 4 2 2 (-4) (-5) 1);
(3%nat, M3 1 0 6 (-1) 0 6 0 (-6) 0);
(1%nat, M3 1 (-6) 2 (-1) (-6) (-2) 1 0 (-4));
(1%nat, M3 1 (-6) 2 (-1) (-6) (-2) 2 0 (-2));
(4%nat, M3 (-2) (-1) (-6) 2 1 (-6) 0 (-3) 0);
(1%nat, M3 1 (-6) (-2) (-1) (-6) 2 (-2) 0 (-2));
(1%nat, M3 1 6 2 (-1) 6 (-2) (-1) 0 4);
(7%nat, M3 0 0 1 (-12) 0 0 0 (-12) 0);
(3%nat, M3 1 (-6) 0 0 0 (-12) 1 6 0);
(1%nat, M3 1 0 (-5) 0 12 0 2 0 2);
(1%nat, M3 1 0 (-4) 0 12 0 3 0 0);
(1%nat, M3 3 0 (-1) 0 (-12) 0 0 0 (-4));
(3%nat, M3 2 (-3) 0 0 0 12 (-2) (-3) 0);
(4%nat, M3 2 1 0 0 0 (-12) 0 6 0);
(3%nat, M3 2 3 0 0 0 12 2 (-3) 0);
(1%nat, M3 3 0 (-1) 0 12 0 0 0 4);
(1%nat, M3 1 0 (-4) 0 (-12) 0 (-3) 0 0);
(1%nat, M3 1 0 (-5) 0 (-12) 0 (-2) 0 (-2));
(3%nat, M3 1 (-6) 0 0 0 12 (-1) (-6) 0);
(3%nat, M3 (-1) 6 0 (-1) (-6) 0 0 0 12);
(9%nat, M3 8 (-4) 1 (-4) 8 1 (-4) (-4) 1);
(1%nat, M3 1 (-6) (-4) 1 6 (-4) 2 0 4);
(2%nat, M3 4 8 3 4 (-4) 3 0 0 (-3));
(1%nat, M3 1 (-6) (-3) 1 6 (-3) 4 0 0);
(2%nat, M3 2 (-5) 1 2 7 1 (-2) (-1) 5);
(4%nat, M3 2 1 6 2 1 (-6) 0 6 0);
(2%nat, M3 2 (-5) (-1) 2 7 (-1) 2 1 5);
(1%nat, M3 1 6 (-3) 1 (-6) (-3) (-4) 0 0);
(2%nat, M3 4 (-4) 3 4 8 3 0 0 3);
(1%nat, M3 1 6 (-4) 1 (-6) (-4) (-2) 0 (-4));
(9%nat, M3 (-4) 8 (-1) (-4) (-4) (-1) (-8) 4 1);
(1%nat, M3 (-1) 0 5 (-2) 0 (-2) 0 (-12) 0);
(1%nat, M3 (-1) 6 4 (-2) 0 (-4) (-1) (-6) 4);
(2%nat, M3 (-6) (-3) (-5) 0 (-6) 2 0 6 2);
(0%nat, M3 (-1) 4 (-3) (-2) (-4) (-6) (-3) 0 3);
(0%nat, M3 1 (-2) 6 2 (-4) 0 4 4 0);
(2%nat, M3 4 5 (-2) (-4) (-2) (-4) (-4) 1 2);
(2%nat, M3 (-2) (-1) 4 (-4) (-2) (-4) 0 (-6) 0);
(2%nat, M3 (-4) 1 (-2) 4 2 (-4) (-4) (-5) (-2));
(0%nat, M3 1 (-6) 2 2 0 4 (-4) 0 4);
(0%nat, M3 (-1) (-4) (-3) (-2) 4 (-6) 3 0 (-3));
(2%nat, M3 (-6) (-3) 5 0 (-6) (-2) 0 (-6) 2);
(1%nat, M3 (-1) 6 (-4) (-2) 0 4 1 6 4);
(1%nat, M3 (-1) 0 4 (-3) 0 0 0 (-12) 0);
(2%nat, M3 (-4) (-8) (-3) 0 0 3 (-4) 4 (-3));
(0%nat, M3 1 (-4) 3 3 0 (-3) 2 4 6);
(2%nat, M3 4 2 (-1) 0 (-6) (-3) 0 6 (-3));
(0%nat, M3 3 (-1) 5 (-3) (-3) 3 0 (-4) (-4));
(2%nat, M3 6 1 3 6 3 (-3) 6 5 3);
(2%nat, M3 2 1 4 6 3 0 0 6 0);
(2%nat, M3 6 1 (-3) 6 3 3 (-6) (-5) 3);
(0%nat, M3 3 1 5 (-3) 3 3 0 (-4) 4);
(2%nat, M3 4 2 (-1) 0 6 (-3) 0 6 3);
(0%nat, M3 (-1) (-4) 3 (-3) 0 (-3) 2 (-4) (-6));
(2%nat, M3 (-4) (-8) 3 0 0 (-3) 4 (-4) (-3));
(1%nat, M3 (-3) 0 1 0 0 4 0 12 0);
(1%nat, M3 (-1) 6 3 (-4) 0 0 (-1) (-6) 3);
(0%nat, M3 (-1) 6 2 (-4) 0 (-4) (-2) 0 4);
(0%nat, M3 3 (-1) (-5) 0 (-4) 4 (-3) (-3) (-3));
(2%nat, M3 2 1 1 (-4) 4 4 (-4) (-8) 4);
(1%nat, M3 2 3 (-4) (-4) 0 (-4) (-2) 3 4);
(2%nat, M3 (-6) (-3) (-4) 0 0 (-4) 0 (-6) 0);
(1%nat, M3 2 (-3) (-4) (-4) 0 (-4) 2 3 (-4));
(2%nat, M3 2 1 (-1) (-4) 4 (-4) 4 8 4);
(0%nat, M3 3 1 (-5) 0 4 4 3 (-3) 3);
(0%nat, M3 (-1) (-2) (-6) (-4) 4 0 2 4 0);
(1%nat, M3 (-1) 6 (-3) (-4) 0 0 1 6 3);
(3%nat, M3 (-2) 3 0 2 3 0 0 0 (-12));
(2%nat, M3 (-2) 5 (-1) 2 1 (-5) (-2) (-7) (-1));
(2%nat, M3 (-4) (-5) 2 4 (-1) (-2) 4 2 4);
(2%nat, M3 (-6) (-1) (-3) (-6) (-5) (-3) (-6) (-3) 3);
(1%nat, M3 2 3 4 (-2) 3 (-4) (-4) 0 4);
(2%nat, M3 2 1 5 (-2) 5 1 (-2) (-7) 1);
(4%nat, M3 6 3 2 6 3 (-2) 0 6 0);
(2%nat, M3 (-2) (-1) (-5) 2 (-5) (-1) (-2) (-7) 1);
(1%nat, M3 2 (-3) 4 (-2) (-3) (-4) 4 0 (-4));
(2%nat, M3 (-6) (-1) 3 (-6) (-5) 3 6 3 3);
(2%nat, M3 (-4) (-5) (-2) 4 (-1) 2 (-4) (-2) 4);
(2%nat, M3 (-2) (-7) (-1) 2 1 (-5) 2 (-5) 1);
(4%nat, M3 (-2) (-1) 0 0 (-6) 0 0 0 12);
(4%nat, M3 (-2) (-1) (-6) 0 (-6) 0 (-2) (-1) 6);
(2%nat, M3 2 1 (-4) 0 6 0 4 2 4);
(2%nat, M3 2 1 (-2) 0 6 0 6 3 6);
(2%nat, M3 (-6) (-3) 4 0 (-6) 0 0 0 4);
(4%nat, M3 0 3 2 12 6 0 0 3 (-2));
(8%nat, M3 0 0 1 12 0 6 0 12 6);
(4%nat, M3 0 (-3) 2 12 6 0 0 3 2);
(2%nat, M3 (-6) (-3) (-4) 0 (-6) 0 0 0 4);
(2%nat, M3 (-2) (-1) (-2) 0 6 0 6 3 (-6));
(2%nat, M3 (-2) (-1) 4 0 (-6) 0 4 2 4);
(4%nat, M3 2 1 (-6) 0 (-6) 0 (-2) (-1) (-6));
(3%nat, M3 (-2) (-3) 0 (-2) 3 0 0 0 (-12));
(2%nat, M3 (-2) 5 1 (-2) (-1) (-5) (-2) (-7) 1);
(2%nat, M3 4 (-1) 2 4 5 2 (-4) (-2) 4);
(2%nat, M3 (-6) (-1) 3 6 5 (-3) (-6) (-3) (-3));
(1%nat, M3 2 (-3) 4 2 3 4 (-4) 0 4);
(2%nat, M3 (-2) (-1) 3 (-2) (-7) (-3) 2 (-5) 3);
(4%nat, M3 (-6) (-3) 2 6 3 2 0 6 0);
(2%nat, M3 2 1 (-3) 2 7 3 2 (-5) 3);
(1%nat, M3 (-2) (-3) 4 (-2) 3 4 (-4) 0 (-4));
(2%nat, M3 (-6) (-1) (-3) 6 5 3 6 3 (-3));
(2%nat, M3 (-4) (-5) 2 (-4) 1 2 (-4) (-2) (-4));
(2%nat, M3 2 (-5) (-1) 2 1 5 (-2) (-7) 1);
(1%nat, M3 (-3) 0 1 0 0 (-4) 0 (-12) 0);
(1%nat, M3 (-1) (-6) 3 4 0 0 (-1) 6 3);
(0%nat, M3 (-1) 6 (-2) 4 0 (-4) (-2) 0 (-4));
(0%nat, M3 (-3) (-1) (-5) 0 4 (-4) 3 (-3) (-3));
(2%nat, M3 (-2) (-1) 1 (-4) (-8) (-4) 4 (-4) 4);
(1%nat, M3 2 (-3) (-4) 4 0 4 (-2) (-3) 4);
(2%nat, M3 (-6) (-3) 4 0 0 (-4) 0 (-6) 0);
(1%nat, M3 (-2) (-3) (-4) (-4) 0 4 (-2) 3 (-4));
(2%nat, M3 2 1 (-1) 4 8 4 4 (-4) 4);
(0%nat, M3 (-3) (-1) 5 0 4 4 (-3) 3 (-3));
(0%nat, M3 (-1) (-2) 6 4 (-4) 0 2 4 0);
(1%nat, M3 (-1) (-6) (-3) 4 0 0 1 (-6) 3);
(1%nat, M3 (-1) 0 4 3 0 0 0 12 0);
(2%nat, M3 (-4) 4 (-3) 0 0 (-3) (-4) (-8) (-3));
(0%nat, M3 1 4 3 (-3) 0 3 2 (-4) 6);
(2%nat, M3 4 2 1 0 6 (-3) 0 6 3);
(0%nat, M3 (-3) (-1) 5 (-3) 3 (-3) 0 (-4) (-4));
(2%nat, M3 (-6) (-5) 3 6 3 3 (-6) (-1) 3);
(2%nat, M3 2 1 (-2) (-6) (-3) (-6) 0 6 0);
(2%nat, M3 6 1 3 (-6) (-3) 3 (-6) (-5) (-3));
(0%nat, M3 (-3) (-1) (-5) (-3) 3 3 0 4 (-4));
(2%nat, M3 (-4) (-2) 1 0 6 (-3) 0 (-6) (-3));
(0%nat, M3 1 4 (-3) (-3) 0 (-3) (-2) 4 6);
(2%nat, M3 (-4) 4 3 0 0 3 4 8 (-3));
(1%nat, M3 (-1) 0 5 2 0 2 0 12 0);
(1%nat, M3 (-1) (-6) 4 2 0 4 (-1) 6 4);
(2%nat, M3 6 3 (-5) 0 6 (-2) 0 6 2);
(0%nat, M3 1 4 (-3) (-2) 4 6 3 0 3);
(0%nat, M3 1 2 6 (-2) (-4) 0 4 (-4) 0);
(2%nat, M3 4 5 2 4 2 (-4) (-4) 1 (-2));
(2%nat, M3 (-2) (-1) (-4) 4 2 (-4) 0 (-6) 0);
(2%nat, M3 4 5 (-2) 4 2 4 4 (-1) (-2));
(0%nat, M3 1 2 (-6) (-2) (-4) 0 (-4) 4 0);
(0%nat, M3 (-1) (-4) 3 2 (-4) (-6) 3 0 3);
(2%nat, M3 (-6) (-3) (-5) 0 6 (-2) 0 (-6) (-2));
(1%nat, M3 (-1) (-6) (-4) 2 0 (-4) 1 (-6) 4);
(3%nat, M3 (-1) 6 0 1 6 0 0 0 (-12));
(9%nat, M3 4 (-8) 1 8 (-4) (-1) 4 4 1);
(1%nat, M3 1 (-6) 4 (-1) (-6) (-4) 2 0 (-4));
(2%nat, M3 4 8 (-3) (-4) 4 3 0 0 3);
(1%nat, M3 (-3) 6 (-1) 3 6 1 0 0 (-4));
(2%nat, M3 2 7 1 (-2) 5 (-1) (-2) (-1) 5);
(4%nat, M3 (-2) (-1) 6 2 1 6 0 6 0);
(2%nat, M3 (-2) 5 1 2 7 (-1) (-2) (-1) (-5));
(1%nat, M3 1 6 3 (-1) 6 (-3) (-4) 0 0);
(2%nat, M3 4 (-4) (-3) (-4) (-8) 3 0 0 (-3));
(1%nat, M3 1 6 4 (-1) 6 (-4) (-2) 0 4);
(9%nat, M3 (-4) (-4) 1 (-8) 4 (-1) 4 (-8) (-1));
(7%nat, M3 0 0 2 (-1) 0 0 0 (-1) 0);
(7%nat, M3 2 0 0 0 0 (-1) 0 2 0);
(4%nat, M3 0 (-2) 0 0 0 1 (-2) (-1) 0);
(7%nat, M3 0 0 2 (-1) 1 0 (-1) (-1) 0);
(8%nat, M3 0 0 (-2) 1 (-1) 0 (-1) (-1) (-1));
(3%nat, M3 0 2 0 1 0 0 0 0 (-3));
(1%nat, M3 2 0 (-2) 0 1 0 1 0 2);
(1%nat, M3 2 0 (-2) 0 (-1) 0 (-1) 0 (-2));
(4%nat, M3 0 0 (-2) 1 2 0 1 (-1) 0);
(2%nat, M3 4 2 2 (-1) 0 (-2) 1 1 2);
(2%nat, M3 0 0 2 3 2 2 (-3) (-1) (-2));
(4%nat, M3 0 0 (-2) 1 (-1) 0 (-1) (-2) 0);
(2%nat, M3 0 0 2 3 1 (-1) 3 2 (-1));
(2%nat, M3 0 0 2 3 1 1 3 2 1);
(3%nat, M3 0 2 0 1 0 0 0 0 (-4));
(7%nat, M3 2 (-2) 0 0 0 (-1) 2 2 0);
(3%nat, M3 0 2 0 1 0 2 1 0 (-2));
(4%nat, M3 0 (-2) 0 2 1 1 (-2) (-1) 1);
(4%nat, M3 0 0 2 (-2) (-1) 0 0 (-2) 0);
(8%nat, M3 (-2) 2 0 0 0 (-1) (-2) (-2) (-2));
(3%nat, M3 0 (-2) 0 1 0 2 (-1) 0 2);
(4%nat, M3 0 2 0 2 1 1 2 1 (-1));
(3%nat, M3 0 2 0 1 0 0 0 0 (-6));
(1%nat, M3 2 0 (-2) 0 1 0 1 0 5);
(4%nat, M3 2 4 0 0 0 1 2 (-2) 0);
(4%nat, M3 0 (-2) 0 0 0 (-1) 6 3 0);
(4%nat, M3 2 (-2) 0 0 0 1 (-2) (-4) 0);
(1%nat, M3 2 0 (-2) 0 (-1) 0 (-1) 0 (-5));
(3%nat, M3 0 2 0 1 0 3 1 0 (-3));
(2%nat, M3 4 2 0 (-1) 0 (-3) 1 1 3);
(1%nat, M3 2 0 (-2) (-1) 1 (-2) 1 1 2);
(6%nat, M3 0 4 2 (-1) 0 (-2) (-1) 0 1);
(1%nat, M3 2 0 (-2) 1 (-1) 2 (-1) (-1) (-2));
(2%nat, M3 4 2 4 1 1 (-2) (-1) 0 2);
(1%nat, M3 0 (-2) 0 (-1) 0 2 (-2) 0 (-2));
(0%nat, M3 (-2) 0 0 0 (-1) (-2) (-1) (-2) 2);
(2%nat, M3 (-2) (-2) 0 2 1 (-3) 2 0 0);
(2%nat, M3 0 (-2) 0 2 1 1 (-2) (-1) 2);
(2%nat, M3 (-2) (-2) 0 (-2) (-1) 3 (-2) 0 0);
(0%nat, M3 0 2 0 (-1) 0 (-2) (-2) (-1) 2);
(4%nat, M3 0 0 2 (-2) (-1) 0 0 (-3) 0);
(2%nat, M3 (-4) (-2) (-2) 0 1 0 4 2 (-1));
(2%nat, M3 (-4) (-2) (-2) 0 1 0 2 1 (-2));
(5%nat, M3 (-2) 0 (-2) 0 (-1) (-1) (-3) (-3) 0);
(2%nat, M3 (-4) (-2) (-2) 0 (-1) 0 (-2) (-1) 2);
(2%nat, M3 4 2 (-2) 0 1 0 4 2 1);
(1%nat, M3 0 2 0 (-1) 0 2 2 0 2);
(0%nat, M3 2 0 0 0 (-1) (-2) 1 2 (-2));
(2%nat, M3 2 0 (-2) 2 1 1 (-2) (-2) 2);
(2%nat, M3 0 2 0 2 1 1 2 1 (-2));
(2%nat, M3 (-2) (-2) 0 2 1 3 (-2) 0 0);
(0%nat, M3 0 (-2) 0 1 0 2 (-2) 1 2);
(3%nat, M3 0 (-2) 0 1 0 3 (-1) 0 3);
(2%nat, M3 (-4) (-2) 0 (-1) 0 (-3) (-1) (-1) (-3));
(1%nat, M3 (-2) 0 2 (-1) 1 (-2) (-1) (-1) (-2));
(6%nat, M3 0 (-4) (-2) (-1) 0 (-2) 1 0 (-1));
(1%nat, M3 (-2) 0 2 1 (-1) 2 1 1 2);
(2%nat, M3 (-4) (-2) 0 1 0 3 1 1 3);
(3%nat, M3 0 2 0 1 0 0 0 0 (-12));
(3%nat, M3 0 2 6 1 0 0 0 2 (-6));
(1%nat, M3 2 0 (-4) 0 1 0 4 0 4);
(4%nat, M3 4 2 0 0 0 (-1) 0 6 0);
(1%nat, M3 2 0 (-4) 0 (-1) 0 (-4) 0 (-4));
(3%nat, M3 0 2 6 (-1) 0 0 0 (-2) 6);
(3%nat, M3 0 2 0 1 0 6 1 0 (-6));
(1%nat, M3 2 0 (-4) (-1) 1 (-4) 1 1 4);
(1%nat, M3 2 0 (-4) (-2) 1 (-2) 2 1 2);
(4%nat, M3 4 2 0 0 (-3) (-1) 0 3 (-1));
(1%nat, M3 2 0 (-4) 2 (-1) 2 (-2) (-1) (-2));
(1%nat, M3 2 0 (-4) 1 (-1) 4 (-1) (-1) (-4));
(1%nat, M3 0 (-2) 0 (-1) 0 5 (-2) 0 (-2));
(2%nat, M3 (-2) (-2) (-2) 2 1 (-4) 2 0 2);
(0%nat, M3 0 2 2 1 (-2) 3 2 0 (-2));
(2%nat, M3 0 (-2) 0 4 2 1 (-4) (-2) 2);
(0%nat, M3 0 2 2 (-1) 2 (-3) (-2) 0 2);
(2%nat, M3 (-2) (-2) (-2) (-2) (-1) 4 (-2) 0 (-2));
(1%nat, M3 0 (-2) 0 (-1) 0 4 (-3) 0 0);
(0%nat, M3 (-2) 2 2 1 0 3 1 2 (-1));
(0%nat, M3 (-2) 0 (-2) 1 (-1) (-2) (-1) (-3) 2);
(2%nat, M3 0 (-2) 0 4 2 1 0 0 3);
(0%nat, M3 (-2) 0 (-2) (-1) 1 2 1 3 (-2));
(0%nat, M3 (-2) (-2) (-2) (-1) 0 3 (-1) 2 (-1));
(1%nat, M3 0 2 0 (-3) 0 1 0 0 4);
(1%nat, M3 0 2 (-2) (-3) 0 1 0 2 2);
(0%nat, M3 2 (-2) 0 (-1) (-2) (-1) 0 0 (-4));
(2%nat, M3 0 2 0 (-2) (-1) 3 4 2 0);
(0%nat, M3 2 (-2) 0 1 2 1 0 0 4);
(1%nat, M3 0 2 (-2) 3 0 (-1) 0 (-2) (-2));
(3%nat, M3 2 0 0 0 (-2) (-3) 0 2 (-3));
(2%nat, M3 4 2 (-4) 2 2 1 2 0 1);
(1%nat, M3 2 0 2 (-1) 2 2 (-1) (-2) 2);
(4%nat, M3 0 (-2) 0 2 1 3 (-2) (-1) 3);
(1%nat, M3 2 0 (-2) 1 2 2 1 (-2) 2);
(2%nat, M3 (-4) (-2) 0 2 0 3 2 2 3);
(4%nat, M3 0 0 2 (-2) (-1) 0 0 (-6) 0);
(6%nat, M3 0 (-2) (-4) 2 0 1 0 (-2) 2);
(2%nat, M3 (-4) (-2) (-2) 0 1 0 4 2 (-4));
(5%nat, M3 (-2) 0 (-2) 0 (-1) (-1) (-6) (-6) 0);
(2%nat, M3 (-4) (-2) (-2) 0 (-1) 0 (-4) (-2) 4);
(6%nat, M3 0 (-2) 2 2 0 1 0 2 4);
(3%nat, M3 2 0 0 0 (-2) 3 0 (-2) (-3));
(2%nat, M3 (-4) (-2) (-4) (-4) (-1) (-1) 4 3 1);
(1%nat, M3 (-2) 0 (-2) (-1) 2 2 1 2 (-2));
(4%nat, M3 (-4) (-2) 0 0 1 3 0 1 (-3));
(1%nat, M3 2 0 2 (-1) (-2) 2 1 (-2) (-2));
(2%nat, M3 (-4) (-2) 0 (-2) (-2) (-3) 2 0 3);
(1%nat, M3 0 (-2) 0 (-3) 0 1 0 0 (-4));
(1%nat, M3 (-2) 2 0 (-1) 0 3 2 2 0);
(0%nat, M3 (-2) (-2) 0 (-1) 2 1 0 0 (-4));
(2%nat, M3 0 2 0 (-2) (-1) (-3) (-4) (-2) 0);
(0%nat, M3 (-2) (-2) 0 1 (-2) (-1) 0 0 4);
(1%nat, M3 (-2) 2 0 1 0 (-3) (-2) (-2) 0);
(1%nat, M3 0 2 0 (-1) 0 4 3 0 0);
(0%nat, M3 2 (-2) (-2) 1 0 3 (-1) (-2) 1);
(0%nat, M3 2 0 (-2) 1 1 2 1 (-3) 2);
(2%nat, M3 0 2 0 4 2 1 0 0 (-3));
(0%nat, M3 2 0 2 (-1) 1 2 (-1) (-3) 2);
(0%nat, M3 2 (-2) (-2) (-1) 0 (-3) 1 2 (-1));
(1%nat, M3 0 2 0 (-1) 0 5 2 0 2);
(2%nat, M3 2 0 (-2) 2 1 4 (-2) (-2) 2);
(0%nat, M3 0 (-2) (-2) 1 (-2) 3 (-2) 0 2);
(2%nat, M3 0 2 0 4 2 1 4 2 (-2));
(0%nat, M3 0 (-2) (-2) (-1) 2 (-3) 2 0 (-2));
(2%nat, M3 (-2) (-2) 2 2 1 4 (-2) 0 2);
(3%nat, M3 0 (-2) 0 1 0 6 (-1) 0 6);
(1%nat, M3 (-2) 0 4 (-1) 1 (-4) (-1) (-1) (-4));
(1%nat, M3 (-2) 0 4 (-2) 1 (-2) (-2) (-1) (-2));
(4%nat, M3 (-4) (-2) 0 0 (-3) (-1) 0 (-3) 1);
(1%nat, M3 (-2) 0 4 2 (-1) 2 2 1 2);
(1%nat, M3 (-2) 0 4 1 (-1) 4 1 1 4);
(7%nat, M3 (-2) 0 0 0 (-2) 0 0 0 1);
(4%nat, M3 0 2 0 2 1 0 0 0 (-1));
(13%nat, M3 (-2) 0 0 0 (-2) 0 0 0 2);
(4%nat, M3 0 (-2) 0 0 0 2 (-2) (-1) 0);
(4%nat, M3 0 (-2) 0 (-2) (-1) 0 0 0 (-2));
(8%nat, M3 0 0 (-2) 0 (-2) (-1) (-2) 0 (-1));
(4%nat, M3 0 0 (-2) 0 2 0 2 1 0);
(8%nat, M3 (-2) (-2) (-2) (-2) 2 0 0 0 (-1));
(7%nat, M3 (-2) 0 0 0 (-2) 0 0 0 3);
(1%nat, M3 2 0 (-2) 0 2 0 1 0 2);
(1%nat, M3 2 0 (-2) 0 (-2) 0 (-1) 0 (-2));
(4%nat, M3 0 2 0 2 1 0 0 0 (-3));
(2%nat, M3 4 2 0 0 1 0 2 1 3);
(2%nat, M3 (-4) (-2) 0 0 (-1) 0 2 1 3);
(1%nat, M3 0 (-2) 0 (-2) 0 2 (-1) 0 (-2));
(2%nat, M3 (-2) 0 (-2) (-2) (-2) (-2) (-2) (-1) 1);
(2%nat, M3 2 2 0 (-2) 0 0 (-2) (-1) 3);
(0%nat, M3 (-2) 0 0 (-1) (-2) (-2) 0 (-1) 2);
(0%nat, M3 0 2 0 2 (-1) 2 1 0 (-2));
(2%nat, M3 0 (-2) 0 2 1 2 (-2) (-1) 1);
(1%nat, M3 0 2 0 (-2) 0 2 1 0 2);
(2%nat, M3 2 0 0 (-2) (-2) 0 2 1 (-3));
(2%nat, M3 (-2) 0 2 (-2) (-2) 2 2 1 1);
(0%nat, M3 2 0 0 1 (-2) (-2) 0 1 (-2));
(2%nat, M3 0 2 0 (-2) (-1) (-2) (-2) (-1) 1);
(0%nat, M3 0 (-2) 0 2 1 2 (-1) 0 2);
(7%nat, M3 (-2) 0 0 0 (-2) 0 0 0 4);
(7%nat, M3 2 (-2) 0 0 0 (-2) 2 2 0);
(4%nat, M3 0 2 0 2 1 0 0 0 (-4));
(8%nat, M3 (-4) 0 (-2) 0 0 (-1) 0 (-4) (-2));
(7%nat, M3 0 0 2 (-2) 2 0 (-2) (-2) 0);
(14%nat, M3 (-2) 0 (-2) 0 (-2) (-2) (-2) (-2) 0);
(4%nat, M3 0 2 0 (-2) (-1) (-2) (-2) (-1) 2);
(4%nat, M3 0 (-2) 0 2 1 2 (-2) (-1) 2);
(7%nat, M3 (-2) 0 0 0 (-2) 0 0 0 6);
(1%nat, M3 2 0 (-2) 0 2 0 1 0 5);
(4%nat, M3 2 4 0 0 0 2 2 (-2) 0);
(4%nat, M3 0 (-2) 0 0 0 (-2) 6 3 0);
(4%nat, M3 2 (-2) 0 0 0 2 (-2) (-4) 0);
(1%nat, M3 2 0 (-2) 0 (-2) 0 (-1) 0 (-5));
(4%nat, M3 0 2 0 2 1 0 0 0 (-6));
(2%nat, M3 4 2 0 0 1 0 2 1 6);
(2%nat, M3 4 2 (-4) 0 1 0 4 2 2);
(6%nat, M3 0 0 2 2 0 1 0 6 3);
(2%nat, M3 4 2 4 0 1 0 (-4) (-2) 2);
(2%nat, M3 (-4) (-2) 0 0 (-1) 0 2 1 6);
(1%nat, M3 0 (-2) 0 (-2) 0 2 (-1) 0 (-5));
(2%nat, M3 (-2) 0 (-2) (-2) (-2) (-2) (-2) (-1) 4);
(0%nat, M3 0 2 2 2 0 2 1 2 (-3));
(2%nat, M3 0 (-2) 0 4 2 2 (-4) (-2) 1);
(0%nat, M3 0 2 2 (-2) 0 (-2) (-1) (-2) 3);
(2%nat, M3 2 2 2 (-2) 0 (-2) (-2) (-1) 4);
(4%nat, M3 0 0 (-2) (-2) (-4) 0 (-2) 2 0);
(0%nat, M3 (-2) 0 (-2) 0 (-2) (-2) (-1) (-2) 3);
(10%nat, M3 (-2) 0 2 0 2 2 (-2) 2 (-2));
(2%nat, M3 0 (-2) 0 4 2 2 (-2) (-1) 2);
(10%nat, M3 0 2 2 (-2) 2 (-2) (-2) 0 2);
(0%nat, M3 (-2) 0 (-2) 0 2 2 1 2 (-3));
(0%nat, M3 (-2) 0 2 (-1) (-2) (-3) 0 (-2) 2);
(5%nat, M3 (-2) 0 (-2) (-1) (-4) (-3) (-1) 2 3);
(0%nat, M3 (-2) 0 (-2) 1 (-2) (-3) 0 (-2) 2);
(2%nat, M3 4 2 2 4 3 (-1) (-4) (-1) 1);
(2%nat, M3 0 (-2) 0 2 1 2 (-4) (-2) 2);
(2%nat, M3 4 2 2 (-4) (-3) 1 4 1 (-1));
(4%nat, M3 0 0 2 0 2 0 (-6) (-3) 0);
(2%nat, M3 (-4) (-2) (-2) 0 2 0 4 2 (-1));
(2%nat, M3 (-4) (-2) (-2) 0 2 0 2 1 (-2));
(8%nat, M3 (-2) (-2) (-2) (-2) 2 0 0 0 (-3));
(2%nat, M3 (-4) (-2) (-2) 0 (-2) 0 (-2) (-1) 2);
(2%nat, M3 (-4) (-2) (-2) 0 (-2) 0 (-4) (-2) 1);
(4%nat, M3 0 0 (-2) (-2) 2 0 2 4 0);
(0%nat, M3 2 0 2 0 (-2) (-2) 1 2 (-3));
(10%nat, M3 2 (-2) 2 0 (-2) (-2) 2 0 (-2));
(2%nat, M3 0 2 0 4 2 2 2 1 (-2));
(10%nat, M3 (-2) 0 (-2) 0 2 (-2) 2 (-2) (-2));
(0%nat, M3 2 0 2 0 2 2 (-1) (-2) 3);
(0%nat, M3 2 0 2 1 (-2) (-3) 0 2 (-2));
(2%nat, M3 (-4) (-2) (-2) 4 3 (-1) 4 1 (-1));
(2%nat, M3 0 2 0 (-2) (-1) (-2) (-4) (-2) 2);
(2%nat, M3 4 2 2 4 1 (-1) 4 3 (-1));
(0%nat, M3 2 0 (-2) (-1) (-2) (-3) 0 2 (-2));
(5%nat, M3 0 (-2) (-2) (-2) (-3) 1 (-4) (-3) (-1));
(1%nat, M3 0 2 0 (-2) 0 2 1 0 5);
(2%nat, M3 2 0 2 (-2) (-2) (-2) 2 1 (-4));
(0%nat, M3 0 (-2) (-2) 2 0 2 (-1) (-2) 3);
(2%nat, M3 0 2 0 4 2 2 4 2 (-1));
(0%nat, M3 0 (-2) (-2) (-2) 0 (-2) 1 2 (-3));
(2%nat, M3 (-2) 0 2 (-2) (-2) 2 2 1 4);
(7%nat, M3 (-2) 0 0 0 (-2) 0 0 0 12);
(3%nat, M3 0 2 6 2 0 0 0 2 (-6));
(1%nat, M3 2 0 (-4) 0 2 0 4 0 4);
(4%nat, M3 4 2 0 0 0 (-2) 0 6 0);
(1%nat, M3 2 0 (-4) 0 (-2) 0 (-4) 0 (-4));
(3%nat, M3 0 2 6 (-2) 0 0 0 (-2) 6);
(4%nat, M3 0 2 0 2 1 0 0 0 (-12));
(5%nat, M3 2 8 6 1 0 1 2 (-4) (-6));
(2%nat, M3 4 2 (-4) 0 1 0 8 4 4);
(6%nat, M3 0 (-4) (-2) (-2) 0 (-1) 0 0 (-6));
(2%nat, M3 4 2 4 0 1 0 (-8) (-4) 4);
(5%nat, M3 (-4) (-6) 2 0 1 1 (-8) (-6) (-2));
(3%nat, M3 (-2) 0 0 0 (-2) (-6) 0 (-2) 6);
(10%nat, M3 (-2) 0 4 0 2 4 (-2) 2 (-4));
(1%nat, M3 2 0 (-4) (-2) 2 (-2) 2 2 2);
(6%nat, M3 0 4 2 (-2) 0 (-4) (-2) 0 2);
(1%nat, M3 2 0 (-4) 2 (-2) 2 (-2) (-2) (-2));
(10%nat, M3 0 2 4 (-2) 2 (-4) (-2) 0 4);
(4%nat, M3 0 2 0 (-2) (-1) (-6) (-2) (-1) 6);
(1%nat, M3 (-2) 0 (-4) 1 (-2) (-4) (-1) (-2) 4);
(2%nat, M3 4 2 4 (-4) (-3) 2 4 1 (-2));
(4%nat, M3 4 2 0 0 (-3) (-2) 0 3 (-2));
(2%nat, M3 4 2 4 4 3 (-2) (-4) (-1) 2);
(1%nat, M3 (-2) 0 (-4) (-1) 2 4 1 2 (-4));
(1%nat, M3 0 (-2) 0 (-2) 0 4 (-4) 0 (-4));
(1%nat, M3 2 (-2) 2 (-2) 0 4 (-2) (-2) (-2));
(2%nat, M3 (-2) (-2) 2 (-2) 0 2 (-8) (-4) (-4));
(2%nat, M3 0 (-2) 0 4 2 2 (-4) (-2) 4);
(2%nat, M3 (-2) 0 (-4) 2 2 4 8 4 4);
(1%nat, M3 2 (-2) 2 2 0 (-4) 2 2 2);
(0%nat, M3 (-2) 0 2 (-1) (-2) (-5) 0 (-4) 0);
(2%nat, M3 0 2 0 (-2) (-1) (-4) (-4) (-2) 4);
(0%nat, M3 (-2) 0 (-2) 1 (-2) (-5) 0 (-4) 0);
(2%nat, M3 0 2 2 (-6) (-3) (-1) 0 (-2) 2);
(2%nat, M3 0 (-2) 0 6 3 2 0 0 4);
(2%nat, M3 0 2 2 6 3 1 0 2 (-2));
(4%nat, M3 0 0 2 (-4) (-2) 0 0 (-6) 0);
(6%nat, M3 2 0 4 0 (-4) (-2) 2 0 (-2));
(2%nat, M3 (-4) (-2) (-2) 0 2 0 4 2 (-4));
(8%nat, M3 (-2) (-2) (-2) (-2) 2 0 0 0 (-6));
(2%nat, M3 4 2 2 0 (-2) 0 4 2 (-4));
(6%nat, M3 2 0 4 0 4 2 (-2) 0 2);
(0%nat, M3 2 2 2 1 (-3) (-1) 1 1 (-5));
(2%nat, M3 0 2 0 (-2) (-1) (-4) (-6) (-3) 0);
(0%nat, M3 2 2 2 (-1) 3 1 (-1) (-1) 5);
(0%nat, M3 2 (-2) 2 (-1) (-3) 1 1 (-1) (-5));
(2%nat, M3 0 (-2) 0 2 1 4 (-6) (-3) 0);
(0%nat, M3 2 (-2) 2 1 3 (-1) (-1) 1 5);
(1%nat, M3 0 2 0 (-2) 0 4 4 0 4);
(1%nat, M3 (-2) 2 (-2) (-2) 0 4 2 2 2);
(2%nat, M3 (-2) (-2) (-4) 2 0 4 (-8) (-4) (-4));
(2%nat, M3 0 2 0 (-4) (-2) (-2) (-4) (-2) 4);
(2%nat, M3 2 2 (-2) 2 0 (-2) (-8) (-4) (-4));
(1%nat, M3 (-2) 2 (-2) 2 0 (-4) (-2) (-2) (-2));
(0%nat, M3 2 0 2 1 (-2) (-5) 0 4 0);
(2%nat, M3 0 2 2 (-6) (-3) 1 0 (-2) 2);
(2%nat, M3 0 2 0 (-6) (-3) (-2) 0 0 4);
(2%nat, M3 0 (-2) (-2) 6 3 1 0 (-2) 2);
(0%nat, M3 2 0 (-2) (-1) (-2) (-5) 0 4 0);
(2%nat, M3 0 (-2) 0 2 1 4 (-4) (-2) 4);
(3%nat, M3 2 0 0 0 (-2) (-6) 0 2 (-6));
(10%nat, M3 2 (-2) 4 0 (-2) (-4) 2 0 (-4));
(1%nat, M3 (-2) 0 4 (-2) 2 (-2) (-2) (-2) (-2));
(6%nat, M3 0 (-4) (-2) (-2) 0 (-4) 2 0 (-2));
(1%nat, M3 (-2) 0 4 2 (-2) 2 2 2 2);
(10%nat, M3 (-2) 0 (-4) 0 2 (-4) 2 (-2) (-4));
(1%nat, M3 2 0 4 1 (-2) (-4) 1 2 (-4));
(2%nat, M3 (-4) (-2) 4 (-4) (-1) (-2) (-4) (-3) (-2));
(4%nat, M3 (-4) (-2) 0 0 (-3) (-2) 0 (-3) 2);
(2%nat, M3 (-4) (-2) (-4) 4 3 (-2) 4 1 (-2));
(1%nat, M3 2 0 4 (-1) 2 4 (-1) (-2) 4);
(4%nat, M3 0 (-2) 0 2 1 6 (-2) (-1) 6);
(3%nat, M3 0 (-2) 0 0 0 3 (-1) 0 0);
(1%nat, M3 (-2) 0 2 (-1) 0 (-2) 0 (-1) 0);
(1%nat, M3 (-2) 0 2 1 0 2 0 1 0);
(7%nat, M3 2 0 0 0 0 (-3) 0 2 0);
(4%nat, M3 0 (-2) 0 0 0 3 (-2) (-1) 0);
(1%nat, M3 (-2) 0 2 (-1) 0 (-2) 0 (-2) 0);
(2%nat, M3 (-4) (-2) 0 (-2) (-1) (-3) 0 (-1) 0);
(1%nat, M3 (-2) 0 2 1 0 2 0 2 0);
(2%nat, M3 4 2 0 (-2) (-1) (-3) 0 1 0);
(4%nat, M3 0 0 (-2) 0 3 0 2 1 0);
(5%nat, M3 (-2) 0 (-2) 0 (-3) (-3) (-1) (-1) 0);
(2%nat, M3 (-4) (-2) (-2) 4 2 (-1) 0 (-1) 0);
(2%nat, M3 (-4) (-2) 2 (-2) (-1) (-2) 0 (-1) 0);
(2%nat, M3 (-4) (-2) (-2) 2 1 (-2) 0 (-1) 0);
(2%nat, M3 (-4) (-2) 2 (-4) (-2) (-1) 0 (-1) 0);
(7%nat, M3 0 0 2 (-3) 0 0 0 (-3) 0);
(1%nat, M3 2 0 (-2) 0 3 0 1 0 2);
(1%nat, M3 2 0 (-2) 0 (-3) 0 (-1) 0 (-2));
(1%nat, M3 (-2) 0 2 (-1) 0 (-2) 0 (-3) 0);
(2%nat, M3 0 0 2 (-3) 0 1 (-3) (-3) 1);
(2%nat, M3 0 0 2 3 3 (-2) (-3) 0 2);
(1%nat, M3 (-2) 0 2 1 0 2 0 3 0);
(2%nat, M3 0 0 (-2) 3 0 (-2) (-3) (-3) 2);
(2%nat, M3 0 0 2 (-3) 0 (-1) (-3) (-3) (-1));
(3%nat, M3 (-2) 0 0 0 (-3) 0 0 0 4);
(7%nat, M3 2 (-2) 0 0 0 (-3) 2 2 0);
(1%nat, M3 (-2) 0 2 (-1) 0 (-2) 0 (-4) 0);
(2%nat, M3 (-4) (-2) 0 (-2) (-1) 3 0 2 0);
(1%nat, M3 (-2) 0 2 1 0 2 0 4 0);
(2%nat, M3 4 2 0 (-2) (-1) (-3) 0 2 0);
(1%nat, M3 0 (-2) 0 (-3) 0 0 (-1) 0 (-4));
(2%nat, M3 0 (-2) 0 0 0 (-3) 4 2 (-1));
(0%nat, M3 (-2) 2 (-2) (-1) (-2) (-1) (-1) 0 3);
(0%nat, M3 (-2) 0 (-2) (-1) 3 2 1 1 (-2));
(0%nat, M3 (-2) 2 (-2) 1 2 1 1 0 (-3));
(0%nat, M3 (-2) 0 (-2) 1 (-3) (-2) (-1) (-1) 2);
(4%nat, M3 0 0 2 0 3 0 (-4) (-2) 0);
(8%nat, M3 (-2) 2 0 0 0 3 2 2 2);
(2%nat, M3 4 2 2 (-4) (-2) 1 0 (-2) 0);
(2%nat, M3 4 2 (-2) 2 1 2 0 (-2) 0);
(2%nat, M3 4 2 2 (-2) (-1) 2 0 (-2) 0);
(2%nat, M3 4 2 (-2) 4 2 1 0 (-2) 0);
(1%nat, M3 0 (-2) 0 (-3) 0 0 1 0 (-4));
(2%nat, M3 0 (-2) 0 0 0 (-3) 4 2 1);
(0%nat, M3 (-2) 0 (-2) (-1) (-3) 2 (-1) 1 2);
(0%nat, M3 (-2) (-2) (-2) (-1) 2 (-1) 1 0 (-3));
(0%nat, M3 (-2) 2 2 1 2 (-1) (-1) 0 (-3));
(0%nat, M3 2 0 2 (-1) 3 2 (-1) (-1) 2);
(3%nat, M3 (-2) 0 0 0 (-3) 0 0 0 6);
(1%nat, M3 (-2) 0 (-2) 0 (-3) 0 (-1) 0 5);
(4%nat, M3 (-2) (-4) 0 0 0 3 (-2) 2 0);
(4%nat, M3 0 (-2) 0 0 0 (-3) 6 3 0);
(4%nat, M3 (-2) 2 0 0 0 3 2 4 0);
(1%nat, M3 (-2) 0 (-2) 0 3 0 1 0 (-5));
(1%nat, M3 (-2) 0 2 (-1) 0 (-2) 0 (-6) 0);
(0%nat, M3 (-2) 0 (-2) (-1) (-3) (-1) (-1) 0 5);
(2%nat, M3 (-2) (-4) 0 2 1 3 (-2) 2 0);
(2%nat, M3 4 2 0 2 1 3 0 (-3) 0);
(2%nat, M3 2 (-2) 2 (-2) (-1) 1 (-2) (-4) (-2));
(0%nat, M3 (-2) 0 (-2) (-1) 3 (-1) 1 0 (-5));
(1%nat, M3 (-2) 0 2 1 0 2 0 6 0);
(0%nat, M3 (-2) 2 2 1 2 (-1) (-1) 1 (-5));
(2%nat, M3 2 4 (-2) 2 1 1 2 (-2) (-2));
(2%nat, M3 4 2 0 (-2) (-1) (-3) 0 3 0);
(2%nat, M3 (-2) 2 (-2) (-2) (-1) 1 2 4 2);
(0%nat, M3 (-2) 0 (-2) 1 3 1 1 0 (-5));
(7%nat, M3 0 0 2 (-3) 3 0 (-3) (-3) 0);
(2%nat, M3 (-4) (-2) (-2) 0 3 0 4 2 (-1));
(2%nat, M3 (-4) (-2) (-2) 0 3 0 2 1 (-2));
(8%nat, M3 0 0 2 3 (-3) 0 3 3 3);
(2%nat, M3 (-4) (-2) (-2) 0 (-3) 0 (-2) (-1) 2);
(2%nat, M3 (-4) (-2) (-2) 0 (-3) 0 (-4) (-2) 1);
(2%nat, M3 4 2 2 (-4) (-2) 1 0 (-3) 0);
(1%nat, M3 (-2) 0 2 (-1) 3 (-2) (-1) (-3) (-2));
(2%nat, M3 (-4) (-2) 0 1 2 3 (-1) 1 (-3));
(2%nat, M3 4 2 (-2) 2 1 2 0 (-3) 0);
(2%nat, M3 4 2 0 (-1) (-2) (-3) (-1) 1 (-3));
(1%nat, M3 2 0 (-2) 1 (-3) 2 (-1) (-3) (-2));
(2%nat, M3 4 2 2 (-2) (-1) 2 0 (-3) 0);
(2%nat, M3 (-4) (-2) 0 (-1) 1 3 1 2 (-3));
(1%nat, M3 (-2) 0 2 1 (-3) 2 1 3 2);
(2%nat, M3 4 2 (-2) 4 2 1 0 (-3) 0);
(1%nat, M3 2 0 (-2) (-1) 3 (-2) 1 3 2);
(2%nat, M3 4 2 0 1 (-1) (-3) 1 2 (-3));
(3%nat, M3 (-2) 0 0 0 (-3) 0 0 0 12);
(3%nat, M3 (-2) 0 (-6) 0 (-3) 0 (-2) 0 6);
(1%nat, M3 2 0 (-4) 0 3 0 4 0 4);
(4%nat, M3 4 2 0 0 0 (-3) 0 6 0);
(1%nat, M3 2 0 (-4) 0 (-3) 0 (-4) 0 (-4));
(3%nat, M3 (-2) 0 (-6) 0 3 0 2 0 (-6));
(1%nat, M3 (-2) 0 2 (-1) 0 (-2) 0 (-12) 0);
(1%nat, M3 (-2) 6 0 (-1) 0 (-3) (-2) (-6) 0);
(0%nat, M3 0 2 4 3 1 (-1) 0 4 (-4));
(2%nat, M3 (-4) (-2) 4 (-2) (-1) (-1) 0 (-6) 0);
(0%nat, M3 0 2 4 (-3) 1 (-1) 0 (-4) 4);
(1%nat, M3 0 (-6) 2 (-3) 0 1 0 (-6) (-2));
(1%nat, M3 (-2) 0 2 1 0 2 0 12 0);
(1%nat, M3 0 (-6) 2 3 0 (-1) 0 6 2);
(0%nat, M3 0 2 4 3 (-1) 1 0 4 (-4));
(2%nat, M3 4 2 (-4) (-2) (-1) (-1) 0 6 0);
(0%nat, M3 0 2 4 (-3) (-1) 1 0 (-4) 4);
(1%nat, M3 0 (-6) 2 (-3) 0 (-1) 0 (-6) (-2));
(3%nat, M3 (-2) 0 0 0 (-3) (-6) 0 (-3) 6);
(0%nat, M3 (-2) 2 (-4) 0 (-3) (-3) (-2) (-1) 5);
(0%nat, M3 (-2) 0 (-4) 3 (-3) (-3) (-1) (-3) 1);
(4%nat, M3 (-4) (-2) 0 0 3 (-3) 0 (-3) (-3));
(0%nat, M3 (-2) 0 (-4) (-3) 3 3 1 3 (-1));
(0%nat, M3 (-2) 2 (-4) 0 3 3 2 1 (-5));
(1%nat, M3 (-2) 0 2 (-1) 6 (-2) (-1) (-6) (-2));
(0%nat, M3 (-2) 2 4 2 1 5 0 3 (-3));
(1%nat, M3 (-2) 0 (-4) 2 (-3) (-2) (-2) (-3) 2);
(2%nat, M3 (-4) (-2) (-4) (-2) (-4) 1 (-2) 2 1);
(0%nat, M3 (-2) 0 (-4) (-1) 3 1 3 3 (-3));
(1%nat, M3 (-2) 0 (-4) (-1) 3 4 1 3 (-4));
(0%nat, M3 (-2) 2 4 (-2) (-1) (-5) 0 (-3) 3);
(1%nat, M3 (-2) 0 2 1 (-6) 2 1 6 2);
(1%nat, M3 (-2) 0 (-4) 1 (-3) (-4) (-1) (-3) 4);
(0%nat, M3 (-2) 0 (-4) 1 (-3) (-1) (-3) (-3) 3);
(2%nat, M3 4 2 (-4) (-2) (-4) (-1) (-2) 2 (-1));
(1%nat, M3 (-2) 0 (-4) (-2) 3 2 2 3 (-2));
(4%nat, M3 0 0 2 (-6) (-3) 0 0 (-6) 0);
(6%nat, M3 2 0 4 0 (-6) (-3) 2 0 (-2));
(2%nat, M3 (-4) (-2) (-2) 0 3 0 4 2 (-4));
(5%nat, M3 (-2) (-2) 0 (-3) 0 (-3) 0 (-6) (-6));
(2%nat, M3 4 2 2 0 (-3) 0 4 2 (-4));
(6%nat, M3 2 0 4 0 6 3 (-2) 0 2);
(2%nat, M3 4 2 (-2) (-4) (-2) 5 0 (-6) 0);
(0%nat, M3 (-2) 4 2 (-1) (-1) (-5) (-2) (-2) 2);
(2%nat, M3 (-2) 2 2 2 1 4 2 4 (-2));
(2%nat, M3 4 2 2 2 1 (-2) 0 6 0);
(2%nat, M3 2 (-2) (-2) (-2) (-1) (-4) 2 4 (-2));
(0%nat, M3 2 (-4) (-2) 1 1 5 (-2) (-2) 2);
(2%nat, M3 4 2 (-2) (-2) (-1) 4 0 (-6) 0);
(2%nat, M3 (-2) (-4) (-2) (-2) (-1) 4 (-2) 2 (-2));
(0%nat, M3 (-2) 4 2 1 1 5 2 2 (-2));
(2%nat, M3 4 2 (-2) 4 2 (-5) 0 6 0);
(0%nat, M3 2 (-4) (-2) (-1) (-1) (-5) 2 2 (-2));
(2%nat, M3 2 4 2 2 1 (-4) (-2) 2 (-2));
(3%nat, M3 2 0 0 0 (-3) (-6) 0 3 (-6));
(0%nat, M3 2 (-2) 4 0 (-3) (-3) 2 1 (-5));
(0%nat, M3 2 0 (-4) 3 3 3 1 (-3) 1);
(4%nat, M3 (-4) (-2) 0 0 (-3) (-3) 0 (-3) 3);
(0%nat, M3 2 0 4 (-3) 3 3 (-1) (-3) 1);
(0%nat, M3 2 (-2) 4 0 3 3 (-2) (-1) 5);
(1%nat, M3 2 0 4 1 (-3) (-4) 1 3 (-4));
(0%nat, M3 2 0 4 1 (-3) (-1) 3 3 (-3));
(2%nat, M3 (-4) (-2) 4 (-2) (-4) (-1) 2 (-2) 1);
(1%nat, M3 2 0 4 (-2) 3 2 (-2) (-3) 2);
(0%nat, M3 2 2 4 (-2) 1 5 0 (-3) 3);
(1%nat, M3 2 0 (-2) 1 (-6) 2 (-1) (-6) (-2));
(0%nat, M3 2 2 4 2 (-1) (-5) 0 3 (-3));
(1%nat, M3 2 0 4 2 (-3) (-2) 2 3 (-2));
(2%nat, M3 4 2 (-4) (-2) 2 (-1) 2 4 1);
(0%nat, M3 2 0 4 (-1) 3 1 (-3) (-3) 3);
(1%nat, M3 2 0 4 (-1) 3 4 (-1) (-3) 4);
(1%nat, M3 2 0 (-2) (-1) 6 (-2) 1 6 2);
(3%nat, M3 0 (-2) 0 0 0 4 (-1) 0 0);
(7%nat, M3 (-2) 2 0 (-2) (-2) 0 0 0 1);
(7%nat, M3 2 0 0 0 0 (-4) 0 2 0);
(4%nat, M3 0 (-2) 0 0 0 4 (-2) (-1) 0);
(7%nat, M3 (-2) 2 0 (-2) (-2) 0 0 0 2);
(8%nat, M3 4 0 2 0 4 2 0 0 1);
(3%nat, M3 2 0 0 0 0 (-4) 0 3 0);
(1%nat, M3 2 0 (-2) 0 4 0 1 0 2);
(1%nat, M3 2 0 (-2) 0 (-4) 0 (-1) 0 (-2));
(7%nat, M3 (-2) 2 0 (-2) (-2) 0 0 0 3);
(2%nat, M3 4 2 0 0 (-2) 0 2 1 (-3));
(2%nat, M3 (-4) (-2) 0 0 (-2) 0 2 1 3);
(1%nat, M3 0 2 0 0 0 4 3 0 1);
(0%nat, M3 2 (-2) 0 0 0 (-4) 1 2 (-1));
(0%nat, M3 2 (-2) 0 0 0 4 (-1) (-2) 1);
(1%nat, M3 0 2 (-2) 0 2 2 3 0 1);
(1%nat, M3 2 (-2) 0 2 2 0 1 0 3);
(2%nat, M3 0 2 0 4 2 0 (-2) (-1) (-3));
(1%nat, M3 0 2 0 0 0 4 3 0 (-1));
(0%nat, M3 2 (-2) 0 0 0 (-4) 1 2 1);
(0%nat, M3 2 (-2) 0 0 0 4 (-1) (-2) (-1));
(1%nat, M3 0 2 (-2) 0 2 2 3 0 (-1));
(2%nat, M3 0 (-2) 0 4 2 0 2 1 3);
(1%nat, M3 0 2 (-2) 0 (-2) (-2) (-3) 0 1);
(7%nat, M3 0 0 2 (-4) 0 0 0 (-4) 0);
(7%nat, M3 2 (-2) 0 0 0 (-4) 2 2 0);
(7%nat, M3 (-2) 2 0 (-2) (-2) 0 0 0 4);
(15%nat, M3 0 (-4) (-2) 0 0 (-2) 4 0 2);
(3%nat, M3 (-2) 0 0 0 (-4) 0 0 0 6);
(1%nat, M3 (-2) 0 (-2) 0 (-4) 0 (-1) 0 5);
(4%nat, M3 (-2) (-4) 0 0 0 4 (-2) 2 0);
(4%nat, M3 0 (-2) 0 0 0 (-4) 6 3 0);
(4%nat, M3 (-2) 2 0 0 0 4 2 4 0);
(1%nat, M3 (-2) 0 (-2) 0 4 0 1 0 (-5));
(7%nat, M3 (-2) 2 0 (-2) (-2) 0 0 0 6);
(2%nat, M3 (-4) (-2) 4 0 2 0 (-2) (-1) (-4));
(2%nat, M3 (-4) (-2) 4 0 2 0 (-4) (-2) (-2));
(8%nat, M3 0 (-4) (-2) (-4) 0 (-2) 0 0 (-3));
(2%nat, M3 (-4) (-2) (-4) 0 2 0 4 2 (-2));
(2%nat, M3 (-4) (-2) (-4) 0 2 0 2 1 (-4));
(1%nat, M3 0 (-2) 0 (-4) 0 4 (-2) 0 (-4));
(0%nat, M3 (-2) 0 (-2) 0 (-4) (-4) (-1) (-2) 3);
(2%nat, M3 2 0 4 (-8) (-4) (-4) (-2) (-2) (-4));
(2%nat, M3 0 (-2) 0 0 0 (-4) 6 3 (-2));
(2%nat, M3 2 0 2 8 4 (-4) 2 2 2);
(0%nat, M3 (-2) 0 (-2) 0 4 0 1 2 (-5));
(1%nat, M3 2 (-2) (-2) (-2) (-2) 2 (-2) 0 (-4));
(2%nat, M3 0 2 0 (-4) (-2) (-4) (-2) (-1) 4);
(1%nat, M3 2 (-2) (-2) 2 2 (-2) 2 0 4);
(2%nat, M3 0 (-2) 2 0 (-2) (-2) 6 3 1);
(2%nat, M3 0 (-2) 0 4 2 4 (-4) (-2) 2);
(2%nat, M3 0 2 (-2) 0 (-2) (-2) (-6) (-3) 1);
(1%nat, M3 0 2 0 (-4) 0 4 2 0 4);
(0%nat, M3 2 0 2 0 (-4) (-4) 1 2 (-3));
(2%nat, M3 (-6) (-4) (-4) 0 0 (-4) 6 2 4);
(2%nat, M3 0 (-2) 0 0 0 (-4) 6 3 2);
(2%nat, M3 (-6) (-2) (-2) 0 0 (-4) (-6) (-4) (-2));
(0%nat, M3 (-2) 0 (-2) 0 4 0 1 (-2) (-5));
(1%nat, M3 2 2 (-2) (-2) 2 2 2 0 4);
(2%nat, M3 0 (-2) (-2) 0 2 (-2) 6 3 (-1));
(2%nat, M3 0 2 0 (-4) (-2) (-4) (-4) (-2) 2);
(2%nat, M3 0 (-2) 2 0 (-2) (-2) 6 3 (-1));
(1%nat, M3 2 2 (-2) 2 (-2) (-2) (-2) 0 (-4));
(2%nat, M3 0 (-2) 0 4 2 4 (-2) (-1) 4);
(3%nat, M3 (-2) 0 0 0 (-4) 0 0 0 12);
(3%nat, M3 (-2) 0 (-6) 0 (-4) 0 (-2) 0 6);
(1%nat, M3 2 0 (-4) 0 4 0 4 0 4);
(4%nat, M3 4 2 0 0 0 (-4) 0 6 0);
(1%nat, M3 2 0 (-4) 0 (-4) 0 (-4) 0 (-4));
(3%nat, M3 (-2) 0 (-6) 0 4 0 2 0 (-6));
(7%nat, M3 (-2) 2 0 (-2) (-2) 0 0 0 12);
(5%nat, M3 (-2) (-6) (-8) (-2) (-2) 0 (-2) 6 4);
(2%nat, M3 4 2 (-4) 0 2 0 8 4 4);
(8%nat, M3 0 (-4) (-2) (-4) 0 (-2) 0 0 (-6));
(2%nat, M3 4 2 4 0 2 0 (-8) (-4) 4);
(5%nat, M3 6 2 8 (-2) (-2) 0 6 (-2) 4);
(4%nat, M3 0 0 (-2) (-4) (-8) 0 (-4) 4 0);
(1%nat, M3 2 (-2) 4 (-4) 0 4 (-2) (-2) (-4));
(2%nat, M3 (-4) (-2) 6 4 4 0 (-4) 0 0);
(2%nat, M3 0 (-2) 0 8 4 4 (-4) (-2) 4);
(2%nat, M3 (-4) (-2) (-2) (-4) 0 4 4 4 (-4));
(1%nat, M3 2 (-2) 4 4 0 (-4) 2 2 4);
(1%nat, M3 2 (-2) (-4) (-2) (-2) 4 (-4) 0 (-4));
(5%nat, M3 (-2) 0 (-2) (-2) (-8) (-6) (-2) 4 6);
(1%nat, M3 2 (-2) (-4) 2 2 (-4) 4 0 4);
(10%nat, M3 0 4 2 (-4) 4 (-2) (-4) 0 2);
(2%nat, M3 0 (-2) 0 4 2 4 (-8) (-4) 4);
(10%nat, M3 0 4 2 4 (-4) 2 4 0 (-2));
(4%nat, M3 0 0 (-2) (-4) 4 0 4 8 0);
(1%nat, M3 (-2) 2 (-4) (-4) 0 4 2 2 4);
(2%nat, M3 4 2 (-6) 4 4 0 4 0 0);
(2%nat, M3 0 2 0 8 4 4 4 2 (-4));
(2%nat, M3 (-4) (-2) (-6) 4 4 0 4 0 0);
(1%nat, M3 (-2) 2 (-4) 4 0 (-4) (-2) (-2) (-4));
(1%nat, M3 2 2 (-4) (-2) 2 4 4 0 4);
(10%nat, M3 0 (-4) (-2) (-4) 4 (-2) 4 0 (-2));
(2%nat, M3 0 2 0 4 2 4 8 4 (-4));
(10%nat, M3 4 (-4) (-2) 4 0 2 0 (-4) 2);
(1%nat, M3 2 2 (-4) 2 (-2) (-4) (-4) 0 (-4));
(5%nat, M3 2 0 2 2 8 6 (-2) 4 6);
(3%nat, M3 0 (-2) 0 0 0 6 (-1) 0 0);
(1%nat, M3 (-2) 0 2 (-1) 0 (-5) 0 (-1) 0);
(4%nat, M3 (-2) (-4) 0 (-2) 2 0 0 0 (-1));
(4%nat, M3 0 2 0 (-6) (-3) 0 0 0 1);
(4%nat, M3 (-2) 2 0 2 4 0 0 0 (-1));
(1%nat, M3 (-2) 0 2 1 0 5 0 1 0);
(7%nat, M3 2 0 0 0 0 (-6) 0 2 0);
(4%nat, M3 0 (-2) 0 0 0 6 (-2) (-1) 0);
(1%nat, M3 (-2) 0 2 (-1) 0 (-5) 0 (-2) 0);
(2%nat, M3 (-4) (-2) 0 (-2) (-1) (-6) 0 (-1) 0);
(4%nat, M3 (-2) (-4) 0 (-2) 2 0 0 0 (-2));
(2%nat, M3 (-4) (-2) 4 (-4) (-2) (-2) 0 (-1) 0);
(4%nat, M3 0 2 0 (-6) (-3) 0 0 0 2);
(6%nat, M3 0 0 (-2) 0 (-6) (-3) (-2) 0 (-1));
(4%nat, M3 (-2) 2 0 2 4 0 0 0 (-2));
(2%nat, M3 (-4) (-2) (-4) 4 2 (-2) 0 (-1) 0);
(1%nat, M3 (-2) 0 2 1 0 5 0 2 0);
(2%nat, M3 4 2 0 (-2) (-1) (-6) 0 1 0);
(4%nat, M3 0 0 (-2) 0 6 0 2 1 0);
(5%nat, M3 (-2) 0 (-2) 0 (-6) (-6) (-1) (-1) 0);
(6%nat, M3 0 (-2) (-4) 0 (-2) 2 (-2) 0 (-1));
(2%nat, M3 (-4) (-2) 2 (-4) (-2) (-4) 0 (-1) 0);
(2%nat, M3 (-4) (-2) (-2) 4 2 (-4) 0 (-1) 0);
(6%nat, M3 (-2) 0 2 2 0 4 0 2 1);
(3%nat, M3 2 0 0 0 0 (-6) 0 3 0);
(1%nat, M3 2 0 (-2) 0 6 0 1 0 2);
(1%nat, M3 2 0 (-2) 0 (-6) 0 (-1) 0 (-2));
(1%nat, M3 2 0 2 1 0 (-5) 0 3 0);
(0%nat, M3 2 0 2 1 0 (-5) 1 3 1);
(0%nat, M3 2 (-2) (-2) 1 (-1) 5 (-1) (-2) 1);
(4%nat, M3 2 4 0 2 (-2) 0 0 0 (-3));
(2%nat, M3 2 4 0 2 (-2) 0 (-2) (-1) (-3));
(2%nat, M3 (-2) (-4) 2 (-2) 2 2 (-2) (-1) (-1));
(4%nat, M3 0 2 0 (-6) (-3) 0 0 0 3);
(2%nat, M3 (-4) (-2) 0 0 3 0 (-2) (-1) (-3));
(2%nat, M3 (-4) (-2) 0 0 (-3) 0 2 1 3);
(4%nat, M3 2 (-2) 0 (-2) (-4) 0 0 0 (-3));
(2%nat, M3 (-2) 2 (-2) 2 4 2 2 1 (-1));
(2%nat, M3 2 (-2) 2 (-2) (-4) (-2) 2 1 (-1));
(1%nat, M3 2 0 2 (-1) 0 5 0 (-3) 0);
(0%nat, M3 2 0 2 (-1) 0 5 1 (-3) 1);
(0%nat, M3 2 0 2 (-1) 0 5 (-1) (-3) (-1));
(3%nat, M3 2 0 0 0 0 (-6) 0 4 0);
(7%nat, M3 2 (-2) 0 0 0 (-6) 2 2 0);
(1%nat, M3 2 0 2 1 0 (-5) 0 4 0);
(2%nat, M3 4 2 (-4) 2 1 4 0 (-2) 0);
(4%nat, M3 2 4 0 2 (-2) 0 0 0 (-4));
(2%nat, M3 4 2 (-4) 4 2 2 0 (-2) 0);
(4%nat, M3 0 2 0 (-6) (-3) 0 0 0 4);
(8%nat, M3 0 4 2 0 0 3 4 0 2);
(4%nat, M3 2 (-2) 0 (-2) (-4) 0 0 0 (-4));
(2%nat, M3 4 2 4 (-4) (-2) 2 0 (-2) 0);
(1%nat, M3 2 0 2 (-1) 0 5 0 (-4) 0);
(2%nat, M3 4 2 4 (-2) (-1) 4 0 (-2) 0);
(4%nat, M3 0 0 (-2) 0 6 0 4 2 0);
(8%nat, M3 (-2) 2 0 0 0 6 2 2 2);
(0%nat, M3 2 (-2) 2 1 (-1) (-5) 1 3 (-1));
(0%nat, M3 2 (-2) (-2) 1 (-1) 5 (-1) (-3) (-1));
(6%nat, M3 2 0 4 2 0 (-2) 0 4 2);
(2%nat, M3 4 2 (-2) 4 2 4 0 (-2) 0);
(2%nat, M3 0 2 0 (-6) (-3) 0 (-2) (-1) 4);
(2%nat, M3 0 2 0 6 3 0 (-2) (-1) (-4));
(2%nat, M3 4 2 2 (-4) (-2) 4 0 (-2) 0);
(6%nat, M3 0 2 (-2) 0 (-2) (-4) (-4) 0 (-2));
(0%nat, M3 2 (-2) 2 (-1) 1 5 (-1) (-3) 1);
(0%nat, M3 2 2 2 (-1) (-1) 5 1 (-3) (-1));
(7%nat, M3 0 0 2 (-6) 0 0 0 (-6) 0);
(1%nat, M3 2 0 (-2) 0 6 0 1 0 5);
(4%nat, M3 2 4 0 0 0 6 2 (-2) 0);
(4%nat, M3 0 (-2) 0 0 0 (-6) 6 3 0);
(4%nat, M3 2 (-2) 0 0 0 6 (-2) (-4) 0);
(1%nat, M3 2 0 (-2) 0 (-6) 0 (-1) 0 (-5));
(1%nat, M3 (-2) 0 2 (-1) 0 (-5) 0 (-6) 0);
(2%nat, M3 (-4) (-2) (-2) 4 5 (-1) 4 (-1) (-1));
(0%nat, M3 2 (-2) 2 1 (-1) (-5) 2 4 2);
(2%nat, M3 4 2 (-4) 2 1 4 0 (-3) 0);
(0%nat, M3 2 (-2) (-2) 1 (-1) 5 (-2) (-4) 2);
(2%nat, M3 (-4) (-2) 2 4 5 1 (-4) 1 (-1));
(4%nat, M3 (-2) (-4) 0 (-2) 2 0 0 0 (-6));
(0%nat, M3 (-2) 2 (-2) (-2) (-4) (-2) (-1) 1 5);
(9%nat, M3 (-4) 2 (-2) 2 2 (-2) 2 (-4) (-2));
(2%nat, M3 4 2 (-4) 4 2 2 0 (-3) 0);
(9%nat, M3 (-2) 4 (-2) (-2) (-2) (-2) (-4) 2 2);
(0%nat, M3 (-2) (-2) (-2) (-2) 4 (-2) 1 1 (-5));
(4%nat, M3 0 2 0 (-6) (-3) 0 0 0 6);
(2%nat, M3 (-4) (-2) 4 0 3 0 (-2) (-1) (-4));
(2%nat, M3 (-4) (-2) 4 0 3 0 (-4) (-2) (-2));
(8%nat, M3 0 0 2 6 0 3 0 6 3);
(2%nat, M3 (-4) (-2) (-4) 0 3 0 4 2 (-2));
(2%nat, M3 (-4) (-2) 4 0 (-3) 0 2 1 4);
(4%nat, M3 (-2) 2 0 2 4 0 0 0 (-6));
(0%nat, M3 (-2) 2 2 2 4 (-2) (-1) 1 (-5));
(9%nat, M3 2 (-4) 2 4 (-2) (-2) 2 2 2);
(2%nat, M3 (-4) (-2) (-4) 4 2 (-2) 0 (-3) 0);
(9%nat, M3 2 2 2 4 (-2) (-2) (-2) 4 (-2));
(0%nat, M3 (-2) (-2) 2 2 (-4) (-2) 1 1 5);
(1%nat, M3 (-2) 0 2 1 0 5 0 6 0);
(2%nat, M3 4 2 (-2) 4 (-1) 1 (-4) (-5) (-1));
(0%nat, M3 2 2 2 (-1) (-1) 5 2 (-4) 2);
(2%nat, M3 4 2 (-4) (-2) (-1) (-4) 0 3 0);
(0%nat, M3 2 2 (-2) (-1) (-1) (-5) (-2) 4 2);
(2%nat, M3 4 2 (-2) 4 5 1 4 (-1) 1);
(4%nat, M3 0 0 (-2) 0 6 0 6 3 0);
(2%nat, M3 4 2 2 0 (-6) 0 (-4) (-2) (-5));
(2%nat, M3 (-4) (-2) (-2) 0 6 0 2 1 (-2));
(5%nat, M3 2 0 2 0 (-6) (-6) 3 3 0);
(2%nat, M3 4 2 (-2) 0 (-6) 0 2 1 (-4));
(2%nat, M3 4 2 (-2) 0 (-6) 0 4 2 (-5));
(6%nat, M3 (-2) 0 (-4) (-2) 0 2 0 6 3);
(0%nat, M3 (-2) 4 (-2) (-2) (-2) (-2) (-1) (-1) 5);
(2%nat, M3 (-2) (-4) 2 (-2) 2 2 (-2) (-1) (-4));
(2%nat, M3 4 2 (-2) 4 2 4 0 (-3) 0);
(2%nat, M3 (-2) (-4) (-2) (-2) 2 (-2) 2 1 (-4));
(0%nat, M3 (-2) (-4) (-2) (-2) 2 (-2) 1 (-1) (-5));
(2%nat, M3 4 2 2 (-4) (-2) 4 0 (-3) 0);
(2%nat, M3 (-2) 2 (-2) 2 4 2 2 1 (-4));
(0%nat, M3 (-2) 4 (-2) 2 2 2 1 1 (-5));
(6%nat, M3 (-2) 0 2 2 0 4 0 6 3);
(0%nat, M3 2 4 (-2) (-2) 2 2 1 (-1) 5);
(2%nat, M3 (-2) (-4) (-2) 2 (-2) 2 (-2) (-1) 4);
(3%nat, M3 (-2) 0 0 0 (-6) 0 0 0 12);
(3%nat, M3 (-2) 0 (-6) 0 (-6) 0 (-2) 0 6);
(1%nat, M3 2 0 (-4) 0 6 0 4 0 4);
(4%nat, M3 (-4) (-2) 0 0 0 (-6) 0 (-6) 0);
(1%nat, M3 2 0 (-4) 0 (-6) 0 (-4) 0 (-4));
(3%nat, M3 (-2) 0 (-6) 0 6 0 2 0 (-6));
(1%nat, M3 (-2) 0 2 (-1) 0 (-5) 0 (-12) 0);
(2%nat, M3 0 (-6) (-2) (-6) (-3) 5 0 6 (-2));
(0%nat, M3 (-2) 0 (-4) (-1) (-6) (-2) (-4) 0 4);
(2%nat, M3 (-4) (-2) 4 (-2) (-1) (-4) 0 (-6) 0);
(0%nat, M3 (-2) 0 (-4) (-1) 6 (-2) 4 0 (-4));
(2%nat, M3 0 6 (-2) (-6) (-3) 5 0 6 2);
(4%nat, M3 (-2) (-4) 0 (-2) 2 0 0 0 (-12));
(1%nat, M3 (-2) 6 2 (-2) 0 (-4) (-2) (-6) 2);
(2%nat, M3 (-6) (-6) (-2) (-6) 0 (-2) 0 0 (-4));
(2%nat, M3 4 2 4 4 2 (-2) 0 6 0);
(2%nat, M3 6 6 2 6 0 2 0 0 (-4));
(1%nat, M3 (-2) 6 (-2) (-2) 0 4 2 6 2);
(4%nat, M3 0 2 0 (-6) (-3) 0 0 0 12);
(5%nat, M3 4 (-2) 6 0 3 3 (-8) (-2) (-6));
(2%nat, M3 (-4) (-2) 4 0 3 0 (-8) (-4) (-4));
(6%nat, M3 0 (-4) (-2) (-6) 0 (-3) 0 0 (-6));
(2%nat, M3 (-4) (-2) (-4) 0 3 0 8 4 (-4));
(5%nat, M3 (-2) (-8) (-6) (-3) 0 (-3) 2 (-4) (-6));
(4%nat, M3 (-2) 2 0 2 4 0 0 0 (-12));
(1%nat, M3 (-2) (-6) 2 2 0 4 (-2) 6 2);
(2%nat, M3 2 (-2) (-4) (-2) (-4) 4 (-8) (-4) 4);
(2%nat, M3 (-4) (-2) (-4) 4 2 (-2) 0 (-6) 0);
(2%nat, M3 (-6) (-6) (-2) 6 0 2 0 0 4);
(1%nat, M3 (-2) 6 2 2 0 4 2 6 (-2));
(1%nat, M3 (-2) 0 2 1 0 5 0 12 0);
(2%nat, M3 0 6 (-2) 6 3 (-5) 0 (-6) (-2));
(0%nat, M3 (-2) 0 (-4) 1 (-6) 2 (-4) 0 4);
(2%nat, M3 (-4) (-2) (-4) 2 1 (-4) 0 (-6) 0);
(0%nat, M3 (-2) 0 (-4) 1 6 2 4 0 (-4));
(2%nat, M3 0 (-6) (-2) 6 3 (-5) 0 (-6) 2);
(7%nat, M3 0 0 2 (-6) 6 0 (-6) (-6) 0);
(6%nat, M3 2 0 4 0 (-12) (-6) 2 0 (-2));
(2%nat, M3 (-4) (-2) 2 0 (-6) 0 4 2 4);
(8%nat, M3 0 0 2 6 (-6) 0 6 6 6);
(2%nat, M3 (-4) (-2) (-2) 0 (-6) 0 (-4) (-2) 4);
(6%nat, M3 2 0 4 0 12 6 (-2) 0 2);
(1%nat, M3 (-2) 0 4 (-1) 6 (-4) (-1) (-6) (-4));
(0%nat, M3 (-2) 4 (-6) (-1) (-4) (-3) (-3) 0 3);
(2%nat, M3 (-4) (-2) 4 4 5 2 (-4) 1 (-2));
(2%nat, M3 (-4) (-2) 4 4 (-1) 2 4 5 2);
(0%nat, M3 2 (-4) 6 1 4 3 (-3) 0 3);
(1%nat, M3 2 0 (-4) 1 (-6) 4 (-1) (-6) (-4));
(6%nat, M3 2 6 4 2 (-6) (-2) 0 0 (-6));
(1%nat, M3 (-2) 0 4 (-2) 6 (-2) (-2) (-6) (-2));
(9%nat, M3 (-2) 4 (-4) (-2) (-2) (-4) (-4) 2 4);
(2%nat, M3 4 2 2 4 2 (-4) 0 6 0);
(9%nat, M3 (-4) 2 (-4) 2 2 (-4) 2 (-4) (-4));
(1%nat, M3 2 0 (-4) 2 (-6) 2 (-2) (-6) (-2));
(0%nat, M3 (-2) 4 6 (-3) 0 (-3) (-1) (-4) 3);
(4%nat, M3 (-4) (-2) 0 0 (-3) (-6) 0 (-3) 6);
(0%nat, M3 (-2) 4 6 3 0 3 1 4 (-3));
(0%nat, M3 2 4 6 (-3) 0 3 1 (-4) 3);
(4%nat, M3 4 2 0 0 (-3) (-6) 0 3 (-6));
(0%nat, M3 2 (-4) (-6) 3 0 3 (-1) (-4) 3);
(2%nat, M3 4 2 2 (-4) (-2) 4 0 (-6) 0);
(9%nat, M3 (-2) 4 4 (-4) 2 (-4) (-2) (-2) 4);
(1%nat, M3 (-2) 0 4 2 (-6) 2 2 6 2);
(6%nat, M3 (-2) (-6) (-4) 2 (-6) (-2) 0 0 6);
(1%nat, M3 2 0 (-4) (-2) 6 (-2) 2 6 2);
(9%nat, M3 2 (-4) (-4) 4 (-2) 4 (-2) (-2) 4);
(2%nat, M3 (-4) (-2) (-4) (-4) 1 2 4 5 (-2));
(0%nat, M3 (-2) 4 (-6) 1 4 3 3 0 (-3));
(1%nat, M3 (-2) 0 4 1 (-6) 4 1 6 4);
(1%nat, M3 2 0 (-4) (-1) 6 (-4) 1 6 4);
(0%nat, M3 2 (-4) 6 (-1) (-4) (-3) 3 0 (-3));
(2%nat, M3 (-4) (-2) (-4) (-4) (-5) 2 (-4) 1 2);
(3%nat, M3 0 (-2) 0 0 0 12 (-1) 0 0);
(3%nat, M3 0 (-2) (-6) 0 (-2) 6 (-1) 0 0);
(1%nat, M3 (-2) 0 4 (-4) 0 (-4) 0 (-1) 0);
(4%nat, M3 (-4) (-2) 0 0 (-6) 0 0 0 1);
(1%nat, M3 (-2) 0 4 4 0 4 0 1 0);
(3%nat, M3 0 (-2) (-6) 0 2 (-6) 1 0 0);
(7%nat, M3 2 0 0 0 0 (-12) 0 2 0);
(4%nat, M3 0 (-2) 0 0 0 12 (-2) (-1) 0);
(3%nat, M3 0 (-2) (-6) 0 (-2) 6 (-2) 0 0);
(5%nat, M3 (-2) (-8) (-6) (-2) 4 6 (-1) 0 (-1));
(1%nat, M3 (-2) 0 4 (-4) 0 (-4) 0 (-2) 0);
(2%nat, M3 (-4) (-2) 4 (-8) (-4) (-4) 0 (-1) 0);
(4%nat, M3 (-4) (-2) 0 0 (-6) 0 0 0 2);
(6%nat, M3 0 4 2 0 0 6 2 0 1);
(1%nat, M3 (-2) 0 4 4 0 4 0 2 0);
(2%nat, M3 (-4) (-2) (-4) 8 4 (-4) 0 (-1) 0);
(3%nat, M3 0 (-2) (-6) 0 2 (-6) 2 0 0);
(5%nat, M3 4 6 (-2) 8 6 2 0 (-1) (-1));
(3%nat, M3 2 0 0 0 0 (-12) 0 3 0);
(1%nat, M3 2 0 (-2) 0 12 0 1 0 2);
(1%nat, M3 2 0 (-2) 0 (-12) 0 (-1) 0 (-2));
(3%nat, M3 2 0 6 2 0 (-6) 0 3 0);
(1%nat, M3 2 (-6) 0 2 6 0 1 0 3);
(1%nat, M3 0 6 (-2) 0 (-6) (-2) (-3) 0 1);
(1%nat, M3 (-2) 0 4 (-4) 0 (-4) 0 (-3) 0);
(0%nat, M3 0 (-2) (-4) 0 (-4) 4 (-3) (-1) 1);
(0%nat, M3 0 (-2) (-4) 0 (-4) 4 (-3) 1 (-1));
(4%nat, M3 (-4) (-2) 0 0 (-6) 0 0 0 3);
(2%nat, M3 4 2 (-4) 0 6 0 2 1 1);
(2%nat, M3 (-4) (-2) 4 0 (-6) 0 2 1 1);
(1%nat, M3 (-2) 0 4 4 0 4 0 3 0);
(0%nat, M3 0 (-2) (-4) 0 4 (-4) 3 (-1) 1);
(0%nat, M3 0 (-2) (-4) 0 4 (-4) 3 1 (-1));
(3%nat, M3 2 0 6 (-2) 0 6 0 (-3) 0);
(1%nat, M3 0 6 (-2) 0 6 2 3 0 (-1));
(1%nat, M3 0 6 (-2) 0 6 2 3 0 1);
(3%nat, M3 2 0 0 0 0 (-12) 0 4 0);
(7%nat, M3 2 (-2) 0 0 0 (-12) 2 2 0);
(3%nat, M3 2 0 6 2 0 (-6) 0 4 0);
(5%nat, M3 2 6 8 2 (-6) (-4) 2 2 0);
(1%nat, M3 (-2) 0 4 (-4) 0 (-4) 0 (-4) 0);
(2%nat, M3 (-4) (-2) 4 (-8) (-4) (-4) 0 (-2) 0);
(4%nat, M3 (-4) (-2) 0 0 (-6) 0 0 0 4);
(8%nat, M3 0 4 2 0 0 6 4 0 2);
(1%nat, M3 (-2) 0 4 4 0 4 0 4 0);
(2%nat, M3 (-4) (-2) (-4) 8 4 (-4) 0 (-2) 0);
(3%nat, M3 2 0 6 (-2) 0 6 0 (-4) 0);
(5%nat, M3 (-6) (-2) (-8) (-6) 2 (-4) 2 2 0);
(3%nat, M3 2 0 0 0 0 (-12) 0 6 0);
(1%nat, M3 2 0 (-2) 0 12 0 1 0 5);
(4%nat, M3 2 4 0 0 0 12 2 (-2) 0);
(4%nat, M3 0 (-2) 0 0 0 (-12) 6 3 0);
(4%nat, M3 2 (-2) 0 0 0 12 (-2) (-4) 0);
(1%nat, M3 2 0 (-2) 0 (-12) 0 (-1) 0 (-5));
(3%nat, M3 2 0 6 2 0 (-6) 0 6 0);
(2%nat, M3 0 6 2 0 (-6) 2 6 3 (-5));
(1%nat, M3 2 (-6) (-2) 2 6 (-2) 2 0 4);
(5%nat, M3 (-4) 2 (-6) 8 2 6 0 (-3) (-3));
(1%nat, M3 2 6 (-2) 2 (-6) (-2) (-2) 0 (-4));
(2%nat, M3 0 (-6) 2 0 6 2 (-6) (-3) 5);
(1%nat, M3 (-2) 0 4 (-4) 0 (-4) 0 (-6) 0);
(0%nat, M3 2 0 4 4 0 (-4) 1 6 2);
(2%nat, M3 6 6 2 0 0 4 6 0 2);
(2%nat, M3 4 2 (-4) 8 4 4 0 (-3) 0);
(2%nat, M3 (-2) 2 4 8 4 (-4) 2 4 (-4));
(0%nat, M3 2 0 4 4 0 (-4) (-1) 6 (-2));
(4%nat, M3 4 2 0 0 6 0 0 0 6);
(2%nat, M3 4 2 (-4) 0 6 0 2 1 4);
(2%nat, M3 (-4) (-2) (-4) 0 (-6) 0 (-4) (-2) 2);
(6%nat, M3 0 4 2 0 0 6 6 0 3);
(2%nat, M3 4 2 4 0 6 0 (-4) (-2) 2);
(2%nat, M3 4 2 4 0 6 0 (-2) (-1) 4);
(1%nat, M3 (-2) 0 4 4 0 4 0 6 0);
(0%nat, M3 2 0 4 (-4) 0 4 1 (-6) 2);
(2%nat, M3 (-6) (-6) (-2) 0 0 4 (-6) 0 (-2));
(2%nat, M3 4 2 4 (-8) (-4) 4 0 (-3) 0);
(2%nat, M3 6 6 2 0 0 (-4) (-6) 0 (-2));
(0%nat, M3 2 0 4 (-4) 0 4 (-1) (-6) (-2));
(3%nat, M3 2 0 6 (-2) 0 6 0 (-6) 0);
(2%nat, M3 0 (-6) 2 0 (-6) (-2) 6 3 (-5));
(1%nat, M3 2 (-6) 2 (-2) (-6) (-2) 2 0 (-4));
(5%nat, M3 2 8 6 (-2) 4 6 3 0 3);
(1%nat, M3 2 (-6) (-2) (-2) (-6) 2 (-2) 0 (-4));
(2%nat, M3 0 6 2 0 6 (-2) (-6) (-3) 5);
(7%nat, M3 0 0 2 (-12) 0 0 0 (-12) 0);
(3%nat, M3 2 (-6) 0 0 0 (-12) 2 6 0);
(1%nat, M3 2 0 (-4) 0 12 0 4 0 4);
(4%nat, M3 4 2 0 0 0 (-12) 0 6 0);
(1%nat, M3 2 0 (-4) 0 (-12) 0 (-4) 0 (-4));
(3%nat, M3 2 (-6) 0 0 0 12 (-2) (-6) 0);
(3%nat, M3 (-2) 6 0 (-2) (-6) 0 0 0 12);
(9%nat, M3 (-4) (-4) (-2) (-4) 8 (-2) 8 (-4) (-2));
(1%nat, M3 2 (-6) (-4) 2 6 (-4) 4 0 4);
(5%nat, M3 6 4 (-2) (-6) (-8) (-2) (-6) 0 (-6));
(1%nat, M3 2 6 (-4) 2 (-6) (-4) (-4) 0 (-4));
(9%nat, M3 (-4) 8 2 8 (-4) 2 4 4 (-2));
(1%nat, M3 (-2) 0 4 (-4) 0 (-4) 0 (-12) 0);
(1%nat, M3 (-2) 6 4 (-4) 0 (-4) (-2) (-6) 4);
(2%nat, M3 (-4) (-2) 6 4 (-4) 0 4 8 0);
(2%nat, M3 (-4) (-2) (-4) (-8) (-4) 4 0 6 0);
(2%nat, M3 4 2 (-6) (-4) 4 0 4 8 0);
(1%nat, M3 (-2) 6 (-4) (-4) 0 4 2 6 4);
(4%nat, M3 (-4) (-2) 0 0 (-6) 0 0 0 12);
(5%nat, M3 (-6) (-4) 2 6 0 6 6 8 2);
(2%nat, M3 (-4) (-2) 4 0 6 0 (-8) (-4) (-4));
(8%nat, M3 0 0 2 12 0 6 0 12 6);
(2%nat, M3 4 2 (-4) 0 (-6) 0 (-8) (-4) (-4));
(5%nat, M3 2 6 8 6 6 0 (-2) 6 4);
(1%nat, M3 (-2) 0 4 4 0 4 0 12 0);
(1%nat, M3 (-2) (-6) 4 4 0 4 (-2) 6 4);
(2%nat, M3 (-4) (-2) 2 (-4) (-8) (-4) 4 (-4) 4);
(2%nat, M3 (-4) (-2) 4 8 4 4 0 6 0);
(2%nat, M3 (-4) (-2) (-6) (-4) (-8) 0 (-4) 4 0);
(1%nat, M3 (-2) (-6) (-4) 4 0 (-4) 2 (-6) 4);
(3%nat, M3 (-2) 6 0 2 6 0 0 0 (-12));
(9%nat, M3 4 (-8) (-2) (-4) (-4) 2 (-8) 4 (-2));
(1%nat, M3 2 (-6) 4 (-2) (-6) (-4) 4 0 (-4));
(5%nat, M3 6 8 2 6 4 (-2) (-6) 0 (-6));
(1%nat, M3 2 6 4 (-2) 6 (-4) (-4) 0 4);
(9%nat, M3 4 4 (-2) (-4) 8 2 8 (-4) 2);
(7%nat, M3 0 0 3 (-1) 0 0 0 (-1) 0);
(3%nat, M3 0 0 3 (-1) 0 0 0 (-2) 0);
(4%nat, M3 0 (-3) 0 0 0 1 (-2) (-1) 0);
(7%nat, M3 0 0 3 (-1) 1 0 (-1) (-1) 0);
(8%nat, M3 0 0 (-3) 1 (-1) 0 (-1) (-1) (-1));
(7%nat, M3 3 0 0 0 0 (-1) 0 3 0);
(4%nat, M3 0 0 (-3) (-1) (-2) 0 (-1) 1 0);
(4%nat, M3 0 0 (-3) (-1) 1 0 1 2 0);
(3%nat, M3 0 3 0 1 0 0 0 0 (-4));
(1%nat, M3 3 0 0 0 1 0 1 0 4);
(4%nat, M3 0 (-3) 0 0 0 (-1) 4 2 0);
(1%nat, M3 3 0 0 0 1 0 (-1) 0 4);
(3%nat, M3 0 0 3 (-1) 2 0 (-1) (-2) 0);
(2%nat, M3 6 3 0 (-1) 0 (-2) 1 1 2);
(4%nat, M3 0 3 0 2 1 (-1) (-2) (-1) (-1));
(2%nat, M3 6 3 0 1 0 2 (-1) (-1) (-2));
(4%nat, M3 0 0 3 (-2) (-1) 0 0 (-2) 0);
(2%nat, M3 0 0 (-3) 0 1 0 4 2 (-1));
(5%nat, M3 3 3 0 0 1 1 2 0 2);
(2%nat, M3 0 0 (-3) 0 1 0 4 2 1);
(3%nat, M3 0 0 (-3) (-1) 2 0 1 2 0);
(2%nat, M3 (-6) (-3) 0 (-1) 0 (-2) (-1) (-1) (-2));
(4%nat, M3 0 3 0 2 1 1 2 1 (-1));
(2%nat, M3 (-6) (-3) 0 1 1 (-2) 1 0 (-2));
(3%nat, M3 0 3 0 1 0 0 0 0 (-6));
(7%nat, M3 3 (-3) 0 0 0 (-1) 3 3 0);
(3%nat, M3 0 3 0 1 0 3 1 0 (-3));
(6%nat, M3 0 6 3 (-1) 0 (-2) (-1) 0 1);
(1%nat, M3 0 (-3) 0 (-1) 0 2 (-2) 0 (-2));
(2%nat, M3 0 3 0 2 1 (-1) (-2) (-1) (-2));
(4%nat, M3 0 0 3 2 1 0 0 3 0);
(8%nat, M3 (-3) 3 0 0 0 (-1) (-3) (-3) (-3));
(1%nat, M3 0 3 0 (-1) 0 2 2 0 2);
(2%nat, M3 0 3 0 2 1 1 2 1 (-2));
(3%nat, M3 0 (-3) 0 1 0 3 (-1) 0 3);
(6%nat, M3 0 (-6) (-3) (-1) 0 (-2) 1 0 (-1));
(3%nat, M3 0 3 0 1 0 0 0 0 (-12));
(3%nat, M3 0 3 6 1 0 0 0 3 (-6));
(4%nat, M3 6 3 0 0 0 (-1) 0 6 0);
(3%nat, M3 0 3 6 (-1) 0 0 0 (-3) 6);
(3%nat, M3 0 3 0 1 0 6 1 0 (-6));
(2%nat, M3 6 3 6 (-3) (-2) 3 3 1 (-3));
(4%nat, M3 0 (-3) 0 6 3 1 (-6) (-3) 1);
(2%nat, M3 6 3 6 3 2 (-3) (-3) (-1) 3);
(1%nat, M3 0 3 0 1 0 5 2 0 (-2));
(0%nat, M3 0 3 3 1 (-1) 4 2 1 (-1));
(2%nat, M3 0 (-3) 0 4 2 1 (-4) (-2) 2);
(0%nat, M3 0 3 3 (-1) 1 (-4) (-2) (-1) 1);
(1%nat, M3 0 (-3) 0 (-1) 0 4 (-3) 0 0);
(2%nat, M3 (-3) (-3) 0 2 1 (-4) 3 0 0);
(2%nat, M3 0 (-3) 0 4 2 1 0 0 3);
(2%nat, M3 (-3) (-3) 0 (-2) (-1) 4 (-3) 0 0);
(1%nat, M3 0 3 0 (-3) 0 1 0 0 4);
(0%nat, M3 0 (-3) 0 3 1 1 0 1 4);
(2%nat, M3 0 3 0 (-2) (-1) 3 4 2 0);
(0%nat, M3 0 (-3) 0 3 (-1) 1 0 (-1) 4);
(3%nat, M3 0 (-3) 0 2 0 3 (-2) 0 3);
(2%nat, M3 (-6) (-3) 0 (-1) (-2) (-2) 1 (-1) 2);
(4%nat, M3 0 3 0 2 1 (-3) (-2) (-1) (-3));
(2%nat, M3 (-6) (-3) 0 1 2 2 (-1) 1 (-2));
(4%nat, M3 0 0 3 2 1 0 0 6 0);
(4%nat, M3 0 (-3) 3 2 1 0 0 3 3);
(5%nat, M3 (-3) 0 (-3) 0 (-1) (-1) (-6) (-6) 0);
(4%nat, M3 0 3 3 2 1 0 0 3 (-3));
(3%nat, M3 0 (-3) 0 2 0 (-3) 2 0 3);
(2%nat, M3 (-6) (-3) 0 1 2 (-2) 1 (-1) (-2));
(4%nat, M3 0 3 0 (-2) (-1) (-3) (-2) (-1) 3);
(2%nat, M3 (-6) (-3) 0 (-1) 1 (-2) (-1) (-2) (-2));
(1%nat, M3 0 (-3) 0 (-3) 0 1 0 0 (-4));
(0%nat, M3 0 3 0 (-3) 1 (-1) 0 (-1) 4);
(2%nat, M3 0 (-3) 0 2 1 (-3) 4 2 0);
(0%nat, M3 0 3 0 3 (-1) 1 0 1 (-4));
(1%nat, M3 0 3 0 (-1) 0 4 3 0 0);
(2%nat, M3 3 0 0 2 1 4 (-3) (-3) 0);
(2%nat, M3 0 3 0 4 2 1 0 0 (-3));
(2%nat, M3 (-3) (-3) 0 2 1 4 (-3) 0 0);
(1%nat, M3 0 (-3) 0 1 0 5 (-2) 0 2);
(0%nat, M3 0 (-3) (-3) 1 (-1) 4 (-2) (-1) 1);
(2%nat, M3 0 3 0 4 2 1 4 2 (-2));
(0%nat, M3 0 (-3) (-3) (-1) 1 (-4) 2 1 (-1));
(3%nat, M3 0 (-3) 0 1 0 6 (-1) 0 6);
(2%nat, M3 6 3 0 3 2 6 3 1 6);
(4%nat, M3 0 3 0 6 3 1 6 3 (-1));
(2%nat, M3 (-6) (-3) (-6) 3 2 (-3) 3 1 (-3));
(3%nat, M3 0 0 (-3) 0 2 0 1 0 0);
(4%nat, M3 0 3 0 2 1 0 0 0 (-1));
(7%nat, M3 0 0 3 (-2) 0 0 0 (-2) 0);
(4%nat, M3 0 (-3) 0 0 0 2 (-2) (-1) 0);
(4%nat, M3 0 (-3) 0 (-2) (-1) 0 0 0 (-2));
(8%nat, M3 0 0 (-3) 0 (-2) (-1) (-2) 0 (-1));
(4%nat, M3 0 0 (-3) 0 2 0 2 1 0);
(5%nat, M3 0 3 3 2 0 2 1 1 0);
(2%nat, M3 0 0 3 4 2 1 0 1 0);
(2%nat, M3 0 0 3 4 2 (-1) 0 1 0);
(7%nat, M3 3 0 0 0 0 (-2) 0 3 0);
(4%nat, M3 0 (-3) 0 (-2) (-1) 0 0 0 (-3));
(1%nat, M3 0 (-3) 0 (-2) 0 2 (-1) 0 (-2));
(2%nat, M3 0 (-3) 0 2 1 2 (-2) (-1) 1);
(1%nat, M3 0 3 0 (-2) 0 2 1 0 2);
(2%nat, M3 0 3 0 2 1 2 2 1 (-1));
(3%nat, M3 0 3 0 2 0 0 0 0 (-4));
(1%nat, M3 3 0 0 0 2 0 1 0 4);
(4%nat, M3 0 (-3) 0 0 0 (-2) 4 2 0);
(1%nat, M3 3 0 0 0 2 0 (-1) 0 4);
(4%nat, M3 0 3 0 2 1 0 0 0 (-4));
(2%nat, M3 6 3 0 0 1 0 2 1 4);
(6%nat, M3 0 0 3 2 0 1 0 4 2);
(2%nat, M3 6 3 0 0 (-1) 0 (-2) (-1) (-4));
(7%nat, M3 0 0 3 (-2) 2 0 (-2) (-2) 0);
(2%nat, M3 0 0 3 0 2 0 (-4) (-2) 1);
(8%nat, M3 0 0 (-3) 2 (-2) 0 (-2) (-2) (-2));
(2%nat, M3 0 0 3 0 2 0 (-4) (-2) (-1));
(2%nat, M3 0 0 (-3) (-4) (-2) (-1) 0 2 0);
(4%nat, M3 0 (-3) 0 (-2) (-1) 2 (-2) (-1) (-2));
(2%nat, M3 0 0 (-3) (-4) (-2) 1 0 2 0);
(4%nat, M3 0 (-3) 0 2 1 2 (-2) (-1) 2);
(3%nat, M3 0 3 0 2 0 0 0 0 (-6));
(7%nat, M3 3 (-3) 0 0 0 (-2) 3 3 0);
(4%nat, M3 0 3 0 2 1 0 0 0 (-6));
(8%nat, M3 (-6) 0 (-3) 0 0 (-1) 0 (-6) (-3));
(1%nat, M3 0 3 0 2 0 2 1 0 (-5));
(2%nat, M3 0 (-3) 0 4 2 2 (-4) (-2) 1);
(0%nat, M3 0 3 3 2 (-1) 1 1 1 (-4));
(0%nat, M3 0 3 3 (-2) 1 (-1) (-1) (-1) 4);
(4%nat, M3 0 0 (-3) 2 4 0 2 (-2) 0);
(2%nat, M3 0 (-3) 0 4 2 2 (-2) (-1) 2);
(5%nat, M3 3 3 0 1 3 4 1 (-3) (-2));
(2%nat, M3 0 (-3) 0 2 1 2 (-4) (-2) 2);
(4%nat, M3 0 0 3 0 2 0 (-6) (-3) 0);
(8%nat, M3 (-3) 3 0 0 0 (-2) (-3) (-3) (-3));
(2%nat, M3 0 0 (-3) (-4) (-2) (-1) 0 3 0);
(2%nat, M3 0 0 (-3) (-4) (-2) 1 0 3 0);
(4%nat, M3 0 0 (-3) 2 (-2) 0 (-2) (-4) 0);
(2%nat, M3 0 3 0 4 2 2 2 1 (-2));
(2%nat, M3 0 3 0 (-2) (-1) (-2) (-4) (-2) 2);
(5%nat, M3 0 3 3 (-2) 1 (-3) (-4) (-1) (-3));
(1%nat, M3 0 (-3) 0 2 0 2 (-1) 0 5);
(2%nat, M3 0 3 0 4 2 2 4 2 (-1));
(0%nat, M3 0 (-3) (-3) 2 (-1) 1 (-1) (-1) 4);
(0%nat, M3 0 (-3) (-3) (-2) 1 (-1) 1 1 (-4));
(3%nat, M3 0 3 0 2 0 0 0 0 (-12));
(3%nat, M3 0 3 6 2 0 0 0 3 (-6));
(4%nat, M3 6 3 0 0 0 (-2) 0 6 0);
(3%nat, M3 0 3 6 (-2) 0 0 0 (-3) 6);
(4%nat, M3 0 3 0 2 1 0 0 0 (-12));
(4%nat, M3 0 3 6 2 1 0 0 3 (-6));
(6%nat, M3 0 (-6) (-3) (-2) 0 (-1) 0 0 (-6));
(4%nat, M3 0 (-3) (-6) (-2) (-1) 0 0 3 (-6));
(3%nat, M3 0 3 0 2 0 6 2 0 (-6));
(0%nat, M3 0 3 3 2 (-2) 4 2 1 (-5));
(6%nat, M3 0 6 3 (-2) 0 (-4) (-2) 0 2);
(0%nat, M3 0 3 3 (-2) 2 (-4) (-2) (-1) 5);
(4%nat, M3 0 3 0 2 1 6 2 1 (-6));
(0%nat, M3 0 3 3 2 (-1) 5 2 2 (-4));
(4%nat, M3 0 (-3) 0 6 3 2 (-6) (-3) 2);
(0%nat, M3 0 3 3 (-2) 1 (-5) (-2) (-2) 4);
(1%nat, M3 0 (-3) 0 (-2) 0 4 (-4) 0 (-4));
(0%nat, M3 (-3) 3 3 2 0 4 1 3 (-1));
(2%nat, M3 0 (-3) 0 4 2 2 (-4) (-2) 4);
(0%nat, M3 (-3) (-3) (-3) (-2) 0 4 (-1) 3 (-1));
(2%nat, M3 0 3 0 (-2) (-1) (-4) (-4) (-2) 4);
(0%nat, M3 (-3) 0 (-3) 1 (-2) (-3) (-1) (-4) 3);
(2%nat, M3 0 (-3) 0 6 3 2 0 0 4);
(0%nat, M3 (-3) 0 (-3) (-1) 2 3 1 4 (-3));
(4%nat, M3 0 0 3 (-4) (-2) 0 0 (-6) 0);
(4%nat, M3 0 (-3) 3 4 2 0 0 3 3);
(5%nat, M3 3 0 3 2 2 0 0 6 6);
(4%nat, M3 0 3 3 4 2 0 0 3 (-3));
(2%nat, M3 0 0 3 (-4) (-2) 1 0 (-6) 0);
(2%nat, M3 0 3 0 (-2) (-1) (-4) (-6) (-3) 0);
(2%nat, M3 0 0 3 (-4) (-2) (-1) 0 (-6) 0);
(2%nat, M3 0 3 0 (-2) (-1) 4 6 3 0);
(1%nat, M3 0 3 0 (-2) 0 4 4 0 4);
(0%nat, M3 3 (-3) (-3) 2 0 4 (-1) (-3) 1);
(2%nat, M3 0 3 0 (-4) (-2) (-2) (-4) (-2) 4);
(0%nat, M3 3 (-3) (-3) (-2) 0 (-4) 1 3 (-1));
(0%nat, M3 3 0 3 1 (-2) (-3) 1 4 (-3));
(2%nat, M3 0 3 0 (-6) (-3) (-2) 0 0 4);
(0%nat, M3 3 0 3 (-1) 2 3 (-1) (-4) 3);
(2%nat, M3 0 (-3) 0 2 1 4 (-4) (-2) 4);
(3%nat, M3 0 (-3) 0 2 0 6 (-2) 0 6);
(0%nat, M3 0 (-3) (-3) 2 (-2) 4 (-2) (-1) 5);
(6%nat, M3 0 (-6) (-3) (-2) 0 (-4) 2 0 (-2));
(0%nat, M3 0 (-3) (-3) (-2) 2 (-4) 2 1 (-5));
(0%nat, M3 0 (-3) (-3) 2 (-1) 5 (-2) (-2) 4);
(4%nat, M3 0 3 0 6 3 2 6 3 (-2));
(0%nat, M3 0 (-3) (-3) (-2) 1 (-5) 2 2 (-4));
(4%nat, M3 0 3 0 2 1 (-6) (-2) (-1) (-6));
(7%nat, M3 (-3) 0 0 0 (-3) 0 0 0 1);
(7%nat, M3 (-3) 0 0 0 (-3) 0 0 0 2);
(4%nat, M3 0 3 0 0 0 3 2 1 0);
(4%nat, M3 0 0 (-3) 0 (-3) 0 (-2) (-1) 0);
(8%nat, M3 (-3) (-3) (-3) (-3) 3 0 0 0 (-1));
(13%nat, M3 (-3) 0 0 0 (-3) 0 0 0 3);
(7%nat, M3 (-3) 0 0 0 (-3) 0 0 0 4);
(1%nat, M3 3 0 0 0 3 0 1 0 4);
(4%nat, M3 0 (-3) 0 0 0 (-3) 4 2 0);
(1%nat, M3 3 0 0 0 3 0 (-1) 0 4);
(1%nat, M3 0 (-3) 0 (-3) 0 0 (-1) 0 (-4));
(2%nat, M3 (-3) 0 0 (-3) (-3) 0 (-2) (-1) 4);
(2%nat, M3 0 (-3) 0 0 0 (-3) 4 2 (-1));
(2%nat, M3 (-3) (-3) 0 3 0 0 2 1 4);
(4%nat, M3 0 0 3 0 3 0 (-4) (-2) 0);
(2%nat, M3 0 0 3 0 3 0 (-4) (-2) 1);
(8%nat, M3 3 (-3) 0 3 3 3 0 0 2);
(2%nat, M3 0 0 3 0 3 0 (-4) (-2) (-1));
(1%nat, M3 0 (-3) 0 (-3) 0 0 1 0 (-4));
(2%nat, M3 (-3) 0 0 3 3 0 (-2) (-1) (-4));
(2%nat, M3 0 (-3) 0 0 0 (-3) 4 2 1);
(2%nat, M3 3 3 0 3 0 0 (-2) (-1) (-4));
(7%nat, M3 (-3) 0 0 0 (-3) 0 0 0 6);
(7%nat, M3 3 (-3) 0 0 0 (-3) 3 3 0);
(7%nat, M3 0 0 3 (-3) 3 0 (-3) (-3) 0);
(14%nat, M3 (-3) 0 (-3) 0 (-3) (-3) (-3) (-3) 0);
(7%nat, M3 (-3) 0 0 0 (-3) 0 0 0 12);
(3%nat, M3 0 3 6 3 0 0 0 3 (-6));
(4%nat, M3 6 3 0 0 0 (-3) 0 6 0);
(3%nat, M3 0 3 6 (-3) 0 0 0 (-3) 6);
(3%nat, M3 (-3) 0 0 0 (-3) (-6) 0 (-3) 6);
(11%nat, M3 3 0 6 0 (-3) 3 3 (-3) (-3));
(4%nat, M3 0 (-3) 0 6 3 3 (-6) (-3) 3);
(11%nat, M3 (-3) 0 (-6) (-3) 3 3 0 3 (-3));
(4%nat, M3 0 0 3 (-6) (-3) 0 0 (-6) 0);
(4%nat, M3 (-6) (-3) (-3) 0 3 0 6 3 (-3));
(8%nat, M3 (-3) (-3) (-3) (-3) 3 0 0 0 (-6));
(4%nat, M3 (-6) (-3) (-3) 0 (-3) 0 (-6) (-3) 3);
(3%nat, M3 3 0 0 0 (-3) (-6) 0 3 (-6));
(11%nat, M3 3 (-3) (-3) 3 0 6 0 (-3) 3);
(4%nat, M3 0 3 0 6 3 3 6 3 (-3));
(11%nat, M3 (-3) 0 (-6) 0 3 (-3) 3 (-3) (-3));
(3%nat, M3 0 (-3) 0 0 0 4 (-1) 0 0);
(1%nat, M3 (-3) 0 0 (-1) 0 (-4) 0 (-1) 0);
(4%nat, M3 0 3 0 (-4) (-2) 0 0 0 1);
(1%nat, M3 (-3) 0 0 1 0 (-4) 0 (-1) 0);
(3%nat, M3 0 (-3) 0 0 0 4 (-2) 0 0);
(4%nat, M3 0 (-3) 0 0 0 4 (-2) (-1) 0);
(1%nat, M3 (-3) 0 0 (-1) 0 (-4) 0 (-2) 0);
(2%nat, M3 (-6) (-3) 0 (-2) (-1) (-4) 0 (-1) 0);
(4%nat, M3 0 3 0 (-4) (-2) 0 0 0 2);
(6%nat, M3 0 0 (-3) 0 (-4) (-2) (-2) 0 (-1));
(1%nat, M3 (-3) 0 0 1 0 (-4) 0 (-2) 0);
(2%nat, M3 (-6) (-3) 0 2 1 4 0 1 0);
(7%nat, M3 3 0 0 0 0 (-4) 0 3 0);
(1%nat, M3 (-3) 0 0 (-1) 0 (-4) 0 (-3) 0);
(4%nat, M3 0 3 0 (-4) (-2) 0 0 0 3);
(1%nat, M3 (-3) 0 0 1 0 (-4) 0 (-3) 0);
(1%nat, M3 0 3 0 0 0 4 3 0 1);
(0%nat, M3 0 (-3) 0 0 (-1) 4 (-3) (-1) 1);
(2%nat, M3 0 3 0 4 2 0 (-2) (-1) (-3));
(0%nat, M3 0 (-3) 0 0 1 4 (-3) 1 1);
(1%nat, M3 0 3 0 0 0 4 3 0 (-1));
(0%nat, M3 0 (-3) 0 0 (-1) 4 (-3) 1 (-1));
(2%nat, M3 0 3 0 (-4) (-2) 0 (-2) (-1) 3);
(0%nat, M3 0 (-3) 0 0 1 (-4) 3 (-1) 1);
(7%nat, M3 0 0 3 (-4) 0 0 0 (-4) 0);
(1%nat, M3 (-3) 0 0 0 (-4) 0 (-1) 0 4);
(4%nat, M3 0 (-3) 0 0 0 (-4) 4 2 0);
(1%nat, M3 (-3) 0 0 0 (-4) 0 1 0 4);
(1%nat, M3 (-3) 0 0 (-1) 0 (-4) 0 (-4) 0);
(2%nat, M3 0 0 3 (-4) 0 1 (-4) (-4) 1);
(2%nat, M3 6 3 0 2 1 4 0 (-2) 0);
(2%nat, M3 0 0 (-3) (-4) 0 (-1) 4 4 1);
(4%nat, M3 0 3 0 (-4) (-2) 0 0 0 4);
(2%nat, M3 (-6) (-3) 0 0 2 0 (-2) (-1) (-4));
(8%nat, M3 0 0 (-3) 0 (-4) (-2) (-4) 0 (-2));
(2%nat, M3 (-6) (-3) 0 0 (-2) 0 2 1 4);
(1%nat, M3 (-3) 0 0 1 0 (-4) 0 (-4) 0);
(2%nat, M3 0 0 (-3) (-4) 0 1 4 4 (-1));
(2%nat, M3 6 3 0 (-2) (-1) (-4) 0 2 0);
(2%nat, M3 0 0 3 (-4) 0 (-1) (-4) (-4) (-1));
(3%nat, M3 (-3) 0 0 0 (-4) 0 0 0 6);
(7%nat, M3 3 (-3) 0 0 0 (-4) 3 3 0);
(1%nat, M3 (-3) 0 0 (-1) 0 (-4) 0 (-6) 0);
(2%nat, M3 6 3 0 2 1 4 0 (-3) 0);
(4%nat, M3 0 3 0 (-4) (-2) 0 0 0 6);
(8%nat, M3 (-6) 0 (-3) 0 0 (-2) 0 (-6) (-3));
(1%nat, M3 (-3) 0 0 1 0 (-4) 0 (-6) 0);
(2%nat, M3 6 3 0 (-2) (-1) (-4) 0 3 0);
(1%nat, M3 0 (-3) 0 (-4) 0 4 (-2) 0 (-4));
(2%nat, M3 0 (-3) 0 0 0 (-4) 6 3 (-2));
(0%nat, M3 (-3) 3 (-3) (-1) (-3) (-1) (-2) 0 4);
(0%nat, M3 (-3) 0 (-3) (-1) 4 3 1 2 (-3));
(2%nat, M3 0 3 0 (-4) (-2) (-4) (-2) (-1) 4);
(2%nat, M3 0 (-3) 0 4 2 4 (-4) (-2) 2);
(0%nat, M3 (-3) 3 (-3) 1 3 1 2 0 (-4));
(0%nat, M3 (-3) 0 (-3) 1 (-4) (-3) (-1) (-2) 3);
(1%nat, M3 0 3 0 (-4) 0 4 2 0 4);
(2%nat, M3 0 (-3) 0 0 0 (-4) 6 3 2);
(0%nat, M3 3 0 3 1 (-4) (-3) 1 2 (-3));
(0%nat, M3 (-3) (-3) (-3) (-1) 3 (-1) 2 0 (-4));
(2%nat, M3 0 3 0 (-4) (-2) (-4) (-4) (-2) 2);
(2%nat, M3 0 (-3) 0 (-4) (-2) (-4) 2 1 (-4));
(0%nat, M3 (-3) (-3) (-3) 1 (-3) 1 (-2) 0 4);
(0%nat, M3 3 0 3 (-1) 4 3 (-1) (-2) 3);
(3%nat, M3 (-3) 0 0 0 (-4) 0 0 0 12);
(3%nat, M3 0 3 6 4 0 0 0 3 (-6));
(4%nat, M3 6 3 0 0 0 (-4) 0 6 0);
(3%nat, M3 0 3 6 (-4) 0 0 0 (-3) 6);
(1%nat, M3 (-3) 0 0 (-1) 0 (-4) 0 (-12) 0);
(2%nat, M3 0 6 (-3) 4 2 (-1) 0 (-6) (-3));
(2%nat, M3 6 3 0 2 1 (-4) 0 6 0);
(2%nat, M3 0 6 (-3) (-4) (-2) (-1) 0 6 3);
(4%nat, M3 0 3 0 (-4) (-2) 0 0 0 12);
(4%nat, M3 0 3 6 4 2 0 0 3 (-6));
(6%nat, M3 0 (-6) (-3) (-4) 0 (-2) 0 0 (-6));
(4%nat, M3 0 (-3) (-6) (-4) (-2) 0 0 3 (-6));
(1%nat, M3 (-3) 0 0 1 0 (-4) 0 (-12) 0);
(2%nat, M3 0 6 (-3) 4 2 1 0 (-6) (-3));
(2%nat, M3 6 3 (-6) (-2) (-1) (-2) 0 6 0);
(2%nat, M3 0 6 (-3) (-4) (-2) 1 0 6 3);
(4%nat, M3 0 0 (-3) (-4) (-8) 0 (-4) 4 0);
(0%nat, M3 (-3) 3 (-3) 0 (-4) (-4) (-3) (-1) 5);
(2%nat, M3 0 (-3) 0 8 4 4 (-4) (-2) 4);
(0%nat, M3 (-3) 3 (-3) 0 4 4 3 1 (-5));
(2%nat, M3 0 0 (-3) (-4) (-8) 3 (-4) 4 3);
(0%nat, M3 (-3) 3 3 3 1 5 0 4 (-4));
(2%nat, M3 6 3 3 6 5 (-3) (-6) (-1) 3);
(0%nat, M3 (-3) 0 (-3) (-1) 4 3 2 4 (-6));
(5%nat, M3 (-3) 0 (-3) (-2) (-8) (-6) (-2) 4 6);
(0%nat, M3 (-3) 0 (-3) 2 (-4) (-6) (-1) (-4) 3);
(2%nat, M3 0 (-3) 0 4 2 4 (-8) (-4) 4);
(0%nat, M3 (-3) 0 (-3) (-2) 4 6 1 4 (-3));
(0%nat, M3 (-3) 3 3 (-3) (-1) (-5) 0 (-4) 4);
(2%nat, M3 0 0 (-3) 4 8 (-3) 4 (-4) (-3));
(0%nat, M3 (-3) 0 (-3) 1 (-4) (-3) (-2) (-4) 6);
(2%nat, M3 6 3 3 (-6) (-5) 3 6 1 (-3));
(4%nat, M3 0 0 (-3) (-4) 4 0 4 8 0);
(0%nat, M3 3 (-3) 3 0 (-4) (-4) 3 1 (-5));
(2%nat, M3 0 3 0 (-8) (-4) (-4) (-4) (-2) 4);
(0%nat, M3 3 (-3) 3 0 4 4 (-3) (-1) 5);
(0%nat, M3 3 0 3 1 (-4) (-3) 2 4 (-6));
(2%nat, M3 6 3 3 6 1 (-3) 6 5 (-3));
(0%nat, M3 3 3 3 (-3) 1 5 0 (-4) 4);
(2%nat, M3 0 0 (-3) 4 (-4) 3 (-4) (-8) (-3));
(0%nat, M3 3 0 3 2 (-4) (-6) 1 4 (-3));
(2%nat, M3 0 3 0 (-4) (-2) (-4) (-8) (-4) 4);
(0%nat, M3 3 0 3 (-2) 4 6 (-1) (-4) 3);
(5%nat, M3 0 (-3) (-3) (-4) (-6) 2 (-8) (-6) (-2));
(0%nat, M3 3 3 3 3 (-1) (-5) 0 4 (-4));
(2%nat, M3 (-6) (-3) (-3) 6 5 (-3) 6 1 (-3));
(0%nat, M3 3 0 3 (-1) 4 3 (-2) (-4) 6);
(2%nat, M3 0 0 (-3) (-4) 4 (-3) 4 8 3);
(3%nat, M3 0 (-3) 0 0 0 6 (-1) 0 0);
(7%nat, M3 (-3) 3 0 (-3) (-3) 0 0 0 1);
(3%nat, M3 0 (-3) 0 0 0 6 (-2) 0 0);
(4%nat, M3 0 (-3) 0 0 0 6 (-2) (-1) 0);
(7%nat, M3 (-3) 3 0 (-3) (-3) 0 0 0 2);
(8%nat, M3 6 0 3 0 6 3 0 0 1);
(4%nat, M3 0 0 (-3) 0 (-6) 0 (-2) (-1) 0);
(5%nat, M3 (-3) 0 (-3) 0 (-6) (-6) (-1) (-1) 0);
(4%nat, M3 0 (-3) 3 0 3 3 (-2) (-1) 0);
(4%nat, M3 0 3 (-3) 0 3 3 2 1 0);
(7%nat, M3 3 0 0 0 0 (-6) 0 3 0);
(7%nat, M3 (-3) 3 0 (-3) (-3) 0 0 0 3);
(3%nat, M3 3 0 0 0 0 (-6) 0 4 0);
(1%nat, M3 3 0 0 0 6 0 1 0 4);
(4%nat, M3 0 (-3) 0 0 0 (-6) 4 2 0);
(1%nat, M3 3 0 0 0 6 0 (-1) 0 4);
(7%nat, M3 (-3) 3 0 (-3) (-3) 0 0 0 4);
(2%nat, M3 (-6) (-3) 0 0 3 0 (-2) (-1) (-4));
(8%nat, M3 6 0 3 0 6 3 0 0 2);
(2%nat, M3 (-6) (-3) 0 0 (-3) 0 2 1 4);
(4%nat, M3 0 0 (-3) 0 6 0 4 2 0);
(2%nat, M3 0 0 (-3) 0 6 0 4 2 (-1));
(5%nat, M3 0 (-3) (-3) 6 6 0 2 0 2);
(2%nat, M3 0 0 (-3) 0 6 0 4 2 1);
(4%nat, M3 0 (-3) 3 0 3 3 (-4) (-2) 0);
(2%nat, M3 0 3 0 (-6) (-3) 0 (-2) (-1) 4);
(4%nat, M3 0 3 (-3) 0 3 3 4 2 0);
(2%nat, M3 0 3 0 6 3 0 (-2) (-1) (-4));
(7%nat, M3 0 0 3 (-6) 0 0 0 (-6) 0);
(7%nat, M3 3 (-3) 0 0 0 (-6) 3 3 0);
(7%nat, M3 (-3) 3 0 (-3) (-3) 0 0 0 6);
(15%nat, M3 0 (-6) (-3) 0 0 (-3) 6 0 3);
(4%nat, M3 0 0 (-3) 0 6 0 6 3 0);
(8%nat, M3 (-3) 3 0 0 0 6 3 3 3);
(4%nat, M3 6 3 3 (-6) (-3) 3 0 (-3) 0);
(4%nat, M3 0 (-3) 3 0 (-3) (-3) 6 3 0);
(3%nat, M3 (-3) 0 0 0 (-6) 0 0 0 12);
(3%nat, M3 (-3) 0 (-6) 0 (-6) 0 (-3) 0 6);
(4%nat, M3 6 3 0 0 0 (-6) 0 6 0);
(3%nat, M3 (-3) 0 (-6) 0 6 0 3 0 (-6));
(7%nat, M3 (-3) 3 0 (-3) (-3) 0 0 0 12);
(4%nat, M3 0 3 (-6) (-6) (-3) 0 0 3 6);
(8%nat, M3 0 (-6) (-3) (-6) 0 (-3) 0 0 (-6));
(4%nat, M3 (-6) (-3) (-6) 0 3 0 6 3 (-6));
(7%nat, M3 0 0 3 (-6) 6 0 (-6) (-6) 0);
(4%nat, M3 (-6) (-3) (-3) 0 6 0 6 3 (-3));
(8%nat, M3 0 0 3 6 (-6) 0 6 6 6);
(4%nat, M3 (-6) (-3) (-3) 0 (-6) 0 (-6) (-3) 3);
(4%nat, M3 0 (-3) (-3) 0 3 (-3) 12 6 0);
(4%nat, M3 0 3 0 (-6) (-3) (-6) (-6) (-3) 6);
(4%nat, M3 0 (-3) 3 0 (-3) (-3) 12 6 0);
(4%nat, M3 0 (-3) 0 6 3 6 (-6) (-3) 6);
(3%nat, M3 0 (-3) 0 0 0 12 (-1) 0 0);
(3%nat, M3 0 (-3) (-6) 0 (-3) 6 (-1) 0 0);
(4%nat, M3 (-6) (-3) 0 0 (-6) 0 0 0 1);
(3%nat, M3 0 (-3) (-6) 0 3 (-6) 1 0 0);
(3%nat, M3 0 (-3) 0 0 0 12 (-2) 0 0);
(4%nat, M3 0 (-3) 0 0 0 12 (-2) (-1) 0);
(3%nat, M3 0 (-3) (-6) 0 (-3) 6 (-2) 0 0);
(4%nat, M3 0 (-3) (-6) 0 (-3) 6 (-2) (-1) 0);
(4%nat, M3 (-6) (-3) 0 0 (-6) 0 0 0 2);
(6%nat, M3 0 6 3 0 0 6 2 0 1);
(3%nat, M3 0 (-3) (-6) 0 3 (-6) 2 0 0);
(4%nat, M3 0 3 6 0 (-3) 6 2 1 0);
(7%nat, M3 3 0 0 0 0 (-12) 0 3 0);
(3%nat, M3 0 (-3) (-6) 0 (-3) 6 (-3) 0 0);
(4%nat, M3 (-6) (-3) 0 0 (-6) 0 0 0 3);
(3%nat, M3 0 (-3) (-6) 0 3 (-6) 3 0 0);
(3%nat, M3 3 0 0 0 0 (-12) 0 4 0);
(1%nat, M3 3 0 0 0 12 0 1 0 4);
(4%nat, M3 0 (-3) 0 0 0 (-12) 4 2 0);
(1%nat, M3 3 0 0 0 12 0 (-1) 0 4);
(3%nat, M3 0 (-3) (-6) 0 (-3) 6 (-4) 0 0);
(2%nat, M3 0 (-6) 3 0 6 3 (-4) (-2) 1);
(4%nat, M3 0 (-3) (-6) 0 (-3) 6 (-4) (-2) 0);
(2%nat, M3 0 (-6) 3 0 6 3 (-4) (-2) (-1));
(4%nat, M3 (-6) (-3) 0 0 (-6) 0 0 0 4);
(2%nat, M3 (-6) (-3) 0 0 (-6) 0 (-2) (-1) 4);
(6%nat, M3 0 6 3 0 0 6 4 0 2);
(2%nat, M3 (-6) (-3) 6 0 (-6) 0 2 1 2);
(3%nat, M3 0 (-3) (-6) 0 3 (-6) 4 0 0);
(2%nat, M3 0 (-6) 3 0 (-6) (-3) 4 2 1);
(4%nat, M3 0 3 6 0 (-3) 6 4 2 0);
(2%nat, M3 0 (-6) 3 0 (-6) (-3) 4 2 (-1));
(3%nat, M3 3 0 0 0 0 (-12) 0 6 0);
(7%nat, M3 3 (-3) 0 0 0 (-12) 3 3 0);
(3%nat, M3 3 0 6 3 0 (-6) 0 6 0);
(4%nat, M3 0 (-3) 6 0 (-3) (-6) 6 3 0);
(4%nat, M3 (-6) (-3) 0 0 (-6) 0 0 0 6);
(8%nat, M3 0 6 3 0 0 6 6 0 3);
(3%nat, M3 3 0 6 (-3) 0 6 0 (-6) 0);
(4%nat, M3 6 3 6 (-6) (-3) 6 0 (-3) 0);
(7%nat, M3 0 0 3 (-12) 0 0 0 (-12) 0);
(3%nat, M3 3 (-6) 0 0 0 (-12) 3 6 0);
(4%nat, M3 6 3 0 0 0 (-12) 0 6 0);
(3%nat, M3 3 (-6) 0 0 0 12 (-3) (-6) 0);
(3%nat, M3 (-3) 6 0 (-3) (-6) 0 0 0 12);
(11%nat, M3 (-12) 0 (-9) 0 12 3 12 (-12) 3);
(4%nat, M3 0 (-3) 6 0 (-3) (-6) 12 6 0);
(11%nat, M3 0 12 3 (-12) 0 (-9) (-12) 12 (-3));
(4%nat, M3 (-6) (-3) 0 0 (-6) 0 0 0 12);
(4%nat, M3 0 3 (-6) (-12) (-6) 0 0 3 6);
(8%nat, M3 0 0 3 12 0 6 0 12 6);
(4%nat, M3 (-6) (-3) (-6) 0 6 0 6 3 (-6));
(3%nat, M3 (-3) 6 0 3 6 0 0 0 (-12));
(11%nat, M3 (-12) 0 (-9) (-12) 12 (-3) 0 12 3);
(4%nat, M3 (-6) (-3) (-6) 6 3 (-6) 0 (-6) 0);
(11%nat, M3 0 12 3 (-12) 12 (-3) 12 0 9);
(7%nat, M3 0 0 4 (-1) 0 0 0 (-1) 0);
(3%nat, M3 0 0 4 (-1) 0 0 0 (-2) 0);
(7%nat, M3 0 0 4 (-1) 1 0 (-1) (-1) 0);
(3%nat, M3 0 0 4 (-1) 0 0 0 (-3) 0);
(1%nat, M3 0 0 (-4) 0 (-1) 0 (-3) 0 (-1));
(1%nat, M3 0 0 (-4) 0 (-1) 0 (-3) 0 1);
(4%nat, M3 0 0 (-4) (-1) (-2) 0 (-1) 1 0);
(2%nat, M3 0 0 4 (-3) (-2) (-2) 3 1 2);
(2%nat, M3 0 0 4 3 2 2 (-3) (-1) (-2));
(4%nat, M3 0 0 (-4) (-1) 1 0 1 2 0);
(2%nat, M3 (-8) (-4) 4 (-1) 0 (-1) (-1) (-1) (-1));
(2%nat, M3 (-8) (-4) 4 1 1 (-2) 1 0 (-2));
(7%nat, M3 4 0 0 0 0 (-1) 0 4 0);
(3%nat, M3 0 0 4 (-1) 2 0 (-1) (-2) 0);
(4%nat, M3 0 0 4 (-2) (-1) 0 0 (-2) 0);
(3%nat, M3 0 0 (-4) (-1) 2 0 1 2 0);
(3%nat, M3 0 4 0 1 0 0 0 0 (-6));
(1%nat, M3 4 0 (-4) 0 1 0 2 0 4);
(1%nat, M3 4 0 (-4) 0 (-1) 0 (-2) 0 (-4));
(3%nat, M3 0 4 0 1 0 3 1 0 (-3));
(1%nat, M3 0 0 (-4) 3 (-1) 1 (-3) (-1) (-1));
(1%nat, M3 0 0 (-4) 3 (-1) (-1) (-3) (-1) 1);
(1%nat, M3 0 (-4) 0 (-1) 0 2 (-2) 0 (-2));
(0%nat, M3 0 0 4 (-1) 2 (-1) (-2) (-2) 0);
(0%nat, M3 0 0 4 (-1) 2 1 (-2) (-2) 0);
(4%nat, M3 0 0 4 (-2) (-1) 0 0 (-3) 0);
(2%nat, M3 0 0 (-4) 0 1 0 6 3 4);
(2%nat, M3 0 0 (-4) 0 1 0 6 3 2);
(1%nat, M3 0 4 0 (-1) 0 2 2 0 2);
(0%nat, M3 0 0 (-4) (-1) 2 (-1) 2 2 0);
(0%nat, M3 0 0 (-4) (-1) 2 1 2 2 0);
(3%nat, M3 0 (-4) 0 1 0 3 (-1) 0 3);
(1%nat, M3 0 0 4 3 (-1) 1 3 1 1);
(1%nat, M3 (-4) 0 0 1 1 (-3) 1 (-1) (-3));
(3%nat, M3 0 4 0 1 0 0 0 0 (-12));
(4%nat, M3 4 8 0 0 0 1 4 (-4) 0);
(4%nat, M3 4 (-4) 0 0 0 1 (-4) (-8) 0);
(3%nat, M3 0 4 0 1 0 6 1 0 (-6));
(1%nat, M3 4 0 (-4) (-2) 1 (-4) 2 1 4);
(1%nat, M3 4 0 (-4) 2 (-1) 4 (-2) (-1) (-4));
(1%nat, M3 0 4 0 1 0 5 2 0 (-2));
(0%nat, M3 0 4 4 1 (-2) 3 2 0 (-2));
(0%nat, M3 0 4 4 (-1) 2 (-3) (-2) 0 2);
(1%nat, M3 0 4 0 1 0 4 3 0 0);
(0%nat, M3 0 0 4 (-1) 4 (-1) (-3) 0 1);
(0%nat, M3 0 0 4 (-1) 4 1 (-3) 0 (-1));
(1%nat, M3 0 (-4) 0 3 0 1 0 0 4);
(2%nat, M3 (-4) (-4) 0 2 1 (-3) 4 0 0);
(2%nat, M3 4 4 0 2 1 3 4 0 0);
(3%nat, M3 0 (-4) 0 2 0 3 (-2) 0 3);
(1%nat, M3 (-4) 0 0 1 2 (-3) 1 (-2) (-3));
(1%nat, M3 (-4) 0 0 (-1) 2 (-3) (-1) (-2) (-3));
(4%nat, M3 0 0 4 2 1 0 0 6 0);
(2%nat, M3 (-8) (-4) (-4) 0 1 0 4 2 (-4));
(2%nat, M3 (-8) (-4) (-4) 0 (-1) 0 (-4) (-2) 4);
(3%nat, M3 0 (-4) 0 2 0 (-3) 2 0 3);
(1%nat, M3 (-4) 0 0 (-1) (-2) (-3) 1 (-2) 3);
(1%nat, M3 (-4) 0 0 1 2 3 (-1) 2 (-3));
(1%nat, M3 0 4 0 3 0 1 0 0 (-4));
(2%nat, M3 4 0 0 2 1 3 (-4) (-4) 0);
(2%nat, M3 (-4) (-4) 0 2 1 3 (-4) 0 0);
(1%nat, M3 0 (-4) 0 1 0 4 (-3) 0 0);
(0%nat, M3 0 0 (-4) (-1) 4 (-1) 3 0 (-1));
(0%nat, M3 0 0 (-4) (-1) 4 1 3 0 1);
(1%nat, M3 0 (-4) 0 1 0 5 (-2) 0 2);
(0%nat, M3 0 (-4) (-4) 1 (-2) 3 (-2) 0 2);
(0%nat, M3 0 (-4) (-4) (-1) 2 (-3) 2 0 (-2));
(3%nat, M3 0 (-4) 0 1 0 6 (-1) 0 6);
(1%nat, M3 (-4) 0 4 (-2) 1 (-4) (-2) (-1) (-4));
(1%nat, M3 (-4) 0 4 2 (-1) 4 2 1 4);
(3%nat, M3 0 0 (-4) 0 2 0 1 0 0);
(7%nat, M3 0 0 4 (-2) 0 0 0 (-2) 0);
(4%nat, M3 0 0 (-4) 0 2 0 2 1 0);
(3%nat, M3 0 0 4 (-2) 0 0 0 (-3) 0);
(1%nat, M3 0 0 (-4) 0 (-2) 0 (-3) 0 (-1));
(1%nat, M3 0 0 (-4) 0 (-2) 0 (-3) 0 1);
(1%nat, M3 0 (-4) 0 (-2) 0 2 (-1) 0 (-2));
(0%nat, M3 0 0 4 (-2) 2 0 (-1) (-2) 1);
(0%nat, M3 0 0 4 (-2) 2 0 (-1) (-2) (-1));
(1%nat, M3 0 4 0 (-2) 0 2 1 0 2);
(0%nat, M3 0 0 (-4) (-2) 2 0 1 2 (-1));
(0%nat, M3 0 0 (-4) (-2) 2 0 1 2 1);
(7%nat, M3 4 0 0 0 0 (-2) 0 4 0);
(7%nat, M3 0 0 4 (-2) 2 0 (-2) (-2) 0);
(3%nat, M3 0 4 0 2 0 0 0 0 (-6));
(1%nat, M3 4 0 (-4) 0 2 0 2 0 4);
(1%nat, M3 4 0 (-4) 0 (-2) 0 (-2) 0 (-4));
(1%nat, M3 0 4 0 2 0 2 1 0 (-5));
(0%nat, M3 0 4 4 2 0 2 1 2 (-3));
(0%nat, M3 0 4 4 (-2) 0 (-2) (-1) (-2) 3);
(4%nat, M3 0 0 (-4) 2 4 0 2 (-2) 0);
(2%nat, M3 8 4 4 (-2) 0 (-4) 2 2 4);
(2%nat, M3 0 0 4 6 4 4 (-6) (-2) (-4));
(4%nat, M3 0 0 4 0 2 0 (-6) (-3) 0);
(2%nat, M3 0 0 4 0 2 0 (-6) (-3) 2);
(2%nat, M3 0 0 4 0 2 0 (-6) (-3) (-2));
(4%nat, M3 0 0 (-4) 2 (-2) 0 (-2) (-4) 0);
(2%nat, M3 0 0 4 6 2 (-2) 6 4 (-2));
(2%nat, M3 0 0 4 6 2 2 6 4 2);
(1%nat, M3 0 (-4) 0 2 0 2 (-1) 0 5);
(0%nat, M3 0 (-4) 0 2 0 2 (-1) (-2) 5);
(0%nat, M3 0 (-4) 0 2 0 2 (-1) 2 5);
(3%nat, M3 0 4 0 2 0 0 0 0 (-12));
(4%nat, M3 4 8 0 0 0 2 4 (-4) 0);
(4%nat, M3 4 (-4) 0 0 0 2 (-4) (-8) 0);
(3%nat, M3 0 4 0 2 0 6 2 0 (-6));
(1%nat, M3 4 0 (-4) (-2) 2 (-4) 2 2 4);
(1%nat, M3 4 0 (-4) 2 (-2) 4 (-2) (-2) (-4));
(1%nat, M3 0 (-4) 0 (-2) 0 4 (-4) 0 (-4));
(2%nat, M3 (-4) (-4) 0 4 2 (-6) 4 0 0);
(2%nat, M3 (-4) (-4) 0 (-4) (-2) 6 (-4) 0 0);
(4%nat, M3 0 0 4 (-4) (-2) 0 0 (-6) 0);
(2%nat, M3 (-8) (-4) (-4) 0 2 0 4 2 (-4));
(2%nat, M3 (-8) (-4) (-4) 0 (-2) 0 (-4) (-2) 4);
(1%nat, M3 0 4 0 (-2) 0 4 4 0 4);
(2%nat, M3 4 0 (-4) 4 2 2 (-4) (-4) 4);
(2%nat, M3 (-4) (-4) 0 4 2 6 (-4) 0 0);
(3%nat, M3 0 (-4) 0 2 0 6 (-2) 0 6);
(1%nat, M3 (-4) 0 4 (-2) 2 (-4) (-2) (-2) (-4));
(1%nat, M3 (-4) 0 4 2 (-2) 4 2 2 4);
(3%nat, M3 0 0 (-4) 0 3 0 1 0 0);
(1%nat, M3 0 0 4 3 0 1 0 1 0);
(1%nat, M3 0 0 4 3 0 (-1) 0 1 0);
(3%nat, M3 0 0 (-4) 0 3 0 2 0 0);
(1%nat, M3 0 0 4 3 0 1 0 2 0);
(1%nat, M3 0 0 4 3 0 (-1) 0 2 0);
(4%nat, M3 0 0 (-4) 0 3 0 2 1 0);
(2%nat, M3 (-8) (-4) 4 (-2) (-1) (-2) 0 (-1) 0);
(2%nat, M3 0 0 4 6 3 2 0 1 0);
(7%nat, M3 0 0 4 (-3) 0 0 0 (-3) 0);
(1%nat, M3 0 0 (-4) 0 (-3) 0 (-3) 0 (-1));
(1%nat, M3 0 0 (-4) 0 (-3) 0 (-3) 0 1);
(1%nat, M3 0 0 4 (-3) 0 1 0 (-3) 0);
(2%nat, M3 0 0 4 (-3) 0 1 (-3) (-3) 1);
(2%nat, M3 0 0 (-4) (-3) 0 (-1) 3 3 1);
(1%nat, M3 0 0 4 (-3) 0 (-1) 0 (-3) 0);
(2%nat, M3 0 0 (-4) (-3) 0 1 3 3 (-1));
(2%nat, M3 0 0 4 (-3) 0 (-1) (-3) (-3) (-1));
(7%nat, M3 4 0 0 0 0 (-3) 0 4 0);
(1%nat, M3 0 0 4 (-3) 0 1 0 (-4) 0);
(1%nat, M3 0 0 4 (-3) 0 (-1) 0 (-4) 0);
(1%nat, M3 0 4 0 3 0 0 1 0 (-4));
(0%nat, M3 0 0 4 (-3) 0 1 (-1) (-4) (-1));
(0%nat, M3 0 0 4 (-3) 0 (-1) (-1) (-4) 1);
(4%nat, M3 0 0 4 0 3 0 (-4) (-2) 0);
(2%nat, M3 0 0 (-4) (-6) (-3) 2 0 2 0);
(2%nat, M3 0 0 (-4) (-6) (-3) (-2) 0 2 0);
(1%nat, M3 0 4 0 3 0 0 (-1) 0 (-4));
(0%nat, M3 0 0 4 (-3) 0 1 1 (-4) 1);
(0%nat, M3 0 0 4 (-3) 0 (-1) 1 (-4) (-1));
(3%nat, M3 0 4 0 3 0 0 0 0 (-6));
(1%nat, M3 4 0 (-4) 0 3 0 2 0 4);
(1%nat, M3 4 0 (-4) 0 (-3) 0 (-2) 0 (-4));
(1%nat, M3 0 0 4 3 0 1 0 6 0);
(0%nat, M3 0 4 4 3 1 1 0 2 (-4));
(0%nat, M3 0 4 4 (-3) 1 1 0 (-2) 4);
(1%nat, M3 0 0 4 3 0 (-1) 0 6 0);
(0%nat, M3 0 4 4 3 (-1) (-1) 0 2 (-4));
(0%nat, M3 0 4 4 (-3) (-1) (-1) 0 (-2) 4);
(7%nat, M3 0 0 4 (-3) 3 0 (-3) (-3) 0);
(2%nat, M3 0 0 4 0 3 0 (-6) (-3) 2);
(2%nat, M3 0 0 4 0 3 0 (-6) (-3) (-2));
(1%nat, M3 (-4) 0 0 (-1) 3 (-3) (-1) (-3) (-3));
(2%nat, M3 0 0 (-4) (-6) (-3) 2 0 3 0);
(1%nat, M3 4 0 0 1 3 (-3) (-1) 3 3);
(2%nat, M3 0 0 (-4) (-6) (-3) (-2) 0 3 0);
(1%nat, M3 0 0 4 (-3) 3 (-1) (-3) (-3) (-1));
(1%nat, M3 0 0 (-4) 3 (-3) 1 (-3) (-3) (-1));
(3%nat, M3 0 4 0 3 0 0 0 0 (-12));
(4%nat, M3 4 8 0 0 0 3 4 (-4) 0);
(4%nat, M3 4 (-4) 0 0 0 3 (-4) (-8) 0);
(1%nat, M3 0 0 4 3 0 1 0 12 0);
(2%nat, M3 (-4) 4 (-4) 2 1 (-1) (-4) (-8) (-4));
(2%nat, M3 4 (-4) 4 (-2) (-1) 1 (-4) (-8) (-4));
(1%nat, M3 0 0 4 3 0 (-1) 0 12 0);
(2%nat, M3 4 8 (-4) 2 1 1 4 (-4) (-4));
(2%nat, M3 (-4) 4 (-4) (-2) (-1) 1 4 8 4);
(3%nat, M3 (-4) 0 0 0 (-3) (-6) 0 (-3) 6);
(0%nat, M3 0 4 4 3 (-3) 3 3 1 (-5));
(0%nat, M3 0 4 4 (-3) 3 (-3) (-3) (-1) 5);
(1%nat, M3 (-4) 0 0 (-1) 6 (-3) (-1) (-6) (-3));
(1%nat, M3 4 0 (-4) (-2) 3 (-4) 2 3 4);
(0%nat, M3 0 4 4 (-3) 1 (-5) (-3) (-3) 3);
(1%nat, M3 0 0 4 3 (-6) (-1) 3 6 (-1));
(0%nat, M3 0 4 4 3 (-1) 5 3 3 (-3));
(1%nat, M3 4 0 (-4) 2 (-3) 4 (-2) (-3) (-4));
(4%nat, M3 0 0 4 (-6) (-3) 0 0 (-6) 0);
(2%nat, M3 (-8) (-4) (-4) 0 3 0 4 2 (-4));
(2%nat, M3 8 4 4 0 (-3) 0 4 2 (-4));
(0%nat, M3 4 0 4 1 (-6) (-2) 2 0 (-4));
(2%nat, M3 0 0 4 (-6) (-3) 4 0 (-6) 0);
(0%nat, M3 4 (-4) 0 1 2 6 (-2) (-4) 0);
(2%nat, M3 0 0 4 6 3 (-4) 0 6 0);
(0%nat, M3 (-4) 4 0 1 2 6 2 4 0);
(0%nat, M3 4 0 4 (-1) (-6) 2 2 0 (-4));
(3%nat, M3 4 0 0 0 (-3) (-6) 0 3 (-6));
(0%nat, M3 0 (-4) (-4) 3 (-3) 3 (-3) (-1) 5);
(0%nat, M3 0 (-4) (-4) (-3) 3 (-3) 3 1 (-5));
(0%nat, M3 0 (-4) (-4) 3 (-1) 5 (-3) (-3) 3);
(1%nat, M3 (-4) 0 4 2 (-3) 4 2 3 4);
(1%nat, M3 0 0 (-4) 3 (-6) (-1) (-3) (-6) 1);
(1%nat, M3 (-4) 0 4 (-2) 3 (-4) (-2) (-3) (-4));
(0%nat, M3 0 (-4) (-4) (-3) 1 (-5) 3 3 (-3));
(1%nat, M3 0 0 (-4) 3 (-6) 1 (-3) (-6) (-1));
(7%nat, M3 (-4) 0 0 0 (-4) 0 0 0 1);
(7%nat, M3 (-4) 0 0 0 (-4) 0 0 0 2);
(7%nat, M3 (-4) 0 0 0 (-4) 0 0 0 3);
(1%nat, M3 0 0 (-4) 0 4 0 3 0 (-1));
(1%nat, M3 0 0 (-4) 0 4 0 3 0 1);
(1%nat, M3 0 (-4) 0 0 0 4 (-3) 0 1);
(2%nat, M3 (-4) 0 0 (-4) (-4) 0 (-2) (-1) 3);
(2%nat, M3 (-4) (-4) 0 4 0 0 2 1 3);
(1%nat, M3 0 (-4) 0 0 0 4 (-3) 0 (-1));
(2%nat, M3 (-4) 0 0 4 4 0 (-2) (-1) (-3));
(2%nat, M3 4 4 0 4 0 0 (-2) (-1) (-3));
(13%nat, M3 (-4) 0 0 0 (-4) 0 0 0 4);
(7%nat, M3 (-4) 0 0 0 (-4) 0 0 0 6);
(1%nat, M3 4 0 (-4) 0 4 0 2 0 4);
(1%nat, M3 4 0 (-4) 0 (-4) 0 (-2) 0 (-4));
(1%nat, M3 0 (-4) 0 (-4) 0 4 (-2) 0 (-4));
(2%nat, M3 (-4) 0 (-4) (-4) (-4) (-4) (-4) (-2) 2);
(2%nat, M3 4 4 0 (-4) 0 0 (-4) (-2) 6);
(1%nat, M3 0 4 0 (-4) 0 4 2 0 4);
(2%nat, M3 4 0 0 (-4) (-4) 0 4 2 (-6));
(2%nat, M3 (-4) 0 4 (-4) (-4) 4 4 2 2);
(7%nat, M3 (-4) 0 0 0 (-4) 0 0 0 12);
(4%nat, M3 4 8 0 0 0 4 4 (-4) 0);
(4%nat, M3 4 (-4) 0 0 0 4 (-4) (-8) 0);
(4%nat, M3 0 0 (-4) (-4) (-8) 0 (-4) 4 0);
(10%nat, M3 (-4) 0 4 0 4 4 (-4) 4 (-4));
(10%nat, M3 0 4 4 (-4) 4 (-4) (-4) 0 4);
(4%nat, M3 0 0 (-4) (-4) 4 0 4 8 0);
(10%nat, M3 4 (-4) 4 0 (-4) (-4) 4 0 (-4));
(10%nat, M3 (-4) 0 (-4) 0 4 (-4) 4 (-4) (-4));
(3%nat, M3 0 (-4) 0 0 0 6 (-1) 0 0);
(1%nat, M3 (-4) 0 4 (-2) 0 (-4) 0 (-1) 0);
(1%nat, M3 (-4) 0 4 2 0 4 0 1 0);
(3%nat, M3 0 (-4) 0 0 0 6 (-2) 0 0);
(1%nat, M3 (-4) 0 4 (-2) 0 (-4) 0 (-2) 0);
(1%nat, M3 (-4) 0 4 2 0 4 0 2 0);
(4%nat, M3 0 0 (-4) 0 (-6) 0 (-2) (-1) 0);
(2%nat, M3 (-8) (-4) 4 (-4) (-2) (-4) 0 (-1) 0);
(2%nat, M3 (-8) (-4) (-4) 4 2 (-4) 0 (-1) 0);
(3%nat, M3 0 (-4) 0 0 0 6 (-3) 0 0);
(1%nat, M3 0 0 (-4) 0 (-6) 0 (-3) 0 (-1));
(1%nat, M3 0 0 (-4) 0 (-6) 0 (-3) 0 1);
(1%nat, M3 (-4) 0 4 (-2) 0 (-4) 0 (-3) 0);
(0%nat, M3 0 (-4) (-4) 0 (-2) 4 (-3) (-1) (-1));
(0%nat, M3 0 (-4) (-4) 0 (-2) 4 (-3) 1 1);
(1%nat, M3 (-4) 0 4 2 0 4 0 3 0);
(0%nat, M3 0 (-4) (-4) 0 2 (-4) 3 (-1) (-1));
(0%nat, M3 0 (-4) (-4) 0 2 (-4) 3 1 1);
(7%nat, M3 4 0 0 0 0 (-6) 0 4 0);
(1%nat, M3 (-4) 0 4 (-2) 0 (-4) 0 (-4) 0);
(1%nat, M3 (-4) 0 4 2 0 4 0 4 0);
(4%nat, M3 0 0 (-4) 0 6 0 4 2 0);
(2%nat, M3 (-8) (-4) 4 (-4) (-2) (-4) 0 (-2) 0);
(2%nat, M3 (-8) (-4) (-4) 4 2 (-4) 0 (-2) 0);
(7%nat, M3 0 0 4 (-6) 0 0 0 (-6) 0);
(1%nat, M3 4 0 (-4) 0 6 0 2 0 4);
(1%nat, M3 4 0 (-4) 0 (-6) 0 (-2) 0 (-4));
(1%nat, M3 (-4) 0 4 (-2) 0 (-4) 0 (-6) 0);
(2%nat, M3 0 0 4 (-6) 0 2 (-6) (-6) 2);
(2%nat, M3 0 0 4 6 6 (-4) (-6) 0 4);
(1%nat, M3 (-4) 0 4 2 0 4 0 6 0);
(2%nat, M3 0 0 (-4) 6 0 (-4) (-6) (-6) 4);
(2%nat, M3 0 0 4 (-6) 0 (-2) (-6) (-6) (-2));
(4%nat, M3 0 0 (-4) 0 6 0 6 3 0);
(2%nat, M3 0 0 (-4) 0 6 0 6 3 4);
(2%nat, M3 0 0 (-4) 0 (-6) 0 (-6) (-3) (-4));
(0%nat, M3 4 0 4 2 0 (-4) 1 6 (-2));
(2%nat, M3 8 4 (-4) 4 2 4 0 (-3) 0);
(0%nat, M3 4 0 4 2 0 (-4) (-1) 6 2);
(2%nat, M3 8 4 4 (-4) (-2) 4 0 (-3) 0);
(0%nat, M3 (-4) 4 0 2 4 0 1 2 (-6));
(0%nat, M3 4 0 (-4) (-2) 0 (-4) 1 6 2);
(3%nat, M3 (-4) 0 0 0 (-6) 0 0 0 12);
(4%nat, M3 (-4) (-8) 0 0 0 6 (-4) 4 0);
(4%nat, M3 (-4) 4 0 0 0 6 4 8 0);
(1%nat, M3 (-4) 0 4 (-2) 0 (-4) 0 (-12) 0);
(2%nat, M3 (-4) (-8) 0 4 2 6 (-4) 4 0);
(2%nat, M3 4 (-4) 4 (-4) (-2) 2 (-4) (-8) (-4));
(1%nat, M3 (-4) 0 4 2 0 4 0 12 0);
(2%nat, M3 4 8 (-4) 4 2 2 4 (-4) (-4));
(2%nat, M3 (-4) 4 (-4) (-4) (-2) 2 4 8 4);
(7%nat, M3 0 0 4 (-6) 6 0 (-6) (-6) 0);
(2%nat, M3 (-8) (-4) (-4) 0 6 0 4 2 (-4));
(2%nat, M3 (-8) (-4) (-4) 0 (-6) 0 (-4) (-2) 4);
(1%nat, M3 (-4) 0 4 (-2) 6 (-4) (-2) (-6) (-4));
(2%nat, M3 8 4 (-4) 4 2 4 0 (-6) 0);
(1%nat, M3 4 0 (-4) 2 (-6) 4 (-2) (-6) (-4));
(2%nat, M3 8 4 4 (-4) (-2) 4 0 (-6) 0);
(1%nat, M3 (-4) 0 4 2 (-6) 4 2 6 4);
(1%nat, M3 4 0 (-4) (-2) 6 (-4) 2 6 4);
(3%nat, M3 0 (-4) 0 0 0 12 (-1) 0 0);
(4%nat, M3 (-4) (-8) 0 (-4) 4 0 0 0 (-1));
(4%nat, M3 (-4) 4 0 4 8 0 0 0 (-1));
(3%nat, M3 0 (-4) 0 0 0 12 (-2) 0 0);
(4%nat, M3 (-4) (-8) 0 (-4) 4 0 0 0 (-2));
(4%nat, M3 (-4) 4 0 4 8 0 0 0 (-2));
(3%nat, M3 0 (-4) 0 0 0 12 (-3) 0 0);
(1%nat, M3 0 0 (-4) 0 (-12) 0 (-3) 0 (-1));
(1%nat, M3 0 0 (-4) 0 (-12) 0 (-3) 0 1);
(4%nat, M3 (-4) (-8) 0 (-4) 4 0 0 0 (-3));
(2%nat, M3 4 (-4) 4 4 8 4 (-2) (-1) 1);
(2%nat, M3 (-4) (-8) 4 (-4) 4 4 (-2) (-1) (-1));
(4%nat, M3 (-4) 4 0 4 8 0 0 0 (-3));
(2%nat, M3 (-4) 4 (-4) 4 8 4 2 1 (-1));
(2%nat, M3 4 (-4) 4 (-4) (-8) (-4) 2 1 (-1));
(7%nat, M3 4 0 0 0 0 (-12) 0 4 0);
(4%nat, M3 (-4) (-8) 0 (-4) 4 0 0 0 (-4));
(4%nat, M3 (-4) 4 0 4 8 0 0 0 (-4));
(3%nat, M3 4 0 0 0 0 (-12) 0 6 0);
(1%nat, M3 4 0 (-4) 0 12 0 2 0 4);
(1%nat, M3 4 0 (-4) 0 (-12) 0 (-2) 0 (-4));
(4%nat, M3 4 8 0 4 (-4) 0 0 0 (-6));
(2%nat, M3 4 8 0 4 (-4) 0 (-4) (-2) (-6));
(2%nat, M3 (-4) (-8) 4 (-4) 4 4 (-4) (-2) (-2));
(4%nat, M3 4 (-4) 0 (-4) (-8) 0 0 0 (-6));
(2%nat, M3 (-4) 4 (-4) 4 8 4 4 2 (-2));
(2%nat, M3 4 (-4) 4 (-4) (-8) (-4) 4 2 (-2));
(7%nat, M3 0 0 4 (-12) 0 0 0 (-12) 0);
(4%nat, M3 4 8 0 0 0 12 4 (-4) 0);
(4%nat, M3 4 (-4) 0 0 0 12 (-4) (-8) 0);
(4%nat, M3 (-4) (-8) 0 (-4) 4 0 0 0 (-12));
(9%nat, M3 (-8) 4 (-4) 4 4 (-4) 4 (-8) (-4));
(9%nat, M3 (-4) 8 (-4) (-4) (-4) (-4) (-8) 4 4);
(4%nat, M3 (-4) 4 0 4 8 0 0 0 (-12));
(9%nat, M3 4 (-8) 4 8 (-4) (-4) 4 4 4);
(9%nat, M3 4 4 4 8 (-4) (-4) (-4) 8 (-4));
(7%nat, M3 0 0 6 (-1) 0 0 0 (-1) 0);
(3%nat, M3 0 0 6 (-1) 0 0 0 (-2) 0);
(4%nat, M3 0 (-6) 0 0 0 1 (-2) (-1) 0);
(7%nat, M3 0 0 6 (-1) 1 0 (-1) (-1) 0);
(8%nat, M3 0 0 (-6) 1 (-1) 0 (-1) (-1) (-1));
(3%nat, M3 0 0 6 (-1) 0 0 0 (-3) 0);
(4%nat, M3 0 0 (-6) (-1) (-2) 0 (-1) 1 0);
(4%nat, M3 0 0 (-6) (-1) 1 0 1 2 0);
(3%nat, M3 0 0 6 (-1) 0 0 0 (-4) 0);
(4%nat, M3 0 (-6) 0 0 0 1 (-4) (-2) 0);
(3%nat, M3 0 0 6 (-1) 2 0 (-1) (-2) 0);
(4%nat, M3 0 (-6) 0 2 1 1 (-2) (-1) 1);
(4%nat, M3 0 0 6 (-2) (-1) 0 0 (-2) 0);
(5%nat, M3 6 0 6 (-1) (-1) 0 0 (-2) (-2));
(3%nat, M3 0 0 (-6) (-1) 2 0 1 2 0);
(4%nat, M3 0 (-6) 0 2 1 (-1) 2 1 1);
(7%nat, M3 6 0 0 0 0 (-1) 0 6 0);
(4%nat, M3 0 (-6) 0 0 0 1 (-6) (-3) 0);
(3%nat, M3 0 0 6 (-1) 3 0 (-1) (-3) 0);
(6%nat, M3 0 0 6 (-3) (-1) (-2) 3 (-1) 1);
(1%nat, M3 0 (-6) 0 (-1) 0 2 (-2) 0 (-2));
(2%nat, M3 0 (-6) 0 2 1 1 (-2) (-1) 2);
(4%nat, M3 0 0 6 (-2) (-1) 0 0 (-3) 0);
(5%nat, M3 6 0 6 (-1) (-1) 0 0 (-3) (-3));
(1%nat, M3 0 6 0 (-1) 0 2 2 0 2);
(2%nat, M3 0 (-6) 0 2 1 (-1) 2 1 2);
(3%nat, M3 0 0 (-6) (-1) 3 0 1 3 0);
(6%nat, M3 0 0 6 (-1) (-3) (-2) 1 (-3) (-1));
(3%nat, M3 0 6 0 1 0 0 0 0 (-12));
(7%nat, M3 6 (-6) 0 0 0 (-1) 6 6 0);
(3%nat, M3 0 6 0 1 0 6 1 0 (-6));
(4%nat, M3 0 (-6) 0 6 3 1 (-6) (-3) 1);
(1%nat, M3 0 (-6) 0 (-1) 0 5 (-2) 0 (-2));
(2%nat, M3 0 (-6) 0 (-4) (-2) (-5) 4 2 2);
(1%nat, M3 0 (-6) 0 (-1) 0 4 (-3) 0 0);
(2%nat, M3 0 (-6) 0 4 2 1 0 0 3);
(1%nat, M3 0 6 0 (-3) 0 1 0 0 4);
(2%nat, M3 0 (-6) 0 (-2) (-1) (-1) 4 2 (-4));
(3%nat, M3 0 0 (-6) (-2) 3 0 2 3 0);
(4%nat, M3 0 (-6) 0 (-2) (-1) (-3) 2 1 (-3));
(4%nat, M3 0 0 6 2 1 0 0 6 0);
(8%nat, M3 (-6) 6 0 0 0 (-1) (-6) (-6) (-6));
(3%nat, M3 0 0 (-6) (-2) (-3) 0 (-2) 3 0);
(4%nat, M3 0 (-6) 0 (-2) (-1) 3 (-2) (-1) (-3));
(1%nat, M3 0 (-6) 0 (-3) 0 1 0 0 (-4));
(2%nat, M3 0 (-6) 0 (-2) (-1) 1 (-4) (-2) (-4));
(1%nat, M3 0 6 0 (-1) 0 4 3 0 0);
(2%nat, M3 0 (-6) 0 4 2 (-1) 0 0 3);
(1%nat, M3 0 6 0 (-1) 0 5 2 0 2);
(2%nat, M3 0 (-6) 0 4 2 (-5) 4 2 (-2));
(3%nat, M3 0 (-6) 0 1 0 6 (-1) 0 6);
(4%nat, M3 0 6 0 6 3 1 6 3 (-1));
(3%nat, M3 0 0 (-6) 0 2 0 1 0 0);
(4%nat, M3 0 6 0 2 1 0 0 0 (-1));
(7%nat, M3 0 0 6 (-2) 0 0 0 (-2) 0);
(4%nat, M3 0 (-6) 0 0 0 2 (-2) (-1) 0);
(4%nat, M3 0 (-6) 0 (-2) (-1) 0 0 0 (-2));
(8%nat, M3 0 0 (-6) 0 (-2) (-1) (-2) 0 (-1));
(4%nat, M3 0 0 (-6) 0 2 0 2 1 0);
(5%nat, M3 0 6 6 2 0 2 1 1 0);
(3%nat, M3 0 0 6 (-2) 0 0 0 (-3) 0);
(4%nat, M3 0 (-6) 0 (-2) (-1) 0 0 0 (-3));
(1%nat, M3 0 (-6) 0 (-2) 0 2 (-1) 0 (-2));
(2%nat, M3 0 (-6) 0 2 1 2 (-2) (-1) 1);
(1%nat, M3 0 6 0 (-2) 0 2 1 0 2);
(2%nat, M3 0 6 0 2 1 2 2 1 (-1));
(3%nat, M3 0 0 6 (-2) 0 0 0 (-4) 0);
(4%nat, M3 0 (-6) 0 0 0 2 (-4) (-2) 0);
(4%nat, M3 0 (-6) 0 (-2) (-1) 0 0 0 (-4));
(6%nat, M3 0 0 (-6) 0 (-2) (-1) (-4) 0 (-2));
(7%nat, M3 0 0 6 (-2) 2 0 (-2) (-2) 0);
(8%nat, M3 0 0 (-6) 2 (-2) 0 (-2) (-2) (-2));
(4%nat, M3 0 (-6) 0 (-2) (-1) 2 (-2) (-1) (-2));
(4%nat, M3 0 (-6) 0 2 1 2 (-2) (-1) 2);
(7%nat, M3 6 0 0 0 0 (-2) 0 6 0);
(4%nat, M3 0 (-6) 0 0 0 2 (-6) (-3) 0);
(4%nat, M3 0 (-6) 0 (-2) (-1) 0 0 0 (-6));
(6%nat, M3 0 0 (-6) 0 (-2) (-1) (-6) 0 (-3));
(1%nat, M3 0 (-6) 0 (-2) 0 2 (-1) 0 (-5));
(2%nat, M3 0 6 0 (-4) (-2) (-2) 4 2 5);
(4%nat, M3 0 0 (-6) (-2) (-4) 0 (-2) 2 0);
(2%nat, M3 0 (-6) 0 4 2 2 (-2) (-1) 2);
(5%nat, M3 (-6) 0 (-6) (-1) (-4) (-3) (-1) 2 3);
(2%nat, M3 0 (-6) 0 2 1 4 (-4) (-2) (-2));
(4%nat, M3 0 0 6 0 2 0 (-6) (-3) 0);
(5%nat, M3 0 6 6 (-2) 0 (-2) (-3) (-3) 0);
(4%nat, M3 0 0 (-6) (-2) 2 0 2 4 0);
(2%nat, M3 0 6 0 (-4) (-2) 2 (-2) (-1) 4);
(2%nat, M3 0 6 0 2 1 2 4 2 (-2));
(5%nat, M3 0 6 6 2 (-1) 3 4 1 3);
(1%nat, M3 0 6 0 (-2) 0 2 1 0 5);
(2%nat, M3 0 6 0 (-4) (-2) 2 (-4) (-2) 5);
(3%nat, M3 0 6 0 2 0 0 0 0 (-12));
(7%nat, M3 6 (-6) 0 0 0 (-2) 6 6 0);
(4%nat, M3 0 6 0 2 1 0 0 0 (-12));
(8%nat, M3 (-12) 0 (-6) 0 0 (-1) 0 (-12) (-6));
(3%nat, M3 0 6 0 2 0 6 2 0 (-6));
(6%nat, M3 0 12 6 (-2) 0 (-4) (-2) 0 2);
(4%nat, M3 0 6 0 2 1 6 2 1 (-6));
(4%nat, M3 0 (-6) 0 6 3 2 (-6) (-3) 2);
(1%nat, M3 0 (-6) 0 (-2) 0 4 (-4) 0 (-4));
(2%nat, M3 0 6 0 4 2 (-2) (-4) (-2) (-4));
(2%nat, M3 0 (-6) 0 (-2) (-1) 4 (-4) (-2) (-4));
(2%nat, M3 0 6 0 (-6) (-3) (-4) 0 0 4);
(4%nat, M3 0 0 6 4 2 0 0 6 0);
(8%nat, M3 (-6) 6 0 0 0 (-2) (-6) (-6) (-6));
(2%nat, M3 0 6 0 2 1 4 6 3 0);
(2%nat, M3 0 (-6) 0 (-2) (-1) (-2) 6 3 (-6));
(1%nat, M3 0 6 0 (-2) 0 4 4 0 4);
(2%nat, M3 0 6 0 4 2 2 4 2 (-4));
(2%nat, M3 0 (-6) 0 (-6) (-3) (-4) 0 0 (-4));
(2%nat, M3 0 (-6) 0 (-2) (-1) (-4) 4 2 (-4));
(3%nat, M3 0 (-6) 0 2 0 6 (-2) 0 6);
(6%nat, M3 0 (-12) (-6) (-2) 0 (-4) 2 0 (-2));
(4%nat, M3 0 6 0 6 3 2 6 3 (-2));
(4%nat, M3 0 (-6) 0 2 1 6 (-2) (-1) 6);
(3%nat, M3 0 0 (-6) 0 3 0 1 0 0);
(3%nat, M3 0 0 (-6) 0 3 0 2 0 0);
(4%nat, M3 0 6 0 0 0 3 2 1 0);
(4%nat, M3 0 0 (-6) 0 3 0 2 1 0);
(5%nat, M3 0 6 6 3 0 3 1 1 0);
(7%nat, M3 0 0 6 (-3) 0 0 0 (-3) 0);
(3%nat, M3 0 0 6 (-3) 0 0 0 (-4) 0);
(4%nat, M3 0 (-6) 0 0 0 3 (-4) (-2) 0);
(1%nat, M3 0 (-6) 0 (-3) 0 0 (-1) 0 (-4));
(2%nat, M3 0 (-6) 0 0 0 3 (-4) (-2) 1);
(4%nat, M3 0 0 6 0 3 0 (-4) (-2) 0);
(5%nat, M3 (-6) (-6) 0 0 3 3 (-2) 0 (-2));
(1%nat, M3 0 (-6) 0 (-3) 0 0 1 0 (-4));
(2%nat, M3 0 (-6) 0 0 0 3 (-4) (-2) (-1));
(7%nat, M3 6 0 0 0 0 (-3) 0 6 0);
(4%nat, M3 0 (-6) 0 0 0 3 (-6) (-3) 0);
(7%nat, M3 0 0 6 (-3) 3 0 (-3) (-3) 0);
(8%nat, M3 0 0 (-6) 3 (-3) 0 (-3) (-3) (-3));
(3%nat, M3 0 6 0 3 0 0 0 0 (-12));
(7%nat, M3 6 (-6) 0 0 0 (-3) 6 6 0);
(3%nat, M3 0 6 0 3 0 6 3 0 (-6));
(4%nat, M3 0 (-6) 0 6 3 3 (-6) (-3) 3);
(4%nat, M3 0 0 6 (-6) (-3) 0 0 (-6) 0);
(8%nat, M3 (-6) 6 0 0 0 (-3) (-6) (-6) (-6));
(3%nat, M3 0 (-6) 0 3 0 6 (-3) 0 6);
(4%nat, M3 0 6 0 6 3 3 6 3 (-3));
(3%nat, M3 0 0 (-6) 0 4 0 1 0 0);
(4%nat, M3 0 6 0 4 2 0 0 0 (-1));
(3%nat, M3 0 0 (-6) 0 4 0 2 0 0);
(4%nat, M3 0 6 0 0 0 4 2 1 0);
(4%nat, M3 0 6 0 4 2 0 0 0 (-2));
(6%nat, M3 0 0 6 4 0 2 0 2 1);
(3%nat, M3 0 0 (-6) 0 4 0 3 0 0);
(4%nat, M3 0 6 0 4 2 0 0 0 (-3));
(1%nat, M3 0 6 0 0 0 4 3 0 1);
(2%nat, M3 0 (-6) 0 (-4) (-2) (-4) 2 1 (-1));
(1%nat, M3 0 6 0 0 0 4 3 0 (-1));
(2%nat, M3 0 6 0 4 2 4 2 1 (-1));
(7%nat, M3 0 0 6 (-4) 0 0 0 (-4) 0);
(4%nat, M3 0 (-6) 0 0 0 4 (-4) (-2) 0);
(4%nat, M3 0 (-6) 0 (-4) (-2) 0 0 0 (-4));
(8%nat, M3 0 0 (-6) 0 (-4) (-2) (-4) 0 (-2));
(7%nat, M3 6 0 0 0 0 (-4) 0 6 0);
(4%nat, M3 0 (-6) 0 0 0 4 (-6) (-3) 0);
(4%nat, M3 0 (-6) 0 (-4) (-2) 0 0 0 (-6));
(6%nat, M3 0 0 (-6) 0 (-4) (-2) (-6) 0 (-3));
(1%nat, M3 0 (-6) 0 (-4) 0 4 (-2) 0 (-4));
(2%nat, M3 0 (-6) 0 0 0 4 (-6) (-3) (-4));
(2%nat, M3 0 (-6) 0 (-4) (-2) 4 (-2) (-1) (-4));
(2%nat, M3 0 (-6) 0 4 2 4 (-4) (-2) 2);
(1%nat, M3 0 6 0 (-4) 0 4 2 0 4);
(2%nat, M3 0 6 0 0 0 4 6 3 4);
(2%nat, M3 0 6 0 4 2 4 4 2 (-2));
(2%nat, M3 0 6 0 (-4) (-2) 4 2 1 4);
(3%nat, M3 0 6 0 4 0 0 0 0 (-12));
(7%nat, M3 6 (-6) 0 0 0 (-4) 6 6 0);
(4%nat, M3 0 6 0 4 2 0 0 0 (-12));
(8%nat, M3 (-12) 0 (-6) 0 0 (-2) 0 (-12) (-6));
(4%nat, M3 0 0 (-6) 4 8 0 4 (-4) 0);
(2%nat, M3 0 (-6) 0 8 4 4 (-4) (-2) 4);
(5%nat, M3 6 6 0 2 6 8 2 (-6) (-4));
(2%nat, M3 0 (-6) 0 4 2 4 (-8) (-4) 4);
(4%nat, M3 0 0 (-6) 4 (-4) 0 (-4) (-8) 0);
(2%nat, M3 0 6 0 8 4 4 4 2 (-4));
(2%nat, M3 0 6 0 (-4) (-2) (-4) (-8) (-4) 4);
(5%nat, M3 0 6 6 (-4) 2 (-6) (-8) (-2) (-6));
(7%nat, M3 (-6) 0 0 0 (-6) 0 0 0 1);
(4%nat, M3 0 6 0 6 3 0 0 0 (-1));
(7%nat, M3 (-6) 0 0 0 (-6) 0 0 0 2);
(4%nat, M3 0 6 0 0 0 6 2 1 0);
(4%nat, M3 0 6 0 6 3 0 0 0 (-2));
(6%nat, M3 0 0 6 6 0 3 0 2 1);
(4%nat, M3 0 0 (-6) 0 (-6) 0 (-2) (-1) 0);
(8%nat, M3 (-6) (-6) (-6) (-6) 6 0 0 0 (-1));
(7%nat, M3 (-6) 0 0 0 (-6) 0 0 0 3);
(4%nat, M3 0 6 0 6 3 0 0 0 (-3));
(7%nat, M3 (-6) 0 0 0 (-6) 0 0 0 4);
(4%nat, M3 0 6 0 0 0 6 4 2 0);
(4%nat, M3 0 6 0 6 3 0 0 0 (-4));
(6%nat, M3 0 0 6 6 0 3 0 4 2);
(4%nat, M3 0 0 (-6) 0 (-6) 0 (-4) (-2) 0);
(8%nat, M3 (-6) (-6) (-6) (-6) 6 0 0 0 (-2));
(2%nat, M3 0 6 0 6 3 0 2 1 (-4));
(2%nat, M3 0 (-6) 0 (-6) (-3) (-6) 2 1 (-2));
(13%nat, M3 (-6) 0 0 0 (-6) 0 0 0 6);
(4%nat, M3 0 (-6) 0 0 0 6 (-6) (-3) 0);
(4%nat, M3 0 (-6) 0 (-6) (-3) 0 0 0 (-6));
(8%nat, M3 0 0 (-6) 0 (-6) (-3) (-6) 0 (-3));
(4%nat, M3 0 0 (-6) 0 6 0 6 3 0);
(8%nat, M3 (-6) (-6) (-6) (-6) 6 0 0 0 (-3));
(7%nat, M3 (-6) 0 0 0 (-6) 0 0 0 12);
(7%nat, M3 6 (-6) 0 0 0 (-6) 6 6 0);
(4%nat, M3 0 6 0 6 3 0 0 0 (-12));
(8%nat, M3 (-12) 0 (-6) 0 0 (-3) 0 (-12) (-6));
(7%nat, M3 0 0 6 (-6) 6 0 (-6) (-6) 0);
(14%nat, M3 (-6) 0 (-6) 0 (-6) (-6) (-6) (-6) 0);
(4%nat, M3 0 6 0 (-6) (-3) (-6) (-6) (-3) 6);
(4%nat, M3 0 (-6) 0 6 3 6 (-6) (-3) 6);
(3%nat, M3 0 (-6) 0 0 0 12 (-1) 0 0);
(7%nat, M3 (-6) 6 0 (-6) (-6) 0 0 0 1);
(3%nat, M3 0 (-6) 0 0 0 12 (-2) 0 0);
(4%nat, M3 0 (-6) 0 0 0 12 (-2) (-1) 0);
(7%nat, M3 (-6) 6 0 (-6) (-6) 0 0 0 2);
(8%nat, M3 12 0 6 0 12 6 0 0 1);
(3%nat, M3 0 (-6) 0 0 0 12 (-3) 0 0);
(7%nat, M3 (-6) 6 0 (-6) (-6) 0 0 0 3);
(3%nat, M3 0 (-6) 0 0 0 12 (-4) 0 0);
(4%nat, M3 0 (-6) 0 0 0 12 (-4) (-2) 0);
(7%nat, M3 (-6) 6 0 (-6) (-6) 0 0 0 4);
(8%nat, M3 12 0 6 0 12 6 0 0 2);
(7%nat, M3 6 0 0 0 0 (-12) 0 6 0);
(4%nat, M3 0 (-6) 0 0 0 12 (-6) (-3) 0);
(7%nat, M3 (-6) 6 0 (-6) (-6) 0 0 0 6);
(8%nat, M3 12 0 6 0 12 6 0 0 3);
(7%nat, M3 0 0 6 (-12) 0 0 0 (-12) 0);
(7%nat, M3 6 (-6) 0 0 0 (-12) 6 6 0);
(7%nat, M3 (-6) 6 0 (-6) (-6) 0 0 0 12);
(15%nat, M3 0 (-12) (-6) 0 0 (-6) 12 0 6);
(7%nat, M3 0 0 12 (-1) 0 0 0 (-1) 0);
(3%nat, M3 0 0 12 (-1) 0 0 0 (-2) 0);
(7%nat, M3 0 0 12 (-1) 1 0 (-1) (-1) 0);
(3%nat, M3 0 0 12 (-1) 0 0 0 (-3) 0);
(4%nat, M3 0 0 (-12) (-1) (-2) 0 (-1) 1 0);
(4%nat, M3 0 0 (-12) (-1) 1 0 1 2 0);
(3%nat, M3 0 0 12 (-1) 0 0 0 (-4) 0);
(3%nat, M3 0 0 12 (-1) 2 0 (-1) (-2) 0);
(4%nat, M3 0 0 12 (-2) (-1) 0 0 (-2) 0);
(3%nat, M3 0 0 (-12) (-1) 2 0 1 2 0);
(3%nat, M3 0 0 12 (-1) 0 0 0 (-6) 0);
(3%nat, M3 0 0 12 (-1) 3 0 (-1) (-3) 0);
(1%nat, M3 0 (-12) 0 (-1) 0 2 (-2) 0 (-2));
(4%nat, M3 0 0 12 (-2) (-1) 0 0 (-3) 0);
(1%nat, M3 0 12 0 (-1) 0 2 2 0 2);
(3%nat, M3 0 0 (-12) (-1) 3 0 1 3 0);
(7%nat, M3 12 0 0 0 0 (-1) 0 12 0);
(3%nat, M3 0 0 12 (-1) 6 0 (-1) (-6) 0);
(1%nat, M3 0 (-12) 0 (-1) 0 5 (-2) 0 (-2));
(1%nat, M3 0 (-12) 0 (-1) 0 4 (-3) 0 0);
(1%nat, M3 0 12 0 (-3) 0 1 0 0 4);
(3%nat, M3 0 0 (-12) (-2) 3 0 2 3 0);
(4%nat, M3 0 0 12 (-2) (-1) 0 0 (-6) 0);
(3%nat, M3 0 0 (-12) (-2) (-3) 0 (-2) 3 0);
(1%nat, M3 0 (-12) 0 (-3) 0 1 0 0 (-4));
(1%nat, M3 0 12 0 (-1) 0 4 3 0 0);
(1%nat, M3 0 12 0 (-1) 0 5 2 0 2);
(3%nat, M3 0 0 (-12) (-1) 6 0 1 6 0);
(3%nat, M3 0 0 (-12) 0 2 0 1 0 0);
(7%nat, M3 0 0 12 (-2) 0 0 0 (-2) 0);
(4%nat, M3 0 0 (-12) 0 2 0 2 1 0);
(3%nat, M3 0 0 12 (-2) 0 0 0 (-3) 0);
(1%nat, M3 0 (-12) 0 (-2) 0 2 (-1) 0 (-2));
(1%nat, M3 0 12 0 (-2) 0 2 1 0 2);
(3%nat, M3 0 0 12 (-2) 0 0 0 (-4) 0);
(7%nat, M3 0 0 12 (-2) 2 0 (-2) (-2) 0);
(3%nat, M3 0 0 12 (-2) 0 0 0 (-6) 0);
(1%nat, M3 0 (-12) 0 (-2) 0 2 (-1) 0 (-5));
(4%nat, M3 0 0 (-12) (-2) (-4) 0 (-2) 2 0);
(4%nat, M3 0 0 12 0 2 0 (-6) (-3) 0);
(4%nat, M3 0 0 (-12) (-2) 2 0 2 4 0);
(1%nat, M3 0 12 0 (-2) 0 2 1 0 5);
(7%nat, M3 12 0 0 0 0 (-2) 0 12 0);
(3%nat, M3 0 0 12 (-2) 6 0 (-2) (-6) 0);
(1%nat, M3 0 (-12) 0 (-2) 0 4 (-4) 0 (-4));
(4%nat, M3 0 0 12 (-4) (-2) 0 0 (-6) 0);
(1%nat, M3 0 12 0 (-2) 0 4 4 0 4);
(3%nat, M3 0 0 (-12) (-2) 6 0 2 6 0);
(3%nat, M3 0 0 (-12) 0 3 0 1 0 0);
(3%nat, M3 0 0 (-12) 0 3 0 2 0 0);
(4%nat, M3 0 0 (-12) 0 3 0 2 1 0);
(7%nat, M3 0 0 12 (-3) 0 0 0 (-3) 0);
(3%nat, M3 0 0 12 (-3) 0 0 0 (-4) 0);
(1%nat, M3 0 (-12) 0 (-3) 0 0 (-1) 0 (-4));
(4%nat, M3 0 0 12 0 3 0 (-4) (-2) 0);
(1%nat, M3 0 (-12) 0 (-3) 0 0 1 0 (-4));
(3%nat, M3 0 0 12 (-3) 0 0 0 (-6) 0);
(7%nat, M3 0 0 12 (-3) 3 0 (-3) (-3) 0);
(7%nat, M3 12 0 0 0 0 (-3) 0 12 0);
(3%nat, M3 0 0 12 (-3) 6 0 (-3) (-6) 0);
(4%nat, M3 0 0 12 (-6) (-3) 0 0 (-6) 0);
(3%nat, M3 0 0 (-12) (-3) 6 0 3 6 0);
(3%nat, M3 0 0 (-12) 0 4 0 1 0 0);
(3%nat, M3 0 0 (-12) 0 4 0 2 0 0);
(3%nat, M3 0 0 (-12) 0 4 0 3 0 0);
(1%nat, M3 0 12 0 0 0 4 3 0 1);
(1%nat, M3 0 12 0 0 0 4 3 0 (-1));
(7%nat, M3 0 0 12 (-4) 0 0 0 (-4) 0);
(3%nat, M3 0 0 12 (-4) 0 0 0 (-6) 0);
(1%nat, M3 0 (-12) 0 (-4) 0 4 (-2) 0 (-4));
(1%nat, M3 0 12 0 (-4) 0 4 2 0 4);
(7%nat, M3 12 0 0 0 0 (-4) 0 12 0);
(4%nat, M3 0 0 (-12) (-4) (-8) 0 (-4) 4 0);
(4%nat, M3 0 0 (-12) (-4) 4 0 4 8 0);
(3%nat, M3 0 0 (-12) 0 6 0 1 0 0);
(3%nat, M3 0 0 (-12) 0 6 0 2 0 0);
(4%nat, M3 0 0 (-12) 0 6 0 2 1 0);
(3%nat, M3 0 0 (-12) 0 6 0 3 0 0);
(3%nat, M3 0 0 (-12) 0 6 0 4 0 0);
(4%nat, M3 0 0 (-12) 0 6 0 4 2 0);
(7%nat, M3 0 0 12 (-6) 0 0 0 (-6) 0);
(4%nat, M3 0 0 (-12) 0 6 0 6 3 0);
(7%nat, M3 12 0 0 0 0 (-6) 0 12 0);
(7%nat, M3 0 0 12 (-6) 6 0 (-6) (-6) 0);
(7%nat, M3 (-12) 0 0 0 (-12) 0 0 0 1);
(7%nat, M3 (-12) 0 0 0 (-12) 0 0 0 2);
(7%nat, M3 (-12) 0 0 0 (-12) 0 0 0 3);
(7%nat, M3 (-12) 0 0 0 (-12) 0 0 0 4);
(7%nat, M3 (-12) 0 0 0 (-12) 0 0 0 6);
(13%nat, M3 (-12) 0 0 0 (-12) 0 0 0 12)].
Definition hexagonal_frames : list (nat * mat3) := [
(12%nat, M3 (-1) 0 0 0 (-1) 0 0 0 1);
(12%nat, M3 (-1) 0 0 0 (-1) 0 0 0 2);
(6%nat, M3 0 2 1 1 1 1 0 0 (-1));
(6%nat, M3 (-1) (-1) (-1) 0 (-2) (-1) 0 0 1);
(6%nat, M3 1 (-1) 0 1 1 1 0 0 1);
(12%nat, M3 (-1) 0 0 0 (-1) 0 0 0 3);
(2%nat, M3 2 1 2 1 0 1 2 1 (-1));
(2%nat, M3 2 1 2 1 1 1 (-2) (-1) 1);
(2%nat, M3 (-1) 0 (-1) (-2) (-1) (-2) (-2) (-1) 1);
(11%nat, M3 (-2) 1 (-1) (-1) (-1) (-1) 0 0 1);
(2%nat, M3 (-1) 0 (-1) 1 1 1 2 1 (-1));
(2%nat, M3 (-1) (-1) (-1) (-2) (-1) (-2) 2 1 (-1));
(2%nat, M3 (-1) (-1) (-1) 1 0 1 (-2) (-1) 1);
(11%nat, M3 (-1) (-1) (-1) 1 (-2) 0 0 0 1);
(12%nat, M3 (-1) 0 0 0 (-1) 0 0 0 4);
(2%nat, M3 2 1 2 1 0 1 2 1 (-2));
(6%nat, M3 0 2 1 (-1) 1 0 0 0 2);
(2%nat, M3 2 1 2 1 1 1 (-2) (-1) 2);
(2%nat, M3 (-1) 0 (-1) (-2) (-1) (-2) (-2) (-1) 2);
(2%nat, M3 (-1) 0 (-2) (-1) (-1) (-2) (-2) (-1) 0);
(2%nat, M3 1 1 2 0 1 0 (-2) (-1) 0);
(2%nat, M3 (-1) 0 (-1) 1 1 1 2 1 (-2));
(6%nat, M3 1 (-1) 0 0 (-2) (-1) 0 0 (-2));
(2%nat, M3 0 (-1) 0 (-1) (-1) (-2) 2 1 0);
(6%nat, M3 (-1) (-1) (-1) (-1) 1 0 0 0 (-2));
(2%nat, M3 0 1 0 (-1) 0 (-1) (-2) (-1) 2);
(2%nat, M3 (-1) (-1) (-1) (-2) (-1) (-2) 2 1 (-2));
(2%nat, M3 (-1) (-1) (-1) 1 0 1 (-2) (-1) 2);
(2%nat, M3 1 0 1 0 (-1) 0 2 1 (-2));
(2%nat, M3 (-1) 0 2 (-1) (-1) 2 2 1 0);
(12%nat, M3 (-1) 0 0 0 (-1) 0 0 0 6);
(2%nat, M3 2 1 4 1 0 2 2 1 (-2));
(2%nat, M3 2 1 4 1 0 2 4 2 2);
(6%nat, M3 0 2 1 (-1) 1 0 0 0 3);
(2%nat, M3 2 1 4 1 1 2 (-4) (-2) (-2));
(2%nat, M3 2 1 4 1 1 2 (-2) (-1) 2);
(2%nat, M3 (-1) 0 (-2) (-2) (-1) (-4) (-2) (-1) 2);
(2%nat, M3 (-1) 0 (-3) (-1) (-1) (-3) (-2) (-1) 0);
(0%nat, M3 0 2 1 (-1) 2 (-1) (-1) 0 1);
(0%nat, M3 0 1 2 (-1) 2 0 (-1) (-1) 0);
(2%nat, M3 1 1 3 0 1 0 (-2) (-1) 0);
(2%nat, M3 (-1) 0 (-2) 1 1 2 2 1 (-2));
(2%nat, M3 (-1) 0 (-2) (-2) (-1) (-4) (-4) (-2) (-2));
(0%nat, M3 1 (-2) 1 0 (-2) (-1) 1 0 (-1));
(11%nat, M3 (-2) 1 (-1) (-1) 2 0 0 0 (-2));
(0%nat, M3 1 (-2) 1 1 0 2 (-1) 0 1);
(2%nat, M3 (-1) 0 (-2) 1 1 2 4 2 2);
(2%nat, M3 0 1 0 (-1) 0 (-2) (-2) (-1) 2);
(6%nat, M3 1 (-1) 0 0 (-2) (-1) 0 0 (-3));
(0%nat, M3 1 (-2) 0 0 (-1) (-2) 1 1 0);
(0%nat, M3 (-1) 0 (-2) (-1) 2 (-1) 1 0 (-1));
(6%nat, M3 (-1) (-1) (-1) (-1) 1 0 0 0 (-3));
(0%nat, M3 1 (-1) (-2) 1 1 (-1) 1 (-1) 1);
(0%nat, M3 1 0 2 0 2 1 (-1) 0 1);
(2%nat, M3 (-1) (-1) (-2) (-2) (-1) (-4) 4 2 2);
(2%nat, M3 0 (-1) 0 (-1) (-1) (-3) 2 1 0);
(2%nat, M3 (-1) (-1) (-2) 1 0 2 (-4) (-2) (-2));
(0%nat, M3 (-1) (-1) 1 (-1) 1 2 (-1) 1 (-1));
(11%nat, M3 (-1) (-1) (-1) (-2) 1 (-1) 0 0 (-2));
(0%nat, M3 1 (-1) 2 0 1 2 (-1) (-1) 0);
(2%nat, M3 (-1) (-1) (-2) (-2) (-1) (-4) 2 1 (-2));
(2%nat, M3 (-1) (-1) (-2) 1 0 2 (-2) (-1) 2);
(2%nat, M3 1 0 2 0 (-1) 0 2 1 (-2));
(0%nat, M3 0 (-2) (-1) (-1) 0 (-2) 1 0 (-1));
(0%nat, M3 0 (-1) (-2) (-1) 1 (-2) 1 1 0);
(2%nat, M3 (-1) 0 3 (-1) (-1) 3 2 1 0);
(12%nat, M3 (-1) 0 0 0 (-1) 0 0 0 12);
(2%nat, M3 2 1 8 1 0 4 2 1 (-4));
(2%nat, M3 2 1 6 1 0 3 4 2 0);
(2%nat, M3 2 1 4 1 0 2 6 3 0);
(2%nat, M3 6 3 4 3 2 2 0 0 4);
(2%nat, M3 6 3 2 3 1 1 6 3 (-2));
(6%nat, M3 0 2 1 (-1) 1 0 0 0 6);
(2%nat, M3 (-6) (-3) 2 (-3) (-2) 1 6 3 2);
(2%nat, M3 6 3 4 3 1 2 0 0 (-4));
(2%nat, M3 2 1 4 1 1 2 (-6) (-3) 0);
(2%nat, M3 2 1 6 1 1 3 (-4) (-2) 0);
(2%nat, M3 2 1 8 1 1 4 (-2) (-1) 4);
(2%nat, M3 (-1) 0 (-4) (-2) (-1) (-8) (-2) (-1) 4);
(2%nat, M3 (-1) 0 (-5) (-1) (-1) (-5) (-2) (-1) 2);
(0%nat, M3 0 1 4 1 (-1) 3 1 1 (-1));
(0%nat, M3 0 1 3 1 (-1) 2 1 2 (-1));
(0%nat, M3 0 2 3 (-1) 3 1 (-1) (-1) 1);
(0%nat, M3 0 2 1 (-1) 2 (-2) (-1) 0 3);
(0%nat, M3 0 2 (-1) (-1) 1 (-3) (-1) 1 3);
(0%nat, M3 0 2 (-3) (-1) 0 (-2) (-1) 2 1);
(0%nat, M3 0 1 3 (-1) 2 1 (-1) (-2) 1);
(0%nat, M3 0 1 4 (-1) 2 1 (-1) (-1) 1);
(2%nat, M3 1 1 5 0 1 0 (-2) (-1) 2);
(2%nat, M3 (-1) 0 (-4) 1 1 4 2 1 (-4));
(2%nat, M3 (-1) 0 (-3) (-2) (-1) (-6) (-4) (-2) 0);
(0%nat, M3 (-1) 1 (-3) 0 (-1) (-4) (-1) (-1) 1);
(2%nat, M3 1 1 3 1 0 3 4 2 0);
(0%nat, M3 (-1) 0 (-2) 1 (-1) (-3) (-1) (-2) 0);
(0%nat, M3 (-2) 0 (-1) (-2) 1 2 0 2 0);
(2%nat, M3 0 (-1) 0 5 2 1 (-2) (-1) 2);
(0%nat, M3 (-2) 0 1 0 1 3 0 2 0);
(0%nat, M3 (-1) 0 (-2) (-2) 1 1 1 2 0);
(2%nat, M3 (-1) 0 (-3) 0 1 0 4 2 0);
(0%nat, M3 (-1) 1 (-3) (-1) 2 1 1 1 (-1));
(2%nat, M3 (-1) 0 (-3) 1 1 3 4 2 0);
(2%nat, M3 0 1 0 (-1) 0 (-5) (-2) (-1) 2);
(2%nat, M3 (-1) 0 (-2) (-2) (-1) (-4) (-6) (-3) 0);
(0%nat, M3 (-1) 1 (-2) 0 (-1) (-3) (-1) (-2) 1);
(0%nat, M3 (-1) 1 3 1 0 2 1 2 0);
(2%nat, M3 1 1 2 1 0 2 6 3 0);
(0%nat, M3 2 (-1) 1 1 1 3 (-1) (-1) 1);
(0%nat, M3 1 (-2) (-1) 2 (-1) 2 (-1) (-1) 1);
(2%nat, M3 (-1) 0 (-2) 0 1 0 6 3 0);
(0%nat, M3 (-1) (-1) (-3) (-2) (-1) (-1) (-1) 2 0);
(0%nat, M3 (-1) 1 (-2) (-1) 2 1 1 2 (-1));
(2%nat, M3 (-1) 0 (-2) 1 1 2 6 3 0);
(0%nat, M3 (-1) (-2) (-1) (-1) (-1) 3 (-1) 1 (-1));
(0%nat, M3 (-1) 2 1 0 1 4 1 1 (-1));
(2%nat, M3 (-3) (-2) (-2) (-6) (-3) (-4) 0 0 (-4));
(0%nat, M3 1 (-3) (-1) 0 (-2) (-3) 1 1 (-1));
(0%nat, M3 2 (-1) (-2) 2 0 1 0 (-2) 0);
(0%nat, M3 (-1) (-1) (-3) (-2) 1 (-1) 1 1 (-1));
(11%nat, M3 (-2) 1 (-1) (-1) 2 0 0 0 (-4));
(0%nat, M3 1 (-1) (-2) 2 1 0 1 (-1) 2);
(0%nat, M3 2 1 2 0 1 3 0 (-2) 0);
(0%nat, M3 1 (-3) (-1) 1 (-1) 2 (-1) (-1) 1);
(2%nat, M3 (-3) (-2) (-2) 3 1 2 0 0 4);
(0%nat, M3 (-1) (-2) (-1) (-1) (-1) 2 (-1) 2 (-1));
(2%nat, M3 0 1 0 1 1 3 4 2 0);
(0%nat, M3 (-1) 2 1 0 1 3 1 2 (-1));
(2%nat, M3 (-3) (-1) (-1) (-6) (-3) (-2) (-6) (-3) 2);
(0%nat, M3 1 (-2) 2 0 (-2) (-1) 1 0 (-3));
(2%nat, M3 (-5) (-2) (-1) 0 1 0 2 1 (-2));
(0%nat, M3 (-2) 1 (-2) (-1) 2 1 1 1 (-1));
(0%nat, M3 (-2) (-1) 0 (-1) 1 2 (-1) 1 (-2));
(2%nat, M3 5 3 1 5 2 1 2 1 (-2));
(0%nat, M3 1 (-2) 2 1 0 3 (-1) 0 3);
(2%nat, M3 (-3) (-1) (-1) 3 2 1 6 3 (-2));
(0%nat, M3 1 (-2) 0 1 1 (-2) 1 1 2);
(0%nat, M3 2 1 (-1) 1 1 (-3) (-1) 2 0);
(0%nat, M3 (-2) 1 1 (-1) 0 (-2) (-1) (-2) 0);
(0%nat, M3 1 (-1) 2 0 2 3 (-1) (-1) 1);
(6%nat, M3 1 (-1) 0 0 (-2) (-1) 0 0 (-6));
(0%nat, M3 1 (-1) 3 0 (-2) 1 1 (-1) (-3));
(0%nat, M3 0 (-1) (-3) 2 0 (-1) 0 (-2) 0);
(2%nat, M3 0 (-1) 0 1 0 2 (-6) (-3) 0);
(0%nat, M3 0 (-1) (-3) (-2) (-1) (-2) 0 2 0);
(0%nat, M3 (-1) 0 (-3) (-1) 2 (-2) 1 0 (-3));
(6%nat, M3 (-1) (-1) (-1) (-1) 1 0 0 0 (-6));
(0%nat, M3 1 (-1) (-3) 1 1 (-2) 1 (-1) 3);
(0%nat, M3 0 (-1) (-3) 2 (-1) (-2) 0 (-2) 0);
(2%nat, M3 0 1 0 (-1) 0 (-2) (-6) (-3) 0);
(0%nat, M3 0 (-1) 2 2 0 1 0 2 2);
(0%nat, M3 1 0 3 0 2 1 (-1) 0 3);
(2%nat, M3 3 2 (-1) 6 3 (-2) (-6) (-3) (-2));
(0%nat, M3 1 0 2 0 (-2) 3 1 (-2) (-1));
(0%nat, M3 2 (-1) (-1) 1 0 2 (-1) (-2) 0);
(0%nat, M3 2 1 1 1 1 3 1 (-2) 0);
(0%nat, M3 (-1) 1 (-2) (-1) 3 1 1 1 (-1));
(2%nat, M3 (-3) (-2) (-1) 3 1 1 (-6) (-3) 2);
(0%nat, M3 (-1) (-1) 2 (-1) 1 3 (-1) 1 (-3));
(2%nat, M3 (-5) (-2) 1 (-5) (-3) 1 2 1 2);
(0%nat, M3 (-1) 2 0 1 1 (-2) (-1) (-1) (-2));
(0%nat, M3 (-1) (-2) 0 (-2) (-1) (-2) 1 (-1) (-2));
(2%nat, M3 (-5) (-3) (-1) 0 (-1) 0 (-2) (-1) 2);
(0%nat, M3 1 1 2 0 2 (-1) (-1) 1 3);
(2%nat, M3 (-3) (-1) (-2) (-6) (-3) (-4) 0 0 4);
(0%nat, M3 1 (-2) (-1) 0 (-1) (-3) 1 2 (-1));
(2%nat, M3 0 (-1) 0 1 0 3 (-4) (-2) 0);
(0%nat, M3 1 (-2) (-1) 1 (-1) 2 (-1) (-2) 1);
(2%nat, M3 (-3) (-1) (-2) 3 2 2 0 0 (-4));
(0%nat, M3 (-1) (-1) 2 (-1) 2 0 (-1) (-1) (-2));
(0%nat, M3 (-2) 1 2 0 1 3 0 2 0);
(0%nat, M3 (-1) (-1) 2 1 (-2) 0 1 1 2);
(11%nat, M3 (-1) (-1) (-1) (-2) 1 (-1) 0 0 (-4));
(0%nat, M3 (-1) (-1) (-3) 1 (-2) (-1) (-1) (-1) 1);
(0%nat, M3 (-2) (-1) (-1) (-2) 0 1 0 2 (-2));
(0%nat, M3 1 2 (-1) 0 2 (-3) (-1) 2 1);
(2%nat, M3 (-1) (-1) (-2) (-2) (-1) (-4) 6 3 0);
(0%nat, M3 1 (-2) (-1) 0 (-1) (-4) 1 1 (-1));
(0%nat, M3 1 (-2) (-1) 1 (-1) 3 (-1) (-1) 1);
(2%nat, M3 (-1) (-1) (-2) 1 0 2 (-6) (-3) 0);
(0%nat, M3 1 1 (-2) 1 2 1 1 (-2) 1);
(0%nat, M3 (-1) (-1) 3 (-2) (-1) 1 1 (-2) 0);
(2%nat, M3 1 0 2 0 (-1) 0 6 3 0);
(0%nat, M3 2 1 2 1 2 0 (-1) 1 2);
(0%nat, M3 (-1) 2 1 1 1 3 1 1 (-1));
(2%nat, M3 1 1 (-2) 1 0 (-2) (-6) (-3) 0);
(0%nat, M3 1 (-1) (-3) (-1) 0 (-2) 1 2 0);
(0%nat, M3 1 (-1) 2 0 1 3 (-1) (-2) 1);
(2%nat, M3 (-1) (-1) (-3) (-2) (-1) (-6) 4 2 0);
(2%nat, M3 0 (-1) 0 (-1) (-1) (-5) 2 1 (-2));
(2%nat, M3 (-1) (-1) (-3) 1 0 3 (-4) (-2) 0);
(0%nat, M3 1 1 (-3) 1 2 1 1 (-1) 1);
(2%nat, M3 (-1) (-1) (-3) 0 (-1) 0 (-4) (-2) 0);
(0%nat, M3 1 0 2 2 (-1) (-1) 1 2 0);
(0%nat, M3 (-2) 0 (-1) 0 1 (-2) 0 (-2) (-2));
(2%nat, M3 0 1 0 5 3 1 2 1 (-2));
(0%nat, M3 2 0 (-1) 2 1 1 0 (-2) 2);
(0%nat, M3 1 0 2 (-1) 1 3 (-1) (-2) 0);
(2%nat, M3 1 1 (-3) 1 0 (-3) (-4) (-2) 0);
(0%nat, M3 1 (-1) 3 0 1 4 (-1) (-1) 1);
(2%nat, M3 (-1) (-1) (-4) (-2) (-1) (-8) 2 1 (-4));
(2%nat, M3 (-1) (-1) (-4) 1 0 4 (-2) (-1) 4);
(2%nat, M3 1 0 5 0 (-1) 0 2 1 (-2));
(0%nat, M3 0 (-1) (-4) 1 (-2) (-1) (-1) (-1) 1);
(0%nat, M3 0 (-1) (-3) 1 (-2) (-1) (-1) (-2) 1);
(0%nat, M3 0 (-2) (-3) (-1) 1 (-2) 1 1 (-1));
(0%nat, M3 0 (-2) (-1) (-1) 0 (-3) 1 0 (-3));
(0%nat, M3 0 (-2) 1 (-1) (-1) (-2) 1 (-1) (-3));
(0%nat, M3 0 (-2) 3 (-1) (-2) 1 1 (-2) (-1));
(0%nat, M3 0 (-1) (-3) (-1) 1 (-2) 1 2 (-1));
(0%nat, M3 0 (-1) (-4) (-1) 1 (-3) 1 1 (-1));
(2%nat, M3 (-1) 0 5 (-1) (-1) 5 2 1 2);
(3%nat, M3 1 0 (-1) 0 0 (-2) 0 1 0);
(3%nat, M3 1 0 1 1 0 (-1) 0 1 0);
(3%nat, M3 (-1) (-1) 0 0 (-2) 0 0 0 2);
(5%nat, M3 1 (-1) 0 0 (-2) (-2) 1 1 0);
(3%nat, M3 (-1) 1 0 (-1) (-1) 0 0 0 2);
(5%nat, M3 0 1 (-1) 2 1 1 0 (-1) (-1));
(4%nat, M3 0 (-1) 1 0 (-2) 0 2 1 0);
(4%nat, M3 0 (-1) (-1) 0 0 (-2) 2 1 0);
(4%nat, M3 0 1 1 0 (-1) 1 2 1 0);
(4%nat, M3 0 (-1) 1 0 (-1) (-1) 2 1 0);
(3%nat, M3 (-1) (-1) 0 0 (-2) 0 0 0 3);
(0%nat, M3 (-1) 0 (-2) 0 (-2) (-2) (-1) 0 1);
(0%nat, M3 (-1) 0 (-1) 0 2 0 1 0 (-2));
(3%nat, M3 (-1) 1 0 (-1) (-1) 0 0 0 3);
(0%nat, M3 (-1) 0 (-2) (-1) (-2) (-2) (-1) 0 1);
(0%nat, M3 (-1) 0 (-1) (-1) 2 (-1) 1 0 (-2));
(1%nat, M3 (-1) (-1) 1 (-2) 0 2 (-1) 0 (-2));
(0%nat, M3 1 (-2) 0 0 (-2) (-2) 1 0 (-1));
(1%nat, M3 (-1) 1 (-1) 0 2 0 1 0 (-2));
(1%nat, M3 1 (-1) (-1) (-1) (-1) 1 (-1) 0 (-2));
(1%nat, M3 (-1) 1 (-2) (-1) (-1) (-2) (-1) 0 1);
(0%nat, M3 (-1) (-1) (-1) (-1) 1 (-1) 1 (-1) (-2));
(1%nat, M3 (-1) 1 1 (-2) 0 2 1 0 2);
(1%nat, M3 1 (-1) 2 0 (-2) 0 1 0 (-1));
(0%nat, M3 (-1) 2 (-1) 0 2 0 1 0 (-2));
(1%nat, M3 1 1 (-1) (-1) 1 1 1 0 2);
(0%nat, M3 (-1) 2 (-2) (-1) 0 (-2) (-1) 0 1);
(1%nat, M3 (-1) (-1) (-1) (-1) 1 (-1) 1 0 (-2));
(3%nat, M3 (-1) (-1) 0 0 (-2) 0 0 0 4);
(0%nat, M3 (-1) 0 (-3) 0 (-2) (-2) (-1) 0 1);
(5%nat, M3 0 1 (-1) (-2) 0 (-2) 0 2 2);
(0%nat, M3 (-1) 0 (-3) 0 2 (-2) 1 0 (-1));
(3%nat, M3 (-1) 1 0 (-1) (-1) 0 0 0 4);
(0%nat, M3 (-1) 0 (-3) (-1) (-2) (-1) (-1) 0 1);
(5%nat, M3 0 (-1) 1 (-2) (-1) (-1) 0 (-2) (-2));
(0%nat, M3 (-1) 0 (-3) (-1) 2 (-1) 1 0 (-1));
(4%nat, M3 0 1 (-1) 0 2 0 4 2 0);
(0%nat, M3 1 (-2) 0 0 (-2) (-2) 1 0 (-2));
(4%nat, M3 (-2) (-1) (-1) 0 0 (-2) 0 (-2) 0);
(0%nat, M3 (-1) 2 (-2) 0 2 0 1 0 (-2));
(4%nat, M3 0 (-1) (-1) 0 1 (-1) 4 2 0);
(0%nat, M3 (-1) 2 (-2) (-1) 0 (-2) (-1) 0 2);
(4%nat, M3 2 1 1 2 1 (-1) 0 2 0);
(0%nat, M3 1 (-2) 0 1 0 2 (-1) 0 2);
(3%nat, M3 (-1) (-1) 0 0 (-2) 0 0 0 6);
(0%nat, M3 (-1) 0 (-3) 0 (-2) (-2) (-1) 0 3);
(0%nat, M3 0 1 3 2 0 2 0 2 0);
(5%nat, M3 0 1 (-1) (-2) 0 (-2) 0 3 3);
(0%nat, M3 0 1 3 (-2) 0 2 0 (-2) 0);
(0%nat, M3 (-1) 0 (-4) 0 2 (-2) 1 0 (-2));
(3%nat, M3 (-1) 1 0 (-1) (-1) 0 0 0 6);
(0%nat, M3 (-1) 0 (-3) (-1) (-2) (-1) (-1) 0 3);
(0%nat, M3 0 1 3 2 1 1 0 2 0);
(5%nat, M3 0 (-1) 1 (-2) (-1) (-1) 0 (-3) (-3));
(0%nat, M3 0 1 3 (-2) 1 1 0 (-2) 0);
(0%nat, M3 (-1) 0 (-4) (-1) 2 (-2) 1 0 (-2));
(1%nat, M3 (-1) (-1) 2 (-2) 0 4 (-1) 0 (-4));
(0%nat, M3 (-1) 0 (-3) 0 (-2) (-2) (-1) (-1) 2);
(2%nat, M3 2 2 1 0 2 0 (-2) (-1) 2);
(2%nat, M3 2 0 (-1) 4 2 (-2) 2 1 2);
(0%nat, M3 (-1) 0 (-3) (-2) 2 (-2) 1 1 (-1));
(1%nat, M3 (-1) 1 (-3) 0 2 0 1 0 (-3));
(1%nat, M3 1 (-1) (-1) (-1) (-1) 1 (-1) 0 (-5));
(1%nat, M3 (-1) 1 (-3) (-1) (-1) (-3) (-1) 0 3);
(0%nat, M3 (-1) 1 3 1 1 1 (-1) 2 (-1));
(2%nat, M3 (-2) 0 (-1) 2 2 1 2 1 (-2));
(2%nat, M3 (-2) (-2) 1 (-2) 0 1 (-2) (-1) (-2));
(0%nat, M3 (-1) 0 (-3) (-1) 2 (-1) 1 1 (-2));
(1%nat, M3 (-1) (-1) 2 (-2) 0 4 (-2) 0 (-2));
(2%nat, M3 2 0 (-3) 0 (-2) 0 (-4) (-2) 3);
(0%nat, M3 2 (-1) (-1) 2 0 2 0 (-2) 0);
(2%nat, M3 (-2) 0 (-1) (-4) (-2) (-2) (-4) (-2) 1);
(1%nat, M3 (-1) (-1) 2 0 (-2) 0 2 0 2);
(0%nat, M3 (-1) 2 (-2) 0 2 2 1 0 (-2));
(1%nat, M3 1 (-1) (-2) (-1) (-1) 2 (-2) 0 (-2));
(0%nat, M3 (-1) 2 (-2) (-1) 0 (-4) (-1) 0 2);
(1%nat, M3 1 (-1) (-2) 1 1 (-2) 2 0 2);
(2%nat, M3 (-2) 0 (-1) 2 2 1 4 2 (-1));
(0%nat, M3 2 1 1 0 1 3 0 (-2) 0);
(2%nat, M3 2 0 (-3) 2 2 (-3) 4 2 (-3));
(4%nat, M3 (-2) (-1) 1 (-4) (-2) 0 0 (-3) 0);
(0%nat, M3 1 (-2) 1 0 (-2) (-2) 1 1 (-2));
(0%nat, M3 1 (-1) (-1) 2 0 2 (-1) (-2) 1);
(4%nat, M3 (-2) (-1) (-1) 0 0 (-2) 0 (-3) 0);
(0%nat, M3 (-1) (-1) (-2) (-2) 0 0 (-1) 2 (-2));
(0%nat, M3 (-1) 2 (-1) 0 2 2 1 1 (-2));
(4%nat, M3 (-2) (-1) (-1) 2 1 (-1) 0 (-3) 0);
(0%nat, M3 (-1) 2 (-1) (-1) 0 (-3) (-1) (-1) 2);
(0%nat, M3 (-1) 1 2 1 1 2 1 2 (-2));
(4%nat, M3 2 1 1 2 1 (-1) 0 3 0);
(0%nat, M3 1 (-1) (-1) (-1) (-1) (-3) 1 2 (-1));
(0%nat, M3 1 (-2) 1 1 0 3 (-1) (-1) 2);
(1%nat, M3 (-1) 1 2 (-2) 0 4 2 0 2);
(0%nat, M3 1 (-2) 2 0 (-2) (-2) 1 0 (-2));
(1%nat, M3 (-1) 1 2 0 2 0 (-2) 0 (-2));
(2%nat, M3 2 0 1 4 2 2 (-4) (-2) 1);
(0%nat, M3 (-2) 1 1 (-2) 0 (-2) 0 (-2) 0);
(2%nat, M3 (-4) (-3) (-1) 0 (-2) 0 (-2) (-1) 1);
(1%nat, M3 1 1 (-2) (-1) 1 2 2 0 2);
(2%nat, M3 (-4) (-3) (-1) (-4) (-1) (-1) 2 1 (-1));
(0%nat, M3 (-2) 1 1 0 1 3 0 2 0);
(2%nat, M3 (-2) (-2) (-1) 2 0 1 (-4) (-2) 1);
(1%nat, M3 1 1 (-2) 1 (-1) (-2) (-2) 0 (-2));
(0%nat, M3 1 (-2) 2 1 0 4 (-1) 0 2);
(1%nat, M3 (-1) 1 2 (-2) 0 4 1 0 4);
(1%nat, M3 1 (-1) 3 0 (-2) 0 1 0 (-3));
(0%nat, M3 1 (-1) (-2) 2 0 0 1 (-2) 2);
(2%nat, M3 2 2 (-1) 4 2 (-2) (-2) (-1) (-2));
(2%nat, M3 2 0 1 0 (-2) 0 2 1 (-2));
(0%nat, M3 (-1) 0 (-3) 0 2 (-2) 1 (-1) (-2));
(1%nat, M3 1 1 (-2) (-1) 1 2 1 0 4);
(0%nat, M3 1 0 3 1 (-2) 1 1 1 (-2));
(2%nat, M3 (-2) (-2) (-1) (-2) 0 (-1) 2 1 (-2));
(2%nat, M3 (-2) 0 1 2 2 (-1) (-2) (-1) (-2));
(0%nat, M3 1 1 3 (-1) 1 1 (-1) (-2) 1);
(1%nat, M3 (-1) (-1) (-3) (-1) 1 (-3) 1 0 (-3));
(3%nat, M3 (-1) (-1) 0 0 (-2) 0 0 0 12);
(0%nat, M3 (-1) 0 (-7) 0 (-2) (-4) (-1) 0 5);
(0%nat, M3 0 1 5 2 0 2 0 2 (-2));
(0%nat, M3 0 1 4 2 0 2 0 3 0);
(0%nat, M3 0 3 1 (-2) 2 0 0 0 4);
(0%nat, M3 0 2 3 (-2) 2 2 0 (-2) 3);
(5%nat, M3 0 1 (-1) (-2) 0 (-2) 0 6 6);
(0%nat, M3 0 2 (-3) (-2) 2 (-2) 0 2 3);
(0%nat, M3 0 3 1 2 2 0 0 0 (-4));
(0%nat, M3 0 1 4 (-2) 0 2 0 (-3) 0);
(0%nat, M3 0 1 5 (-2) 0 2 0 (-2) 2);
(0%nat, M3 (-1) 0 (-7) 0 2 (-4) 1 0 (-5));
(3%nat, M3 (-1) 1 0 (-1) (-1) 0 0 0 12);
(0%nat, M3 (-1) 0 (-7) (-1) (-2) (-3) (-1) 0 5);
(0%nat, M3 0 1 5 2 1 3 0 2 (-2));
(0%nat, M3 0 1 4 2 1 2 0 3 0);
(0%nat, M3 0 3 1 (-2) 1 1 0 0 4);
(0%nat, M3 0 2 3 (-2) 2 1 0 (-2) 3);
(5%nat, M3 0 (-1) 1 (-2) (-1) (-1) 0 (-6) (-6));
(0%nat, M3 0 2 (-3) (-2) 2 (-1) 0 2 3);
(0%nat, M3 0 3 1 2 1 1 0 0 (-4));
(0%nat, M3 0 1 4 (-2) 1 2 0 (-3) 0);
(0%nat, M3 0 1 5 (-2) 1 3 0 (-2) 2);
(0%nat, M3 (-1) 0 (-7) (-1) 2 (-3) 1 0 (-5));
(1%nat, M3 (-1) (-1) 3 (-2) 0 6 (-2) 0 (-6));
(0%nat, M3 (-1) 0 (-5) 0 (-2) (-4) (-1) (-2) 3);
(0%nat, M3 (-1) 1 (-4) 0 (-2) (-4) (-2) 0 0);
(0%nat, M3 0 3 1 (-2) 2 (-2) (-2) (-1) 1);
(2%nat, M3 2 2 3 0 2 0 (-4) (-2) 0);
(0%nat, M3 (-2) 0 (-1) (-2) 2 2 0 2 (-3));
(2%nat, M3 2 0 (-1) 4 2 (-2) 4 2 4);
(0%nat, M3 0 2 (-3) (-2) 0 (-2) (-2) 2 1);
(0%nat, M3 (-1) 0 (-3) (-2) 2 0 2 2 0);
(0%nat, M3 (-1) 0 (-4) (-2) 2 0 1 2 0);
(1%nat, M3 (-1) (-1) 5 0 (-2) 0 2 0 2);
(0%nat, M3 (-1) 2 (-3) 0 2 4 1 0 (-5));
(1%nat, M3 1 (-1) (-3) (-1) (-1) 3 (-2) 0 (-6));
(0%nat, M3 (-1) 2 (-3) (-1) 0 (-7) (-1) 0 5);
(1%nat, M3 1 (-1) (-5) 1 1 (-5) 2 0 2);
(0%nat, M3 (-1) 0 (-4) 1 (-2) (-4) (-1) (-2) 0);
(0%nat, M3 (-1) 0 (-3) 1 (-2) (-3) (-2) (-2) 0);
(0%nat, M3 0 2 3 (-2) 2 1 (-2) (-2) 1);
(2%nat, M3 (-2) 0 (-3) 2 2 3 4 2 0);
(0%nat, M3 (-2) 0 1 0 2 3 0 2 (-3));
(2%nat, M3 (-2) (-2) 3 (-2) 0 3 (-4) (-2) 0);
(0%nat, M3 0 1 3 (-2) 3 1 (-2) (-1) 1);
(0%nat, M3 (-1) 1 (-4) (-1) 3 0 2 0 0);
(0%nat, M3 (-1) 0 (-5) (-1) 2 (-1) 1 2 (-3));
(1%nat, M3 (-1) (-1) 3 (-2) 0 6 (-4) 0 0);
(0%nat, M3 1 (-3) 2 0 (-4) (-2) 1 1 (-2));
(2%nat, M3 (-4) (-1) (-1) 0 2 0 4 2 (-2));
(0%nat, M3 (-3) (-1) 2 (-2) 2 2 (-1) 1 (-2));
(0%nat, M3 (-2) (-1) (-1) (-2) 2 0 0 0 (-4));
(0%nat, M3 2 (-1) (-2) 2 2 0 2 (-1) 2);
(2%nat, M3 4 3 1 8 4 2 4 2 (-2));
(0%nat, M3 1 (-3) (-2) 2 (-2) 2 (-1) (-1) 2);
(1%nat, M3 (-3) 1 1 0 2 0 0 0 (-4));
(0%nat, M3 (-1) (-2) (-4) (-2) (-2) 0 (-1) 2 0);
(0%nat, M3 (-2) 1 3 (-2) 0 (-2) 0 (-2) 2);
(0%nat, M3 (-1) 3 (-1) 0 2 4 1 1 (-3));
(1%nat, M3 1 (-1) (-3) (-1) (-1) 3 (-4) 0 0);
(0%nat, M3 (-1) 3 (-1) (-1) 1 (-5) (-1) (-1) 3);
(0%nat, M3 (-2) 1 3 0 1 5 0 2 (-2));
(0%nat, M3 (-1) 2 2 1 0 4 1 2 (-2));
(1%nat, M3 3 1 (-1) 3 (-1) (-1) 0 0 (-4));
(0%nat, M3 1 (-2) (-2) (-1) (-2) (-4) 1 2 (-2));
(2%nat, M3 (-4) (-1) (-1) 4 3 1 4 2 (-2));
(0%nat, M3 1 (-2) 2 3 0 2 (-1) 2 2);
(0%nat, M3 2 1 (-1) 0 3 (-1) 0 0 4);
(0%nat, M3 1 (-3) 2 3 (-1) 0 1 1 2);
(2%nat, M3 (-4) (-1) (-1) (-4) (-3) (-1) (-4) (-2) 2);
(0%nat, M3 1 (-3) 2 1 1 4 (-1) (-1) 2);
(4%nat, M3 (-2) (-1) 1 (-4) (-2) 0 0 (-6) 0);
(0%nat, M3 1 (-1) 4 0 (-4) 2 1 (-1) (-2));
(0%nat, M3 1 (-3) 0 0 (-2) (-4) 2 0 0);
(0%nat, M3 2 (-1) (-2) 2 0 2 0 (-3) 0);
(0%nat, M3 1 (-2) (-3) 2 (-2) 0 (-2) (-2) 0);
(0%nat, M3 (-1) (-1) (-4) (-2) 2 (-2) 1 1 (-2));
(4%nat, M3 (-2) (-1) (-1) 0 0 (-2) 0 (-6) 0);
(0%nat, M3 1 (-2) (-4) 2 0 (-2) 1 (-2) 2);
(0%nat, M3 (-1) (-2) (-3) (-2) (-2) 0 (-2) 2 0);
(0%nat, M3 (-2) 1 2 (-2) 0 (-2) 0 (-3) 0);
(0%nat, M3 (-1) 3 (-2) 0 2 2 2 0 (-2));
(0%nat, M3 1 1 3 0 4 2 (-1) (-1) 3);
(4%nat, M3 2 1 1 (-2) (-1) 1 0 (-6) 0);
(0%nat, M3 1 1 3 1 (-3) 1 1 1 (-3));
(0%nat, M3 (-1) 3 (-2) (-1) 1 (-4) (-2) 0 2);
(0%nat, M3 (-2) 1 2 0 1 4 0 3 0);
(0%nat, M3 (-1) 2 3 1 0 3 2 2 0);
(0%nat, M3 1 2 4 (-1) 2 2 (-1) (-2) 2);
(4%nat, M3 2 1 1 2 1 (-1) 0 6 0);
(0%nat, M3 1 (-1) 4 (-1) (-3) 2 1 (-1) (-2));
(0%nat, M3 1 (-2) (-3) (-1) 0 (-3) 2 2 0);
(0%nat, M3 2 1 2 0 1 4 0 (-3) 0);
(0%nat, M3 1 (-3) 0 1 (-1) 4 (-2) 0 0);
(0%nat, M3 1 (-1) 4 1 3 2 (-1) 1 2);
(1%nat, M3 (-1) 1 3 (-2) 0 6 4 0 0);
(0%nat, M3 1 (-3) 1 0 (-2) (-4) 1 1 (-3));
(0%nat, M3 2 (-1) (-3) 2 0 2 0 (-2) 2);
(0%nat, M3 1 (-2) (-2) 2 (-2) 2 (-1) (-2) 2);
(1%nat, M3 (-3) (-1) 1 0 (-2) 0 0 0 4);
(0%nat, M3 (-1) (-2) (-2) (-2) 0 2 (-1) 2 (-2));
(2%nat, M3 4 1 1 8 4 2 (-4) (-2) 2);
(0%nat, M3 (-2) 2 1 0 2 (-2) (-2) (-2) (-1));
(0%nat, M3 2 1 1 2 (-2) 0 0 0 (-4));
(0%nat, M3 (-1) (-3) 2 2 (-2) 2 (-1) 1 2);
(2%nat, M3 (-4) (-3) (-1) 0 (-2) 0 (-4) (-2) 2);
(0%nat, M3 (-1) 3 (-2) 0 4 2 1 1 (-2));
(1%nat, M3 1 1 (-3) (-1) 1 3 4 0 0);
(0%nat, M3 1 3 2 1 (-1) 4 1 (-1) (-2));
(2%nat, M3 (-4) (-3) (-1) (-4) (-1) (-1) 4 2 (-2));
(0%nat, M3 (-1) (-3) 2 (-3) (-1) 0 1 (-1) (-2));
(0%nat, M3 2 1 1 0 3 1 0 0 4);
(0%nat, M3 (-2) 1 (-2) (-2) 3 0 2 1 (-2));
(2%nat, M3 (-4) (-3) (-1) 4 1 1 (-4) (-2) 2);
(0%nat, M3 1 3 (-2) (-1) 1 (-4) (-1) 1 2);
(1%nat, M3 3 (-1) (-1) 3 1 (-1) 0 0 4);
(0%nat, M3 1 (-2) (-4) (-1) 0 (-4) 1 2 0);
(0%nat, M3 2 1 3 0 1 5 0 (-2) 2);
(0%nat, M3 1 (-3) 1 1 (-1) 5 (-1) (-1) 3);
(1%nat, M3 (-1) 1 3 (-2) 0 6 2 0 6);
(0%nat, M3 1 (-2) 3 0 (-2) (-4) 1 0 (-5));
(1%nat, M3 (-1) 1 5 0 2 0 (-2) 0 (-2));
(0%nat, M3 1 0 (-4) 2 2 0 1 (-2) 0);
(0%nat, M3 1 0 (-3) 2 2 0 2 (-2) 0);
(0%nat, M3 (-2) 3 0 0 2 2 2 1 (-2));
(2%nat, M3 2 2 (-1) 4 2 (-2) (-4) (-2) (-4));
(0%nat, M3 (-2) 2 (-1) (-2) 0 2 0 2 3);
(2%nat, M3 2 2 (-3) 0 2 0 4 2 0);
(0%nat, M3 0 (-1) (-3) (-2) 2 (-2) 2 1 (-1));
(0%nat, M3 (-1) (-1) (-4) 0 2 (-4) 2 0 0);
(0%nat, M3 1 (-1) 5 0 2 4 (-1) (-1) 3);
(1%nat, M3 1 1 (-3) (-1) 1 3 2 0 6);
(0%nat, M3 1 (-1) 5 1 (-3) 1 1 1 (-3));
(0%nat, M3 1 (-1) 4 1 (-3) 0 2 0 0);
(0%nat, M3 (-1) (-3) 0 (-3) (-1) 2 (-1) 1 (-2));
(2%nat, M3 (-2) (-2) (-3) (-2) 0 (-3) 4 2 0);
(0%nat, M3 2 2 1 0 2 3 0 (-2) 3);
(2%nat, M3 (-2) 0 1 2 2 (-1) (-4) (-2) (-4));
(0%nat, M3 (-3) 2 0 (-1) 2 2 1 2 (-2));
(0%nat, M3 1 0 3 (-1) 2 3 (-2) (-2) 0);
(0%nat, M3 1 0 4 (-1) 2 4 (-1) (-2) 0);
(1%nat, M3 1 1 (-5) 1 (-1) (-5) (-2) 0 (-2));
(0%nat, M3 1 (-2) 3 1 0 7 (-1) 0 5);
(4%nat, M3 1 (-1) 0 0 (-3) 0 0 0 (-1));
(4%nat, M3 1 2 0 1 (-1) 0 0 0 (-1));
(12%nat, M3 (-1) 2 0 (-2) 1 0 0 0 1);
(4%nat, M3 1 (-1) 0 0 (-3) 0 0 0 (-2));
(2%nat, M3 2 1 2 0 0 3 0 (-1) 0);
(4%nat, M3 1 2 0 1 (-1) 0 0 0 (-2));
(2%nat, M3 2 1 (-2) 2 1 1 0 (-1) 0);
(12%nat, M3 (-1) 2 0 (-2) 1 0 0 0 2);
(6%nat, M3 (-2) 0 (-1) (-1) 0 (-2) 0 (-2) (-1));
(6%nat, M3 1 0 (-1) 0 0 (-3) 0 2 1);
(2%nat, M3 2 1 1 0 0 3 0 (-1) 0);
(6%nat, M3 1 0 2 1 0 (-1) 0 2 1);
(2%nat, M3 2 1 (-1) 2 1 2 0 (-1) 0);
(6%nat, M3 1 0 2 2 0 1 0 2 1);
(6%nat, M3 (-1) 0 1 1 0 2 0 2 1);
(4%nat, M3 (-1) 1 0 0 3 0 0 0 (-3));
(2%nat, M3 (-1) (-2) 2 0 (-3) 0 2 1 (-1));
(2%nat, M3 (-1) 1 1 0 3 0 (-2) (-1) (-1));
(4%nat, M3 (-1) (-2) 0 (-1) 1 0 0 0 (-3));
(2%nat, M3 (-1) 1 2 (-1) (-2) 2 2 1 (-1));
(2%nat, M3 (-1) (-2) 1 (-1) 1 1 (-2) (-1) (-1));
(12%nat, M3 (-1) 2 0 (-2) 1 0 0 0 3);
(11%nat, M3 (-3) 3 (-1) 0 3 1 0 0 (-1));
(11%nat, M3 0 (-3) (-1) 3 (-3) 1 0 0 1);
(4%nat, M3 (-1) 1 0 0 3 0 0 0 (-4));
(0%nat, M3 1 (-2) (-1) 0 0 (-3) 1 2 (-1));
(2%nat, M3 2 1 (-2) 0 0 (-3) 0 2 0);
(0%nat, M3 1 (-2) 1 0 0 3 (-1) (-2) (-1));
(4%nat, M3 (-1) (-2) 0 (-1) 1 0 0 0 (-4));
(0%nat, M3 1 (-2) 1 1 (-2) (-2) 1 2 1);
(2%nat, M3 2 1 2 2 1 (-1) 0 2 0);
(0%nat, M3 1 (-2) (-1) 1 (-2) 2 (-1) (-2) 1);
(12%nat, M3 (-1) 2 0 (-2) 1 0 0 0 4);
(2%nat, M3 (-2) (-1) 2 (-1) 1 1 (-2) (-1) (-2));
(6%nat, M3 2 0 1 1 0 2 0 (-4) (-2));
(2%nat, M3 (-2) (-1) (-2) (-1) 1 (-1) 2 1 (-2));
(2%nat, M3 (-3) (-1) 0 (-6) (-3) 0 (-2) (-1) 4);
(0%nat, M3 1 (-2) 2 0 (-3) 0 1 1 (-2));
(2%nat, M3 (-1) 1 2 0 3 0 (-2) (-1) 0);
(0%nat, M3 (-1) 1 (-2) 0 3 0 1 0 (-2));
(2%nat, M3 3 2 0 (-3) (-1) 0 (-2) (-1) 4);
(0%nat, M3 (-1) 1 (-2) (-1) (-2) (-2) (-1) 0 2);
(2%nat, M3 1 (-1) 1 1 2 1 (-2) (-1) 2);
(0%nat, M3 (-1) (-2) (-2) (-1) 1 (-2) 1 (-1) (-2));
(2%nat, M3 3 2 3 0 1 0 (-2) (-1) 2);
(2%nat, M3 3 2 (-3) 3 1 (-3) (-6) (-3) 2);
(2%nat, M3 (-1) 1 1 (-2) (-1) 2 2 1 2);
(2%nat, M3 (-1) (-2) (-1) 1 (-1) 1 (-2) (-1) 2);
(6%nat, M3 1 (-3) (-1) 0 (-6) (-3) 0 0 (-2));
(0%nat, M3 1 (-2) 2 0 (-3) 0 1 0 (-2));
(2%nat, M3 2 1 (-1) 0 0 (-3) 0 2 0);
(0%nat, M3 (-1) 2 (-2) 0 3 0 1 0 (-2));
(6%nat, M3 1 3 2 1 (-3) (-1) 0 0 (-2));
(0%nat, M3 (-1) 2 (-2) (-1) (-1) (-2) (-1) 0 2);
(2%nat, M3 2 1 1 2 1 (-2) 0 2 0);
(0%nat, M3 (-1) (-2) (-2) (-1) 1 (-2) 1 0 (-2));
(6%nat, M3 1 3 2 2 0 1 0 0 (-2));
(2%nat, M3 0 (-1) 0 (-3) (-2) 0 (-2) (-1) (-4));
(6%nat, M3 (-1) (-3) (-2) 1 (-3) (-1) 0 0 2);
(2%nat, M3 0 1 0 3 2 0 (-2) (-1) (-4));
(2%nat, M3 (-3) (-1) 0 (-6) (-3) 0 2 1 4);
(0%nat, M3 (-1) (-1) (-2) 0 (-3) 0 (-1) 0 2);
(2%nat, M3 1 (-1) (-1) 0 (-3) 0 (-2) (-1) (-2));
(0%nat, M3 (-1) 2 (-2) 0 3 0 1 1 (-2));
(2%nat, M3 3 2 0 (-3) (-1) 0 2 1 4);
(0%nat, M3 (-1) 2 (-2) (-1) (-1) (-2) (-1) (-1) 2);
(2%nat, M3 (-1) (-2) 2 (-1) 1 2 (-2) (-1) 0);
(0%nat, M3 (-1) (-1) (-2) (-1) 2 (-2) 1 0 (-2));
(2%nat, M3 3 2 0 0 1 0 2 1 4);
(2%nat, M3 1 2 1 (-1) 1 (-1) (-2) (-1) 2);
(2%nat, M3 (-1) 1 (-1) (-2) (-1) (-2) (-2) (-1) 2);
(2%nat, M3 (-3) (-1) 0 (-3) (-2) 0 2 1 4);
(4%nat, M3 (-1) 1 0 0 3 0 0 0 (-6));
(0%nat, M3 (-1) (-1) (-4) 0 (-3) (-3) (-1) (-1) 2);
(2%nat, M3 3 0 2 0 (-3) 0 0 0 (-2));
(2%nat, M3 (-2) (-1) (-2) 0 0 (-3) 0 (-3) 0);
(2%nat, M3 3 0 (-2) 0 (-3) 0 0 0 (-2));
(0%nat, M3 (-1) 1 (-4) 0 3 (-3) 1 (-1) (-2));
(4%nat, M3 (-1) (-2) 0 (-1) 1 0 0 0 (-6));
(0%nat, M3 (-1) 1 (-4) (-1) (-2) (-1) (-1) 1 2);
(2%nat, M3 3 0 (-2) 3 3 (-2) 0 0 2);
(2%nat, M3 (-2) (-1) 2 (-2) (-1) (-1) 0 (-3) 0);
(2%nat, M3 3 0 2 3 3 2 0 0 2);
(0%nat, M3 (-1) (-1) (-4) (-1) 2 (-1) 1 1 (-2));
(12%nat, M3 (-1) 2 0 (-2) 1 0 0 0 6);
(2%nat, M3 (-2) (-1) 4 (-1) 1 2 (-2) (-1) (-2));
(11%nat, M3 (-3) 3 (-1) 0 3 1 0 0 (-2));
(6%nat, M3 0 (-2) (-1) (-3) (-1) (-2) 0 0 (-3));
(11%nat, M3 0 (-3) (-1) 3 (-3) 1 0 0 2);
(2%nat, M3 (-2) (-1) (-4) (-1) 1 (-2) 2 1 (-2));
(6%nat, M3 1 (-3) (-1) 0 (-6) (-3) 0 0 (-3));
(0%nat, M3 1 (-2) 1 0 (-3) (-3) 1 1 (-2));
(2%nat, M3 1 2 (-2) 0 3 0 2 1 2);
(2%nat, M3 (-2) (-1) (-1) 0 0 (-3) 0 (-3) 0);
(2%nat, M3 (-1) (-2) 2 0 (-3) 0 2 1 2);
(0%nat, M3 (-1) 2 (-1) 0 3 3 1 1 (-2));
(6%nat, M3 1 3 2 1 (-3) (-1) 0 0 (-3));
(0%nat, M3 (-1) 2 (-1) (-1) (-1) (-4) (-1) (-1) 2);
(2%nat, M3 1 2 2 1 (-1) 2 2 1 (-2));
(2%nat, M3 (-2) (-1) 1 (-2) (-1) (-2) 0 (-3) 0);
(2%nat, M3 (-1) 1 2 (-1) (-2) 2 2 1 2);
(0%nat, M3 1 (-2) 1 1 1 4 (-1) (-1) 2);
(6%nat, M3 1 3 2 2 0 1 0 0 (-3));
(2%nat, M3 1 2 2 (-1) 1 (-2) (-2) (-1) 2);
(2%nat, M3 (-1) 1 (-2) (-2) (-1) (-4) (-2) (-1) 2);
(6%nat, M3 1 (-3) (-1) (-1) (-3) (-2) 0 0 (-3));
(2%nat, M3 1 (-1) 2 2 1 4 (-2) (-1) 2);
(2%nat, M3 (-1) (-2) (-2) 1 (-1) 2 (-2) (-1) 2);
(4%nat, M3 (-1) 1 0 0 3 0 0 0 (-12));
(0%nat, M3 (-1) (-1) (-7) 0 (-3) (-3) (-1) (-1) 5);
(0%nat, M3 (-1) 0 (-5) 0 (-3) (-3) (-2) 0 2);
(0%nat, M3 0 1 4 3 0 3 0 3 0);
(2%nat, M3 3 3 1 0 3 0 0 0 4);
(0%nat, M3 (-2) 0 (-3) 0 3 0 2 0 (-3));
(2%nat, M3 (-2) (-1) (-2) 0 0 (-3) 0 (-6) 0);
(0%nat, M3 (-2) 0 3 0 3 3 (-2) 0 (-3));
(2%nat, M3 3 0 1 0 (-3) 0 0 0 (-4));
(0%nat, M3 0 1 4 (-3) 0 3 0 (-3) 0);
(0%nat, M3 (-1) 0 (-5) 0 3 (-3) 2 0 (-2));
(0%nat, M3 (-1) 1 (-7) 0 3 (-3) 1 (-1) (-5));
(4%nat, M3 (-1) (-2) 0 (-1) 1 0 0 0 (-12));
(0%nat, M3 (-1) 1 (-7) (-1) (-2) (-4) (-1) 1 5);
(0%nat, M3 (-1) 0 (-5) (-1) (-3) (-2) (-2) 0 2);
(0%nat, M3 0 1 4 3 1 1 0 3 0);
(2%nat, M3 3 0 1 3 3 1 0 0 4);
(0%nat, M3 (-2) 0 (-3) (-2) 3 0 2 0 (-3));
(2%nat, M3 (-2) (-1) 2 (-2) (-1) (-1) 0 (-6) 0);
(0%nat, M3 (-2) 0 3 (-2) 3 3 (-2) 0 (-3));
(2%nat, M3 3 3 1 3 0 1 0 0 (-4));
(0%nat, M3 0 1 4 (-3) 1 1 0 (-3) 0);
(0%nat, M3 (-1) 0 (-5) (-1) 3 (-2) 2 0 (-2));
(0%nat, M3 (-1) (-1) (-7) (-1) 2 (-4) 1 1 (-5));
(12%nat, M3 (-1) 2 0 (-2) 1 0 0 0 12);
(2%nat, M3 (-2) (-1) 6 (-1) 1 3 (-2) (-1) (-6));
(2%nat, M3 (-2) (-1) 6 (-1) 1 3 (-4) (-2) 0);
(2%nat, M3 2 1 (-4) 1 2 (-2) 6 3 0);
(11%nat, M3 0 3 1 (-3) 3 (-1) 0 0 4);
(2%nat, M3 6 3 2 3 0 1 6 3 (-2));
(6%nat, M3 0 (-2) (-1) (-3) (-1) (-2) 0 0 (-6));
(2%nat, M3 (-6) (-3) 2 (-3) (-3) 1 6 3 2);
(11%nat, M3 0 3 1 3 0 2 0 0 (-4));
(2%nat, M3 2 1 4 1 2 2 (-6) (-3) 0);
(2%nat, M3 (-2) (-1) (-4) (-1) 1 (-2) 4 2 (-4));
(2%nat, M3 (-2) (-1) (-6) (-1) 1 (-3) 2 1 (-6));
(2%nat, M3 (-3) (-1) (-3) (-6) (-3) (-6) (-6) (-3) 6);
(0%nat, M3 (-1) 1 (-5) 0 (-3) (-6) (-1) (-2) 1);
(2%nat, M3 (-5) (-1) (-1) 0 3 0 2 1 (-2));
(0%nat, M3 3 (-1) (-1) 3 0 3 0 (-3) 0);
(0%nat, M3 (-2) (-3) (-1) (-3) 0 0 1 0 (-4));
(0%nat, M3 (-2) (-2) (-1) (-3) 0 3 (-1) 2 (-2));
(2%nat, M3 (-1) (-2) (-2) 0 (-3) 0 (-6) (-3) 0);
(0%nat, M3 2 3 0 0 3 3 2 0 3);
(0%nat, M3 1 (-3) (-1) 3 0 0 (-1) 0 4);
(0%nat, M3 (-1) (-1) (-4) (-3) 0 0 0 3 0);
(2%nat, M3 (-1) (-2) 5 0 (-3) 0 2 1 2);
(0%nat, M3 (-1) 2 (-4) 0 3 3 1 1 (-5));
(2%nat, M3 3 2 3 (-3) (-1) (-3) (-6) (-3) 6);
(0%nat, M3 (-1) 2 (-4) (-1) (-1) (-7) (-1) (-1) 5);
(2%nat, M3 (-1) (-2) 5 (-1) 1 5 (-2) (-1) (-2));
(0%nat, M3 (-1) 1 4 2 1 4 0 3 0);
(0%nat, M3 1 3 1 (-2) 3 1 1 0 4);
(0%nat, M3 2 (-3) 0 2 0 3 (-2) 0 3);
(2%nat, M3 1 2 (-2) 1 (-1) (-2) (-6) (-3) 0);
(0%nat, M3 (-2) (-2) 1 (-2) 1 4 (-2) 1 (-2));
(0%nat, M3 2 3 (-1) (-1) 3 (-1) 1 0 4);
(0%nat, M3 3 (-1) (-1) 0 (-1) (-4) 0 3 0);
(2%nat, M3 (-5) (-1) (-1) (-5) (-4) (-1) (-2) (-1) 2);
(0%nat, M3 (-1) 1 (-4) (-1) 4 2 1 2 (-2));
(2%nat, M3 3 2 6 0 1 0 (-6) (-3) 0);
(2%nat, M3 1 2 3 (-1) 1 (-3) (-2) (-1) 6);
(2%nat, M3 (-1) 1 (-3) (-2) (-1) (-6) (-2) (-1) 6);
(2%nat, M3 9 5 (-6) 9 4 (-6) (-6) (-3) 0);
(0%nat, M3 1 (-4) 0 (-1) (-2) (-3) 1 2 (-3));
(2%nat, M3 (-3) 0 (-1) 3 3 1 6 3 (-2));
(2%nat, M3 1 (-1) 2 2 1 4 (-6) (-3) 0);
(0%nat, M3 (-2) 2 (-3) (-1) 4 0 1 2 (-3));
(0%nat, M3 (-2) (-2) 3 (-1) 2 3 (-1) 2 (-3));
(2%nat, M3 1 (-1) 2 (-1) (-2) (-2) 6 3 0);
(2%nat, M3 (-3) 0 (-1) (-6) (-3) (-2) (-6) (-3) 2);
(0%nat, M3 1 (-4) 0 2 (-2) 3 (-1) (-2) 3);
(6%nat, M3 1 (-3) (-1) 0 (-6) (-3) 0 0 (-6));
(0%nat, M3 1 (-4) (-1) 0 (-3) (-6) 1 2 (-1));
(0%nat, M3 1 (-3) 2 0 (-3) (-3) 2 0 (-2));
(0%nat, M3 2 (-1) (-4) 3 0 0 0 (-3) 0);
(2%nat, M3 (-1) (-2) (-3) 0 (-3) 0 (-4) (-2) 0);
(0%nat, M3 (-2) 1 (-4) 0 3 (-3) 2 (-1) (-2));
(2%nat, M3 (-2) (-1) (-1) 0 0 (-3) 0 (-6) 0);
(0%nat, M3 1 (-2) (-4) 3 0 (-3) 1 (-2) 2);
(2%nat, M3 1 2 3 0 3 0 (-4) (-2) 0);
(0%nat, M3 (-2) 1 4 (-3) 0 0 0 (-3) 0);
(0%nat, M3 (-1) 3 (-2) 0 3 3 2 0 (-2));
(0%nat, M3 (-1) 4 1 0 3 6 1 2 (-1));
(6%nat, M3 1 3 2 1 (-3) (-1) 0 0 (-6));
(0%nat, M3 (-1) 4 1 (-1) 1 (-5) (-1) (-2) 1);
(0%nat, M3 (-1) 3 (-2) (-1) 0 (-5) (-2) 0 2);
(0%nat, M3 (-2) 1 4 1 1 4 0 3 0);
(2%nat, M3 (-1) 1 (-3) (-1) (-2) (-3) (-4) (-2) 0);
(0%nat, M3 (-2) (-1) (-4) (-2) 2 (-1) 2 1 (-2));
(2%nat, M3 (-2) (-1) 1 (-2) (-1) (-2) 0 (-6) 0);
(0%nat, M3 2 (-1) (-4) 2 2 (-1) 2 (-1) 2);
(2%nat, M3 (-1) 1 3 (-1) (-2) 3 4 2 0);
(0%nat, M3 2 1 4 (-1) 1 4 0 (-3) 0);
(0%nat, M3 1 (-3) 2 1 0 5 (-2) 0 2);
(0%nat, M3 1 (-4) (-1) 1 (-1) 5 (-1) (-2) 1);
(6%nat, M3 1 3 2 2 0 1 0 0 (-6));
(0%nat, M3 1 2 3 2 (-2) 3 1 2 (-3));
(2%nat, M3 1 2 3 (-1) 1 (-3) (-4) (-2) 0);
(2%nat, M3 0 (-1) 0 (-3) (-2) 3 (-6) (-3) (-6));
(2%nat, M3 (-1) 1 (-2) (-2) (-1) (-4) (-4) (-2) 4);
(0%nat, M3 1 2 3 (-1) 4 0 (-1) (-2) 3);
(6%nat, M3 1 (-3) (-1) (-1) (-3) (-2) 0 0 (-6));
(0%nat, M3 1 (-2) 3 (-1) (-4) 0 1 (-2) (-3));
(2%nat, M3 1 (-1) 3 2 1 6 (-4) (-2) 0);
(2%nat, M3 0 (-1) 0 3 1 6 (-6) (-3) 0);
(2%nat, M3 (-1) (-2) (-3) 1 (-1) 3 (-4) (-2) 0);
(0%nat, M3 1 (-2) 3 2 2 3 (-1) 2 3);
(2%nat, M3 (-3) (-2) (-3) (-6) (-3) (-6) 6 3 (-6));
(0%nat, M3 1 (-2) 4 0 (-3) (-3) 1 1 (-5));
(2%nat, M3 1 2 (-5) 0 3 0 2 1 2);
(0%nat, M3 1 (-1) (-4) 3 0 0 0 (-3) 0);
(0%nat, M3 (-1) (-3) (-1) (-3) 0 0 (-1) 0 (-4));
(0%nat, M3 (-2) 3 0 0 3 3 2 0 (-3));
(2%nat, M3 1 (-1) (-2) 0 (-3) 0 (-6) (-3) 0);
(0%nat, M3 (-2) 2 1 0 3 (-3) (-2) (-1) (-2));
(0%nat, M3 2 3 1 3 0 0 1 0 (-4));
(0%nat, M3 (-3) 1 1 (-3) 0 (-3) 0 (-3) 0);
(2%nat, M3 (-5) (-4) (-1) 0 (-3) 0 (-2) (-1) 2);
(0%nat, M3 1 (-1) 5 0 3 6 (-1) (-2) 1);
(2%nat, M3 3 1 3 (-3) (-2) (-3) 6 3 (-6));
(0%nat, M3 1 (-1) 5 1 (-4) (-1) 1 2 (-1));
(2%nat, M3 (-5) (-4) (-1) (-5) (-1) (-1) 2 1 (-2));
(0%nat, M3 (-3) 1 1 0 1 4 0 3 0);
(0%nat, M3 2 3 1 (-1) 3 1 (-1) 0 4);
(0%nat, M3 (-2) (-2) (-1) (-2) 1 (-4) 2 (-1) (-2));
(2%nat, M3 (-1) 1 (-2) (-1) (-2) (-2) (-6) (-3) 0);
(0%nat, M3 (-2) (-3) 0 (-2) 0 3 (-2) 0 (-3));
(0%nat, M3 (-1) 3 1 2 3 1 1 0 (-4));
(0%nat, M3 1 1 4 (-2) 1 4 0 (-3) 0);
(2%nat, M3 1 2 (-5) 1 (-1) (-5) (-2) (-1) (-2));
(0%nat, M3 1 (-2) 4 1 1 7 (-1) (-1) 5);
(2%nat, M3 3 1 6 0 (-1) 0 6 3 0);
(0%nat, M3 (-1) 4 0 (-2) 2 (-3) (-1) (-2) 3);
(2%nat, M3 (-3) (-3) (-1) (-6) (-3) (-2) 6 3 (-2));
(2%nat, M3 (-1) 1 (-2) 1 2 2 6 3 0);
(0%nat, M3 2 (-2) 3 1 2 3 (-1) (-2) 3);
(0%nat, M3 2 2 (-3) 1 4 0 1 (-2) 3);
(2%nat, M3 1 2 2 2 1 4 6 3 0);
(2%nat, M3 (-3) (-3) (-1) 3 0 1 (-6) (-3) 2);
(0%nat, M3 1 4 0 (-1) 2 (-3) (-1) 2 3);
(2%nat, M3 3 2 (-3) 3 1 (-3) (-6) (-3) (-6));
(2%nat, M3 1 (-1) 3 2 1 6 (-2) (-1) 6);
(2%nat, M3 (-1) (-2) (-3) 1 (-1) 3 (-2) (-1) 6);
(3%nat, M3 1 0 (-2) 0 0 (-4) 0 1 0);
(3%nat, M3 1 0 2 1 0 (-2) 0 1 0);
(3%nat, M3 0 (-1) (-2) 0 (-2) 0 (-1) 0 0);
(3%nat, M3 0 (-1) (-2) 0 1 (-2) 1 0 0);
(3%nat, M3 1 0 (-2) 0 0 (-4) 0 2 0);
(4%nat, M3 0 (-1) (-2) 0 0 (-4) 2 1 0);
(3%nat, M3 1 0 2 1 0 (-2) 0 2 0);
(4%nat, M3 0 (-1) 2 0 (-1) (-2) 2 1 0);
(3%nat, M3 1 0 2 2 0 0 0 2 0);
(4%nat, M3 0 1 (-2) 0 2 0 2 1 0);
(3%nat, M3 1 0 2 (-1) 0 2 0 (-2) 0);
(4%nat, M3 0 1 2 0 (-1) 2 2 1 0);
(3%nat, M3 1 0 (-2) 0 0 (-4) 0 3 0);
(0%nat, M3 1 (-2) (-2) 0 0 (-4) 1 1 1);
(0%nat, M3 1 (-1) 2 0 0 4 (-1) (-2) 1);
(3%nat, M3 1 0 2 1 0 (-2) 0 3 0);
(0%nat, M3 1 (-2) 3 1 (-2) (-1) 1 1 0);
(0%nat, M3 1 (-1) (-3) 1 (-1) 1 (-1) (-2) 0);
(3%nat, M3 (-1) 2 0 (-2) 0 0 0 0 3);
(0%nat, M3 (-1) 2 (-1) (-2) 0 (-2) (-1) (-1) 2);
(0%nat, M3 (-1) (-2) (-1) (-2) 0 (-2) 1 (-1) (-2));
(3%nat, M3 (-1) 2 0 1 2 0 0 0 (-3));
(0%nat, M3 1 2 (-1) (-1) 2 1 1 (-1) 2);
(0%nat, M3 (-1) 2 (-1) 1 2 1 1 1 (-2));
(1%nat, M3 0 1 2 0 0 4 3 0 1);
(1%nat, M3 1 2 (-2) 0 4 0 1 0 1);
(0%nat, M3 1 (-1) 1 0 0 4 (-1) (-2) 0);
(1%nat, M3 0 1 (-2) 0 1 2 3 0 1);
(0%nat, M3 1 (-2) 2 1 (-2) (-2) 1 1 1);
(1%nat, M3 1 2 (-1) 1 (-2) (-1) (-1) 0 (-2));
(1%nat, M3 2 (-1) (-2) 0 (-2) 0 (-1) 0 (-2));
(0%nat, M3 (-1) 2 (-1) (-2) 0 (-2) (-1) 1 2);
(1%nat, M3 1 2 (-1) 2 0 (-2) (-1) 0 (-2));
(0%nat, M3 (-1) 2 (-1) 1 2 1 1 (-1) (-2));
(1%nat, M3 2 (-1) (-2) 2 1 (-2) 1 0 2);
(1%nat, M3 (-1) 2 1 1 2 (-1) (-1) 0 (-2));
(1%nat, M3 0 1 2 0 0 4 3 0 (-1));
(0%nat, M3 1 (-2) (-1) 0 0 (-4) 1 1 0);
(1%nat, M3 1 (-2) (-1) 0 (-4) 0 (-1) 0 (-2));
(1%nat, M3 0 1 (-2) 0 1 2 3 0 (-1));
(1%nat, M3 1 (-2) (-2) 1 2 (-2) 1 0 1);
(0%nat, M3 1 (-1) (-2) 1 (-1) 2 (-1) (-2) 1);
(1%nat, M3 2 (-1) 2 0 (-2) 0 1 0 (-2));
(1%nat, M3 (-1) 2 (-1) (-2) 0 (-2) (-1) 0 2);
(0%nat, M3 (-1) (-2) (-1) (-2) 0 (-2) 1 1 (-2));
(0%nat, M3 (-1) 2 1 1 2 (-1) (-1) 1 (-2));
(1%nat, M3 (-1) (-2) 1 1 (-2) (-1) 1 0 2);
(1%nat, M3 2 (-1) 2 2 1 2 (-1) 0 2);
(3%nat, M3 (-1) (-2) 0 0 (-4) 0 0 0 4);
(2%nat, M3 (-2) (-3) 1 0 (-4) 0 2 1 1);
(4%nat, M3 2 1 (-2) 0 0 (-4) 0 2 0);
(2%nat, M3 (-2) (-3) (-1) 0 (-4) 0 (-2) (-1) 1);
(3%nat, M3 (-1) 2 0 (-1) (-2) 0 0 0 4);
(2%nat, M3 (-2) 1 1 (-2) (-3) 1 2 1 1);
(4%nat, M3 2 1 2 2 1 (-2) 0 2 0);
(2%nat, M3 (-2) 1 (-1) (-2) (-3) (-1) (-2) (-1) 1);
(3%nat, M3 (-1) 2 0 (-2) 0 0 0 0 4);
(2%nat, M3 0 2 1 0 0 2 4 2 (-3));
(4%nat, M3 (-2) (-1) (-2) (-4) (-2) 0 0 2 0);
(2%nat, M3 (-2) 1 1 (-4) (-2) 2 (-2) (-1) 3);
(3%nat, M3 (-1) 2 0 1 2 0 0 0 (-4));
(2%nat, M3 (-2) (-3) 1 2 (-1) (-1) 2 1 1);
(4%nat, M3 (-2) (-1) 2 2 1 2 0 2 0);
(2%nat, M3 (-2) (-3) 1 2 (-1) (-1) (-2) (-1) 3);
(3%nat, M3 (-1) (-2) 0 0 (-4) 0 0 0 6);
(0%nat, M3 (-1) (-1) (-3) 0 (-4) 0 (-1) (-1) 3);
(0%nat, M3 1 (-2) (-3) 0 0 (-4) 2 2 0);
(4%nat, M3 2 1 (-2) 0 0 (-4) 0 3 0);
(0%nat, M3 1 (-2) 3 0 0 4 (-2) (-2) 0);
(0%nat, M3 (-1) 1 (-3) 0 4 0 1 (-1) (-3));
(3%nat, M3 (-1) 2 0 (-1) (-2) 0 0 0 6);
(0%nat, M3 (-1) 1 (-3) (-1) (-3) (-3) (-1) 1 3);
(0%nat, M3 1 (-2) 3 1 (-2) (-1) 2 2 0);
(4%nat, M3 2 1 2 2 1 (-2) 0 3 0);
(0%nat, M3 1 (-2) (-3) 1 (-2) 1 (-2) (-2) 0);
(0%nat, M3 (-1) (-1) (-3) (-1) 3 (-3) 1 1 (-3));
(3%nat, M3 (-1) 2 0 (-2) 0 0 0 0 6);
(0%nat, M3 (-1) 2 (-3) (-2) 0 (-2) (-1) 2 3);
(0%nat, M3 1 (-3) 1 2 (-2) (-2) 2 0 2);
(4%nat, M3 (-2) (-1) (-2) (-4) (-2) 0 0 3 0);
(0%nat, M3 1 (-3) (-1) 2 (-2) 2 (-2) 0 2);
(0%nat, M3 (-1) (-1) (-3) (-2) 2 (-2) 1 1 (-3));
(3%nat, M3 (-1) 2 0 1 2 0 0 0 (-6));
(0%nat, M3 (-1) 1 3 1 3 1 (-1) 1 (-3));
(0%nat, M3 (-3) (-1) (-1) (-1) 1 (-3) 0 (-2) (-2));
(4%nat, M3 (-2) (-1) 2 2 1 2 0 3 0);
(0%nat, M3 1 (-3) 1 (-1) (-1) 3 (-2) 0 (-2));
(0%nat, M3 (-1) 2 (-3) 1 2 (-1) 1 (-2) (-3));
(1%nat, M3 (-2) (-1) 2 (-4) 0 4 (-2) 0 (-4));
(0%nat, M3 1 (-3) 3 0 (-4) 0 1 1 (-3));
(1%nat, M3 1 2 (-2) 0 4 0 2 0 2);
(2%nat, M3 0 (-1) 2 0 0 4 (-6) (-3) (-4));
(0%nat, M3 1 (-2) 1 0 0 4 (-2) (-2) 0);
(1%nat, M3 (-1) 2 (-3) 0 4 0 1 0 (-3));
(1%nat, M3 2 (-1) (-2) (-2) (-1) 2 (-2) 0 (-4));
(1%nat, M3 (-1) 2 (-3) (-1) (-2) (-3) (-1) 0 3);
(0%nat, M3 1 (-2) 1 1 (-2) (-3) 2 2 0);
(2%nat, M3 0 (-1) (-2) 0 (-1) 2 (-6) (-3) (-4));
(1%nat, M3 1 2 (-2) 1 (-2) (-2) (-2) 0 (-2));
(0%nat, M3 1 (-3) 3 1 1 3 (-1) (-1) 3);
(1%nat, M3 2 (-1) (-2) 0 (-2) 0 (-2) 0 (-4));
(1%nat, M3 (-1) 2 (-2) (-2) 0 (-4) (-1) 0 4);
(0%nat, M3 (-1) 1 (-3) (-2) (-2) (-2) (-2) 0 2);
(2%nat, M3 (-4) (-1) 2 0 2 0 (-2) (-1) (-2));
(1%nat, M3 1 (-2) 2 2 0 4 (-2) 0 2);
(0%nat, M3 1 (-3) (-1) 2 (-2) 2 (-1) (-1) 3);
(0%nat, M3 (-1) 1 3 (-3) (-1) 1 0 (-2) 2);
(1%nat, M3 (-1) (-2) 1 1 (-2) (-1) 1 0 5);
(1%nat, M3 2 (-1) (-2) 2 1 (-2) 2 0 4);
(0%nat, M3 1 3 1 (-1) 1 3 1 (-1) 3);
(1%nat, M3 (-1) 2 2 1 2 (-2) (-2) 0 (-2));
(2%nat, M3 4 3 (-2) 4 1 (-2) (-2) (-1) (-2));
(1%nat, M3 (-2) 1 2 (-4) 0 4 2 0 4);
(1%nat, M3 1 (-2) 3 0 (-4) 0 1 0 (-3));
(0%nat, M3 1 (-2) (-1) 0 0 (-4) 2 2 0);
(2%nat, M3 0 (-1) 2 0 0 4 (-6) (-3) (-2));
(1%nat, M3 1 (-2) (-2) 0 (-4) 0 (-2) 0 (-2));
(0%nat, M3 (-1) 3 (-3) 0 4 0 1 1 (-3));
(1%nat, M3 2 1 (-2) (-2) 1 2 2 0 4);
(0%nat, M3 (-1) 3 (-3) (-1) (-1) (-3) (-1) (-1) 3);
(1%nat, M3 1 (-2) (-2) 1 2 (-2) 2 0 2);
(2%nat, M3 0 (-1) (-2) 0 (-1) 2 (-6) (-3) (-2));
(0%nat, M3 1 (-2) (-1) 1 (-2) 3 (-2) (-2) 0);
(1%nat, M3 (-1) (-2) (-3) (-1) 2 (-3) 1 0 (-3));
(1%nat, M3 2 1 (-4) 0 2 0 2 0 2);
(0%nat, M3 (-1) 3 1 (-2) 2 (-2) (-1) (-1) 3);
(1%nat, M3 1 (-2) (-2) 2 0 (-4) 2 0 2);
(2%nat, M3 (-4) (-1) (-2) 0 2 0 2 1 (-2));
(0%nat, M3 (-1) (-1) (-3) (-2) 2 (-2) 2 0 (-2));
(1%nat, M3 1 (-2) 1 2 0 2 (-1) 0 5);
(0%nat, M3 1 1 3 3 (-1) 1 0 2 (-2));
(2%nat, M3 4 3 2 4 1 2 2 1 (-2));
(1%nat, M3 (-1) (-2) 2 1 (-2) (-2) 2 0 2);
(0%nat, M3 (-1) 3 1 1 1 3 1 1 (-3));
(1%nat, M3 2 1 (-4) 2 (-1) (-4) (-2) 0 (-2));
(1%nat, M3 (-1) (-2) (-1) 1 (-2) 1 (-1) 0 5);
(3%nat, M3 (-1) (-2) 0 0 (-4) 0 0 0 12);
(0%nat, M3 (-1) (-1) (-7) 0 (-4) (-4) (-1) (-1) 5);
(0%nat, M3 (-1) 0 (-5) 0 (-4) (-4) (-2) 0 2);
(2%nat, M3 4 4 1 0 4 0 0 0 3);
(0%nat, M3 (-3) 3 (-1) 0 4 0 0 0 (-4));
(0%nat, M3 (-2) 0 (-3) 0 4 0 2 0 (-3));
(4%nat, M3 (-2) (-1) (-2) 0 0 (-4) 0 (-6) 0);
(0%nat, M3 (-2) 0 3 0 4 0 (-2) 0 (-3));
(0%nat, M3 (-3) (-3) (-1) 0 (-4) 0 0 0 4);
(2%nat, M3 4 0 1 0 (-4) 0 0 0 (-3));
(0%nat, M3 (-1) 0 (-5) 0 4 (-4) 2 0 (-2));
(0%nat, M3 (-1) 1 (-7) 0 4 (-4) 1 (-1) (-5));
(3%nat, M3 (-1) 2 0 (-1) (-2) 0 0 0 12);
(0%nat, M3 (-1) 1 (-7) (-1) (-3) (-3) (-1) 1 5);
(0%nat, M3 (-1) 0 (-5) (-1) (-4) (-1) (-2) 0 2);
(2%nat, M3 4 0 1 4 4 1 0 0 3);
(0%nat, M3 (-3) (-3) (-1) (-3) 1 (-1) 0 0 (-4));
(0%nat, M3 (-2) 0 (-3) (-2) 4 (-3) 2 0 (-3));
(4%nat, M3 (-2) (-1) 2 (-2) (-1) (-2) 0 (-6) 0);
(0%nat, M3 (-2) 0 3 (-2) 4 3 (-2) 0 (-3));
(0%nat, M3 (-3) 3 (-1) (-3) (-1) (-1) 0 0 4);
(2%nat, M3 4 4 1 4 0 1 0 0 (-3));
(0%nat, M3 (-1) 0 (-5) (-1) 4 (-1) 2 0 (-2));
(0%nat, M3 (-1) (-1) (-7) (-1) 3 (-3) 1 1 (-5));
(3%nat, M3 (-1) 2 0 (-2) 0 0 0 0 12);
(0%nat, M3 (-1) 2 (-6) (-2) 0 (-4) (-1) 2 6);
(0%nat, M3 (-1) 1 (-5) (-2) (-2) (-2) (-2) 2 2);
(2%nat, M3 2 3 (-3) 4 2 (-6) (-6) (-3) 3);
(0%nat, M3 (-3) 0 (-1) (-2) 4 (-2) 0 0 (-4));
(0%nat, M3 (-2) 0 (-3) 0 4 (-2) 2 0 (-3));
(4%nat, M3 2 1 2 4 2 0 0 6 0);
(0%nat, M3 (-2) 0 3 0 4 2 (-2) 0 (-3));
(0%nat, M3 (-3) 0 (-1) (-2) (-4) (-2) 0 0 4);
(2%nat, M3 4 0 (-1) 8 4 (-2) 0 0 3);
(0%nat, M3 (-1) (-1) (-5) (-2) 2 (-2) 2 2 (-2));
(0%nat, M3 (-1) (-1) (-7) (-2) 2 (-2) 1 1 (-5));
(3%nat, M3 (-1) 2 0 1 2 0 0 0 (-12));
(0%nat, M3 (-1) 1 6 1 3 2 (-1) 1 (-6));
(0%nat, M3 (-1) 1 5 1 3 3 (-2) 2 (-2));
(2%nat, M3 (-2) (-3) 1 2 (-1) (-1) 6 3 3);
(0%nat, M3 (-3) 0 (-1) (-1) 4 1 0 0 (-4));
(0%nat, M3 (-2) 0 (-3) (-2) 4 (-1) 2 0 (-3));
(4%nat, M3 (-2) (-1) (-2) 2 1 (-2) 0 (-6) 0);
(0%nat, M3 (-2) 0 3 (-2) 4 1 (-2) 0 (-3));
(0%nat, M3 (-3) 0 (-1) (-1) (-4) 1 0 0 4);
(2%nat, M3 (-4) (-4) (-1) 4 0 1 0 0 3);
(0%nat, M3 (-1) 1 (-5) 1 3 (-3) 2 (-2) (-2));
(0%nat, M3 (-1) 2 (-7) 1 2 (-5) 1 (-2) (-5));
(1%nat, M3 (-2) (-1) 4 (-4) 0 8 (-4) 0 (-4));
(2%nat, M3 (-6) (-1) (-1) 0 4 0 6 3 (-1));
(0%nat, M3 1 (-4) 1 0 (-4) (-4) 2 0 (-2));
(0%nat, M3 1 (-3) 4 0 (-4) 0 3 (-1) 0);
(1%nat, M3 (-3) 2 (-1) 0 4 0 0 0 (-4));
(0%nat, M3 (-2) 4 (-3) 0 4 0 2 0 (-3));
(2%nat, M3 4 1 2 8 4 4 (-4) (-2) 4);
(2%nat, M3 2 (-1) 3 0 (-4) 0 2 1 (-3));
(0%nat, M3 3 (-1) 1 0 (-4) 0 0 0 (-4));
(0%nat, M3 (-1) 1 (-4) 0 4 0 3 1 0);
(1%nat, M3 (-1) 2 (-5) 0 4 0 2 0 (-2));
(0%nat, M3 (-1) 3 (-3) 0 4 4 1 1 (-5));
(1%nat, M3 2 (-1) (-4) (-2) (-1) 4 (-4) 0 (-4));
(0%nat, M3 (-1) 3 (-3) (-1) (-1) (-7) (-1) (-1) 5);
(1%nat, M3 (-1) 2 (-5) (-1) (-2) (-5) (-2) 0 2);
(0%nat, M3 (-1) 1 (-4) (-1) (-3) (-4) (-3) (-1) 0);
(0%nat, M3 (-3) (-1) (-1) (-3) 3 (-1) 0 0 (-4));
(2%nat, M3 (-2) 1 3 (-2) (-3) 3 2 1 3);
(2%nat, M3 (-4) (-3) (-2) 4 1 2 (-4) (-2) 4);
(0%nat, M3 (-2) (-2) 3 (-2) 2 3 (-2) 2 (-3));
(1%nat, M3 (-3) (-2) 1 (-3) 2 1 0 0 (-4));
(0%nat, M3 1 (-3) 4 1 1 4 (-3) 1 0);
(0%nat, M3 1 (-4) 1 1 0 5 (-2) 0 2);
(2%nat, M3 (-6) (-1) (-1) (-6) (-5) (-1) (-6) (-3) 1);
(1%nat, M3 2 (-1) (-4) 0 (-2) 0 (-4) 0 (-4));
(0%nat, M3 (-1) 3 2 (-2) 2 (-4) (-1) (-1) 6);
(1%nat, M3 1 (-2) (-3) 2 0 (-6) 2 0 6);
(0%nat, M3 (-2) (-1) 6 0 2 4 (-2) 1 (-2));
(0%nat, M3 1 4 1 (-2) 4 2 0 0 4);
(2%nat, M3 (-2) 1 1 (-4) (-2) 2 2 1 5);
(2%nat, M3 4 1 2 0 (-2) 0 4 2 (-4));
(0%nat, M3 2 (-1) 4 0 2 4 (-2) (-3) 0);
(1%nat, M3 1 2 (-3) 2 0 (-6) (-4) 0 0);
(0%nat, M3 2 3 0 0 2 4 2 (-1) 4);
(0%nat, M3 1 (-3) (-3) 2 (-2) 2 (-2) (-2) 2);
(2%nat, M3 (-4) 0 (-1) (-8) (-4) (-2) (-8) (-4) 1);
(0%nat, M3 (-1) 4 (-1) (-3) 0 1 0 0 4);
(0%nat, M3 (-1) 2 4 (-3) 2 0 (-1) (-2) 4);
(1%nat, M3 (-1) (-2) 3 1 (-2) (-3) 2 0 6);
(0%nat, M3 (-1) 3 2 1 1 6 1 1 (-6));
(1%nat, M3 2 (-1) (-4) 2 1 (-4) 4 0 4);
(2%nat, M3 2 (-1) (-1) (-2) (-3) 1 (-10) (-5) (-1));
(0%nat, M3 1 (-3) (-3) (-1) (-1) (-5) 2 2 (-2));
(0%nat, M3 2 (-3) 0 2 (-1) 4 (-2) (-1) 4);
(1%nat, M3 (-1) 2 3 1 2 (-3) (-4) 0 0);
(0%nat, M3 2 1 (-2) 2 3 2 2 (-3) 2);
(2%nat, M3 4 3 (-2) 4 1 (-2) (-4) (-2) (-4));
(2%nat, M3 (-2) (-3) (-1) 2 (-1) 1 (-2) (-1) 5);
(1%nat, M3 (-2) 1 4 (-4) 0 8 4 0 4);
(0%nat, M3 1 (-3) 3 0 (-4) (-4) 1 1 (-5));
(1%nat, M3 1 (-2) 5 0 (-4) 0 2 0 (-2));
(0%nat, M3 1 (-1) 4 0 (-4) 0 3 1 0);
(0%nat, M3 (-3) 1 (-1) 0 4 0 0 0 (-4));
(2%nat, M3 (-2) (-3) 3 0 (-4) 0 2 1 3);
(2%nat, M3 4 3 2 8 4 4 4 2 (-4));
(0%nat, M3 (-2) 4 3 0 4 0 (-2) 0 (-3));
(1%nat, M3 (-3) (-2) (-1) 0 (-4) 0 0 0 4);
(0%nat, M3 (-1) 3 (-4) 0 4 0 3 (-1) 0);
(0%nat, M3 (-1) 4 (-1) 0 4 4 2 0 (-2));
(2%nat, M3 (-6) (-5) (-1) 0 (-4) 0 (-6) (-3) 1);
(1%nat, M3 2 1 (-4) (-2) 1 4 4 0 4);
(2%nat, M3 (-6) (-5) (-1) (-6) (-1) (-1) 6 3 (-1));
(0%nat, M3 (-1) 4 (-1) (-1) 0 (-5) (-2) 0 2);
(0%nat, M3 (-1) 3 (-4) (-1) (-1) (-4) (-3) 1 0);
(1%nat, M3 (-3) (-2) (-1) (-3) 2 (-1) 0 0 (-4));
(0%nat, M3 (-2) (-2) (-3) (-2) 2 (-3) 2 (-2) (-3));
(2%nat, M3 (-4) (-1) (-2) 4 3 2 4 2 (-4));
(2%nat, M3 (-2) 1 (-3) (-2) (-3) (-3) (-2) (-1) 3);
(0%nat, M3 (-3) 1 (-1) (-3) (-3) (-1) 0 0 4);
(0%nat, M3 1 (-1) 4 1 3 4 (-3) (-1) 0);
(1%nat, M3 1 (-2) 5 1 2 5 (-2) 0 2);
(0%nat, M3 1 (-3) 3 1 1 7 (-1) (-1) 5);
(1%nat, M3 2 1 (-4) 0 2 0 4 0 4);
(2%nat, M3 (-2) (-3) (-1) (-4) (-2) (-2) 10 5 (-1));
(0%nat, M3 (-1) 3 3 (-2) 2 (-2) (-2) (-2) 2);
(0%nat, M3 (-3) (-2) 1 (-2) 0 6 (-1) 2 (-1));
(1%nat, M3 1 (-2) (-3) 2 0 (-6) 4 0 0);
(0%nat, M3 2 2 (-1) 0 4 2 2 (-2) 3);
(2%nat, M3 (-4) (-1) (-2) 0 2 0 4 2 (-4));
(2%nat, M3 (-2) 1 (-1) (-4) (-2) (-2) (-2) (-1) 5);
(0%nat, M3 (-1) 4 1 2 4 2 0 0 (-4));
(0%nat, M3 2 (-1) 5 0 2 6 (-2) (-1) 1);
(1%nat, M3 1 2 (-3) 2 0 (-6) (-2) 0 (-6));
(0%nat, M3 1 (-3) (-4) 2 (-2) 4 (-1) (-1) 4);
(0%nat, M3 (-1) 4 1 (-3) 0 (-1) 0 0 4);
(2%nat, M3 (-2) (-3) 1 2 (-1) (-1) 2 1 5);
(2%nat, M3 4 3 2 4 1 2 4 2 (-4));
(0%nat, M3 (-2) 1 (-2) (-2) 3 2 2 3 (-2));
(1%nat, M3 (-1) (-2) 3 1 (-2) (-3) 4 0 0);
(0%nat, M3 (-2) (-3) 2 (-2) (-1) 6 (-2) 1 (-2));
(0%nat, M3 (-1) 3 3 1 1 5 2 2 (-2));
(2%nat, M3 (-4) (-4) (-1) 4 0 1 (-8) (-4) 1);
(1%nat, M3 2 1 (-4) 2 (-1) (-4) (-4) 0 (-4));
(0%nat, M3 1 (-2) (-4) (-1) (-2) (-8) 1 2 (-4));
(1%nat, M3 (-1) 2 3 1 2 (-3) (-2) 0 (-6));
(0%nat, M3 1 (-2) (-5) 3 (-2) 1 (-1) (-2) 1);
(3%nat, M3 1 0 (-3) 0 0 (-6) 0 1 0);
(3%nat, M3 1 0 3 1 0 (-3) 0 1 0);
(3%nat, M3 0 (-1) (-3) 0 (-2) 0 (-1) 0 0);
(1%nat, M3 (-2) 0 1 0 0 3 0 1 0);
(1%nat, M3 (-2) 0 (-1) (-2) 0 2 0 1 0);
(3%nat, M3 0 (-1) (-3) 0 1 (-3) 1 0 0);
(3%nat, M3 1 0 (-3) 0 0 (-6) 0 2 0);
(5%nat, M3 1 (-3) (-2) 0 (-6) (-6) 1 1 0);
(3%nat, M3 1 0 3 1 0 (-3) 0 2 0);
(5%nat, M3 1 3 4 1 (-3) (-2) 1 1 0);
(3%nat, M3 1 0 3 2 0 0 0 2 0);
(5%nat, M3 1 3 4 2 0 2 1 1 0);
(1%nat, M3 (-2) 0 1 0 0 3 0 2 0);
(2%nat, M3 (-2) (-1) 2 (-6) (-3) 0 0 (-1) 0);
(1%nat, M3 (-2) 0 (-1) (-2) 0 2 0 2 0);
(2%nat, M3 2 1 (-2) (-4) (-2) (-2) 0 1 0);
(3%nat, M3 1 0 3 (-1) 0 3 0 (-2) 0);
(5%nat, M3 2 3 (-1) 4 3 1 0 (-1) (-1));
(4%nat, M3 0 (-3) 1 0 (-6) 0 2 1 0);
(4%nat, M3 0 (-1) (-3) 0 0 (-6) 2 1 0);
(4%nat, M3 0 3 1 0 (-3) 1 2 1 0);
(4%nat, M3 0 (-1) 3 0 (-1) (-3) 2 1 0);
(4%nat, M3 0 3 1 0 0 2 2 1 0);
(4%nat, M3 0 1 (-3) 0 2 0 2 1 0);
(2%nat, M3 (-4) (-2) (-1) 0 0 (-3) 0 (-1) 0);
(2%nat, M3 4 2 1 0 0 (-3) 0 1 0);
(2%nat, M3 (-4) (-2) (-1) (-4) (-2) (-4) 0 (-1) 0);
(2%nat, M3 (-4) (-2) 1 (-4) (-2) (-2) 0 (-1) 0);
(4%nat, M3 0 1 3 0 (-1) 3 2 1 0);
(4%nat, M3 0 3 1 0 3 (-1) (-2) (-1) 0);
(3%nat, M3 1 0 (-3) 0 0 (-6) 0 3 0);
(1%nat, M3 1 3 (-2) 0 6 0 1 0 1);
(1%nat, M3 1 (-3) (-1) 0 (-6) 0 (-1) 0 (-2));
(3%nat, M3 1 0 3 1 0 (-3) 0 3 0);
(1%nat, M3 1 (-3) (-2) 1 3 (-2) 1 0 1);
(1%nat, M3 1 3 (-1) 1 (-3) (-1) (-1) 0 (-2));
(3%nat, M3 1 0 3 2 0 0 0 3 0);
(1%nat, M3 1 (-3) (-1) 2 0 (-2) 1 0 2);
(1%nat, M3 1 3 (-1) 2 0 (-2) (-1) 0 (-2));
(1%nat, M3 (-2) 0 1 0 0 3 0 3 0);
(0%nat, M3 (-2) 1 (-2) 0 3 0 1 1 (-2));
(0%nat, M3 (-2) 1 2 0 3 0 (-1) (-1) (-2));
(1%nat, M3 (-2) 0 (-1) (-2) 0 2 0 3 0);
(0%nat, M3 (-2) (-1) (-2) (-2) 2 (-2) 1 (-1) (-2));
(0%nat, M3 (-2) (-1) 2 (-2) 2 2 (-1) 1 (-2));
(3%nat, M3 1 0 3 (-1) 0 3 0 (-3) 0);
(1%nat, M3 1 (-3) 1 (-1) (-3) (-1) 1 0 (-2));
(1%nat, M3 1 (-3) (-1) (-1) (-3) 1 (-1) 0 (-2));
(3%nat, M3 1 0 (-3) 0 0 (-6) 0 4 0);
(0%nat, M3 1 (-2) (-3) 0 0 (-6) 1 2 1);
(5%nat, M3 (-2) 1 (-3) (-6) 0 (-6) 0 2 2);
(0%nat, M3 1 (-2) 3 0 0 6 (-1) (-2) 1);
(3%nat, M3 1 0 3 1 0 (-3) 0 4 0);
(0%nat, M3 1 (-2) 3 1 (-2) (-3) 1 2 (-1));
(5%nat, M3 3 2 (-1) (-3) (-4) (-1) (-2) 0 (-2));
(0%nat, M3 1 (-2) (-3) 1 (-2) 3 (-1) (-2) (-1));
(3%nat, M3 (-1) 3 0 (-2) 0 0 0 0 4);
(0%nat, M3 (-1) 3 (-1) (-2) 0 (-2) (-1) (-1) 3);
(5%nat, M3 (-2) 1 (-3) 2 2 0 0 (-2) (-2));
(0%nat, M3 (-1) (-3) (-1) (-2) 0 (-2) 1 (-1) (-3));
(1%nat, M3 (-2) 0 1 0 0 3 0 4 0);
(0%nat, M3 (-1) 2 (-2) (-3) 0 0 (-1) 2 2);
(2%nat, M3 2 1 (-2) 6 3 0 0 (-2) 0);
(0%nat, M3 2 1 (-2) 0 3 0 2 (-1) 2);
(1%nat, M3 (-2) 0 (-1) (-2) 0 2 0 4 0);
(0%nat, M3 2 2 (-1) 2 2 2 2 (-2) (-1));
(2%nat, M3 (-2) (-1) 2 4 2 2 0 2 0);
(0%nat, M3 (-2) (-1) 2 (-2) 2 2 (-2) 1 (-2));
(3%nat, M3 (-1) 3 0 1 3 0 0 0 (-4));
(0%nat, M3 (-1) 3 1 1 3 (-1) (-1) (-1) (-3));
(5%nat, M3 1 4 3 (-1) 2 3 2 0 2);
(0%nat, M3 (-1) 3 (-1) 1 3 1 1 1 (-3));
(4%nat, M3 0 (-3) 1 0 (-6) 0 4 2 0);
(0%nat, M3 1 (-2) (-2) 0 0 (-6) 1 2 0);
(4%nat, M3 2 1 (-3) 0 0 (-6) 0 2 0);
(0%nat, M3 1 (-2) 2 0 0 6 (-1) (-2) 0);
(4%nat, M3 0 3 1 0 (-3) 1 4 2 0);
(0%nat, M3 1 (-2) 3 1 (-2) (-3) 1 2 1);
(4%nat, M3 2 1 3 2 1 (-3) 0 2 0);
(0%nat, M3 1 (-2) (-3) 1 (-2) 3 (-1) (-2) 1);
(4%nat, M3 6 3 1 0 0 2 0 (-2) 0);
(0%nat, M3 (-1) 3 (-1) (-2) 0 (-2) (-1) 1 3);
(4%nat, M3 0 (-1) 3 0 (-2) 0 4 2 0);
(0%nat, M3 (-1) (-3) (-1) (-2) 0 (-2) 1 1 (-3));
(2%nat, M3 4 2 1 0 0 3 0 (-2) 0);
(0%nat, M3 (-2) 1 0 0 3 0 0 1 (-4));
(2%nat, M3 4 2 3 0 0 3 0 (-2) 0);
(0%nat, M3 2 1 1 0 3 3 0 (-1) 3);
(2%nat, M3 4 2 (-3) 4 2 0 0 (-2) 0);
(0%nat, M3 (-2) (-1) 0 (-2) 2 0 0 1 (-4));
(2%nat, M3 4 2 1 4 2 (-2) 0 2 0);
(0%nat, M3 (-2) (-1) 0 (-2) 2 0 0 (-1) (-4));
(4%nat, M3 2 1 3 (-2) (-1) 3 0 (-2) 0);
(0%nat, M3 (-1) 3 (-1) 1 3 1 1 (-1) (-3));
(4%nat, M3 6 3 1 6 3 (-1) 0 2 0);
(0%nat, M3 (-1) 3 1 1 3 (-1) (-1) 1 (-3));
(3%nat, M3 (-1) (-3) 0 0 (-6) 0 0 0 6);
(2%nat, M3 (-2) (-4) 3 0 (-6) 0 4 2 (-3));
(1%nat, M3 1 3 (-2) 0 6 0 2 0 2);
(5%nat, M3 (-3) (-4) (-1) (-6) (-6) 0 (-3) 0 (-3));
(1%nat, M3 1 (-3) (-2) 0 (-6) 0 (-2) 0 (-2));
(2%nat, M3 (-2) (-4) (-3) 0 (-6) 0 (-4) (-2) (-3));
(3%nat, M3 (-1) 3 0 (-1) (-3) 0 0 0 6);
(2%nat, M3 (-2) 2 3 (-2) (-4) 3 4 2 (-3));
(1%nat, M3 1 (-3) (-2) 1 3 (-2) 2 0 2);
(5%nat, M3 3 2 (-1) (-3) (-4) (-1) (-3) 0 (-3));
(1%nat, M3 1 3 (-2) 1 (-3) (-2) (-2) 0 (-2));
(2%nat, M3 4 (-1) 3 4 5 3 2 1 3);
(3%nat, M3 (-1) 3 0 (-2) 0 0 0 0 6);
(2%nat, M3 (-2) (-4) (-1) (-4) (-2) (-2) 4 2 (-1));
(1%nat, M3 1 (-3) (-2) 2 0 (-4) 2 0 2);
(5%nat, M3 1 (-2) (-3) 2 2 0 3 0 3);
(1%nat, M3 (-1) (-3) (-2) (-2) 0 (-4) 2 0 (-2));
(2%nat, M3 2 4 1 4 2 2 4 2 (-1));
(1%nat, M3 (-2) 0 1 0 0 3 0 6 0);
(0%nat, M3 (-1) 2 (-3) (-3) 0 (-3) (-1) 2 3);
(0%nat, M3 2 (-3) (-1) 0 (-3) 3 (-2) 0 (-2));
(2%nat, M3 (-2) (-1) (-2) (-6) (-3) 0 0 3 0);
(0%nat, M3 (-2) 3 1 0 3 (-3) (-2) 0 (-2));
(0%nat, M3 (-1) (-2) (-3) (-3) 0 (-3) 1 2 (-3));
(1%nat, M3 (-2) 0 (-1) (-2) 0 2 0 6 0);
(0%nat, M3 (-2) (-1) 3 (-2) 2 0 (-2) (-1) (-3));
(0%nat, M3 (-2) (-3) (-1) (-2) 0 (-4) 2 0 (-2));
(2%nat, M3 (-2) (-1) 2 4 2 2 0 3 0);
(0%nat, M3 2 3 1 2 0 4 2 0 (-2));
(0%nat, M3 (-1) (-2) 3 2 (-2) 0 1 2 3);
(3%nat, M3 (-1) 3 0 1 3 0 0 0 (-6));
(2%nat, M3 (-2) (-4) 1 2 (-2) (-1) 4 2 1);
(1%nat, M3 1 3 (-2) (-1) 3 2 2 0 2);
(5%nat, M3 (-2) 1 (-3) (-4) (-1) (-3) 0 3 3);
(1%nat, M3 1 3 2 (-1) 3 (-2) (-2) 0 2);
(2%nat, M3 2 4 (-1) (-2) 2 1 4 2 1);
(4%nat, M3 0 (-3) 1 0 (-6) 0 6 3 0);
(1%nat, M3 1 3 (-3) 0 6 0 1 0 3);
(2%nat, M3 (-2) 2 (-1) 0 6 0 2 1 (-2));
(4%nat, M3 2 1 (-3) 0 0 (-6) 0 3 0);
(2%nat, M3 (-2) 2 1 0 6 0 (-2) (-1) (-2));
(1%nat, M3 1 (-3) (-3) 0 (-6) 0 (-1) 0 (-3));
(4%nat, M3 0 3 1 0 (-3) 1 6 3 0);
(1%nat, M3 1 (-3) (-3) 1 3 (-3) 1 0 3);
(2%nat, M3 (-2) 2 1 (-2) (-4) 1 2 1 2);
(4%nat, M3 2 1 3 2 1 (-3) 0 3 0);
(2%nat, M3 (-2) 2 (-1) (-2) (-4) (-1) (-2) (-1) 2);
(1%nat, M3 1 3 (-3) 1 (-3) (-3) (-1) 0 (-3));
(4%nat, M3 6 3 1 0 0 2 0 (-3) 0);
(1%nat, M3 (-1) 3 (-2) (-2) 0 (-4) (-1) 0 4);
(2%nat, M3 (-2) (-4) (-1) (-4) (-2) (-2) 2 1 (-2));
(4%nat, M3 (-2) (-1) 3 (-4) (-2) 0 0 (-3) 0);
(2%nat, M3 2 4 1 4 2 2 2 1 (-2));
(1%nat, M3 (-1) (-3) (-1) (-2) 0 (-2) 1 0 (-5));
(2%nat, M3 4 2 1 0 0 3 0 (-3) 0);
(0%nat, M3 (-2) 1 (-1) 0 3 3 1 1 (-4));
(0%nat, M3 (-2) 1 3 0 3 3 (-1) 2 (-3));
(2%nat, M3 4 2 1 0 0 (-3) 0 3 0);
(0%nat, M3 2 1 3 0 3 3 (-1) (-2) 3);
(0%nat, M3 2 1 (-1) 0 3 3 1 (-1) 4);
(2%nat, M3 4 2 (-1) 4 2 (-4) 0 3 0);
(0%nat, M3 (-2) (-1) (-3) (-2) 2 0 1 2 (-3));
(0%nat, M3 (-2) (-1) 1 (-2) 2 4 (-1) 1 (-4));
(2%nat, M3 4 2 1 4 2 (-2) 0 3 0);
(0%nat, M3 2 (-1) 1 2 2 4 (-1) (-1) 4);
(0%nat, M3 (-2) (-1) 3 (-2) 2 0 (-1) (-2) (-3));
(4%nat, M3 (-2) (-1) 3 2 1 3 0 3 0);
(2%nat, M3 (-2) 2 1 2 4 (-1) (-2) (-1) (-2));
(1%nat, M3 (-1) 3 (-2) 1 3 2 1 0 (-4));
(4%nat, M3 0 (-3) (-1) 0 (-3) 1 (-6) (-3) 0);
(1%nat, M3 (-1) 3 1 1 3 (-1) (-1) 0 (-5));
(2%nat, M3 2 4 1 (-2) 2 (-1) (-2) (-1) 2);
(3%nat, M3 (-1) (-3) 0 0 (-6) 0 0 0 12);
(0%nat, M3 (-1) (-1) (-8) 0 (-6) (-6) (-1) (-1) 4);
(2%nat, M3 (-4) (-5) 5 0 (-6) 0 4 2 (-2));
(0%nat, M3 1 (-4) (-4) 0 0 (-6) 3 0 0);
(1%nat, M3 3 (-3) (-1) 0 (-6) 0 0 0 (-4));
(0%nat, M3 2 (-3) 5 0 0 6 (-2) (-3) 1);
(5%nat, M3 3 1 4 6 0 6 6 6 0);
(0%nat, M3 2 3 5 0 0 6 2 (-3) (-1));
(1%nat, M3 3 3 (-1) 0 6 0 0 0 4);
(0%nat, M3 1 (-4) 4 0 0 6 (-3) 0 0);
(2%nat, M3 (-4) 1 5 0 6 0 (-4) (-2) 2);
(0%nat, M3 (-1) 2 (-7) 0 6 (-6) 1 (-2) (-5));
(3%nat, M3 (-1) 3 0 (-1) (-3) 0 0 0 12);
(0%nat, M3 (-1) 2 (-8) (-1) (-4) (-2) (-1) 2 4);
(2%nat, M3 (-4) 1 5 (-4) (-5) 5 4 2 (-2));
(0%nat, M3 1 (-4) 4 1 (-4) (-2) 3 0 0);
(1%nat, M3 3 3 (-1) 3 (-3) (-1) 0 0 (-4));
(0%nat, M3 2 (-3) (-2) 2 (-3) 4 (-2) (-3) 2);
(5%nat, M3 (-3) 1 (-2) 3 1 4 6 6 0);
(0%nat, M3 2 3 (-2) 2 3 4 2 (-3) (-2));
(1%nat, M3 3 (-3) (-1) 3 3 (-1) 0 0 4);
(0%nat, M3 1 (-4) (-4) 1 (-4) 2 (-3) 0 0);
(2%nat, M3 (-4) (-5) 5 (-4) 1 5 (-4) (-2) 2);
(0%nat, M3 (-1) (-1) (-7) (-1) 5 (-1) 1 1 (-5));
(3%nat, M3 (-1) 3 0 (-2) 0 0 0 0 12);
(0%nat, M3 (-1) 2 (-8) (-2) (-2) (-4) (-1) 2 4);
(2%nat, M3 (-4) 1 1 (-8) (-4) 2 4 2 2);
(0%nat, M3 1 (-4) 1 2 (-2) (-4) 3 0 3);
(1%nat, M3 (-1) 3 (-3) (-2) 0 (-6) (-4) 0 0);
(0%nat, M3 (-2) (-2) (-3) (-4) 2 0 2 2 (-3));
(5%nat, M3 (-3) 1 (-2) 0 2 2 6 6 0);
(0%nat, M3 (-2) (-2) 3 (-4) 2 0 (-2) (-2) (-3));
(1%nat, M3 (-1) 3 3 (-2) 0 6 4 0 0);
(0%nat, M3 1 (-4) (-1) 2 (-2) 4 (-3) 0 3);
(2%nat, M3 4 5 1 8 4 2 4 2 (-2));
(0%nat, M3 (-1) (-2) (-7) (-2) 2 (-2) 1 2 (-5));
(1%nat, M3 (-2) 0 1 0 0 3 0 12 0);
(0%nat, M3 (-1) 2 (-7) (-3) 0 (-3) (-1) 2 5);
(0%nat, M3 (-1) 1 (-5) (-3) (-3) (-3) (-2) 2 2);
(0%nat, M3 (-1) 4 (-3) (-3) 0 (-3) (-3) 0 3);
(0%nat, M3 3 2 (-3) 3 0 3 0 (-4) 0);
(0%nat, M3 2 (-3) 2 0 (-3) 6 (-2) (-3) (-2));
(2%nat, M3 2 1 4 6 3 6 0 6 0);
(0%nat, M3 2 3 2 0 3 6 2 (-3) 2);
(0%nat, M3 (-3) (-2) 3 (-3) 0 (-3) 0 (-4) 0);
(0%nat, M3 1 (-4) 3 3 0 3 (-3) 0 3);
(0%nat, M3 (-1) (-1) (-5) (-3) 3 (-3) 2 2 (-2));
(0%nat, M3 (-1) (-2) (-7) (-3) 0 (-3) 1 2 (-5));
(1%nat, M3 (-2) 0 (-1) (-2) 0 2 0 12 0);
(0%nat, M3 (-2) (-1) 7 (-2) 2 4 (-2) (-1) (-5));
(0%nat, M3 (-1) 1 5 2 4 2 (-2) 2 (-2));
(0%nat, M3 (-1) 4 3 2 4 0 (-3) 0 (-3));
(0%nat, M3 (-3) 2 (-3) 0 2 (-6) 0 (-4) 0);
(0%nat, M3 2 (-3) (-2) 2 0 4 (-2) (-3) 2);
(2%nat, M3 (-2) (-1) (-2) 4 2 (-2) 0 (-6) 0);
(0%nat, M3 2 3 (-2) 2 0 4 2 (-3) (-2));
(0%nat, M3 (-3) (-2) (-3) 0 (-2) (-6) 0 (-4) 0);
(0%nat, M3 1 (-4) (-3) (-2) (-4) 0 (-3) 0 (-3));
(0%nat, M3 (-1) 1 (-5) 2 4 (-2) 2 (-2) (-2));
(0%nat, M3 (-1) 2 (-7) 2 2 (-4) 1 (-2) (-5));
(3%nat, M3 (-1) 3 0 1 3 0 0 0 (-12));
(0%nat, M3 (-1) 2 8 1 4 4 (-1) 2 (-4));
(2%nat, M3 (-4) (-5) 1 4 (-1) (-1) 4 2 2);
(0%nat, M3 1 4 1 (-1) 2 5 3 0 3);
(1%nat, M3 (-1) 3 3 1 3 (-3) (-4) 0 0);
(0%nat, M3 (-2) (-2) (-3) (-4) 2 (-3) 2 2 (-3));
(5%nat, M3 (-2) 1 (-3) (-4) (-1) (-3) 0 6 6);
(0%nat, M3 (-2) (-2) 3 (-4) 2 3 (-2) (-2) (-3));
(1%nat, M3 (-1) 3 (-3) 1 3 3 4 0 0);
(0%nat, M3 1 (-4) 1 (-1) (-2) 5 (-3) 0 (-3));
(2%nat, M3 (-4) (-5) (-1) 4 (-1) 1 (-4) (-2) 2);
(0%nat, M3 (-1) 2 (-7) 1 4 (-5) 1 (-2) (-5));
(4%nat, M3 0 3 (-1) 0 6 0 12 6 0);
(0%nat, M3 1 (-5) 2 0 (-6) (-6) 1 1 (-4));
(1%nat, M3 1 (-3) 5 0 (-6) 0 2 0 (-2));
(0%nat, M3 1 (-4) (-2) 0 0 (-6) 3 0 0);
(2%nat, M3 2 4 1 0 6 0 (-4) (-2) 4);
(0%nat, M3 2 (-3) 4 0 0 6 (-2) (-3) 2);
(4%nat, M3 (-2) (-1) (-3) 0 0 (-6) 0 (-6) 0);
(0%nat, M3 2 3 4 0 0 6 2 (-3) (-2));
(2%nat, M3 2 4 (-1) 0 6 0 4 2 4);
(0%nat, M3 1 (-4) 2 0 0 6 (-3) 0 0);
(1%nat, M3 (-1) 3 (-5) 0 6 0 2 0 (-2));
(0%nat, M3 (-1) 5 (-2) 0 6 6 1 1 (-4));
(4%nat, M3 0 (-3) (-1) 0 3 (-1) 12 6 0);
(0%nat, M3 (-1) 5 (-2) (-1) (-1) (-8) (-1) (-1) 4);
(1%nat, M3 (-1) 3 (-5) (-1) (-3) (-5) (-2) 0 2);
(0%nat, M3 1 (-4) 2 1 (-4) (-4) 3 0 0);
(2%nat, M3 2 (-2) 1 2 4 1 (-4) (-2) 4);
(0%nat, M3 2 (-3) (-1) 2 (-3) 5 (-2) (-3) 1);
(4%nat, M3 (-2) (-1) 3 (-2) (-1) (-3) 0 (-6) 0);
(0%nat, M3 2 3 (-1) 2 3 5 2 (-3) (-1));
(2%nat, M3 2 (-2) (-1) 2 4 (-1) 4 2 4);
(0%nat, M3 1 (-4) (-2) 1 (-4) 4 (-3) 0 0);
(1%nat, M3 1 (-3) 5 1 3 5 (-2) 0 2);
(0%nat, M3 1 (-4) 2 1 2 8 (-1) (-2) 4);
(4%nat, M3 6 3 (-1) 0 0 (-2) 0 6 0);
(0%nat, M3 (-1) 4 4 (-2) 2 (-4) (-1) (-2) 4);
(1%nat, M3 (-1) 3 (-3) (-2) 0 (-6) (-2) 0 6);
(0%nat, M3 (-1) 2 (-5) (-2) (-2) (-4) (-3) 0 3);
(2%nat, M3 (-2) (-4) (-1) (-4) (-2) (-2) 4 2 (-4));
(0%nat, M3 (-2) (-4) 3 (-4) (-2) 0 2 (-2) (-3));
(4%nat, M3 2 1 3 4 2 0 0 6 0);
(0%nat, M3 (-2) (-4) (-3) (-4) (-2) 0 (-2) 2 (-3));
(2%nat, M3 2 4 1 4 2 2 4 2 (-4));
(0%nat, M3 1 (-2) 5 2 2 4 (-3) 0 3);
(1%nat, M3 1 (-3) 3 2 0 6 (-2) 0 6);
(0%nat, M3 1 (-4) (-4) 2 (-2) 4 (-1) (-2) 4);
(2%nat, M3 4 2 1 0 0 3 0 (-6) 0);
(0%nat, M3 (-1) 3 4 (-3) 3 0 (-1) (-3) 4);
(0%nat, M3 (-2) 3 (-3) 0 3 3 2 0 (-6));
(0%nat, M3 (-2) 1 2 0 3 6 0 3 (-6));
(0%nat, M3 (-2) (-1) 4 0 3 6 (-2) 2 (-2));
(0%nat, M3 1 3 5 (-3) 3 3 (-1) (-3) 1);
(2%nat, M3 (-4) (-2) 1 0 0 (-3) 0 (-6) 0);
(0%nat, M3 1 3 (-2) (-3) 3 0 1 3 4);
(0%nat, M3 (-2) (-1) (-4) 0 3 (-6) 2 (-2) (-2));
(0%nat, M3 2 1 4 0 3 6 0 (-3) 6);
(0%nat, M3 2 3 (-3) 0 3 3 2 0 6);
(0%nat, M3 1 (-3) (-4) 3 (-3) 0 (-1) (-3) 4);
(2%nat, M3 (-4) (-2) 1 (-4) (-2) 4 0 6 0);
(0%nat, M3 1 3 5 4 0 2 1 3 (-1));
(0%nat, M3 (-2) 1 (-4) (-2) 4 2 2 2 (-2));
(0%nat, M3 (-2) (-1) (-2) (-2) 2 4 0 3 (-6));
(0%nat, M3 (-2) (-3) 3 (-2) 0 6 (-2) 0 (-6));
(0%nat, M3 (-1) 3 4 2 0 4 1 3 (-4));
(2%nat, M3 4 2 1 4 2 (-2) 0 6 0);
(0%nat, M3 1 3 4 (-2) 0 4 1 (-3) 4);
(0%nat, M3 2 (-3) 3 2 0 6 (-2) 0 6);
(0%nat, M3 2 (-1) (-2) 2 2 4 0 (-3) 6);
(0%nat, M3 2 1 (-4) 2 4 2 2 (-2) 2);
(0%nat, M3 1 (-3) 2 4 0 2 (-1) 3 4);
(4%nat, M3 2 1 3 (-2) (-1) 3 0 (-6) 0);
(0%nat, M3 2 (-4) (-3) (-2) (-2) (-3) 2 2 (-3));
(2%nat, M3 (-2) (-4) (-1) 2 (-2) 1 (-4) (-2) 4);
(0%nat, M3 (-2) (-1) (-5) (-4) 1 (-1) 0 3 (-3));
(1%nat, M3 (-1) 3 (-3) 1 3 3 2 0 (-6));
(0%nat, M3 (-1) 4 4 1 2 8 1 2 (-4));
(4%nat, M3 6 3 (-1) 6 3 1 0 (-6) 0);
(0%nat, M3 1 4 5 (-1) 2 7 1 (-2) 5);
(1%nat, M3 1 (-3) 3 (-1) (-3) (-3) 2 0 (-6));
(0%nat, M3 2 (-1) (-5) 4 1 (-1) 0 (-3) 3);
(2%nat, M3 2 4 1 (-2) 2 (-1) (-4) (-2) 4);
(0%nat, M3 (-2) 4 3 2 2 3 2 2 (-3));
(3%nat, M3 1 0 (-6) 0 0 (-12) 0 1 0);
(3%nat, M3 1 0 6 1 0 (-6) 0 1 0);
(3%nat, M3 0 (-1) (-6) 0 (-2) 0 (-1) 0 0);
(1%nat, M3 (-1) 0 4 (-3) 0 0 0 (-1) 0);
(1%nat, M3 (-3) 0 1 0 0 4 0 1 0);
(3%nat, M3 0 (-3) 2 0 (-3) (-2) 1 0 0);
(3%nat, M3 0 (-2) (-3) 0 0 (-6) 1 0 0);
(3%nat, M3 0 (-2) 3 0 (-2) (-3) 1 0 0);
(3%nat, M3 0 3 (-2) 0 0 (-4) (-1) 0 0);
(1%nat, M3 (-3) 0 1 (-3) 0 (-3) 0 (-1) 0);
(1%nat, M3 (-1) 0 4 2 0 4 0 1 0);
(3%nat, M3 0 (-1) (-6) 0 1 (-6) 1 0 0);
(3%nat, M3 1 0 (-6) 0 0 (-12) 0 2 0);
(4%nat, M3 0 (-1) (-6) 0 0 (-12) 2 1 0);
(3%nat, M3 1 0 6 1 0 (-6) 0 2 0);
(4%nat, M3 0 (-1) 6 0 (-1) (-6) 2 1 0);
(3%nat, M3 1 0 6 2 0 0 0 2 0);
(4%nat, M3 0 1 (-6) 0 2 0 2 1 0);
(1%nat, M3 (-1) 0 4 (-3) 0 0 0 (-2) 0);
(2%nat, M3 (-2) (-1) 4 (-6) (-3) 0 0 (-1) 0);
(1%nat, M3 (-3) 0 1 0 0 4 0 2 0);
(2%nat, M3 6 3 2 0 0 (-4) 0 1 0);
(3%nat, M3 0 (-3) 2 0 (-3) (-2) 2 0 0);
(4%nat, M3 0 3 (-2) 0 3 2 2 1 0);
(3%nat, M3 0 (-2) (-3) 0 0 (-6) 2 0 0);
(4%nat, M3 0 (-3) 2 0 (-6) 0 2 1 0);
(3%nat, M3 0 (-2) 3 0 (-2) (-3) 2 0 0);
(4%nat, M3 0 3 2 0 (-3) 2 2 1 0);
(3%nat, M3 0 3 (-2) 0 0 (-4) (-2) 0 0);
(4%nat, M3 0 (-3) 2 0 0 4 (-2) (-1) 0);
(1%nat, M3 (-3) 0 1 (-3) 0 (-3) 0 (-2) 0);
(2%nat, M3 (-6) (-3) (-4) (-6) (-3) 0 0 1 0);
(1%nat, M3 (-1) 0 4 2 0 4 0 2 0);
(2%nat, M3 (-2) (-1) (-4) 4 2 (-4) 0 (-1) 0);
(3%nat, M3 1 0 6 (-1) 0 6 0 (-2) 0);
(4%nat, M3 0 1 6 0 (-1) 6 2 1 0);
(3%nat, M3 1 0 (-6) 0 0 (-12) 0 3 0);
(1%nat, M3 1 6 (-2) 0 12 0 1 0 1);
(1%nat, M3 1 (-6) (-1) 0 (-12) 0 (-1) 0 (-2));
(3%nat, M3 1 0 6 1 0 (-6) 0 3 0);
(1%nat, M3 1 (-6) (-2) 1 6 (-2) 1 0 1);
(1%nat, M3 1 6 (-1) 1 (-6) (-1) (-1) 0 (-2));
(3%nat, M3 1 0 6 2 0 0 0 3 0);
(1%nat, M3 1 (-6) (-1) 2 0 (-2) 1 0 2);
(1%nat, M3 1 6 (-1) 2 0 (-2) (-1) 0 (-2));
(1%nat, M3 1 0 4 3 0 0 0 3 0);
(0%nat, M3 1 0 4 3 0 0 1 3 1);
(0%nat, M3 1 0 4 3 0 0 (-1) 3 (-1));
(1%nat, M3 (-3) 0 1 0 0 4 0 3 0);
(0%nat, M3 0 (-3) (-1) 0 0 (-4) 3 0 (-1));
(0%nat, M3 0 (-3) (-1) 0 0 (-4) 3 0 1);
(3%nat, M3 0 (-3) 2 0 (-3) (-2) 3 0 0);
(1%nat, M3 0 (-3) 2 0 (-3) (-2) 3 0 (-1));
(1%nat, M3 0 (-3) 2 0 (-3) (-2) 3 0 1);
(3%nat, M3 2 0 3 0 0 6 0 (-3) 0);
(1%nat, M3 2 (-3) (-2) 0 (-6) 0 (-1) 0 (-2));
(1%nat, M3 2 (-3) 2 0 (-6) 0 1 0 (-2));
(3%nat, M3 2 0 (-3) 2 0 3 0 (-3) 0);
(1%nat, M3 2 3 (-2) 2 (-3) (-2) (-1) 0 (-2));
(1%nat, M3 2 3 2 2 (-3) 2 1 0 (-2));
(3%nat, M3 0 3 (-2) 0 0 (-4) (-3) 0 0);
(1%nat, M3 0 3 (-2) 0 0 (-4) (-3) 0 1);
(1%nat, M3 0 3 (-2) 0 0 (-4) (-3) 0 (-1));
(1%nat, M3 (-3) 0 1 (-3) 0 (-3) 0 (-3) 0);
(0%nat, M3 0 (-3) (-1) 0 (-3) 3 (-3) 0 (-1));
(0%nat, M3 0 (-3) (-1) 0 (-3) 3 (-3) 0 1);
(1%nat, M3 1 0 4 (-2) 0 4 0 (-3) 0);
(0%nat, M3 1 0 4 (-2) 0 4 1 (-3) 1);
(0%nat, M3 1 0 4 (-2) 0 4 (-1) (-3) (-1));
(3%nat, M3 1 0 6 (-1) 0 6 0 (-3) 0);
(1%nat, M3 1 (-6) 1 (-1) (-6) (-1) 1 0 (-2));
(1%nat, M3 1 (-6) (-1) (-1) (-6) 1 (-1) 0 (-2));
(3%nat, M3 1 0 (-6) 0 0 (-12) 0 4 0);
(2%nat, M3 (-2) 5 (-1) 0 12 0 2 1 (-1));
(4%nat, M3 2 1 (-6) 0 0 (-12) 0 2 0);
(2%nat, M3 (-2) 5 1 0 12 0 (-2) (-1) (-1));
(3%nat, M3 1 0 6 1 0 (-6) 0 4 0);
(2%nat, M3 (-2) 5 1 (-2) (-7) 1 2 1 1);
(4%nat, M3 2 1 6 2 1 (-6) 0 2 0);
(2%nat, M3 (-2) 5 (-1) (-2) (-7) (-1) (-2) (-1) 1);
(3%nat, M3 1 0 6 2 0 0 0 4 0);
(2%nat, M3 0 6 1 0 0 2 4 2 (-3));
(4%nat, M3 0 (-1) 6 0 (-2) 0 4 2 0);
(2%nat, M3 0 (-6) 1 0 0 2 (-4) (-2) 3);
(1%nat, M3 1 0 4 3 0 0 0 4 0);
(0%nat, M3 1 0 4 3 0 0 1 4 0);
(2%nat, M3 2 1 (-4) 6 3 0 0 (-2) 0);
(0%nat, M3 1 (-1) (-4) 3 (-3) 0 (-1) (-3) 0);
(1%nat, M3 (-3) 0 1 0 0 4 0 4 0);
(0%nat, M3 (-3) 1 0 0 4 0 1 1 (-4));
(2%nat, M3 6 3 4 0 0 4 0 (-2) 0);
(0%nat, M3 (-3) 1 0 0 4 0 (-1) (-1) (-4));
(3%nat, M3 (-3) (-2) 0 (-3) 2 0 0 0 (-4));
(2%nat, M3 0 (-2) 3 0 2 3 (-4) (-2) (-1));
(4%nat, M3 6 3 2 6 3 (-2) 0 2 0);
(2%nat, M3 0 (-2) 3 0 2 3 (-4) (-2) 1);
(3%nat, M3 2 0 3 0 0 6 0 (-4) 0);
(2%nat, M3 0 (-2) (-3) 0 0 (-6) 4 2 1);
(4%nat, M3 0 3 2 0 6 0 (-4) (-2) 0);
(2%nat, M3 0 (-2) (-3) 0 0 (-6) 4 2 (-1));
(3%nat, M3 2 0 (-3) 2 0 3 0 (-4) 0);
(2%nat, M3 0 (-2) 3 0 (-2) (-3) 4 2 (-1));
(4%nat, M3 0 (-3) 2 0 3 2 (-4) (-2) 0);
(2%nat, M3 0 (-2) 3 0 (-2) (-3) 4 2 1);
(3%nat, M3 3 2 0 0 4 0 0 0 4);
(2%nat, M3 0 2 (-3) 0 4 0 4 2 1);
(4%nat, M3 (-6) (-3) 2 0 0 4 0 2 0);
(2%nat, M3 0 2 (-3) 0 4 0 4 2 (-1));
(1%nat, M3 (-3) 0 1 (-3) 0 (-3) 0 (-4) 0);
(0%nat, M3 (-3) 1 0 (-3) (-3) 0 1 1 4);
(2%nat, M3 6 3 4 6 3 0 0 2 0);
(0%nat, M3 (-3) 1 0 (-3) (-3) 0 (-1) (-1) 4);
(1%nat, M3 1 0 4 (-2) 0 4 0 (-4) 0);
(0%nat, M3 1 0 4 (-2) 0 4 1 (-4) 0);
(2%nat, M3 2 1 4 (-4) (-2) 4 0 (-2) 0);
(0%nat, M3 1 0 4 (-2) 0 4 (-1) (-4) 0);
(3%nat, M3 1 0 6 (-1) 0 6 0 (-4) 0);
(2%nat, M3 2 7 (-1) (-2) 5 1 (-2) (-1) 3);
(4%nat, M3 2 1 6 (-2) (-1) 6 0 (-2) 0);
(2%nat, M3 2 7 1 (-2) 5 (-1) 2 1 3);
(3%nat, M3 1 0 (-6) 0 0 (-12) 0 6 0);
(1%nat, M3 1 6 (-3) 0 12 0 1 0 3);
(1%nat, M3 1 6 (-2) 0 12 0 2 0 2);
(4%nat, M3 2 1 (-6) 0 0 (-12) 0 3 0);
(1%nat, M3 1 (-6) (-2) 0 (-12) 0 (-2) 0 (-2));
(1%nat, M3 1 (-6) (-3) 0 (-12) 0 (-1) 0 (-3));
(3%nat, M3 1 0 6 1 0 (-6) 0 6 0);
(1%nat, M3 1 (-6) (-3) 1 6 (-3) 1 0 3);
(1%nat, M3 1 (-6) (-2) 1 6 (-2) 2 0 2);
(4%nat, M3 2 1 6 2 1 (-6) 0 3 0);
(1%nat, M3 1 6 (-2) 1 (-6) (-2) (-2) 0 (-2));
(1%nat, M3 1 6 (-3) 1 (-6) (-3) (-1) 0 (-3));
(3%nat, M3 1 0 6 2 0 0 0 6 0);
(1%nat, M3 1 (-6) (-2) 2 0 (-4) 1 0 4);
(1%nat, M3 1 (-6) (-2) 2 0 (-4) 2 0 2);
(4%nat, M3 (-2) (-1) 6 (-4) (-2) 0 0 (-3) 0);
(1%nat, M3 1 6 (-2) 2 0 (-4) (-2) 0 (-2));
(1%nat, M3 1 6 (-1) 2 0 (-2) (-1) 0 (-5));
(1%nat, M3 (-1) 0 4 (-3) 0 0 0 (-6) 0);
(0%nat, M3 (-1) 5 4 (-3) 3 0 (-1) (-1) 4);
(0%nat, M3 (-1) 4 (-5) (-3) 0 (-3) (-2) 2 2);
(2%nat, M3 (-2) (-1) (-4) (-6) (-3) 0 0 3 0);
(0%nat, M3 (-1) (-4) (-1) (-3) 0 (-3) 2 2 (-4));
(0%nat, M3 (-1) (-5) (-1) (-3) (-3) (-3) 1 (-1) (-5));
(1%nat, M3 (-3) 0 1 0 0 4 0 6 0);
(0%nat, M3 (-1) 3 (-3) (-4) 0 0 (-1) 3 3);
(0%nat, M3 (-3) 1 1 0 4 4 0 2 (-4));
(2%nat, M3 (-6) (-3) 4 0 0 4 0 3 0);
(0%nat, M3 3 1 1 0 4 4 0 (-2) 4);
(0%nat, M3 (-1) 3 (-3) (-4) 0 0 1 3 3);
(3%nat, M3 (-3) (-2) 0 (-3) 2 0 0 0 (-6));
(2%nat, M3 0 (-3) (-2) 0 (-3) 2 (-6) (-3) (-2));
(1%nat, M3 (-2) (-3) 2 2 (-3) (-2) 2 0 4);
(4%nat, M3 0 (-3) (-2) 0 (-3) 2 (-6) (-3) 0);
(1%nat, M3 (-2) (-3) (-2) 2 (-3) 2 (-2) 0 4);
(2%nat, M3 0 (-3) (-2) 0 (-3) 2 (-6) (-3) 2);
(3%nat, M3 (-2) 3 0 0 6 0 0 0 (-6));
(2%nat, M3 4 (-1) 2 0 (-6) 0 (-2) (-1) (-4));
(1%nat, M3 2 (-3) (-4) 0 (-6) 0 (-2) 0 (-2));
(4%nat, M3 0 3 2 0 6 0 (-6) (-3) 0);
(1%nat, M3 2 (-3) 2 0 (-6) 0 2 0 (-4));
(2%nat, M3 (-4) (-5) (-2) 0 (-6) 0 (-2) (-1) 2);
(3%nat, M3 (-2) (-3) 0 (-2) 3 0 0 0 (-6));
(2%nat, M3 4 (-1) (-2) 4 5 (-2) (-2) (-1) 4);
(1%nat, M3 2 3 (-4) 2 (-3) (-4) (-2) 0 (-2));
(4%nat, M3 0 (-3) 2 0 3 2 (-6) (-3) 0);
(1%nat, M3 2 3 2 2 (-3) 2 2 0 (-4));
(2%nat, M3 (-4) 1 (-2) (-4) (-5) (-2) (-2) (-1) 2);
(3%nat, M3 3 2 0 0 4 0 0 0 6);
(2%nat, M3 0 3 (-2) 0 0 (-4) (-6) (-3) (-2));
(1%nat, M3 2 3 (-2) 4 0 (-4) (-2) 0 (-4));
(4%nat, M3 (-6) (-3) 2 0 0 4 0 3 0);
(1%nat, M3 2 3 2 4 0 4 2 0 (-4));
(2%nat, M3 0 3 (-2) 0 0 (-4) (-6) (-3) 2);
(1%nat, M3 (-3) 0 1 (-3) 0 (-3) 0 (-6) 0);
(0%nat, M3 (-1) 3 (-3) 3 3 (-3) (-1) (-3) (-3));
(0%nat, M3 (-3) 1 (-1) (-3) (-3) 3 0 2 4);
(2%nat, M3 6 3 (-4) 6 3 0 0 (-3) 0);
(0%nat, M3 (-3) 1 1 (-3) (-3) (-3) 0 (-2) 4);
(0%nat, M3 (-1) 3 (-3) 3 3 (-3) 1 (-3) (-3));
(1%nat, M3 (-1) 0 4 2 0 4 0 6 0);
(0%nat, M3 (-1) 4 (-4) 2 4 (-4) (-1) (-2) (-4));
(0%nat, M3 (-1) 4 5 2 4 2 (-2) 2 (-2));
(2%nat, M3 (-2) (-1) 4 4 2 4 0 3 0);
(0%nat, M3 (-1) 4 (-1) 2 4 2 2 (-2) (-4));
(0%nat, M3 (-1) 4 (-1) 2 4 2 1 2 (-5));
(3%nat, M3 1 0 6 (-1) 0 6 0 (-6) 0);
(1%nat, M3 1 (-6) 1 (-1) (-6) (-1) 1 0 (-5));
(1%nat, M3 1 (-6) 2 (-1) (-6) (-2) 2 0 (-2));
(4%nat, M3 2 1 6 (-2) (-1) 6 0 (-3) 0);
(1%nat, M3 1 (-6) (-2) (-1) (-6) 2 (-2) 0 (-2));
(1%nat, M3 1 (-6) (-2) (-1) (-6) 2 (-1) 0 (-4));
(3%nat, M3 (-1) (-6) 0 0 (-12) 0 0 0 12);
(2%nat, M3 (-6) 3 (-1) 0 12 0 6 3 (-1));
(1%nat, M3 1 6 (-5) 0 12 0 2 0 2);
(2%nat, M3 (-4) 4 (-1) 0 12 0 0 0 (-3));
(1%nat, M3 3 (-6) (-1) 0 (-12) 0 0 0 (-4));
(2%nat, M3 2 7 3 0 12 0 (-2) (-1) 3);
(4%nat, M3 2 1 (-6) 0 0 (-12) 0 6 0);
(2%nat, M3 2 (-5) 3 0 (-12) 0 2 1 (-3));
(1%nat, M3 3 6 (-1) 0 12 0 0 0 4);
(2%nat, M3 (-4) 4 1 0 12 0 0 0 (-3));
(1%nat, M3 1 (-6) (-5) 0 (-12) 0 (-2) 0 (-2));
(2%nat, M3 (-6) 3 1 0 12 0 (-6) (-3) (-1));
(3%nat, M3 (-1) 6 0 (-1) (-6) 0 0 0 12);
(2%nat, M3 (-6) 3 1 (-6) (-9) 1 6 3 1);
(1%nat, M3 1 (-6) (-5) 1 6 (-5) 2 0 2);
(2%nat, M3 (-4) (-8) (-1) (-4) 4 (-1) 0 0 (-3));
(1%nat, M3 3 6 (-1) 3 (-6) (-1) 0 0 (-4));
(2%nat, M3 2 (-5) 3 2 7 3 (-2) (-1) 3);
(4%nat, M3 2 1 6 2 1 (-6) 0 6 0);
(2%nat, M3 2 (-5) (-3) 2 7 (-3) 2 1 3);
(1%nat, M3 3 (-6) (-1) 3 6 (-1) 0 0 4);
(2%nat, M3 (-4) 4 (-1) (-4) (-8) (-1) 0 0 3);
(1%nat, M3 1 6 (-5) 1 (-6) (-5) (-2) 0 (-2));
(2%nat, M3 (-6) 3 (-1) (-6) (-9) (-1) (-6) (-3) 1);
(3%nat, M3 (-1) 6 0 (-2) 0 0 0 0 12);
(2%nat, M3 (-2) 5 3 (-4) (-2) 6 10 5 (-9));
(1%nat, M3 (-1) 6 (-3) (-2) 0 (-6) (-2) 0 6);
(2%nat, M3 (-2) 5 3 (-4) (-2) 6 6 3 (-3));
(1%nat, M3 1 (-6) (-3) 2 0 (-6) 4 0 0);
(2%nat, M3 2 (-5) 1 4 2 2 (-2) (-1) 5);
(4%nat, M3 (-2) (-1) 6 (-4) (-2) 0 0 (-6) 0);
(2%nat, M3 2 (-5) (-1) 4 2 (-2) 2 1 5);
(1%nat, M3 1 6 (-3) 2 0 (-6) (-4) 0 0);
(2%nat, M3 4 (-4) 3 8 4 6 0 0 3);
(1%nat, M3 (-1) (-6) (-3) (-2) 0 (-6) 2 0 (-6));
(2%nat, M3 (-2) (-7) 3 (-4) (-2) 6 (-10) (-5) 9);
(1%nat, M3 (-1) 0 4 (-3) 0 0 0 (-12) 0);
(0%nat, M3 (-1) 4 (-5) (-3) 0 (-3) (-1) 4 7);
(0%nat, M3 1 (-5) 3 3 (-3) (-3) 2 2 6);
(0%nat, M3 1 (-4) (-2) 3 0 (-6) 3 0 6);
(0%nat, M3 1 (-3) (-5) 3 3 (-3) 4 0 4);
(0%nat, M3 (-5) 1 2 (-3) 3 6 (-1) 5 (-2));
(2%nat, M3 2 1 4 6 3 0 0 6 0);
(0%nat, M3 5 2 4 3 6 0 (-1) 2 4);
(0%nat, M3 (-1) (-3) (-5) (-3) 3 (-3) 4 0 (-4));
(0%nat, M3 (-1) (-4) (-2) (-3) 0 (-6) 3 0 (-6));
(0%nat, M3 (-1) (-5) 3 (-3) (-3) (-3) 2 (-2) (-6));
(0%nat, M3 (-1) (-4) (-5) (-3) 0 (-3) 1 4 (-7));
(1%nat, M3 (-3) 0 1 0 0 4 0 12 0);
(0%nat, M3 (-1) 3 (-7) (-4) 0 (-4) (-1) 3 5);
(0%nat, M3 1 (-4) 6 4 (-4) 0 2 4 0);
(0%nat, M3 4 (-3) 2 4 0 (-4) 0 3 6);
(0%nat, M3 3 (-1) 5 0 (-4) 8 0 (-4) (-4));
(0%nat, M3 (-3) 4 2 0 4 (-4) (-3) (-4) (-2));
(2%nat, M3 (-6) (-3) (-2) 0 0 4 0 6 0);
(0%nat, M3 (-3) 2 4 0 (-4) 4 3 2 4);
(0%nat, M3 3 1 5 0 4 8 0 (-4) 4);
(0%nat, M3 4 (-3) (-2) 4 0 4 0 (-3) 6);
(0%nat, M3 (-1) (-4) 6 (-4) (-4) 0 2 (-4) 0);
(0%nat, M3 (-1) (-3) (-7) (-4) 0 (-4) 1 3 (-5));
(3%nat, M3 (-3) (-2) 0 (-3) 2 0 0 0 (-12));
(0%nat, M3 (-2) 3 8 2 3 4 (-2) 3 (-4));
(2%nat, M3 4 5 2 (-4) 1 (-2) (-4) (-2) 4);
(2%nat, M3 (-6) (-5) 3 (-6) (-1) 3 (-6) (-3) (-3));
(1%nat, M3 2 3 4 (-2) 3 (-4) (-4) 0 4);
(0%nat, M3 2 (-3) 4 (-2) (-3) 8 (-2) (-3) (-4));
(4%nat, M3 6 3 (-2) 6 3 2 0 (-6) 0);
(0%nat, M3 (-2) 3 (-4) 2 3 (-8) (-2) (-3) (-4));
(1%nat, M3 2 (-3) 4 (-2) (-3) (-4) 4 0 (-4));
(2%nat, M3 6 5 (-3) 6 1 (-3) (-6) (-3) (-3));
(2%nat, M3 (-4) (-5) (-2) 4 (-1) 2 (-4) (-2) 4);
(0%nat, M3 2 3 8 (-2) 3 4 (-2) (-3) 4);
(3%nat, M3 (-2) 3 0 0 6 0 0 0 (-12));
(0%nat, M3 (-2) 1 7 0 6 6 (-2) 1 (-5));
(2%nat, M3 4 (-1) (-2) 0 (-6) 0 (-4) (-2) (-4));
(2%nat, M3 6 1 (-3) 12 6 (-6) 6 3 3);
(1%nat, M3 2 (-3) (-4) 0 (-6) 0 (-4) 0 (-4));
(0%nat, M3 2 (-5) (-1) 0 (-6) 6 (-2) (-1) (-5));
(4%nat, M3 6 3 2 12 6 0 0 6 0);
(0%nat, M3 (-2) 5 1 0 6 (-6) (-2) (-1) (-5));
(1%nat, M3 (-2) 3 4 0 6 0 (-4) 0 (-4));
(2%nat, M3 0 2 3 0 0 6 12 6 3);
(2%nat, M3 4 (-1) 2 0 (-6) 0 4 2 (-4));
(0%nat, M3 (-2) 1 (-7) 0 6 (-6) 2 (-1) (-5));
(3%nat, M3 (-2) (-3) 0 (-2) 3 0 0 0 (-12));
(0%nat, M3 (-2) (-1) 7 (-2) 5 1 (-2) (-1) (-5));
(2%nat, M3 4 (-1) 2 4 5 2 (-4) (-2) 4);
(2%nat, M3 0 (-2) 3 0 (-2) (-3) 12 6 (-3));
(1%nat, M3 (-2) (-3) (-4) (-2) 3 (-4) 4 0 (-4));
(0%nat, M3 (-2) (-5) (-1) (-2) 1 (-7) 2 (-1) (-5));
(4%nat, M3 (-6) (-3) 2 6 3 2 0 6 0);
(0%nat, M3 2 5 1 2 (-1) 7 2 (-1) (-5));
(1%nat, M3 2 3 4 2 (-3) 4 4 0 (-4));
(2%nat, M3 0 2 (-3) 0 2 3 12 6 (-3));
(2%nat, M3 4 (-1) (-2) 4 5 (-2) 4 2 4);
(0%nat, M3 2 1 (-7) 2 (-5) (-1) (-2) (-1) (-5));
(3%nat, M3 3 2 0 0 4 0 0 0 12);
(0%nat, M3 (-2) (-3) 8 (-4) 0 4 (-2) (-3) (-4));
(2%nat, M3 4 5 (-2) 8 4 (-4) (-4) (-2) (-4));
(2%nat, M3 (-6) (-5) (-3) 0 (-4) 0 (-6) (-3) 3);
(1%nat, M3 2 (-3) 4 4 0 8 (-4) 0 4);
(0%nat, M3 (-2) (-3) 4 (-4) 0 (-4) 2 (-3) (-4));
(4%nat, M3 (-6) (-3) (-2) 0 0 (-4) 0 (-6) 0);
(0%nat, M3 2 3 (-4) 4 0 4 2 (-3) (-4));
(1%nat, M3 (-2) (-3) 4 (-4) 0 8 (-4) 0 (-4));
(2%nat, M3 (-6) (-5) 3 0 (-4) 0 6 3 3);
(2%nat, M3 4 5 2 8 4 4 4 2 (-4));
(0%nat, M3 2 3 (-8) 4 0 (-4) (-2) (-3) (-4));
(1%nat, M3 (-3) 0 1 (-3) 0 (-3) 0 (-12) 0);
(0%nat, M3 (-1) 3 7 3 3 3 (-1) 3 (-5));
(0%nat, M3 1 4 6 (-3) 0 6 2 (-4) 0);
(0%nat, M3 4 3 2 0 3 6 0 (-3) 6);
(0%nat, M3 (-3) (-1) 5 (-3) 3 (-3) 0 (-4) (-4));
(0%nat, M3 (-3) 4 (-2) (-3) 0 (-6) (-3) (-4) 2);
(2%nat, M3 6 3 (-2) 6 3 (-6) 0 6 0);
(0%nat, M3 (-3) (-2) 4 (-3) (-6) 0 3 (-2) 4);
(0%nat, M3 3 (-1) 5 3 3 (-3) 0 4 4);
(0%nat, M3 4 3 (-2) 0 3 (-6) 0 3 6);
(0%nat, M3 1 4 (-6) (-3) 0 (-6) (-2) 4 0);
(0%nat, M3 (-1) (-3) 7 3 (-3) 3 1 3 5);
(1%nat, M3 (-1) 0 4 2 0 4 0 12 0);
(0%nat, M3 (-1) 4 5 2 4 2 (-1) 4 (-7));
(0%nat, M3 1 5 3 (-2) 2 6 2 (-2) 6);
(0%nat, M3 1 4 (-2) (-2) 4 4 3 0 6);
(0%nat, M3 1 3 (-5) (-2) 6 (-2) 4 0 4);
(0%nat, M3 5 (-2) (-4) 2 4 (-4) 1 2 4);
(2%nat, M3 2 1 (-4) (-4) (-2) (-4) 0 6 0);
(0%nat, M3 (-5) (-2) (-4) (-2) 4 (-4) 1 (-2) (-4));
(0%nat, M3 1 3 5 (-2) 6 2 (-4) 0 4);
(0%nat, M3 1 4 2 (-2) 4 (-4) (-3) 0 6);
(0%nat, M3 1 5 (-3) (-2) 2 (-6) (-2) 2 6);
(0%nat, M3 (-1) (-4) 5 2 (-4) 2 1 4 7);
(3%nat, M3 (-1) 6 0 1 6 0 0 0 (-12));
(2%nat, M3 2 (-5) (-1) (-2) (-7) 1 (-10) (-5) (-1));
(1%nat, M3 (-1) 6 3 1 6 (-3) (-2) 0 (-6));
(2%nat, M3 4 8 (-3) (-4) 4 3 0 0 3);
(1%nat, M3 1 (-6) 3 (-1) (-6) (-3) 4 0 0);
(2%nat, M3 (-2) (-7) 1 2 (-5) (-1) 2 1 5);
(4%nat, M3 2 1 6 (-2) (-1) 6 0 (-6) 0);
(2%nat, M3 (-2) 5 1 2 7 (-1) (-2) (-1) (-5));
(1%nat, M3 1 6 3 (-1) 6 (-3) (-4) 0 0);
(2%nat, M3 4 (-4) (-3) (-4) (-8) 3 0 0 (-3));
(1%nat, M3 (-1) (-6) 3 1 (-6) (-3) 2 0 6);
(2%nat, M3 4 (-4) (-3) (-4) (-8) 3 8 4 (-9));
(3%nat, M3 0 0 2 (-1) 0 1 0 (-1) 0);
(3%nat, M3 0 2 0 1 1 0 0 0 (-2));
(4%nat, M3 0 2 0 0 1 (-1) (-2) (-1) 0);
(5%nat, M3 0 2 2 (-1) 1 0 (-1) (-1) 0);
(4%nat, M3 0 0 2 0 1 1 (-2) (-1) 0);
(3%nat, M3 0 2 0 1 1 0 0 0 (-3));
(1%nat, M3 2 0 (-2) 1 1 (-1) 1 0 2);
(1%nat, M3 2 0 (-2) 1 (-1) (-1) (-1) 0 (-2));
(0%nat, M3 0 2 2 1 0 2 1 0 (-1));
(0%nat, M3 0 2 2 (-1) 2 0 (-1) 0 1);
(1%nat, M3 0 2 0 (-1) 1 (-2) (-1) 0 1);
(0%nat, M3 0 (-2) 0 1 0 1 (-1) 0 2);
(1%nat, M3 0 (-2) 0 1 (-1) 1 (-1) 0 2);
(0%nat, M3 0 (-2) 0 1 (-2) 1 (-1) 0 2);
(3%nat, M3 0 2 0 1 1 0 0 0 (-4));
(4%nat, M3 0 (-2) 0 0 (-1) 1 (-4) (-2) 0);
(0%nat, M3 0 2 2 1 0 3 1 0 (-1));
(0%nat, M3 0 2 2 (-1) 2 0 (-1) 0 2);
(5%nat, M3 2 0 2 0 (-1) 1 0 (-2) (-2));
(4%nat, M3 0 0 2 2 1 1 0 2 0);
(0%nat, M3 0 (-2) 2 1 0 3 (-1) 0 1);
(0%nat, M3 0 (-2) 0 1 (-2) 2 (-1) 0 2);
(3%nat, M3 0 2 0 1 1 0 0 0 (-6));
(1%nat, M3 2 0 (-4) 1 1 (-2) 1 0 4);
(1%nat, M3 2 0 (-4) 1 1 (-2) 2 0 2);
(4%nat, M3 4 2 0 2 1 (-1) 0 3 0);
(1%nat, M3 2 0 (-4) 1 (-1) (-2) (-2) 0 (-2));
(1%nat, M3 2 0 (-4) 1 (-1) (-2) (-1) 0 (-4));
(0%nat, M3 0 2 2 1 0 3 1 0 (-3));
(0%nat, M3 0 2 2 1 0 3 1 1 (-2));
(2%nat, M3 0 2 0 (-2) 0 3 4 2 (-3));
(0%nat, M3 0 2 2 (-1) 2 (-1) (-1) (-1) 2);
(0%nat, M3 0 2 2 (-1) 2 (-2) (-1) 0 2);
(1%nat, M3 0 2 0 (-1) 1 (-3) (-1) 0 3);
(0%nat, M3 (-2) 0 (-2) 0 (-1) (-3) 0 (-2) 0);
(2%nat, M3 0 2 0 2 2 (-1) (-2) (-1) (-2));
(0%nat, M3 (-2) 0 (-2) (-2) 1 1 0 2 0);
(0%nat, M3 (-2) 0 (-2) (-1) 1 1 1 2 (-1));
(1%nat, M3 0 (-2) 0 1 (-1) (-2) 2 0 2);
(0%nat, M3 (-2) 0 0 (-1) 1 2 (-1) 2 (-2));
(5%nat, M3 2 0 2 0 (-1) 1 0 (-3) (-3));
(2%nat, M3 (-4) (-2) 2 (-2) 0 1 (-2) (-1) (-2));
(2%nat, M3 4 2 2 2 0 1 4 2 (-1));
(4%nat, M3 0 0 2 2 1 1 0 3 0);
(2%nat, M3 (-4) (-2) (-2) (-2) 0 (-1) 4 2 (-1));
(2%nat, M3 (-4) (-2) 2 (-2) (-2) 1 2 1 2);
(0%nat, M3 2 0 (-2) 0 (-1) (-3) 0 2 0);
(0%nat, M3 2 (-2) 2 1 0 3 (-1) (-1) 1);
(1%nat, M3 0 2 0 1 1 (-2) (-2) 0 (-2));
(0%nat, M3 2 0 0 1 1 2 1 (-2) 2);
(0%nat, M3 2 0 2 2 (-1) (-1) 0 2 0);
(2%nat, M3 0 2 0 (-2) 0 (-1) (-2) (-1) 2);
(0%nat, M3 0 (-2) 2 1 0 4 (-1) 0 2);
(1%nat, M3 0 (-2) 0 1 (-1) 3 (-1) 0 3);
(0%nat, M3 0 (-2) (-2) 1 (-2) 2 (-1) 0 2);
(0%nat, M3 0 (-2) (-2) 1 (-2) 1 (-1) (-1) 2);
(2%nat, M3 0 2 0 4 3 1 2 1 (-1));
(0%nat, M3 0 (-2) 2 1 0 3 (-1) 1 2);
(3%nat, M3 0 2 0 1 1 0 0 0 (-12));
(1%nat, M3 2 0 (-6) 1 1 (-3) 2 0 6);
(1%nat, M3 2 0 (-6) 1 1 (-3) 4 0 0);
(4%nat, M3 4 2 0 2 1 (-1) 0 6 0);
(1%nat, M3 2 0 (-6) 1 (-1) (-3) (-4) 0 0);
(1%nat, M3 2 0 (-6) 1 (-1) (-3) (-2) 0 (-6));
(0%nat, M3 0 2 4 1 0 7 1 0 (-5));
(0%nat, M3 0 2 4 1 0 5 1 2 (-3));
(0%nat, M3 0 4 2 (-1) 3 (-2) (-1) (-1) 2);
(0%nat, M3 0 4 (-2) (-1) 1 (-4) (-1) 1 2);
(0%nat, M3 0 2 4 (-1) 3 (-1) (-1) (-1) 3);
(0%nat, M3 0 2 4 (-1) 2 (-3) (-1) 0 5);
(0%nat, M3 (-2) 0 (-2) 0 (-1) (-5) 0 (-2) 2);
(0%nat, M3 0 2 4 1 (-1) 4 2 0 0);
(2%nat, M3 0 (-2) 0 4 1 1 (-4) (-2) 2);
(0%nat, M3 0 2 4 (-1) 3 0 (-2) 0 0);
(0%nat, M3 (-2) 0 (-2) (-2) 1 3 0 2 (-2));
(1%nat, M3 0 (-2) 0 1 (-1) (-5) 2 0 2);
(0%nat, M3 (-2) 0 (-2) 0 (-1) (-4) 0 (-3) 0);
(0%nat, M3 2 (-2) 2 0 (-3) (-1) 2 1 (-1));
(0%nat, M3 2 (-2) (-2) 3 1 (-2) 1 (-1) 2);
(0%nat, M3 (-2) 0 (-2) (-2) 1 2 0 3 0);
(0%nat, M3 (-2) 2 (-2) (-1) 2 2 1 2 (-2));
(0%nat, M3 (-2) (-2) 0 (-1) 0 4 (-1) 2 0);
(0%nat, M3 2 (-2) 0 0 (-3) (-1) 0 0 (-4));
(2%nat, M3 0 (-2) 0 (-2) (-2) (-3) 4 2 0);
(0%nat, M3 2 (-2) 0 2 1 1 0 0 4);
(0%nat, M3 (-2) 2 0 (-1) 2 3 2 2 0);
(1%nat, M3 0 2 0 3 1 (-1) 0 0 (-4));
(0%nat, M3 (-2) (-2) 0 (-1) 0 3 (-2) 2 0);
(0%nat, M3 2 (-2) (-2) 0 (-2) (-3) 0 2 (-3));
(0%nat, M3 2 (-2) (-2) 2 0 1 0 (-2) 3);
(0%nat, M3 (-2) (-2) 0 (-2) 1 2 (-2) 1 (-2));
(0%nat, M3 2 (-2) 2 1 1 4 (-1) (-1) 2);
(0%nat, M3 2 0 (-2) 1 2 2 1 (-2) 2);
(0%nat, M3 0 (-2) (-2) 2 (-3) 0 (-2) (-1) 2);
(5%nat, M3 2 0 2 0 (-1) 1 0 (-6) (-6));
(2%nat, M3 (-4) (-2) 2 (-2) 0 1 (-4) (-2) (-4));
(2%nat, M3 (-8) (-4) (-2) (-4) (-3) (-1) (-4) (-2) 2);
(4%nat, M3 0 0 2 2 1 1 0 6 0);
(2%nat, M3 (-8) (-4) (-2) (-4) (-1) (-1) 4 2 (-2));
(2%nat, M3 (-4) (-2) 2 (-2) (-2) 1 4 2 4);
(0%nat, M3 2 (-2) 2 0 (-2) 3 0 (-2) (-3));
(0%nat, M3 2 0 2 0 (-2) 3 2 (-2) (-1));
(0%nat, M3 (-2) 2 (-2) (-1) 3 2 1 1 (-2));
(0%nat, M3 (-2) 0 2 (-1) 2 4 (-1) 2 (-2));
(0%nat, M3 0 (-2) 2 2 (-2) (-1) 2 2 1);
(0%nat, M3 2 0 (-2) 2 (-2) 1 0 (-2) (-3));
(0%nat, M3 (-2) (-2) 0 0 (-3) (-1) 0 0 4);
(0%nat, M3 2 (-2) 0 1 0 3 (-2) (-2) 0);
(1%nat, M3 0 (-2) 0 3 (-1) (-1) 0 0 4);
(0%nat, M3 2 2 0 1 2 3 2 (-2) 0);
(0%nat, M3 (-2) 2 0 (-2) (-1) (-1) 0 0 4);
(2%nat, M3 0 (-2) 0 (-2) (-2) 3 (-4) (-2) 0);
(0%nat, M3 2 0 (-2) 0 (-1) (-4) 0 3 0);
(0%nat, M3 2 (-2) 0 1 0 4 (-1) (-2) 0);
(0%nat, M3 2 2 0 1 2 4 1 (-2) 0);
(0%nat, M3 2 0 2 2 (-1) (-2) 0 3 0);
(0%nat, M3 (-2) 2 (-2) 1 3 (-2) 1 (-1) (-2));
(0%nat, M3 2 (-2) 2 0 1 3 (-2) (-1) 1);
(0%nat, M3 2 0 (-2) 0 (-1) (-5) 0 2 (-2));
(1%nat, M3 0 2 0 1 1 (-5) (-2) 0 (-2));
(0%nat, M3 2 0 2 2 (-1) (-3) 0 2 (-2));
(0%nat, M3 0 (-2) (-2) 1 (-3) 2 (-2) 0 2);
(2%nat, M3 0 2 0 4 3 1 4 2 (-2));
(0%nat, M3 0 (-2) 4 1 1 4 (-2) 0 0);
(0%nat, M3 0 (-2) 4 1 0 7 (-1) 0 5);
(0%nat, M3 0 (-2) (-4) 1 (-2) 3 (-1) 0 5);
(0%nat, M3 0 (-2) (-4) 1 (-3) 1 (-1) (-1) 3);
(0%nat, M3 0 (-4) (-2) (-1) (-1) (-3) 1 1 (-3));
(0%nat, M3 0 (-4) (-2) 1 (-3) 2 (-1) (-1) 2);
(0%nat, M3 0 (-2) (-4) (-1) 1 (-5) 1 1 (-3));
(12%nat, M3 (-2) 0 0 0 (-2) 0 0 0 1);
(3%nat, M3 0 (-2) 0 0 (-1) 2 (-1) 0 0);
(12%nat, M3 (-2) 0 0 0 (-2) 0 0 0 2);
(6%nat, M3 0 0 2 0 (-2) 0 2 0 1);
(3%nat, M3 (-2) 0 0 (-1) (-2) 0 0 0 2);
(4%nat, M3 0 (-2) 0 0 (-1) 2 (-2) (-1) 0);
(6%nat, M3 0 2 0 0 0 (-2) (-2) 0 (-1));
(6%nat, M3 2 0 2 2 0 0 0 2 1);
(12%nat, M3 (-2) 0 0 0 (-2) 0 0 0 3);
(2%nat, M3 4 2 4 2 0 2 2 1 (-1));
(2%nat, M3 4 2 4 2 2 2 (-2) (-1) 1);
(3%nat, M3 (-2) 0 0 (-1) (-2) 0 0 0 3);
(1%nat, M3 (-2) 0 (-2) (-1) (-2) (-1) (-1) 0 2);
(1%nat, M3 2 0 (-2) 1 (-2) (-1) (-1) 0 (-2));
(2%nat, M3 (-2) 0 (-2) (-4) (-2) (-4) (-2) (-1) 1);
(11%nat, M3 (-4) 2 (-2) (-2) (-2) (-2) 0 0 1);
(2%nat, M3 (-2) 0 (-2) 2 2 2 2 1 (-1));
(1%nat, M3 0 (-2) 0 (-2) (-1) 2 (-1) 0 (-2));
(0%nat, M3 (-2) 0 (-2) (-1) (-2) (-1) (-1) (-1) 2);
(0%nat, M3 (-2) 0 (-2) (-1) 2 (-1) 1 1 (-2));
(2%nat, M3 (-2) (-2) (-2) (-4) (-2) (-4) 2 1 (-1));
(2%nat, M3 (-2) (-2) (-2) 2 0 2 (-2) (-1) 1);
(11%nat, M3 (-2) (-2) (-2) 2 (-4) 0 0 0 1);
(1%nat, M3 0 2 0 (-2) 1 2 1 0 2);
(0%nat, M3 2 0 2 1 (-2) 1 1 1 (-2));
(0%nat, M3 (-2) 0 (-2) (-1) 2 (-1) 1 (-1) (-2));
(12%nat, M3 (-2) 0 0 0 (-2) 0 0 0 4);
(6%nat, M3 0 4 2 2 2 2 0 0 (-2));
(3%nat, M3 (-2) 0 0 (-1) (-2) 0 0 0 4);
(4%nat, M3 0 (-2) 0 0 (-1) (-2) 4 2 0);
(6%nat, M3 (-2) (-2) (-2) 0 (-4) (-2) 0 0 2);
(6%nat, M3 2 (-2) 0 2 2 2 0 0 2);
(2%nat, M3 0 0 (-2) 0 (-2) (-1) (-4) (-2) 3);
(2%nat, M3 0 0 (-2) 0 2 (-1) 4 2 (-3));
(12%nat, M3 (-2) 0 0 0 (-2) 0 0 0 6);
(2%nat, M3 4 2 4 2 0 2 2 1 (-4));
(2%nat, M3 4 2 4 2 0 2 4 2 (-2));
(6%nat, M3 0 4 2 (-2) 2 0 0 0 3);
(2%nat, M3 4 2 4 2 2 2 (-4) (-2) 2);
(2%nat, M3 4 2 4 2 2 2 (-2) (-1) 4);
(3%nat, M3 (-2) 0 0 (-1) (-2) 0 0 0 6);
(1%nat, M3 (-2) 0 (-4) (-1) (-2) (-2) (-1) 0 4);
(1%nat, M3 2 0 (-4) 1 2 (-2) 2 0 2);
(4%nat, M3 (-4) (-2) 0 (-2) (-1) (-2) 0 (-3) 0);
(1%nat, M3 2 0 (-4) 1 (-2) (-2) (-2) 0 (-2));
(1%nat, M3 2 0 (-2) 1 (-2) (-1) (-1) 0 (-5));
(2%nat, M3 (-2) 0 (-2) (-4) (-2) (-4) (-2) (-1) 4);
(2%nat, M3 (-2) 0 (-4) (-2) (-2) (-4) (-2) (-1) 2);
(0%nat, M3 0 2 4 2 0 2 1 2 (-1));
(0%nat, M3 0 2 2 (-2) 2 0 (-1) (-2) 3);
(2%nat, M3 2 2 2 0 2 0 (-2) (-1) 4);
(2%nat, M3 (-2) 0 (-2) 2 2 2 2 1 (-4));
(2%nat, M3 (-2) 0 (-2) (-4) (-2) (-4) (-4) (-2) 2);
(0%nat, M3 (-2) 0 (-2) 0 (-2) (-4) (-1) (-2) 1);
(11%nat, M3 (-4) 2 (-2) (-2) (-2) (-2) 0 0 2);
(0%nat, M3 (-2) 0 (-2) (-2) 2 0 1 2 (-3));
(2%nat, M3 (-2) 0 (-2) 2 2 2 4 2 (-2));
(2%nat, M3 0 2 0 (-2) 0 (-4) (-2) (-1) 2);
(1%nat, M3 0 (-2) 0 (-2) (-1) 4 (-2) 0 (-2));
(0%nat, M3 (-2) 0 (-2) (-1) (-2) (-3) (-1) (-2) 3);
(0%nat, M3 (-2) 2 (-2) (-1) (-1) (-3) (-2) 0 2);
(2%nat, M3 0 (-2) 0 4 1 2 (-2) (-1) 2);
(0%nat, M3 (-2) (-2) (-2) (-3) (-1) 1 0 2 (-2));
(0%nat, M3 (-2) 0 (-2) (-1) 2 1 1 2 (-3));
(6%nat, M3 2 (-2) 0 0 (-4) (-2) 0 0 (-3));
(0%nat, M3 2 (-2) 0 0 (-2) (-2) 1 2 (-3));
(0%nat, M3 2 (-2) 0 2 0 2 (-1) (-2) 3);
(6%nat, M3 (-2) (-2) (-2) (-2) 2 0 0 0 (-3));
(0%nat, M3 (-2) (-2) (-2) (-2) 0 2 (-1) 2 (-1));
(0%nat, M3 (-2) 2 0 0 2 2 1 2 (-3));
(2%nat, M3 (-2) (-2) (-2) (-4) (-2) (-4) 4 2 (-2));
(2%nat, M3 0 (-2) 0 (-2) (-2) (-2) 2 1 (-4));
(2%nat, M3 (-2) (-2) (-2) 2 0 2 (-4) (-2) 2);
(0%nat, M3 2 0 (-2) 2 2 2 1 (-2) 1);
(11%nat, M3 (-2) (-2) (-2) 2 (-4) 0 0 0 2);
(0%nat, M3 2 0 2 0 2 4 (-1) (-2) 1);
(1%nat, M3 0 2 0 (-2) 1 2 2 0 4);
(0%nat, M3 2 (-2) 2 1 (-3) (-1) 1 1 (-3));
(0%nat, M3 2 (-2) 2 1 (-3) (-1) 2 0 (-2));
(2%nat, M3 0 2 0 (-4) (-1) (-2) (-2) (-1) 2);
(0%nat, M3 (-2) (-2) (-2) (-1) 1 (-3) 2 0 (-2));
(0%nat, M3 2 (-2) 2 1 1 3 (-1) (-1) 3);
(2%nat, M3 (-2) (-2) (-2) (-4) (-2) (-4) 2 1 (-4));
(2%nat, M3 (-2) (-2) (-2) 2 0 2 (-2) (-1) 4);
(2%nat, M3 2 0 4 0 (-2) 0 2 1 (-2));
(0%nat, M3 0 (-2) (-2) 2 (-2) 0 (-1) (-2) 3);
(0%nat, M3 0 (-2) (-4) (-2) 0 (-2) 1 2 (-1));
(2%nat, M3 (-2) 0 4 (-2) (-2) 4 2 1 2);
(12%nat, M3 (-2) 0 0 0 (-2) 0 0 0 12);
(2%nat, M3 4 2 8 2 0 4 4 2 (-4));
(2%nat, M3 4 2 8 2 0 4 8 4 4);
(6%nat, M3 0 4 2 (-2) 2 0 0 0 6);
(2%nat, M3 4 2 8 2 2 4 (-8) (-4) (-4));
(2%nat, M3 4 2 8 2 2 4 (-4) (-2) 4);
(3%nat, M3 (-2) 0 0 (-1) (-2) 0 0 0 12);
(1%nat, M3 2 0 (-6) 1 2 (-3) 2 0 6);
(1%nat, M3 2 0 (-6) 1 2 (-3) 4 0 0);
(4%nat, M3 4 2 0 2 1 (-2) 0 6 0);
(1%nat, M3 2 0 (-6) 1 (-2) (-3) (-4) 0 0);
(1%nat, M3 2 0 (-6) 1 (-2) (-3) (-2) 0 (-6));
(2%nat, M3 (-2) 0 (-4) (-4) (-2) (-8) (-4) (-2) 4);
(2%nat, M3 (-2) 0 (-6) (-2) (-2) (-6) (-4) (-2) 0);
(0%nat, M3 0 4 2 (-2) 4 (-2) (-2) 0 2);
(0%nat, M3 0 2 4 (-2) 4 0 (-2) (-2) 0);
(2%nat, M3 2 2 6 0 2 0 (-4) (-2) 0);
(2%nat, M3 (-2) 0 (-4) 2 2 4 4 2 (-4));
(0%nat, M3 (-2) 0 (-4) (-1) (-2) (-8) (-1) (-2) 4);
(0%nat, M3 0 2 4 2 (-1) 6 2 1 (-2));
(0%nat, M3 0 4 2 (-2) 4 (-1) (-2) 0 3);
(0%nat, M3 0 2 4 (-2) 3 0 (-2) (-3) 0);
(0%nat, M3 0 2 6 (-2) 3 1 (-2) (-1) 1);
(0%nat, M3 (-2) 0 (-4) (-1) 2 4 1 2 (-4));
(2%nat, M3 (-2) 0 (-4) (-4) (-2) (-8) (-8) (-4) (-4));
(0%nat, M3 2 (-4) 2 0 (-4) (-2) 2 0 (-2));
(11%nat, M3 (-4) 2 (-2) (-2) 4 0 0 0 (-4));
(0%nat, M3 2 (-4) 2 2 0 4 (-2) 0 2);
(2%nat, M3 (-2) 0 (-4) 2 2 4 8 4 4);
(2%nat, M3 0 2 0 (-2) 0 (-4) (-4) (-2) 4);
(1%nat, M3 0 (-2) 0 (-2) (-1) 4 (-4) 0 (-4));
(0%nat, M3 (-2) 2 (-2) (-1) (-1) (-5) (-2) (-2) 2);
(0%nat, M3 2 4 2 (-1) 4 1 0 0 4);
(2%nat, M3 0 (-2) 0 4 1 2 (-4) (-2) 4);
(0%nat, M3 2 (-4) (-2) 3 0 (-1) 0 0 4);
(0%nat, M3 (-2) 2 (-2) (-1) 3 3 2 2 (-2));
(6%nat, M3 2 (-2) 0 0 (-4) (-2) 0 0 (-6));
(0%nat, M3 2 (-4) 0 0 (-2) (-4) 2 2 0);
(0%nat, M3 (-2) 0 (-4) (-2) 4 (-2) 2 0 (-2));
(6%nat, M3 (-2) (-2) (-2) (-2) 2 0 0 0 (-6));
(0%nat, M3 2 (-2) (-4) 2 2 (-2) 2 (-2) 2);
(0%nat, M3 2 0 4 0 4 2 (-2) 0 2);
(2%nat, M3 (-8) (-4) (-2) (-4) 0 (-1) 8 4 (-1));
(2%nat, M3 (-8) (-4) 2 (-4) (-4) 1 0 0 3);
(2%nat, M3 (-4) (-2) (-2) (-2) 1 (-1) 2 1 (-5));
(2%nat, M3 4 2 2 2 (-1) 1 2 1 (-5));
(2%nat, M3 (-8) (-4) 2 (-4) 0 1 0 0 (-3));
(2%nat, M3 (-8) (-4) (-2) (-4) (-4) (-1) (-8) (-4) 1);
(2%nat, M3 (-2) (-2) (-4) (-4) (-2) (-8) 8 4 4);
(2%nat, M3 0 (-2) 0 (-2) (-2) (-6) 4 2 0);
(2%nat, M3 (-2) (-2) (-4) 2 0 4 (-8) (-4) (-4));
(0%nat, M3 (-2) (-2) 2 (-2) 2 4 (-2) 2 (-2));
(11%nat, M3 (-2) (-2) (-2) (-4) 2 (-2) 0 0 (-4));
(0%nat, M3 2 (-2) 4 0 2 4 (-2) (-2) 0);
(1%nat, M3 0 2 0 (-2) 1 4 4 0 4);
(0%nat, M3 2 (-2) 2 1 (-3) (-3) 2 2 (-2));
(0%nat, M3 (-2) (-4) (-2) (-3) 0 (-1) 0 0 (-4));
(2%nat, M3 0 2 0 (-4) (-1) (-2) (-4) (-2) 4);
(0%nat, M3 (-2) 4 2 1 4 1 0 0 (-4));
(0%nat, M3 2 (-2) 2 1 1 5 (-2) (-2) 2);
(2%nat, M3 (-2) (-2) (-4) (-4) (-2) (-8) 4 2 (-4));
(2%nat, M3 (-2) (-2) (-4) 2 0 4 (-4) (-2) 4);
(2%nat, M3 2 0 4 0 (-2) 0 4 2 (-4));
(0%nat, M3 0 (-4) (-2) (-2) 0 (-4) 2 0 (-2));
(0%nat, M3 0 (-2) (-4) (-2) 2 (-4) 2 2 0);
(2%nat, M3 (-2) 0 6 (-2) (-2) 6 4 2 0);
(0%nat, M3 2 (-2) 2 1 (-3) (-5) 1 1 (-5));
(0%nat, M3 2 0 (-4) 3 2 2 1 (-2) 2);
(0%nat, M3 0 (-4) (-2) (-2) 0 (-3) 2 0 (-3));
(0%nat, M3 0 (-2) (-4) (-2) 1 (-4) 2 3 0);
(0%nat, M3 0 (-2) (-6) (-2) 1 (-5) 2 1 (-1));
(0%nat, M3 2 (-2) 2 1 1 7 (-1) (-1) 5);
(1%nat, M3 (-2) 0 (-2) 0 0 (-3) 0 (-1) 0);
(3%nat, M3 0 (-2) 0 0 (-1) 3 (-1) 0 0);
(1%nat, M3 (-2) 0 2 (-2) 0 (-1) 0 (-1) 0);
(1%nat, M3 2 0 (-2) 0 0 (-3) 0 2 0);
(2%nat, M3 (-4) (-2) (-4) 0 0 (-3) 0 (-1) 0);
(3%nat, M3 2 0 0 1 0 (-3) 0 2 0);
(4%nat, M3 0 2 0 0 1 3 2 1 0);
(1%nat, M3 2 0 2 2 0 (-1) 0 2 0);
(2%nat, M3 (-4) (-2) 0 (-4) (-2) (-3) 0 (-1) 0);
(2%nat, M3 4 2 (-2) 6 3 0 0 (-1) 0);
(2%nat, M3 (-4) (-2) (-2) 0 0 (-3) 0 (-1) 0);
(4%nat, M3 0 0 (-2) 0 3 (-1) 2 1 0);
(5%nat, M3 2 2 0 1 4 3 1 0 1);
(2%nat, M3 (-4) (-2) (-2) 2 1 (-2) 0 (-1) 0);
(2%nat, M3 (-4) (-2) 2 (-4) (-2) (-1) 0 (-1) 0);
(1%nat, M3 (-2) 0 (-2) 0 0 (-3) 0 (-3) 0);
(0%nat, M3 2 (-2) (-2) 0 0 (-3) 1 2 (-1));
(0%nat, M3 2 (-2) 2 0 0 3 (-1) (-2) (-1));
(3%nat, M3 (-2) 0 0 (-1) (-3) 0 0 0 3);
(1%nat, M3 2 0 (-2) 1 3 (-1) 1 0 2);
(1%nat, M3 2 0 (-2) 1 (-3) (-1) (-1) 0 (-2));
(1%nat, M3 (-2) 0 2 (-2) 0 (-1) 0 (-3) 0);
(0%nat, M3 2 (-2) 2 2 (-2) (-1) 1 2 1);
(0%nat, M3 2 (-2) (-2) 2 (-2) 1 (-1) (-2) 1);
(1%nat, M3 (-2) 0 (-2) 0 0 (-3) 0 (-4) 0);
(2%nat, M3 4 2 0 0 0 3 0 (-2) 0);
(3%nat, M3 (-2) 0 0 (-1) (-3) 0 0 0 4);
(4%nat, M3 0 (-2) 0 0 (-1) (-3) 4 2 0);
(1%nat, M3 (-2) 0 2 (-2) 0 (-1) 0 (-4) 0);
(2%nat, M3 4 2 0 4 2 3 0 (-2) 0);
(0%nat, M3 (-2) (-2) 0 0 (-3) 0 0 (-1) 4);
(0%nat, M3 2 (-2) 2 0 (-3) 0 2 1 (-2));
(0%nat, M3 (-2) 0 (-2) (-1) (-3) (-1) (-1) (-1) 3);
(0%nat, M3 (-2) 0 (-2) (-1) 3 (-1) 1 1 (-3));
(0%nat, M3 (-2) 2 0 (-2) (-1) 0 0 (-1) 4);
(0%nat, M3 2 (-2) 2 2 (-2) (-1) 2 2 1);
(2%nat, M3 (-4) (-2) 2 (-6) (-3) 0 0 (-2) 0);
(2%nat, M3 (-4) (-2) 2 0 0 3 0 2 0);
(4%nat, M3 0 0 2 0 3 1 (-4) (-2) 0);
(5%nat, M3 2 0 2 1 (-3) (-2) 2 2 0);
(2%nat, M3 4 2 2 (-2) (-1) 2 0 (-2) 0);
(2%nat, M3 4 2 (-2) 4 2 1 0 (-2) 0);
(0%nat, M3 (-2) (-2) 0 0 (-3) 0 0 1 4);
(0%nat, M3 (-2) (-2) (-2) 0 (-3) 0 (-2) (-1) 2);
(0%nat, M3 (-2) 0 (-2) (-1) (-3) (-1) (-1) 1 3);
(0%nat, M3 (-2) 0 (-2) (-1) 3 (-1) 1 (-1) (-3));
(0%nat, M3 (-2) 2 0 (-2) (-1) 0 0 1 4);
(0%nat, M3 (-2) 2 (-2) (-2) (-1) (-2) (-2) (-1) 2);
(1%nat, M3 (-2) 0 (-2) 0 0 (-3) 0 (-6) 0);
(0%nat, M3 (-2) (-2) (-4) 0 (-3) (-3) (-1) (-1) 4);
(0%nat, M3 (-2) 0 (-4) 0 (-3) (-3) (-2) 0 2);
(2%nat, M3 (-4) (-2) (-4) 0 0 (-3) 0 (-3) 0);
(0%nat, M3 (-2) 0 (-4) 0 3 (-3) 2 0 (-2));
(0%nat, M3 (-2) 2 (-2) 0 3 0 1 (-1) (-5));
(3%nat, M3 (-2) 0 0 (-1) (-3) 0 0 0 6);
(1%nat, M3 (-2) 0 (-4) (-1) (-3) (-2) (-1) 0 4);
(1%nat, M3 (-2) 0 (-4) (-1) (-3) (-2) (-2) 0 2);
(4%nat, M3 (-4) (-2) 0 (-2) (-1) (-3) 0 (-3) 0);
(1%nat, M3 (-2) 0 (-4) (-1) 3 (-2) 2 0 (-2));
(1%nat, M3 (-2) 0 (-2) (-1) 3 (-1) 1 0 (-5));
(1%nat, M3 (-2) 0 2 (-2) 0 (-1) 0 (-6) 0);
(0%nat, M3 (-2) 2 (-4) (-2) (-1) (-1) (-1) 1 4);
(0%nat, M3 (-2) 0 (-4) (-2) (-3) (-1) (-2) 0 2);
(2%nat, M3 4 2 0 4 2 3 0 (-3) 0);
(0%nat, M3 (-2) 0 (-4) (-2) 3 (-1) 2 0 (-2));
(0%nat, M3 (-2) (-2) (-2) (-2) 1 (-2) 1 1 (-5));
(2%nat, M3 (-4) (-2) 2 (-6) (-3) 0 0 (-3) 0);
(0%nat, M3 2 (-2) 0 0 (-3) (-3) 1 2 (-3));
(0%nat, M3 2 (-2) 0 0 (-3) (-3) 2 1 (-3));
(2%nat, M3 (-4) (-2) 2 0 0 3 0 3 0);
(0%nat, M3 (-2) (-2) 0 (-3) 0 3 (-1) 2 (-3));
(0%nat, M3 (-2) 2 0 0 3 3 1 2 (-3));
(4%nat, M3 0 0 2 0 3 1 (-6) (-3) 0);
(2%nat, M3 (-4) (-2) (-2) (-2) 2 (-1) 4 2 (-1));
(2%nat, M3 (-4) (-2) (-2) (-2) 2 (-1) 2 1 (-2));
(5%nat, M3 2 2 0 1 4 3 3 0 3);
(2%nat, M3 (-4) (-2) (-2) (-2) (-4) (-1) (-2) (-1) 2);
(2%nat, M3 (-4) (-2) (-2) (-2) (-4) (-1) (-4) (-2) 1);
(2%nat, M3 4 2 2 (-2) (-1) 2 0 (-3) 0);
(0%nat, M3 (-2) 2 0 (-2) (-1) (-3) (-1) (-2) 3);
(0%nat, M3 (-2) 2 0 (-2) (-1) (-3) (-2) (-1) 3);
(2%nat, M3 4 2 (-2) 4 2 1 0 (-3) 0);
(0%nat, M3 2 (-2) 0 2 1 3 (-2) (-1) 3);
(0%nat, M3 2 (-2) 0 2 1 3 (-1) (-2) 3);
(1%nat, M3 (-2) 0 (-2) 0 0 (-3) 0 (-12) 0);
(0%nat, M3 (-2) 0 (-6) 0 (-3) (-3) (-2) 0 6);
(0%nat, M3 0 2 6 3 0 3 0 4 0);
(2%nat, M3 4 2 (-4) 0 0 (-3) 0 6 0);
(0%nat, M3 0 2 6 (-3) 0 3 0 (-4) 0);
(0%nat, M3 (-2) 0 (-6) 0 3 (-3) 2 0 (-6));
(3%nat, M3 (-2) 0 0 (-1) (-3) 0 0 0 12);
(1%nat, M3 (-2) 0 (-6) (-1) (-3) (-3) (-2) 0 6);
(1%nat, M3 2 0 (-6) 1 3 (-3) 4 0 0);
(4%nat, M3 4 2 0 2 1 (-3) 0 6 0);
(1%nat, M3 2 0 (-6) 1 (-3) (-3) (-4) 0 0);
(1%nat, M3 (-2) 0 (-6) (-1) 3 (-3) 2 0 (-6));
(1%nat, M3 (-2) 0 2 (-2) 0 (-1) 0 (-12) 0);
(0%nat, M3 (-2) 0 (-6) (-2) (-3) (-3) (-2) 0 6);
(0%nat, M3 0 2 6 3 2 3 0 4 0);
(2%nat, M3 (-4) (-2) 4 (-4) (-2) 1 0 (-6) 0);
(0%nat, M3 0 2 6 (-3) 2 3 0 (-4) 0);
(0%nat, M3 (-2) 0 (-6) (-2) 3 (-3) 2 0 (-6));
(0%nat, M3 (-2) (-2) (-4) 0 (-3) (-6) 0 (-3) 6);
(0%nat, M3 (-2) 0 (-4) 0 (-3) (-6) (-2) (-3) 2);
(0%nat, M3 (-4) 0 (-2) (-3) 3 0 1 3 (-4));
(0%nat, M3 2 (-4) 0 3 0 3 (-3) 0 3);
(0%nat, M3 (-2) 0 (-4) (-3) 3 0 1 3 (-4));
(0%nat, M3 (-2) (-2) (-4) (-3) 0 3 (-1) 2 (-5));
(0%nat, M3 (-2) 2 (-4) (-1) (-2) (-8) (-1) (-2) 4);
(0%nat, M3 (-2) 2 (-4) (-1) (-2) (-5) (-3) 0 3);
(0%nat, M3 4 (-2) 0 2 2 3 (-2) (-2) 3);
(0%nat, M3 2 (-4) 0 4 (-2) 3 (-2) (-2) 3);
(0%nat, M3 (-2) (-2) (-4) (-4) (-1) 1 0 3 (-3));
(0%nat, M3 (-2) 2 (-4) (-1) 4 4 1 2 (-4));
(0%nat, M3 (-2) 2 2 (-2) (-1) (-4) 0 (-3) 6);
(0%nat, M3 (-2) 2 (-4) (-2) (-1) (-7) (-2) (-1) 5);
(0%nat, M3 (-2) 0 (-4) 1 (-3) (-4) (-1) (-3) 4);
(0%nat, M3 4 (-2) 0 4 1 3 0 (-3) 3);
(0%nat, M3 (-4) 0 2 (-1) 3 5 (-1) 3 (-1));
(0%nat, M3 (-2) 0 (-4) (-2) 3 2 2 3 (-2));
(2%nat, M3 (-4) (-2) 2 (-6) (-3) 0 0 (-6) 0);
(0%nat, M3 2 (-4) (-2) 0 (-3) (-6) 2 2 (-2));
(0%nat, M3 2 (-4) (-2) 3 (-3) 3 (-2) (-2) 2);
(2%nat, M3 (-4) (-2) (-2) 0 0 (-3) 0 (-6) 0);
(0%nat, M3 (-2) (-4) (-2) (-3) (-3) 3 (-2) 2 (-2));
(0%nat, M3 (-2) 4 2 0 3 6 2 2 (-2));
(4%nat, M3 0 0 2 (-6) (-3) 1 0 (-6) 0);
(2%nat, M3 (-8) (-4) (-2) (-4) 1 (-1) 4 2 (-2));
(2%nat, M3 (-4) (-2) (-2) (-2) 2 (-1) 4 2 (-4));
(5%nat, M3 0 2 2 3 1 4 6 6 0);
(2%nat, M3 4 2 2 2 (-2) 1 4 2 (-4));
(2%nat, M3 (-8) (-4) (-2) (-4) (-5) (-1) (-4) (-2) 2);
(2%nat, M3 4 2 (-2) (-2) (-1) 4 0 (-6) 0);
(0%nat, M3 (-2) 4 2 (-2) 1 (-4) (-2) (-2) 2);
(0%nat, M3 (-2) 4 2 1 1 5 2 2 (-2));
(2%nat, M3 4 2 2 4 2 (-1) 0 6 0);
(0%nat, M3 2 (-4) (-2) (-1) (-1) (-5) 2 2 (-2));
(0%nat, M3 2 (-4) (-2) 2 (-1) 4 (-2) (-2) 2);
(0%nat, M3 2 (-2) (-2) 0 (-3) (-6) 0 3 (-6));
(0%nat, M3 2 (-2) 4 0 (-3) (-3) 2 1 (-5));
(0%nat, M3 2 0 (-4) 3 3 0 1 (-3) 4);
(0%nat, M3 (-4) 2 0 0 3 3 0 3 (-3));
(0%nat, M3 4 0 (-2) 3 3 3 1 (-3) 1);
(0%nat, M3 2 0 4 0 3 6 (-2) (-3) 2);
(0%nat, M3 2 (-2) 4 1 (-4) (-4) 1 2 (-4));
(0%nat, M3 2 (-2) 4 1 (-4) (-1) 3 0 (-3));
(0%nat, M3 (-4) 2 0 (-2) 4 3 2 2 (-3));
(0%nat, M3 (-4) (-2) 0 (-2) 2 3 (-2) 2 (-3));
(0%nat, M3 (-2) (-2) (-4) (-1) 2 (-5) 3 0 (-3));
(0%nat, M3 2 (-2) 4 1 2 8 (-1) (-2) 4);
(0%nat, M3 2 2 4 2 (-1) (-2) 0 3 (-6));
(0%nat, M3 2 0 4 2 (-3) (-2) 2 3 (-2));
(0%nat, M3 4 0 2 1 3 2 (-1) (-3) 4);
(0%nat, M3 (-4) (-2) 0 (-4) 1 3 0 3 (-3));
(0%nat, M3 2 0 4 (-1) 3 4 (-1) (-3) 4);
(0%nat, M3 2 (-2) 4 2 1 7 (-2) (-1) 5);
(3%nat, M3 0 (-2) 2 0 0 4 (-1) 0 0);
(3%nat, M3 0 (-2) (-2) 0 (-2) 2 (-1) 0 0);
(3%nat, M3 2 0 (-2) 0 0 (-4) 0 2 0);
(5%nat, M3 (-2) 0 2 0 4 4 (-1) 0 (-1));
(3%nat, M3 2 0 2 2 0 (-2) 0 2 0);
(5%nat, M3 (-2) (-4) (-2) (-2) 0 2 (-1) 0 (-1));
(3%nat, M3 2 0 (-2) 0 0 (-4) 0 3 0);
(0%nat, M3 2 (-2) (-2) 0 0 (-4) 1 2 (-1));
(0%nat, M3 2 (-2) 2 0 0 4 (-1) (-2) (-1));
(3%nat, M3 2 0 2 2 0 (-2) 0 3 0);
(0%nat, M3 2 (-2) 2 2 (-2) (-2) 1 2 1);
(0%nat, M3 2 (-2) (-2) 2 (-2) 2 (-1) (-2) 1);
(1%nat, M3 0 2 2 0 0 4 3 0 1);
(0%nat, M3 2 (-2) (-2) 0 0 (-4) 1 2 1);
(1%nat, M3 2 (-2) (-2) 0 (-4) 0 (-1) 0 (-2));
(1%nat, M3 0 2 (-2) 0 2 2 3 0 1);
(1%nat, M3 2 (-2) (-2) 2 2 (-2) 1 0 2);
(0%nat, M3 2 (-2) (-2) 2 (-2) 2 (-1) (-2) (-1));
(1%nat, M3 0 2 2 0 0 4 3 0 (-1));
(1%nat, M3 2 2 (-2) 0 4 0 1 0 2);
(0%nat, M3 2 (-2) 2 0 0 4 (-1) (-2) 1);
(1%nat, M3 0 2 (-2) 0 2 2 3 0 (-1));
(0%nat, M3 2 (-2) 2 2 (-2) (-2) 1 2 (-1));
(1%nat, M3 2 2 (-2) 2 (-2) (-2) (-1) 0 (-2));
(3%nat, M3 (-2) (-2) 0 0 (-4) 0 0 0 4);
(5%nat, M3 2 (-2) 0 0 (-4) (-4) 2 2 0);
(3%nat, M3 (-2) 2 0 (-2) (-2) 0 0 0 4);
(5%nat, M3 0 2 (-2) 4 2 2 0 (-2) (-2));
(3%nat, M3 (-2) (-2) 0 0 (-4) 0 0 0 6);
(0%nat, M3 (-2) (-2) (-2) 0 (-4) 0 (-1) (-1) 5);
(0%nat, M3 (-2) 0 (-4) 0 (-4) (-4) (-2) 0 2);
(5%nat, M3 2 (-2) 0 0 (-4) (-4) 3 3 0);
(0%nat, M3 (-2) 0 (-2) 0 4 0 2 0 (-4));
(0%nat, M3 (-2) 2 (-2) 0 4 0 1 (-1) (-5));
(3%nat, M3 (-2) 2 0 (-2) (-2) 0 0 0 6);
(0%nat, M3 (-2) 2 (-2) (-2) (-2) (-2) (-1) 1 5);
(0%nat, M3 (-2) 0 (-4) (-2) (-4) (-4) (-2) 0 2);
(5%nat, M3 0 2 (-2) 4 2 2 0 (-3) (-3));
(0%nat, M3 (-2) 0 (-2) (-2) 4 (-2) 2 0 (-4));
(0%nat, M3 (-2) (-2) (-2) (-2) 2 (-2) 1 1 (-5));
(1%nat, M3 (-2) (-2) 2 (-4) 0 4 (-2) 0 (-4));
(2%nat, M3 4 4 2 0 4 0 (-4) (-2) 1);
(0%nat, M3 2 (-4) 0 0 (-4) (-4) 2 0 (-2));
(2%nat, M3 0 (-2) (-2) 0 0 (-4) 6 3 1);
(1%nat, M3 (-2) 2 (-2) 0 4 0 2 0 (-4));
(0%nat, M3 (-2) 2 (-2) 0 4 0 1 1 (-5));
(1%nat, M3 2 (-2) (-2) (-2) (-2) 2 (-2) 0 (-4));
(0%nat, M3 (-2) 2 (-2) (-2) (-2) (-2) (-1) (-1) 5);
(1%nat, M3 (-2) 2 (-4) (-2) (-2) (-4) (-2) 0 2);
(2%nat, M3 0 (-2) 2 0 (-2) (-2) 6 3 1);
(0%nat, M3 (-2) (-2) (-2) (-2) 2 (-2) 2 (-2) (-4));
(2%nat, M3 4 4 2 4 0 2 4 2 (-1));
(1%nat, M3 (-2) 2 2 (-4) 0 4 2 0 4);
(0%nat, M3 2 (-2) 2 0 (-4) 0 1 1 (-5));
(1%nat, M3 2 (-2) 4 0 (-4) 0 2 0 (-2));
(2%nat, M3 0 (-2) (-2) 0 0 (-4) 6 3 (-1));
(0%nat, M3 (-2) 4 (-2) 0 4 0 2 0 (-4));
(2%nat, M3 4 0 2 0 (-4) 0 4 2 (-1));
(1%nat, M3 2 2 (-2) (-2) 2 2 2 0 4);
(2%nat, M3 (-4) (-4) (-2) (-4) 0 (-2) 4 2 (-1));
(0%nat, M3 (-2) 4 (-4) (-2) 0 (-4) (-2) 0 2);
(2%nat, M3 0 (-2) 2 0 (-2) (-2) 6 3 (-1));
(1%nat, M3 (-2) (-2) (-2) (-2) 2 (-2) 2 0 (-4));
(0%nat, M3 (-2) (-2) (-2) (-2) 2 (-2) 1 (-1) (-5));
(3%nat, M3 (-2) (-2) 0 0 (-4) 0 0 0 12);
(0%nat, M3 (-2) 0 (-6) 0 (-4) (-4) (-2) 0 6);
(0%nat, M3 0 2 6 4 0 4 0 4 0);
(5%nat, M3 0 2 (-2) (-4) 0 (-4) 0 6 6);
(0%nat, M3 0 2 6 (-4) 0 4 0 (-4) 0);
(0%nat, M3 (-2) 0 (-8) 0 4 (-4) 2 0 (-4));
(3%nat, M3 (-2) 2 0 (-2) (-2) 0 0 0 12);
(0%nat, M3 (-2) 0 (-6) (-2) (-4) (-2) (-2) 0 6);
(0%nat, M3 0 2 6 4 2 2 0 4 0);
(5%nat, M3 0 (-2) 2 (-4) (-2) (-2) 0 (-6) (-6));
(0%nat, M3 0 2 6 (-4) 2 2 0 (-4) 0);
(0%nat, M3 (-2) 0 (-8) (-2) 4 (-4) 2 0 (-4));
(1%nat, M3 (-2) (-2) 4 (-4) 0 8 (-4) 0 (-4));
(2%nat, M3 4 0 (-6) 0 (-4) 0 (-8) (-4) 6);
(0%nat, M3 4 (-2) (-2) 4 0 4 0 (-4) 0);
(2%nat, M3 (-4) 0 (-2) (-8) (-4) (-4) (-8) (-4) 2);
(1%nat, M3 (-2) (-2) 4 0 (-4) 0 4 0 4);
(0%nat, M3 (-2) 4 (-4) 0 4 4 2 0 (-4));
(1%nat, M3 2 (-2) (-4) (-2) (-2) 4 (-4) 0 (-4));
(0%nat, M3 (-2) 4 (-4) (-2) 0 (-8) (-2) 0 4);
(1%nat, M3 2 (-2) (-4) 2 2 (-4) 4 0 4);
(2%nat, M3 (-4) 0 (-2) 4 4 2 8 4 (-2));
(0%nat, M3 4 2 2 0 2 6 0 (-4) 0);
(2%nat, M3 4 0 (-6) 4 4 (-6) 8 4 (-6));
(1%nat, M3 (-2) 2 4 (-4) 0 8 4 0 4);
(0%nat, M3 2 (-4) 4 0 (-4) (-4) 2 0 (-4));
(1%nat, M3 (-2) 2 4 0 4 0 (-4) 0 (-4));
(2%nat, M3 4 0 2 8 4 4 (-8) (-4) 2);
(0%nat, M3 (-4) 2 2 (-4) 0 (-4) 0 (-4) 0);
(2%nat, M3 (-8) (-6) (-2) 0 (-4) 0 (-4) (-2) 2);
(1%nat, M3 2 2 (-4) (-2) 2 4 4 0 4);
(2%nat, M3 (-8) (-6) (-2) (-8) (-2) (-2) 4 2 (-2));
(0%nat, M3 (-4) 2 2 0 2 6 0 4 0);
(2%nat, M3 (-4) (-4) (-2) 4 0 2 (-8) (-4) 2);
(1%nat, M3 2 2 (-4) 2 (-2) (-4) (-4) 0 (-4));
(0%nat, M3 2 (-4) 4 2 0 8 (-2) 0 4);
(4%nat, M3 (-2) 2 0 0 6 0 0 0 (-1));
(3%nat, M3 0 (-2) 0 0 (-1) 6 (-1) 0 0);
(4%nat, M3 (-2) (-4) 0 (-2) 2 0 0 0 (-1));
(1%nat, M3 (-2) 0 4 (-3) 0 0 0 (-1) 0);
(12%nat, M3 (-2) 4 0 (-4) 2 0 0 0 1);
(1%nat, M3 (-2) 0 4 1 0 4 0 1 0);
(4%nat, M3 2 (-2) 0 0 (-6) 0 0 0 (-2));
(2%nat, M3 (-4) (-2) (-4) 0 0 (-6) 0 (-1) 0);
(3%nat, M3 2 0 0 1 0 (-6) 0 2 0);
(4%nat, M3 0 2 0 0 1 6 2 1 0);
(4%nat, M3 2 4 0 2 (-2) 0 0 0 (-2));
(2%nat, M3 (-4) (-2) 4 (-4) (-2) (-2) 0 (-1) 0);
(1%nat, M3 (-2) 0 4 (-3) 0 0 0 (-2) 0);
(2%nat, M3 (-4) (-2) 4 (-6) (-3) 0 0 (-1) 0);
(12%nat, M3 (-2) 4 0 (-4) 2 0 0 0 2);
(6%nat, M3 0 4 2 0 2 4 2 0 1);
(1%nat, M3 (-2) 0 4 1 0 4 0 2 0);
(2%nat, M3 (-4) (-2) (-4) 2 1 (-4) 0 (-1) 0);
(6%nat, M3 2 0 (-2) 0 0 (-6) 0 2 1);
(2%nat, M3 (-4) (-2) (-2) 0 0 (-6) 0 (-1) 0);
(6%nat, M3 2 0 4 2 0 (-2) 0 2 1);
(2%nat, M3 (-4) (-2) 2 (-4) (-2) (-4) 0 (-1) 0);
(6%nat, M3 0 (-2) (-4) 0 (-4) (-2) (-2) 0 (-1));
(6%nat, M3 (-2) 0 2 2 0 4 0 2 1);
(4%nat, M3 2 (-2) 0 0 (-6) 0 0 0 (-3));
(2%nat, M3 (-2) 2 (-2) 0 6 0 2 1 (-1));
(2%nat, M3 (-2) 2 2 0 6 0 (-2) (-1) (-1));
(3%nat, M3 2 0 0 1 0 (-6) 0 3 0);
(1%nat, M3 2 0 (-2) 1 6 (-1) 1 0 2);
(1%nat, M3 2 0 (-2) 1 (-6) (-1) (-1) 0 (-2));
(4%nat, M3 2 4 0 2 (-2) 0 0 0 (-3));
(2%nat, M3 (-2) (-4) (-2) (-2) 2 (-2) 2 1 (-1));
(2%nat, M3 (-2) (-4) 2 (-2) 2 2 (-2) (-1) (-1));
(1%nat, M3 2 0 4 3 0 0 0 3 0);
(0%nat, M3 2 0 4 3 0 0 1 3 (-1));
(0%nat, M3 2 0 4 3 0 0 (-1) 3 1);
(12%nat, M3 (-2) 4 0 (-4) 2 0 0 0 3);
(11%nat, M3 0 6 2 (-6) 6 (-2) 0 0 1);
(11%nat, M3 (-6) 0 (-4) (-6) 6 (-2) 0 0 (-1));
(1%nat, M3 2 0 4 (-1) 0 4 0 (-3) 0);
(0%nat, M3 2 0 4 (-1) 0 4 1 (-3) (-1));
(0%nat, M3 2 0 4 (-1) 0 4 (-1) (-3) 1);
(4%nat, M3 2 (-2) 0 0 (-6) 0 0 0 (-4));
(2%nat, M3 4 2 4 0 0 6 0 (-2) 0);
(3%nat, M3 2 0 0 1 0 (-6) 0 4 0);
(4%nat, M3 0 (-2) 0 0 (-1) (-6) 4 2 0);
(4%nat, M3 2 4 0 2 (-2) 0 0 0 (-4));
(2%nat, M3 4 2 (-4) 4 2 2 0 (-2) 0);
(1%nat, M3 2 0 4 3 0 0 0 4 0);
(2%nat, M3 4 2 (-4) 6 3 0 0 (-2) 0);
(12%nat, M3 (-2) 4 0 (-4) 2 0 0 0 4);
(6%nat, M3 (-4) 0 (-2) (-2) 0 (-4) 0 (-4) (-2));
(1%nat, M3 2 0 4 (-1) 0 4 0 (-4) 0);
(2%nat, M3 4 2 4 (-2) (-1) 4 0 (-2) 0);
(6%nat, M3 2 0 (-2) 0 0 (-6) 0 4 2);
(2%nat, M3 4 2 2 0 0 6 0 (-2) 0);
(2%nat, M3 0 0 (-2) 0 6 (-1) 4 2 3);
(2%nat, M3 0 0 (-2) 0 (-6) (-1) (-4) (-2) (-3));
(6%nat, M3 2 0 4 2 0 (-2) 0 4 2);
(2%nat, M3 4 2 (-2) 4 2 4 0 (-2) 0);
(0%nat, M3 2 0 4 3 0 0 1 4 0);
(0%nat, M3 2 (-2) (-4) 3 (-3) 0 (-1) (-3) 0);
(6%nat, M3 2 0 4 4 0 2 0 4 2);
(6%nat, M3 (-2) 0 2 2 0 4 0 4 2);
(0%nat, M3 2 0 4 (-1) 0 4 (-1) (-4) 0);
(0%nat, M3 2 0 4 (-1) 0 4 1 (-4) 0);
(4%nat, M3 (-2) 2 0 0 6 0 0 0 (-6));
(0%nat, M3 2 (-2) (-2) 0 0 (-6) 1 5 (-1));
(2%nat, M3 (-2) (-4) 4 0 (-6) 0 4 2 (-2));
(2%nat, M3 4 2 4 0 0 6 0 (-3) 0);
(2%nat, M3 (-2) 2 2 0 6 0 (-4) (-2) (-2));
(0%nat, M3 2 (-2) 2 0 0 6 (-1) (-5) (-1));
(3%nat, M3 (-2) 0 0 (-1) (-6) 0 0 0 6);
(1%nat, M3 2 0 (-4) 1 6 (-2) 1 0 4);
(1%nat, M3 2 0 (-4) 1 6 (-2) 2 0 2);
(4%nat, M3 (-4) (-2) 0 (-2) (-1) (-6) 0 (-3) 0);
(1%nat, M3 2 0 (-4) 1 (-6) (-2) (-2) 0 (-2));
(1%nat, M3 2 0 (-2) 1 (-6) (-1) (-1) 0 (-5));
(4%nat, M3 (-2) (-4) 0 (-2) 2 0 0 0 (-6));
(0%nat, M3 2 (-2) 2 2 (-2) (-4) 1 5 1);
(2%nat, M3 (-2) 2 4 (-2) (-4) 4 4 2 (-2));
(2%nat, M3 4 2 (-4) 4 2 2 0 (-3) 0);
(2%nat, M3 (-2) (-4) 2 (-2) 2 2 (-4) (-2) (-2));
(0%nat, M3 2 (-2) (-2) 2 (-2) 4 (-1) (-5) 1);
(1%nat, M3 (-2) 0 4 (-3) 0 0 0 (-6) 0);
(0%nat, M3 (-2) 4 (-4) (-3) 0 0 (-1) 2 4);
(0%nat, M3 2 (-4) (-2) 3 0 (-3) 2 2 4);
(2%nat, M3 4 2 (-4) 6 3 0 0 (-3) 0);
(0%nat, M3 (-2) (-4) (-2) (-3) 0 (-3) 2 (-2) (-4));
(0%nat, M3 (-2) (-2) (-2) (-3) 3 (-3) 1 1 (-5));
(12%nat, M3 (-2) 4 0 (-4) 2 0 0 0 6);
(2%nat, M3 (-4) (-2) 4 (-2) 2 2 (-2) (-1) (-4));
(11%nat, M3 (-6) 6 (-2) 0 6 2 0 0 (-2));
(6%nat, M3 4 0 2 2 0 4 0 (-6) (-3));
(11%nat, M3 0 (-6) (-2) 6 (-6) 2 0 0 2);
(2%nat, M3 (-4) (-2) 4 (-2) (-4) 2 2 1 4);
(1%nat, M3 (-2) 0 4 1 0 4 0 6 0);
(0%nat, M3 (-2) 2 4 1 5 4 (-1) 1 (-4));
(0%nat, M3 2 4 2 (-1) 4 5 2 (-2) 2);
(2%nat, M3 (-4) (-2) 4 2 1 4 0 3 0);
(0%nat, M3 2 (-4) 2 (-1) (-4) 5 (-2) (-2) (-2));
(0%nat, M3 (-2) (-2) 2 1 (-5) (-1) 1 1 5);
(6%nat, M3 2 0 (-2) 0 0 (-6) 0 6 3);
(0%nat, M3 (-2) (-4) (-2) 0 (-6) 0 (-1) 1 5);
(2%nat, M3 2 (-2) 4 0 (-6) 0 2 1 (-2));
(2%nat, M3 4 2 2 0 0 6 0 (-3) 0);
(2%nat, M3 2 (-2) (-2) 0 (-6) 0 (-2) (-1) (-4));
(0%nat, M3 2 (-2) 4 0 0 6 (-1) (-5) 1);
(6%nat, M3 2 0 4 2 0 (-2) 0 6 3);
(0%nat, M3 (-2) 4 (-2) (-2) (-2) (-2) (-1) (-1) 5);
(2%nat, M3 2 4 4 2 (-2) 4 2 1 (-2));
(2%nat, M3 4 2 (-2) 4 2 4 0 (-3) 0);
(2%nat, M3 2 4 (-2) 2 (-2) (-2) (-2) (-1) (-4));
(0%nat, M3 2 (-2) (-4) 2 (-2) 2 (-1) (-5) (-1));
(6%nat, M3 (-2) 0 (-4) (-4) 0 (-2) 0 6 3);
(2%nat, M3 2 4 2 (-2) 2 (-2) (-2) (-1) 4);
(2%nat, M3 (-2) 2 (-2) (-4) (-2) (-4) (-2) (-1) 4);
(6%nat, M3 (-2) 0 2 2 0 4 0 6 3);
(2%nat, M3 2 (-2) 2 4 2 4 (-2) (-1) 4);
(2%nat, M3 (-2) 2 2 2 4 (-2) (-2) (-1) (-4));
(4%nat, M3 (-2) 2 0 0 6 0 0 0 (-12));
(0%nat, M3 (-2) (-2) (-8) 0 (-6) (-6) (-2) (-2) 4);
(2%nat, M3 6 0 4 0 (-6) 0 0 0 (-4));
(2%nat, M3 (-4) (-2) (-4) 0 0 (-6) 0 (-6) 0);
(2%nat, M3 6 0 (-4) 0 (-6) 0 0 0 (-4));
(0%nat, M3 (-2) 2 (-8) 0 6 (-6) 2 (-2) (-4));
(3%nat, M3 (-2) 0 0 (-1) (-6) 0 0 0 12);
(1%nat, M3 (-2) 0 (-6) (-1) (-6) (-3) (-2) 0 6);
(1%nat, M3 2 0 (-6) 1 6 (-3) 4 0 0);
(4%nat, M3 (-4) (-2) 0 (-2) (-1) (-6) 0 (-6) 0);
(1%nat, M3 2 0 (-6) 1 (-6) (-3) (-4) 0 0);
(1%nat, M3 (-2) 0 (-6) (-1) 6 (-3) 2 0 (-6));
(4%nat, M3 (-2) (-4) 0 (-2) 2 0 0 0 (-12));
(0%nat, M3 (-2) 2 (-8) (-2) (-4) (-2) (-2) 2 4);
(2%nat, M3 6 0 (-4) 6 6 (-4) 0 0 4);
(2%nat, M3 (-4) (-2) 4 (-4) (-2) (-2) 0 (-6) 0);
(2%nat, M3 6 0 4 6 6 4 0 0 4);
(0%nat, M3 (-2) (-2) (-8) (-2) 4 (-2) 2 2 (-4));
(1%nat, M3 (-2) 0 4 (-3) 0 0 0 (-12) 0);
(0%nat, M3 (-2) 2 (-6) (-3) (-3) (-3) (-2) 2 6);
(0%nat, M3 2 (-6) 2 3 (-3) (-3) 4 0 4);
(2%nat, M3 4 2 4 6 3 0 0 6 0);
(0%nat, M3 2 (-6) (-2) 3 (-3) 3 (-4) 0 4);
(0%nat, M3 (-2) (-2) (-6) (-3) 3 (-3) 2 2 (-6));
(12%nat, M3 (-2) 4 0 (-4) 2 0 0 0 12);
(2%nat, M3 (-4) (-2) 8 (-2) 2 4 (-4) (-2) (-4));
(11%nat, M3 (-6) 6 (-2) 0 6 2 0 0 (-4));
(6%nat, M3 0 (-4) (-2) (-6) (-2) (-4) 0 0 (-6));
(11%nat, M3 0 (-6) (-2) 6 (-6) 2 0 0 4);
(2%nat, M3 (-4) (-2) (-8) (-2) 2 (-4) 4 2 (-4));
(1%nat, M3 (-2) 0 4 1 0 4 0 12 0);
(0%nat, M3 (-2) 2 6 1 5 3 (-2) 2 (-6));
(0%nat, M3 2 6 2 (-1) 3 5 4 0 4);
(2%nat, M3 (-4) (-2) (-4) 2 1 (-4) 0 (-6) 0);
(0%nat, M3 2 (-6) 2 (-1) (-3) 5 (-4) 0 (-4));
(0%nat, M3 (-2) 2 (-6) 1 5 (-3) 2 (-2) (-6));
(6%nat, M3 2 (-6) (-2) 0 (-12) (-6) 0 0 (-6));
(0%nat, M3 2 (-4) 2 0 (-6) (-6) 2 2 (-4));
(2%nat, M3 2 4 (-4) 0 6 0 4 2 4);
(2%nat, M3 (-4) (-2) (-2) 0 0 (-6) 0 (-6) 0);
(2%nat, M3 (-2) (-4) 4 0 (-6) 0 4 2 4);
(0%nat, M3 (-2) 4 (-2) 0 6 6 2 2 (-4));
(2%nat, M3 (-8) (-4) (-2) (-4) 4 (-1) 8 4 (-1));
(2%nat, M3 (-4) (-2) 6 (-2) (-7) 3 6 3 (-3));
(2%nat, M3 4 2 2 2 7 1 (-2) (-1) 5);
(2%nat, M3 4 2 (-2) 2 7 (-1) 2 1 5);
(2%nat, M3 (-4) (-2) 6 (-2) 5 3 (-6) (-3) 3);
(2%nat, M3 (-8) (-4) (-2) (-4) (-8) (-1) (-8) (-4) 1);
(6%nat, M3 2 6 4 2 (-6) (-2) 0 0 (-6));
(0%nat, M3 (-2) 4 (-2) (-2) (-2) (-8) (-2) (-2) 4);
(2%nat, M3 2 4 4 2 (-2) 4 4 2 (-4));
(2%nat, M3 (-4) (-2) 2 (-4) (-2) (-4) 0 (-6) 0);
(2%nat, M3 (-2) 2 4 (-2) (-4) 4 4 2 4);
(0%nat, M3 2 (-4) 2 2 2 8 (-2) (-2) 4);
(0%nat, M3 (-2) 4 2 (-3) 0 (-3) (-1) (-4) 7);
(0%nat, M3 (-2) 4 (-4) (-3) 0 (-6) (-3) 0 6);
(0%nat, M3 (-2) 2 4 3 3 6 1 5 (-2));
(0%nat, M3 2 4 (-2) (-3) 6 (-3) 1 2 5);
(0%nat, M3 2 (-4) 4 3 0 6 (-3) 0 6);
(0%nat, M3 2 (-4) (-2) 3 0 3 (-1) (-4) 7);
(6%nat, M3 2 6 4 4 0 2 0 0 (-6));
(2%nat, M3 2 4 4 (-2) 2 (-4) (-4) (-2) 4);
(2%nat, M3 (-2) 2 (-4) (-4) (-2) (-8) (-4) (-2) 4);
(6%nat, M3 2 (-6) (-2) (-2) (-6) (-4) 0 0 (-6));
(2%nat, M3 2 (-2) 4 4 2 8 (-4) (-2) 4);
(2%nat, M3 (-2) (-4) (-4) 2 (-2) 4 (-4) (-2) 4);
(0%nat, M3 2 4 4 5 (-2) 4 1 2 (-4));
(0%nat, M3 (-4) (-2) (-4) (-4) 1 2 0 3 (-6));
(0%nat, M3 (-2) 4 2 1 4 5 1 4 (-7));
(0%nat, M3 2 4 2 (-1) 4 5 1 (-4) 7);
(0%nat, M3 4 (-2) (-4) 4 1 2 0 (-3) 6);
(0%nat, M3 2 (-4) 4 5 2 4 (-1) 2 4);
(3%nat, M3 0 (-2) 6 0 0 12 (-1) 0 0);
(3%nat, M3 0 (-2) (-6) 0 (-2) 6 (-1) 0 0);
(3%nat, M3 0 (-2) (-6) 0 (-4) 0 (-1) 0 0);
(1%nat, M3 (-4) 0 2 0 0 6 0 1 0);
(1%nat, M3 (-4) 0 (-2) (-4) 0 4 0 1 0);
(3%nat, M3 0 (-2) (-6) 0 2 (-6) 1 0 0);
(3%nat, M3 2 0 (-6) 0 0 (-12) 0 2 0);
(5%nat, M3 (-2) 4 6 0 12 12 (-1) 0 (-1));
(3%nat, M3 2 0 6 2 0 (-6) 0 2 0);
(5%nat, M3 (-2) (-8) (-6) (-2) 4 6 (-1) 0 (-1));
(3%nat, M3 0 (-2) (-6) 0 (-4) 0 (-2) 0 0);
(5%nat, M3 (-2) (-8) (-6) (-4) (-4) 0 (-1) 0 (-1));
(1%nat, M3 (-4) 0 2 0 0 6 0 2 0);
(2%nat, M3 (-4) (-2) 4 (-12) (-6) 0 0 (-1) 0);
(1%nat, M3 (-4) 0 (-2) (-4) 0 4 0 2 0);
(2%nat, M3 4 2 (-4) (-8) (-4) (-4) 0 1 0);
(3%nat, M3 0 (-2) (-6) 0 2 (-6) 2 0 0);
(5%nat, M3 4 6 (-2) 8 6 2 0 (-1) (-1));
(3%nat, M3 2 0 (-6) 0 0 (-12) 0 3 0);
(1%nat, M3 2 6 (-2) 0 12 0 1 0 2);
(1%nat, M3 2 (-6) (-2) 0 (-12) 0 (-1) 0 (-2));
(3%nat, M3 2 0 6 2 0 (-6) 0 3 0);
(1%nat, M3 2 (-6) (-2) 2 6 (-2) 1 0 2);
(1%nat, M3 2 6 (-2) 2 (-6) (-2) (-1) 0 (-2));
(3%nat, M3 0 (-2) (-6) 0 (-4) 0 (-3) 0 0);
(1%nat, M3 0 6 (-2) 0 0 (-4) (-3) 0 (-1));
(1%nat, M3 0 6 (-2) 0 0 (-4) (-3) 0 1);
(1%nat, M3 (-4) 0 2 0 0 6 0 3 0);
(0%nat, M3 0 (-4) (-2) 0 0 (-6) 3 1 (-1));
(0%nat, M3 0 (-4) (-2) 0 0 (-6) 3 (-1) 1);
(1%nat, M3 (-4) 0 (-2) (-4) 0 4 0 3 0);
(0%nat, M3 0 (-4) 2 0 (-4) (-4) 3 1 1);
(0%nat, M3 0 (-4) 2 0 (-4) (-4) 3 (-1) (-1));
(3%nat, M3 0 (-2) (-6) 0 2 (-6) 3 0 0);
(1%nat, M3 0 6 (-2) 0 6 2 3 0 (-1));
(1%nat, M3 0 6 (-2) 0 6 2 3 0 1);
(3%nat, M3 2 0 (-6) 0 0 (-12) 0 4 0);
(5%nat, M3 2 (-6) (-4) 0 (-12) (-12) 2 2 0);
(3%nat, M3 2 0 6 2 0 (-6) 0 4 0);
(5%nat, M3 2 6 8 2 (-6) (-4) 2 2 0);
(3%nat, M3 2 0 6 4 0 0 0 4 0);
(5%nat, M3 2 6 8 4 0 4 2 2 0);
(1%nat, M3 (-4) 0 2 0 0 6 0 4 0);
(2%nat, M3 (-4) (-2) 4 (-12) (-6) 0 0 (-2) 0);
(1%nat, M3 (-4) 0 (-2) (-4) 0 4 0 4 0);
(2%nat, M3 4 2 (-4) (-8) (-4) (-4) 0 2 0);
(3%nat, M3 2 0 6 (-2) 0 6 0 (-4) 0);
(5%nat, M3 4 6 (-2) 8 6 2 0 (-2) (-2));
(3%nat, M3 2 0 (-6) 0 0 (-12) 0 6 0);
(2%nat, M3 4 (-4) 2 0 (-12) 0 (-4) (-2) (-5));
(1%nat, M3 2 6 (-4) 0 12 0 2 0 2);
(5%nat, M3 2 (-6) (-4) 0 (-12) (-12) 3 3 0);
(1%nat, M3 2 (-6) (-2) 0 (-12) 0 (-2) 0 (-4));
(2%nat, M3 4 (-4) (-2) 0 (-12) 0 4 2 (-5));
(3%nat, M3 2 0 6 2 0 (-6) 0 6 0);
(2%nat, M3 4 (-4) (-2) 4 8 (-2) (-4) (-2) 5);
(1%nat, M3 2 (-6) (-4) 2 6 (-4) 2 0 2);
(5%nat, M3 (-4) 2 (-6) 8 2 6 0 (-3) (-3));
(1%nat, M3 2 6 (-2) 2 (-6) (-2) (-2) 0 (-4));
(2%nat, M3 4 (-4) 2 4 8 2 4 2 5);
(3%nat, M3 2 0 6 4 0 0 0 6 0);
(2%nat, M3 0 6 2 0 0 4 6 3 1);
(1%nat, M3 2 (-6) (-2) 4 0 (-4) 2 0 4);
(5%nat, M3 2 6 8 4 0 4 3 3 0);
(1%nat, M3 2 6 (-2) 4 0 (-4) (-2) 0 (-4));
(2%nat, M3 0 6 2 0 0 4 6 3 (-1));
(1%nat, M3 (-4) 0 2 0 0 6 0 6 0);
(0%nat, M3 (-4) 2 4 0 6 0 (-2) 1 (-4));
(0%nat, M3 (-4) 2 (-4) 0 6 0 2 2 (-4));
(2%nat, M3 4 2 4 12 6 0 0 3 0);
(0%nat, M3 (-4) 2 4 0 6 0 (-2) (-2) (-4));
(0%nat, M3 (-4) 2 (-4) 0 6 0 2 (-1) (-4));
(1%nat, M3 (-4) 0 (-2) (-4) 0 4 0 6 0);
(0%nat, M3 (-4) (-2) 4 (-4) 4 4 (-2) (-1) (-4));
(0%nat, M3 (-4) (-2) (-4) (-4) 4 (-4) 2 (-2) (-4));
(2%nat, M3 4 2 (-4) (-8) (-4) (-4) 0 3 0);
(0%nat, M3 (-4) (-2) 4 (-4) 4 4 (-2) 2 (-4));
(0%nat, M3 (-4) (-2) (-4) (-4) 4 (-4) 2 1 (-4));
(3%nat, M3 2 0 6 (-2) 0 6 0 (-6) 0);
(2%nat, M3 0 6 2 0 6 (-2) (-6) (-3) 1);
(1%nat, M3 2 (-6) 2 (-2) (-6) (-2) 2 0 (-4));
(5%nat, M3 (-6) (-2) (-8) (-6) 2 (-4) 3 3 0);
(1%nat, M3 2 (-6) (-2) (-2) (-6) 2 (-2) 0 (-4));
(2%nat, M3 0 6 2 0 6 (-2) (-6) (-3) (-1));
(3%nat, M3 (-2) (-6) 0 0 (-12) 0 0 0 12);
(2%nat, M3 (-4) (-8) 6 0 (-12) 0 8 4 (-6));
(1%nat, M3 2 6 (-4) 0 12 0 4 0 4);
(5%nat, M3 (-6) (-8) (-2) (-12) (-12) 0 (-6) 0 (-6));
(1%nat, M3 2 (-6) (-4) 0 (-12) 0 (-4) 0 (-4));
(2%nat, M3 (-4) (-8) (-6) 0 (-12) 0 (-8) (-4) (-6));
(3%nat, M3 (-2) 6 0 (-2) (-6) 0 0 0 12);
(2%nat, M3 (-4) 4 6 (-4) (-8) 6 8 4 (-6));
(1%nat, M3 2 (-6) (-4) 2 6 (-4) 4 0 4);
(5%nat, M3 6 4 (-2) (-6) (-8) (-2) (-6) 0 (-6));
(1%nat, M3 2 6 (-4) 2 (-6) (-4) (-4) 0 (-4));
(2%nat, M3 8 (-2) 6 8 10 6 4 2 6);
(3%nat, M3 (-2) 6 0 (-4) 0 0 0 0 12);
(2%nat, M3 (-4) (-8) (-2) (-8) (-4) (-4) 8 4 (-2));
(1%nat, M3 2 (-6) (-4) 4 0 (-8) 4 0 4);
(5%nat, M3 2 (-4) (-6) 4 4 0 6 0 6);
(1%nat, M3 (-2) (-6) (-4) (-4) 0 (-8) 4 0 (-4));
(2%nat, M3 4 8 2 8 4 4 8 4 (-2));
(1%nat, M3 (-4) 0 2 0 0 6 0 12 0);
(0%nat, M3 (-2) 4 (-6) (-6) 0 (-6) (-2) 4 6);
(0%nat, M3 4 (-6) (-2) 0 (-6) 6 (-4) 0 (-4));
(2%nat, M3 (-4) (-2) (-4) (-12) (-6) 0 0 6 0);
(0%nat, M3 (-4) 6 2 0 6 (-6) (-4) 0 (-4));
(0%nat, M3 (-2) (-4) (-6) (-6) 0 (-6) 2 4 (-6));
(1%nat, M3 (-4) 0 (-2) (-4) 0 4 0 12 0);
(0%nat, M3 (-4) (-2) 6 (-4) 4 0 (-4) (-2) (-6));
(0%nat, M3 (-4) (-6) (-2) (-4) 0 (-8) 4 0 (-4));
(2%nat, M3 (-4) (-2) 4 8 4 4 0 6 0);
(0%nat, M3 4 6 2 4 0 8 4 0 (-4));
(0%nat, M3 (-2) (-4) 6 4 (-4) 0 2 4 6);
(3%nat, M3 (-2) 6 0 2 6 0 0 0 (-12));
(2%nat, M3 (-4) (-8) 2 4 (-4) (-2) 8 4 2);
(1%nat, M3 2 6 (-4) (-2) 6 4 4 0 4);
(5%nat, M3 (-4) 2 (-6) (-8) (-2) (-6) 0 6 6);
(1%nat, M3 2 6 4 (-2) 6 (-4) (-4) 0 4);
(2%nat, M3 4 8 (-2) (-4) 4 2 8 4 2);
(4%nat, M3 0 3 0 (-1) 1 0 0 0 1);
(4%nat, M3 0 3 0 (-1) 1 0 0 0 2);
(6%nat, M3 0 0 3 (-1) 0 1 0 (-2) (-1));
(2%nat, M3 0 0 (-3) (-2) (-1) (-2) 0 1 0);
(2%nat, M3 0 0 (-3) (-2) (-1) (-1) 0 1 0);
(4%nat, M3 0 (-3) 0 1 (-1) 0 0 0 3);
(2%nat, M3 0 3 0 1 2 (-2) (-2) (-1) 1);
(2%nat, M3 0 (-3) 0 1 (-1) (-1) 2 1 1);
(4%nat, M3 0 (-3) 0 1 (-1) 0 0 0 4);
(2%nat, M3 6 3 0 3 1 0 2 1 (-4));
(6%nat, M3 0 6 3 (-1) 3 1 0 0 2);
(2%nat, M3 6 3 0 3 1 0 (-2) (-1) (-4));
(0%nat, M3 0 0 3 (-1) 2 1 (-1) (-2) 1);
(0%nat, M3 0 3 0 (-1) 2 (-2) (-1) (-1) 2);
(0%nat, M3 0 3 0 (-1) 2 (-2) (-1) 0 2);
(0%nat, M3 0 3 0 1 1 2 1 0 (-2));
(2%nat, M3 0 0 3 (-2) (-1) 2 0 (-2) 0);
(2%nat, M3 0 (-3) 0 1 (-1) (-2) 2 1 0);
(2%nat, M3 0 0 3 (-2) (-1) 1 0 (-2) 0);
(2%nat, M3 0 3 0 (-1) 1 1 2 1 2);
(0%nat, M3 0 0 (-3) (-1) 2 (-1) 1 2 1);
(0%nat, M3 0 (-3) 0 1 (-1) 2 (-1) 0 2);
(0%nat, M3 0 (-3) 0 1 (-2) 2 (-1) 0 2);
(0%nat, M3 0 (-3) 0 1 (-2) 2 (-1) (-1) 2);
(4%nat, M3 0 (-3) 0 1 (-1) 0 0 0 6);
(6%nat, M3 0 6 3 (-1) 3 1 0 0 3);
(0%nat, M3 0 3 3 1 1 4 1 1 (-2));
(0%nat, M3 0 3 3 (-1) 2 (-1) (-1) (-1) 2);
(2%nat, M3 0 3 0 (-3) 0 (-2) 0 0 2);
(2%nat, M3 0 (-3) 0 (-1) (-2) 2 (-2) (-1) (-2));
(2%nat, M3 0 0 3 2 1 2 0 3 0);
(2%nat, M3 0 0 3 2 1 1 0 3 0);
(2%nat, M3 0 3 0 (-3) 0 2 0 0 2);
(2%nat, M3 0 3 0 1 2 (-2) (-2) (-1) (-2));
(0%nat, M3 0 (-3) 3 1 (-1) 4 (-1) 1 2);
(0%nat, M3 0 (-3) (-3) 1 (-2) 1 (-1) (-1) 2);
(4%nat, M3 0 (-3) 0 1 (-1) 0 0 0 12);
(2%nat, M3 6 3 6 3 1 3 6 3 (-6));
(6%nat, M3 0 6 3 (-1) 3 1 0 0 6);
(2%nat, M3 6 3 6 3 2 3 (-6) (-3) 6);
(0%nat, M3 0 3 3 1 1 7 1 1 (-5));
(0%nat, M3 0 3 6 1 (-1) 5 1 2 (-1));
(0%nat, M3 0 3 6 (-1) 4 1 (-1) (-2) 1);
(0%nat, M3 0 3 3 (-1) 2 (-4) (-1) (-1) 5);
(0%nat, M3 0 3 3 1 0 5 2 0 (-2));
(2%nat, M3 0 (-3) 0 5 1 1 (-2) (-1) 2);
(0%nat, M3 0 3 3 (-1) 3 (-2) (-2) 0 2);
(2%nat, M3 0 (-3) 0 (-1) (-2) 5 (-2) (-1) (-2));
(0%nat, M3 (-3) 0 (-3) 0 (-1) (-4) 0 (-3) 0);
(0%nat, M3 (-3) 0 (-3) (-3) 1 1 0 3 0);
(0%nat, M3 (-3) 0 0 (-2) 1 4 0 3 0);
(0%nat, M3 (-3) 0 0 (-1) 1 4 0 3 0);
(2%nat, M3 0 (-3) 0 (-3) (-3) (-1) 0 0 (-4));
(0%nat, M3 3 0 0 2 3 1 (-1) 0 4);
(2%nat, M3 0 3 0 1 2 3 4 2 0);
(0%nat, M3 3 0 0 1 3 1 1 0 4);
(0%nat, M3 0 (-3) 0 2 0 3 (-2) 0 3);
(0%nat, M3 3 0 (-3) 2 2 1 1 (-2) 2);
(0%nat, M3 0 (-3) 3 2 (-1) 4 (-2) 1 2);
(0%nat, M3 0 (-3) (-3) 2 (-3) 0 (-2) 0 3);
(2%nat, M3 0 0 3 2 1 2 0 6 0);
(2%nat, M3 0 3 0 1 2 2 6 3 0);
(2%nat, M3 0 0 3 2 1 1 0 6 0);
(2%nat, M3 0 3 0 (-1) 1 2 6 3 0);
(0%nat, M3 0 (-3) (-3) 2 0 (-3) 2 0 3);
(0%nat, M3 0 (-3) (-3) (-2) (-3) 0 (-2) 0 (-3));
(0%nat, M3 (-3) 0 3 (-1) 2 4 (-1) 2 (-2));
(0%nat, M3 0 (-3) 3 2 (-2) (-1) 2 1 2);
(2%nat, M3 0 3 0 (-3) 0 (-1) 0 0 4);
(0%nat, M3 (-3) 0 0 (-1) 3 1 1 0 (-4));
(2%nat, M3 0 (-3) 0 (-1) (-2) (-3) 4 2 0);
(0%nat, M3 (-3) 0 0 (-2) (-3) (-1) (-1) 0 4);
(0%nat, M3 3 0 (-3) 0 (-1) (-4) 0 3 0);
(0%nat, M3 3 0 0 1 1 4 0 (-3) 0);
(0%nat, M3 3 0 0 2 (-1) (-4) 0 3 0);
(0%nat, M3 3 0 3 3 (-1) (-1) 0 3 0);
(0%nat, M3 0 (-3) 3 1 0 5 (-2) 0 2);
(2%nat, M3 0 3 0 1 2 (-5) (-2) (-1) (-2));
(0%nat, M3 0 (-3) (-3) 1 (-3) 2 (-2) 0 2);
(2%nat, M3 0 3 0 5 4 1 2 1 (-2));
(0%nat, M3 0 (-3) 3 1 (-1) 7 (-1) 1 5);
(0%nat, M3 0 (-3) (-3) 1 (-2) 4 (-1) (-1) 5);
(0%nat, M3 0 (-3) (-6) 1 (-4) (-1) (-1) (-2) 1);
(0%nat, M3 0 (-3) (-6) (-1) 1 (-5) 1 2 (-1));
(1%nat, M3 0 0 3 2 0 2 0 1 0);
(1%nat, M3 0 0 3 2 0 1 0 1 0);
(1%nat, M3 0 0 3 (-2) 0 2 0 (-2) 0);
(2%nat, M3 (-6) (-3) 0 (-4) (-2) 2 0 1 0);
(1%nat, M3 0 0 3 (-2) 0 1 0 (-2) 0);
(2%nat, M3 6 3 0 2 1 (-2) 0 1 0);
(2%nat, M3 0 0 3 4 2 4 0 1 0);
(2%nat, M3 0 0 3 4 2 2 0 1 0);
(2%nat, M3 0 0 3 4 2 1 0 1 0);
(2%nat, M3 (-6) (-3) 3 (-2) (-1) (-1) 0 (-1) 0);
(1%nat, M3 0 0 3 2 0 2 0 3 0);
(1%nat, M3 0 0 3 2 0 1 0 3 0);
(0%nat, M3 0 0 3 (-2) 2 2 (-1) (-2) 1);
(0%nat, M3 0 3 0 2 1 2 1 (-1) (-2));
(0%nat, M3 0 0 (-3) (-2) 2 (-2) 1 2 1);
(0%nat, M3 0 (-3) 0 2 (-1) 2 (-1) (-1) 2);
(1%nat, M3 0 0 3 2 0 2 0 4 0);
(0%nat, M3 0 3 0 2 2 0 0 1 (-4));
(2%nat, M3 6 3 0 4 2 (-2) 0 2 0);
(0%nat, M3 0 3 0 2 2 0 0 (-1) (-4));
(1%nat, M3 0 0 3 2 0 1 0 4 0);
(0%nat, M3 0 3 0 2 1 0 0 1 (-4));
(2%nat, M3 6 3 0 2 1 2 0 (-2) 0);
(0%nat, M3 0 3 3 (-2) 1 1 0 (-1) 3);
(2%nat, M3 0 0 (-3) (-4) (-2) 0 0 2 0);
(0%nat, M3 0 3 0 (-2) 2 (-2) (-2) (-1) 2);
(2%nat, M3 0 0 (-3) 4 2 (-2) 0 (-2) 0);
(0%nat, M3 0 3 0 2 2 2 2 1 (-2));
(2%nat, M3 0 0 (-3) (-4) (-2) (-1) 0 2 0);
(0%nat, M3 (-3) 0 0 (-1) (-2) (-2) (-1) (-2) 2);
(2%nat, M3 0 0 (-3) (-4) (-2) (-3) 0 2 0);
(0%nat, M3 0 0 3 (-2) 2 1 (-2) (-2) (-1));
(1%nat, M3 0 0 3 2 0 2 0 6 0);
(2%nat, M3 6 3 0 4 2 (-2) 0 3 0);
(1%nat, M3 0 0 3 2 0 1 0 6 0);
(2%nat, M3 6 3 0 2 1 2 0 (-3) 0);
(0%nat, M3 0 3 3 2 2 4 1 1 (-4));
(0%nat, M3 0 3 3 (-2) 2 0 (-1) (-2) 3);
(0%nat, M3 0 3 3 2 1 3 1 2 (-3));
(0%nat, M3 0 3 3 (-2) 1 (-1) (-1) (-1) 4);
(0%nat, M3 0 3 3 2 0 4 2 0 (-2));
(0%nat, M3 0 3 3 (-2) 2 0 (-2) (-1) 3);
(0%nat, M3 (-3) 0 (-3) (-1) (-2) (-3) (-1) (-2) 3);
(0%nat, M3 0 3 3 (-2) 3 (-1) (-2) 0 2);
(2%nat, M3 0 0 3 4 2 4 0 3 0);
(2%nat, M3 0 0 (-3) 4 2 (-2) 0 (-3) 0);
(2%nat, M3 0 0 (-3) (-4) (-2) (-1) 0 3 0);
(2%nat, M3 0 0 3 (-4) (-2) (-1) 0 (-3) 0);
(0%nat, M3 0 (-3) 3 2 0 4 (-2) 0 2);
(0%nat, M3 3 0 (-3) 2 2 0 1 (-2) 3);
(0%nat, M3 0 (-3) (-3) 2 (-3) 1 (-2) 0 2);
(0%nat, M3 0 (-3) 3 2 (-1) 3 (-2) 1 3);
(0%nat, M3 0 (-3) 0 2 (-2) 2 (-1) 1 5);
(0%nat, M3 0 (-3) (-3) 2 (-2) 0 (-1) (-2) 3);
(0%nat, M3 0 (-3) 0 2 (-1) 2 (-1) (-1) 5);
(0%nat, M3 0 (-3) (-3) (-2) (-1) (-3) 1 2 (-3));
(1%nat, M3 0 0 3 2 0 2 0 12 0);
(0%nat, M3 0 3 6 2 2 4 0 3 (-6));
(2%nat, M3 6 3 0 4 2 (-2) 0 6 0);
(0%nat, M3 0 3 6 (-2) 2 2 0 (-3) 6);
(1%nat, M3 0 0 3 2 0 1 0 12 0);
(0%nat, M3 0 3 6 2 1 4 0 3 (-6));
(2%nat, M3 6 3 (-6) 2 1 (-4) 0 6 0);
(0%nat, M3 0 3 6 (-2) 1 2 0 (-3) 6);
(0%nat, M3 0 3 3 2 0 6 2 0 (-6));
(0%nat, M3 0 3 6 2 0 4 2 3 (-2));
(0%nat, M3 0 3 6 (-2) 4 2 (-2) (-2) 2);
(0%nat, M3 0 3 3 (-2) 2 (-4) (-2) (-1) 5);
(0%nat, M3 (-3) 0 (-3) (-1) (-2) (-7) (-1) (-2) 5);
(0%nat, M3 0 3 6 2 (-1) 4 2 2 (-2));
(0%nat, M3 0 3 6 (-2) 3 2 (-2) (-3) 2);
(0%nat, M3 0 3 3 (-2) 3 (-3) (-2) 0 6);
(0%nat, M3 (-3) 0 (-3) 0 (-2) (-6) 0 (-4) 0);
(0%nat, M3 3 (-3) 0 4 0 2 (-1) (-3) 4);
(0%nat, M3 (-3) 3 (-3) (-2) 4 2 2 2 (-2));
(0%nat, M3 (-3) (-3) 0 (-2) 0 4 (-1) 3 (-4));
(0%nat, M3 (-3) 3 (-3) (-1) (-1) (-5) (-2) (-2) 2);
(0%nat, M3 3 (-3) 0 (-1) (-3) (-2) 1 3 (-4));
(0%nat, M3 (-3) 0 (-3) (-3) 2 3 0 4 0);
(0%nat, M3 (-3) 3 0 (-1) 3 4 1 3 (-4));
(2%nat, M3 0 0 3 (-4) (-2) 4 0 (-6) 0);
(0%nat, M3 (-3) 0 (-3) (-2) 4 0 3 0 (-3));
(2%nat, M3 0 0 3 4 2 2 0 6 0);
(0%nat, M3 0 (-3) (-3) 4 (-2) 0 0 (-3) 3);
(2%nat, M3 0 0 3 (-4) (-2) 1 0 (-6) 0);
(0%nat, M3 3 0 3 1 (-4) 3 3 0 (-3));
(2%nat, M3 0 0 3 4 2 (-1) 0 6 0);
(0%nat, M3 0 (-3) 3 4 (-1) 3 0 3 3);
(0%nat, M3 3 0 (-3) 0 (-2) (-6) 0 4 0);
(0%nat, M3 3 (-3) 0 2 0 4 (-1) (-3) 4);
(0%nat, M3 3 3 (-3) 2 4 2 2 (-2) 2);
(0%nat, M3 (-3) (-3) (-3) (-4) 0 2 (-1) 3 (-1));
(0%nat, M3 3 (-3) 0 1 (-3) (-4) 1 3 (-4));
(0%nat, M3 3 0 (-3) 3 2 3 0 (-4) 0);
(0%nat, M3 3 3 0 (-1) 3 (-2) (-1) 3 4);
(0%nat, M3 3 (-3) 3 1 1 5 (-2) (-2) 2);
(0%nat, M3 0 (-3) 3 2 0 6 (-2) 0 6);
(0%nat, M3 3 0 (-3) 2 2 4 1 (-2) 5);
(0%nat, M3 0 (-3) (-6) 2 (-4) (-2) (-2) (-2) 2);
(0%nat, M3 0 (-3) (-6) (-2) 0 (-4) 2 3 (-2));
(0%nat, M3 0 (-3) (-3) 2 (-3) 3 (-2) 0 6);
(0%nat, M3 0 (-3) (-6) 2 (-3) (-2) (-2) (-3) 2);
(0%nat, M3 0 (-3) (-6) (-2) 1 (-4) 2 2 (-2));
(0%nat, M3 0 (-3) 3 2 (-1) 7 (-2) 1 5);
(12%nat, M3 (-3) 0 0 0 (-3) 0 0 0 1);
(12%nat, M3 (-3) 0 0 0 (-3) 0 0 0 2);
(6%nat, M3 0 0 3 0 (-3) 0 2 0 1);
(6%nat, M3 0 3 0 0 0 (-3) (-2) 0 (-1));
(6%nat, M3 3 0 3 3 0 0 0 2 1);
(12%nat, M3 (-3) 0 0 0 (-3) 0 0 0 3);
(12%nat, M3 (-3) 0 0 0 (-3) 0 0 0 4);
(2%nat, M3 6 3 0 3 0 0 2 1 (-4));
(6%nat, M3 0 6 3 3 3 3 0 0 (-2));
(2%nat, M3 6 3 0 3 0 0 (-2) (-1) (-4));
(2%nat, M3 (-3) 0 0 (-6) (-3) 0 (-2) (-1) 4);
(2%nat, M3 (-3) 0 (-3) (-3) (-3) (-3) (-2) (-1) 2);
(2%nat, M3 3 3 3 0 3 0 (-2) (-1) 2);
(2%nat, M3 3 0 0 (-3) (-3) 0 (-2) (-1) (-4));
(6%nat, M3 (-3) (-3) (-3) 0 (-6) (-3) 0 0 2);
(2%nat, M3 0 (-3) 0 (-3) (-3) (-3) 2 1 (-2));
(6%nat, M3 3 (-3) 0 3 3 3 0 0 2);
(2%nat, M3 0 3 0 3 3 3 2 1 (-2));
(2%nat, M3 (-3) 0 0 (-6) (-3) 0 2 1 4);
(2%nat, M3 3 3 0 (-3) 0 0 2 1 4);
(2%nat, M3 (-3) (-3) (-3) 0 (-3) 0 (-2) (-1) 2);
(2%nat, M3 3 3 (-3) 3 0 (-3) (-2) (-1) (-2));
(12%nat, M3 (-3) 0 0 0 (-3) 0 0 0 6);
(6%nat, M3 0 6 3 3 3 3 0 0 (-3));
(6%nat, M3 (-3) (-3) (-3) 0 (-6) (-3) 0 0 3);
(6%nat, M3 3 (-3) 0 3 3 3 0 0 3);
(12%nat, M3 (-3) 0 0 0 (-3) 0 0 0 12);
(2%nat, M3 6 3 6 3 0 3 6 3 (-6));
(6%nat, M3 0 6 3 (-3) 3 0 0 0 6);
(2%nat, M3 6 3 6 3 3 3 (-6) (-3) 6);
(2%nat, M3 (-3) 0 (-3) (-6) (-3) (-6) (-6) (-3) 6);
(2%nat, M3 (-3) 0 (-6) (-3) (-3) (-6) (-6) (-3) 0);
(2%nat, M3 3 3 6 0 3 0 (-6) (-3) 0);
(2%nat, M3 (-3) 0 (-3) 3 3 3 6 3 (-6));
(6%nat, M3 3 (-3) 0 0 (-6) (-3) 0 0 (-6));
(2%nat, M3 0 (-3) 0 (-3) (-3) (-6) 6 3 0);
(6%nat, M3 (-3) (-3) (-3) (-3) 3 0 0 0 (-6));
(2%nat, M3 0 3 0 (-3) 0 (-3) (-6) (-3) 6);
(2%nat, M3 (-3) (-3) (-3) (-6) (-3) (-6) 6 3 (-6));
(2%nat, M3 (-3) (-3) (-3) 3 0 3 (-6) (-3) 6);
(2%nat, M3 3 0 3 0 (-3) 0 6 3 (-6));
(2%nat, M3 (-3) 0 6 (-3) (-3) 6 6 3 0);
(1%nat, M3 (-3) 0 (-3) 0 0 (-4) 0 (-1) 0);
(1%nat, M3 (-3) 0 0 (-1) 0 (-4) 0 (-1) 0);
(1%nat, M3 (-3) 0 0 (-2) 0 (-4) 0 (-1) 0);
(1%nat, M3 (-3) 0 3 (-3) 0 (-1) 0 (-1) 0);
(1%nat, M3 (-3) 0 (-3) 0 0 (-4) 0 (-2) 0);
(2%nat, M3 (-6) (-3) (-6) 0 0 (-4) 0 (-1) 0);
(1%nat, M3 (-3) 0 0 (-1) 0 (-4) 0 (-2) 0);
(2%nat, M3 (-6) (-3) 0 (-2) (-1) (-4) 0 (-1) 0);
(1%nat, M3 (-3) 0 0 (-2) 0 (-4) 0 (-2) 0);
(2%nat, M3 (-6) (-3) 0 (-4) (-2) (-4) 0 (-1) 0);
(1%nat, M3 (-3) 0 3 (-3) 0 (-1) 0 (-2) 0);
(2%nat, M3 (-6) (-3) 0 (-6) (-3) (-4) 0 (-1) 0);
(1%nat, M3 3 0 (-3) 0 0 (-4) 0 3 0);
(1%nat, M3 3 0 0 1 0 (-4) 0 3 0);
(1%nat, M3 3 0 0 2 0 (-4) 0 3 0);
(1%nat, M3 3 0 3 3 0 (-1) 0 3 0);
(0%nat, M3 3 0 (-3) 0 0 (-4) 0 3 (-1));
(0%nat, M3 3 0 0 1 0 (-4) 1 3 (-1));
(0%nat, M3 3 0 0 2 0 (-4) (-1) 3 (-1));
(0%nat, M3 3 0 3 3 0 (-1) 0 3 (-1));
(0%nat, M3 3 0 (-3) 0 0 (-4) 0 3 1);
(0%nat, M3 3 0 0 1 0 (-4) (-1) 3 1);
(0%nat, M3 3 0 0 2 0 (-4) 1 3 1);
(0%nat, M3 3 0 3 3 0 (-1) 0 3 1);
(1%nat, M3 (-3) 0 (-3) 0 0 (-4) 0 (-4) 0);
(0%nat, M3 (-3) (-3) 0 0 (-4) 0 (-1) (-1) 4);
(2%nat, M3 6 3 0 0 0 4 0 (-2) 0);
(0%nat, M3 (-3) (-3) 0 0 (-4) 0 1 1 4);
(1%nat, M3 (-3) 0 0 (-1) 0 (-4) 0 (-4) 0);
(0%nat, M3 (-3) 0 0 (-1) (-4) 0 (-1) 0 4);
(2%nat, M3 6 3 0 2 1 4 0 (-2) 0);
(0%nat, M3 3 (-3) 0 1 (-1) 4 (-1) (-3) 0);
(1%nat, M3 (-3) 0 0 (-2) 0 (-4) 0 (-4) 0);
(0%nat, M3 (-3) 0 0 (-2) (-4) 0 (-1) 0 4);
(2%nat, M3 6 3 0 4 2 4 0 (-2) 0);
(0%nat, M3 3 (-3) 0 2 (-2) 4 (-1) (-3) 0);
(1%nat, M3 (-3) 0 3 (-3) 0 (-1) 0 (-4) 0);
(0%nat, M3 (-3) 3 0 (-3) (-1) 0 (-1) 1 4);
(2%nat, M3 6 3 0 6 3 4 0 (-2) 0);
(0%nat, M3 (-3) 3 0 (-3) (-1) 0 1 (-1) 4);
(1%nat, M3 (-3) 0 (-3) 0 0 (-4) 0 (-6) 0);
(2%nat, M3 6 3 0 0 0 4 0 (-3) 0);
(1%nat, M3 (-3) 0 0 (-1) 0 (-4) 0 (-6) 0);
(2%nat, M3 (-6) (-3) 0 (-2) (-1) 4 0 3 0);
(1%nat, M3 (-3) 0 0 (-2) 0 (-4) 0 (-6) 0);
(2%nat, M3 (-6) (-3) 0 (-4) (-2) 4 0 3 0);
(1%nat, M3 (-3) 0 3 (-3) 0 (-1) 0 (-6) 0);
(2%nat, M3 6 3 0 6 3 4 0 (-3) 0);
(0%nat, M3 (-3) (-3) (-3) 0 (-4) (-4) 0 (-2) 4);
(0%nat, M3 3 (-3) (-3) 4 0 0 (-1) (-3) 3);
(0%nat, M3 (-3) 0 (-3) (-1) (-4) (-5) (-2) (-2) 2);
(0%nat, M3 (-3) 0 (-3) (-1) 4 (-1) 1 2 (-5));
(0%nat, M3 (-3) 0 (-3) (-2) (-4) (-2) (-1) (-2) 5);
(0%nat, M3 (-3) 0 (-3) (-2) 4 (-2) 2 2 (-4));
(0%nat, M3 (-3) 3 3 (-3) (-1) (-1) 0 (-2) 4);
(0%nat, M3 (-3) 3 3 1 3 3 (-1) 3 (-3));
(0%nat, M3 3 (-3) (-3) 0 (-4) (-4) 0 2 (-4));
(0%nat, M3 3 (-3) (-3) 4 0 0 1 (-3) 3);
(0%nat, M3 3 (-3) 0 1 (-5) (-4) 1 1 (-4));
(0%nat, M3 (-3) 0 (-3) (-1) 4 (-1) 2 (-2) (-4));
(0%nat, M3 3 0 3 2 (-4) (-2) 2 2 (-2));
(0%nat, M3 (-3) 0 (-3) (-2) 4 (-2) 1 (-2) (-5));
(0%nat, M3 3 3 3 3 (-1) (-1) 0 2 (-4));
(0%nat, M3 (-3) 3 3 1 3 3 1 3 (-3));
(1%nat, M3 (-3) 0 (-3) 0 0 (-4) 0 (-12) 0);
(0%nat, M3 0 3 6 4 0 4 0 3 (-6));
(2%nat, M3 6 3 (-6) 0 0 (-4) 0 6 0);
(0%nat, M3 0 3 6 (-4) 0 4 0 (-3) 6);
(1%nat, M3 (-3) 0 0 (-1) 0 (-4) 0 (-12) 0);
(0%nat, M3 (-3) 0 (-6) (-1) (-4) (-2) (-3) 0 6);
(2%nat, M3 6 3 0 2 1 (-4) 0 6 0);
(0%nat, M3 0 3 6 (-4) 1 2 0 (-3) 6);
(1%nat, M3 (-3) 0 0 (-2) 0 (-4) 0 (-12) 0);
(0%nat, M3 (-3) 0 (-6) (-2) (-4) (-4) (-3) 0 6);
(2%nat, M3 6 3 0 4 2 (-4) 0 6 0);
(0%nat, M3 0 3 6 (-4) 2 4 0 (-3) 6);
(1%nat, M3 (-3) 0 3 (-3) 0 (-1) 0 (-12) 0);
(0%nat, M3 0 3 6 4 3 2 0 3 (-6));
(2%nat, M3 (-6) (-3) 6 (-6) (-3) 2 0 (-6) 0);
(0%nat, M3 0 3 6 (-4) 3 2 0 (-3) 6);
(0%nat, M3 (-3) (-3) (-3) 0 (-4) (-8) 0 (-4) 4);
(0%nat, M3 (-3) 0 (-6) 0 (-4) (-4) (-3) (-4) 2);
(0%nat, M3 (-3) 0 (-6) (-4) 4 0 2 4 0);
(0%nat, M3 (-3) (-3) (-3) (-4) 0 4 (-1) 3 (-5));
(0%nat, M3 (-3) 0 (-3) (-1) (-4) (-5) (-1) (-4) 7);
(0%nat, M3 (-3) 3 (-3) (-1) (-3) (-5) (-4) 0 4);
(0%nat, M3 (-3) 0 (-6) (-5) 4 (-2) 1 4 (-2));
(0%nat, M3 (-3) 3 (-3) (-1) 5 3 2 2 (-6));
(0%nat, M3 (-3) 3 (-3) (-2) (-2) (-6) (-2) (-2) 6);
(0%nat, M3 (-3) 3 6 2 2 4 (-1) 5 (-2));
(0%nat, M3 (-3) 3 (-3) (-2) 6 2 4 0 (-4));
(0%nat, M3 (-3) 0 (-3) (-2) 4 2 1 4 (-7));
(0%nat, M3 (-3) 3 3 (-3) (-1) (-5) 0 (-4) 4);
(0%nat, M3 (-3) 3 3 1 3 7 1 3 (-5));
(0%nat, M3 (-3) 0 (-6) 1 (-4) (-6) (-2) (-4) 0);
(0%nat, M3 (-3) 0 (-6) (-3) 4 (-2) 3 4 (-2));
(0%nat, M3 3 (-3) (-3) 0 (-4) (-8) 0 4 (-4));
(0%nat, M3 3 (-3) (-3) 4 0 4 (-1) (-3) 5);
(0%nat, M3 3 0 (-6) 4 4 0 2 (-4) 0);
(0%nat, M3 3 0 6 0 4 4 (-3) (-4) 2);
(0%nat, M3 3 (-3) 3 1 (-5) (-3) 2 2 (-6));
(0%nat, M3 3 (-3) (-6) 5 (-1) (-2) 1 (-5) 2);
(0%nat, M3 (-3) (-3) (-3) (-1) 3 (-5) 4 0 (-4));
(0%nat, M3 3 0 3 1 4 5 (-1) (-4) 7);
(0%nat, M3 3 0 3 2 (-4) (-2) 1 4 (-7));
(0%nat, M3 3 (-3) 3 2 (-6) (-2) 4 0 (-4));
(0%nat, M3 3 6 0 (-2) 4 (-4) (-1) 2 4);
(0%nat, M3 3 (-3) 3 2 2 6 (-2) (-2) 6);
(0%nat, M3 3 3 3 3 (-1) (-5) 0 4 (-4));
(0%nat, M3 3 0 6 3 (-4) 2 3 4 (-2));
(0%nat, M3 3 0 6 (-1) 4 6 (-2) (-4) 0);
(0%nat, M3 3 (-3) (-3) (-1) (-3) (-7) 1 3 (-5));
(3%nat, M3 0 (-3) 3 0 0 6 (-1) 0 0);
(3%nat, M3 0 (-3) (-3) 0 (-3) 3 (-1) 0 0);
(3%nat, M3 0 (-3) 3 0 0 6 (-2) 0 0);
(5%nat, M3 (-3) 0 3 0 6 6 (-1) 0 (-1));
(3%nat, M3 0 (-3) (-3) 0 (-3) 3 (-2) 0 0);
(5%nat, M3 (-3) (-6) (-3) (-3) 0 3 (-1) 0 (-1));
(4%nat, M3 0 3 3 0 6 0 (-2) (-1) 0);
(4%nat, M3 0 (-3) 3 0 0 6 (-2) (-1) 0);
(4%nat, M3 0 (-3) 3 0 3 3 (-2) (-1) 0);
(4%nat, M3 0 (-3) (-3) 0 (-3) 3 (-2) (-1) 0);
(3%nat, M3 3 0 (-3) 0 0 (-6) 0 3 0);
(3%nat, M3 3 0 3 3 0 (-3) 0 3 0);
(3%nat, M3 3 0 (-3) 0 0 (-6) 0 4 0);
(0%nat, M3 3 0 (-3) 0 0 (-6) 1 4 (-1));
(5%nat, M3 3 (-3) 0 0 (-6) (-6) 2 2 0);
(0%nat, M3 3 0 (-3) 0 0 (-6) (-1) 4 1);
(3%nat, M3 3 0 3 3 0 (-3) 0 4 0);
(0%nat, M3 3 0 3 3 0 (-3) 1 4 1);
(5%nat, M3 3 3 6 3 (-3) 0 2 2 0);
(0%nat, M3 3 0 3 3 0 (-3) (-1) 4 (-1));
(4%nat, M3 0 (-3) 3 0 (-6) 0 4 2 0);
(0%nat, M3 3 0 (-3) 0 0 (-6) 1 4 1);
(4%nat, M3 0 (-3) (-3) 0 0 (-6) 4 2 0);
(0%nat, M3 3 0 (-3) 0 0 (-6) (-1) 4 (-1));
(4%nat, M3 0 3 3 0 (-3) 3 4 2 0);
(0%nat, M3 3 0 3 3 0 (-3) 1 4 (-1));
(4%nat, M3 0 (-3) 3 0 (-3) (-3) 4 2 0);
(0%nat, M3 3 0 3 3 0 (-3) (-1) 4 1);
(3%nat, M3 (-3) (-3) 0 0 (-6) 0 0 0 6);
(5%nat, M3 3 (-3) 0 0 (-6) (-6) 3 3 0);
(3%nat, M3 (-3) 3 0 (-3) (-3) 0 0 0 6);
(5%nat, M3 0 3 (-3) 6 3 3 0 (-3) (-3));
(4%nat, M3 0 (-3) 3 0 (-6) 0 6 3 0);
(4%nat, M3 0 (-3) (-3) 0 0 (-6) 6 3 0);
(4%nat, M3 0 3 3 0 (-3) 3 6 3 0);
(4%nat, M3 0 (-3) 3 0 (-3) (-3) 6 3 0);
(3%nat, M3 (-3) (-3) 0 0 (-6) 0 0 0 12);
(0%nat, M3 (-3) 0 (-9) 0 (-6) (-6) (-3) 0 3);
(5%nat, M3 0 3 (-3) (-6) 0 (-6) 0 6 6);
(0%nat, M3 (-3) 0 (-9) 0 6 (-6) 3 0 (-3));
(3%nat, M3 (-3) 3 0 (-3) (-3) 0 0 0 12);
(0%nat, M3 (-3) 0 (-9) (-3) (-6) (-3) (-3) 0 3);
(5%nat, M3 0 (-3) 3 (-6) (-3) (-3) 0 (-6) (-6));
(0%nat, M3 (-3) 0 (-9) (-3) 6 (-3) 3 0 (-3));
(4%nat, M3 0 3 (-3) 0 6 0 12 6 0);
(0%nat, M3 3 (-6) 0 0 (-6) (-6) 3 0 (-6));
(4%nat, M3 (-6) (-3) (-3) 0 0 (-6) 0 (-6) 0);
(0%nat, M3 (-3) 6 (-6) 0 6 0 3 0 (-6));
(4%nat, M3 0 (-3) (-3) 0 3 (-3) 12 6 0);
(0%nat, M3 (-3) 6 (-6) (-3) 0 (-6) (-3) 0 6);
(4%nat, M3 6 3 3 6 3 (-3) 0 6 0);
(0%nat, M3 3 (-6) 0 3 0 6 (-3) 0 6);
(3%nat, M3 0 (-3) 6 0 0 12 (-1) 0 0);
(3%nat, M3 0 (-3) (-6) 0 (-3) 6 (-1) 0 0);
(3%nat, M3 0 (-3) (-6) 0 (-6) 0 (-1) 0 0);
(3%nat, M3 0 (-3) (-6) 0 3 (-6) 1 0 0);
(3%nat, M3 0 (-3) 6 0 0 12 (-2) 0 0);
(4%nat, M3 0 (-3) 6 0 0 12 (-2) (-1) 0);
(3%nat, M3 0 (-3) (-6) 0 (-3) 6 (-2) 0 0);
(4%nat, M3 0 (-3) (-6) 0 (-3) 6 (-2) (-1) 0);
(3%nat, M3 0 (-3) (-6) 0 (-6) 0 (-2) 0 0);
(4%nat, M3 0 (-3) (-6) 0 (-6) 0 (-2) (-1) 0);
(3%nat, M3 0 (-3) (-6) 0 3 (-6) 2 0 0);
(4%nat, M3 0 3 6 0 (-3) 6 2 1 0);
(3%nat, M3 3 0 (-6) 0 0 (-12) 0 3 0);
(3%nat, M3 3 0 6 3 0 (-6) 0 3 0);
(3%nat, M3 0 (-3) (-6) 0 (-6) 0 (-3) 0 0);
(3%nat, M3 0 (-3) (-6) 0 3 (-6) 3 0 0);
(3%nat, M3 3 0 (-6) 0 0 (-12) 0 4 0);
(2%nat, M3 0 (-6) 3 0 (-12) 0 4 2 1);
(4%nat, M3 0 (-3) (-6) 0 0 (-12) 4 2 0);
(2%nat, M3 0 (-6) 3 0 (-12) 0 4 2 (-1));
(3%nat, M3 3 0 6 3 0 (-6) 0 4 0);
(2%nat, M3 0 6 3 0 (-6) 3 4 2 1);
(4%nat, M3 0 (-3) 6 0 (-3) (-6) 4 2 0);
(2%nat, M3 0 6 3 0 (-6) 3 4 2 (-1));
(3%nat, M3 0 (-3) (-6) 0 (-6) 0 (-4) 0 0);
(2%nat, M3 0 (-6) 3 0 0 6 (-4) (-2) 1);
(4%nat, M3 0 (-3) (-6) 0 (-6) 0 (-4) (-2) 0);
(2%nat, M3 0 (-6) 3 0 0 6 (-4) (-2) (-1));
(3%nat, M3 0 (-3) (-6) 0 3 (-6) 4 0 0);
(2%nat, M3 0 (-6) 3 0 (-6) (-3) 4 2 1);
(4%nat, M3 0 3 6 0 (-3) 6 4 2 0);
(2%nat, M3 0 (-6) 3 0 (-6) (-3) 4 2 (-1));
(3%nat, M3 3 0 (-6) 0 0 (-12) 0 6 0);
(4%nat, M3 0 (-3) (-6) 0 0 (-12) 6 3 0);
(3%nat, M3 3 0 6 3 0 (-6) 0 6 0);
(4%nat, M3 0 (-3) 6 0 (-3) (-6) 6 3 0);
(3%nat, M3 3 0 6 6 0 0 0 6 0);
(4%nat, M3 0 3 (-6) 0 6 0 6 3 0);
(3%nat, M3 3 0 6 (-3) 0 6 0 (-6) 0);
(4%nat, M3 0 3 6 0 (-3) 6 6 3 0);
(3%nat, M3 (-3) (-6) 0 0 (-12) 0 0 0 12);
(2%nat, M3 (-6) (-9) 3 0 (-12) 0 6 3 3);
(4%nat, M3 6 3 (-6) 0 0 (-12) 0 6 0);
(2%nat, M3 (-6) (-9) (-3) 0 (-12) 0 (-6) (-3) 3);
(3%nat, M3 (-3) 6 0 (-3) (-6) 0 0 0 12);
(2%nat, M3 (-6) 3 3 (-6) (-9) 3 6 3 3);
(4%nat, M3 6 3 6 6 3 (-6) 0 6 0);
(2%nat, M3 (-6) 3 (-3) (-6) (-9) (-3) (-6) (-3) 3);
(3%nat, M3 (-3) 6 0 (-6) 0 0 0 0 12);
(2%nat, M3 0 6 3 0 0 6 12 6 (-9));
(4%nat, M3 (-6) (-3) (-6) (-12) (-6) 0 0 6 0);
(2%nat, M3 (-6) 3 3 (-12) (-6) 6 (-6) (-3) 9);
(3%nat, M3 (-3) 6 0 3 6 0 0 0 (-12));
(2%nat, M3 (-6) (-9) 3 6 (-3) (-3) 6 3 3);
(4%nat, M3 (-6) (-3) 6 6 3 6 0 6 0);
(2%nat, M3 (-6) (-9) 3 6 (-3) (-3) (-6) (-3) 9);
(3%nat, M3 0 0 4 (-1) 0 2 0 (-1) 0);
(3%nat, M3 0 0 4 (-1) 0 2 0 (-2) 0);
(4%nat, M3 0 0 4 0 1 2 (-2) (-1) 0);
(3%nat, M3 0 0 4 (-1) 0 2 0 (-3) 0);
(1%nat, M3 0 0 (-4) 0 (-1) (-2) (-3) 0 (-1));
(1%nat, M3 0 0 (-4) 0 (-1) (-2) (-3) 0 1);
(0%nat, M3 0 0 4 (-1) 2 2 (-1) (-1) (-1));
(1%nat, M3 0 (-4) 0 (-1) (-2) 2 (-1) 0 (-1));
(0%nat, M3 0 0 4 (-1) 2 1 (-1) (-1) 0);
(0%nat, M3 0 0 (-4) (-1) 1 (-2) 1 2 (-1));
(0%nat, M3 0 0 (-4) (-1) 1 (-1) 1 2 0);
(1%nat, M3 0 4 0 (-1) 2 1 1 0 2);
(3%nat, M3 0 4 0 1 2 0 0 0 (-4));
(2%nat, M3 0 4 0 2 3 (-1) (-2) (-1) (-1));
(4%nat, M3 0 0 4 (-2) (-1) 2 0 (-2) 0);
(2%nat, M3 0 4 0 2 3 1 2 1 (-1));
(3%nat, M3 0 4 0 1 2 0 0 0 (-6));
(1%nat, M3 4 0 (-4) 2 1 (-2) 2 0 4);
(1%nat, M3 4 0 (-4) 2 (-1) (-2) (-2) 0 (-4));
(0%nat, M3 0 4 0 1 1 3 1 1 (-3));
(0%nat, M3 0 4 0 (-1) 3 (-3) (-1) (-1) 3);
(1%nat, M3 0 4 0 (-1) 2 (-3) (-1) 0 3);
(0%nat, M3 0 0 4 (-1) 2 3 (-2) (-2) 0);
(1%nat, M3 0 (-4) 0 (-1) (-2) 2 (-2) 0 (-2));
(0%nat, M3 0 0 4 (-1) 2 1 (-2) (-2) 0);
(4%nat, M3 0 0 4 (-2) (-1) 2 0 (-3) 0);
(2%nat, M3 0 0 (-4) 0 1 (-2) 6 3 4);
(2%nat, M3 0 0 (-4) 0 1 (-2) 6 3 2);
(0%nat, M3 0 0 (-4) (-1) 2 (-3) 2 2 0);
(0%nat, M3 0 0 (-4) (-1) 2 (-1) 2 2 0);
(1%nat, M3 0 4 0 (-1) 2 2 2 0 2);
(0%nat, M3 0 (-4) 0 1 (-1) 3 (-1) 1 3);
(1%nat, M3 0 (-4) 0 1 (-2) 3 (-1) 0 3);
(0%nat, M3 0 (-4) 0 1 (-3) 3 (-1) (-1) 3);
(3%nat, M3 0 4 0 1 2 0 0 0 (-12));
(1%nat, M3 4 0 (-8) 2 1 (-4) 4 0 4);
(1%nat, M3 4 0 (-8) 2 (-1) (-4) (-4) 0 (-4));
(0%nat, M3 0 4 4 1 1 7 1 1 (-5));
(2%nat, M3 0 (-4) 0 6 1 1 (-6) (-3) 1);
(0%nat, M3 0 4 4 (-1) 3 (-3) (-1) (-1) 5);
(0%nat, M3 0 4 4 1 0 5 2 0 (-2));
(0%nat, M3 0 4 4 (-1) 4 (-1) (-2) 0 2);
(1%nat, M3 0 4 0 (-1) 2 (-5) (-2) 0 2);
(2%nat, M3 0 (-4) 0 (-4) (-4) (-1) 0 0 (-3));
(0%nat, M3 0 4 0 (-1) 3 (-4) (-3) 1 0);
(0%nat, M3 0 4 0 (-1) 1 (-4) (-3) (-1) 0);
(0%nat, M3 0 (-4) 0 3 (-3) 1 0 0 4);
(1%nat, M3 0 (-4) 0 3 (-2) 1 0 0 4);
(0%nat, M3 0 (-4) 0 3 (-1) 1 0 0 4);
(0%nat, M3 0 (-4) 0 2 0 3 (-2) 0 3);
(0%nat, M3 0 (-4) 0 2 (-4) 3 (-2) 0 3);
(2%nat, M3 0 4 0 2 3 (-3) (-2) (-1) (-3));
(4%nat, M3 0 0 4 2 1 2 0 6 0);
(2%nat, M3 (-8) (-4) (-4) (-4) (-1) (-2) 4 2 (-4));
(2%nat, M3 (-8) (-4) (-4) (-4) (-3) (-2) (-4) (-2) 4);
(0%nat, M3 0 (-4) 0 2 0 (-3) 2 0 3);
(2%nat, M3 0 4 0 (-2) 1 (-3) (-2) (-1) 3);
(0%nat, M3 0 (-4) 0 2 (-4) (-3) 2 0 3);
(0%nat, M3 0 4 0 3 3 1 0 0 (-4));
(0%nat, M3 0 4 0 (-3) 1 (-1) 0 0 4);
(1%nat, M3 0 4 0 3 2 1 0 0 (-4));
(2%nat, M3 0 4 0 (-4) 0 (-1) 0 0 3);
(0%nat, M3 0 (-4) 0 1 (-1) 4 (-3) (-1) 0);
(0%nat, M3 0 (-4) 0 1 (-3) 4 (-3) 1 0);
(0%nat, M3 0 (-4) 4 1 0 5 (-2) 0 2);
(1%nat, M3 0 (-4) 0 1 (-2) 5 (-2) 0 2);
(0%nat, M3 0 (-4) (-4) 1 (-4) 1 (-2) 0 2);
(0%nat, M3 0 (-4) 4 1 (-1) 7 (-1) 1 5);
(0%nat, M3 0 (-4) (-4) 1 (-3) 3 (-1) (-1) 5);
(2%nat, M3 0 4 0 6 5 1 6 3 (-1));
(3%nat, M3 0 0 (-4) 0 2 (-2) 1 0 0);
(3%nat, M3 0 0 4 (-2) 0 2 0 (-2) 0);
(5%nat, M3 0 (-4) (-4) 2 0 (-2) 1 0 1);
(3%nat, M3 0 0 4 (-2) 0 2 0 (-3) 0);
(1%nat, M3 0 0 (-4) 0 (-2) (-2) (-3) 0 (-1));
(1%nat, M3 0 0 (-4) 0 (-2) (-2) (-3) 0 1);
(0%nat, M3 0 0 4 (-2) 2 2 (-1) (-2) 1);
(0%nat, M3 0 0 4 (-2) 2 2 (-1) (-2) (-1));
(1%nat, M3 0 (-4) 0 (-2) (-2) 2 (-1) 0 (-2));
(0%nat, M3 0 0 (-4) (-2) 2 (-2) 1 2 1);
(1%nat, M3 0 4 0 (-2) 2 2 1 0 2);
(0%nat, M3 0 0 (-4) (-2) 2 (-2) 1 2 (-1));
(3%nat, M3 0 4 0 2 2 0 0 0 (-4));
(5%nat, M3 0 4 4 (-2) 2 0 (-2) (-2) 0);
(3%nat, M3 0 4 0 2 2 0 0 0 (-6));
(1%nat, M3 4 0 (-4) 2 2 (-2) 2 0 4);
(1%nat, M3 4 0 (-4) 2 (-2) (-2) (-2) 0 (-4));
(0%nat, M3 0 4 0 2 2 2 1 1 (-5));
(2%nat, M3 0 (-4) 0 (-4) (-4) (-2) 4 2 (-1));
(0%nat, M3 0 4 0 (-2) 2 (-2) (-1) (-1) 5);
(0%nat, M3 0 4 4 2 0 4 2 0 (-2));
(0%nat, M3 0 4 4 (-2) 4 0 (-2) 0 2);
(1%nat, M3 0 4 0 (-2) 2 (-4) (-2) 0 2);
(5%nat, M3 0 4 4 (-2) 2 0 (-3) (-3) 0);
(2%nat, M3 0 0 4 0 2 2 (-6) (-3) (-1));
(2%nat, M3 0 0 4 0 2 2 (-6) (-3) 1);
(0%nat, M3 0 (-4) 0 2 0 2 (-2) 0 4);
(1%nat, M3 0 (-4) 0 2 (-2) 2 (-2) 0 4);
(0%nat, M3 0 (-4) 0 2 (-4) 2 (-2) 0 4);
(0%nat, M3 0 (-4) 0 2 (-2) 2 (-1) 1 5);
(0%nat, M3 0 (-4) 0 2 (-2) 2 (-1) (-1) 5);
(2%nat, M3 0 4 0 (-4) 0 (-2) (-4) (-2) 1);
(3%nat, M3 0 4 0 2 2 0 0 0 (-12));
(1%nat, M3 4 0 (-8) 2 2 (-4) 4 0 4);
(1%nat, M3 4 0 (-8) 2 (-2) (-4) (-4) 0 (-4));
(0%nat, M3 0 4 4 2 0 6 2 0 (-6));
(2%nat, M3 0 4 0 (-4) 0 6 8 4 (-6));
(0%nat, M3 0 4 4 (-2) 4 (-4) (-2) 0 4);
(0%nat, M3 (-4) 0 (-4) 0 (-2) (-6) 0 (-4) 0);
(0%nat, M3 (-4) 0 (-4) (-4) 2 2 0 4 0);
(1%nat, M3 0 (-4) 0 2 (-2) (-4) 4 0 4);
(5%nat, M3 4 0 4 0 (-2) 2 0 (-6) (-6));
(2%nat, M3 8 4 4 4 0 2 8 4 (-2));
(2%nat, M3 (-8) (-4) (-4) (-4) 0 (-2) 8 4 (-2));
(0%nat, M3 4 0 (-4) 0 (-2) (-6) 0 4 0);
(1%nat, M3 0 4 0 2 2 (-4) (-4) 0 (-4));
(0%nat, M3 4 0 4 4 (-2) (-2) 0 4 0);
(0%nat, M3 0 (-4) 4 2 0 8 (-2) 0 4);
(0%nat, M3 0 (-4) (-4) 2 (-4) 4 (-2) 0 4);
(2%nat, M3 0 4 0 8 6 2 4 2 (-2));
(1%nat, M3 0 0 4 3 0 3 0 1 0);
(1%nat, M3 0 0 4 3 0 1 0 1 0);
(3%nat, M3 0 0 (-4) 0 3 (-2) 1 0 0);
(1%nat, M3 0 0 4 3 0 3 0 2 0);
(1%nat, M3 0 0 4 3 0 1 0 2 0);
(3%nat, M3 0 0 (-4) 0 3 (-2) 2 0 0);
(2%nat, M3 0 0 4 6 3 6 0 1 0);
(2%nat, M3 (-8) (-4) 4 (-2) (-1) (-2) 0 (-1) 0);
(4%nat, M3 0 0 (-4) 0 3 (-2) 2 1 0);
(1%nat, M3 0 0 4 (-3) 0 3 0 (-3) 0);
(0%nat, M3 0 0 4 (-3) 0 3 0 (-3) 1);
(0%nat, M3 0 0 4 (-3) 0 3 0 (-3) (-1));
(1%nat, M3 0 0 4 (-3) 0 1 0 (-3) 0);
(0%nat, M3 0 0 4 (-3) 0 1 0 (-3) 1);
(0%nat, M3 0 0 4 (-3) 0 1 0 (-3) (-1));
(3%nat, M3 0 0 4 (-3) 0 2 0 (-3) 0);
(1%nat, M3 0 0 (-4) 0 (-3) (-2) (-3) 0 (-1));
(1%nat, M3 0 0 (-4) 0 (-3) (-2) (-3) 0 1);
(1%nat, M3 0 0 4 3 0 3 0 4 0);
(1%nat, M3 0 0 4 3 0 1 0 4 0);
(3%nat, M3 0 4 0 3 2 0 0 0 (-4));
(0%nat, M3 0 4 0 3 3 0 1 1 (-4));
(0%nat, M3 0 4 0 3 1 0 1 (-1) (-4));
(2%nat, M3 0 4 0 0 2 3 4 2 1);
(2%nat, M3 0 0 (-4) (-6) (-3) 0 0 2 0);
(2%nat, M3 0 0 (-4) (-6) (-3) (-4) 0 2 0);
(4%nat, M3 0 0 4 0 3 2 (-4) (-2) 0);
(0%nat, M3 0 4 0 3 3 0 (-1) (-1) (-4));
(0%nat, M3 0 4 0 3 1 0 (-1) 1 (-4));
(2%nat, M3 0 4 0 0 2 3 4 2 (-1));
(1%nat, M3 0 0 4 3 0 3 0 6 0);
(0%nat, M3 0 4 4 3 3 3 0 2 (-4));
(0%nat, M3 0 4 4 (-3) 3 3 0 (-2) 4);
(1%nat, M3 0 0 4 3 0 1 0 6 0);
(0%nat, M3 0 4 4 3 1 1 0 2 (-4));
(0%nat, M3 0 4 4 (-3) 1 1 0 (-2) 4);
(3%nat, M3 0 4 0 3 2 0 0 0 (-6));
(1%nat, M3 4 0 (-4) 2 3 (-2) 2 0 4);
(1%nat, M3 4 0 (-4) 2 (-3) (-2) (-2) 0 (-4));
(2%nat, M3 0 0 (-4) (-6) (-3) 0 0 3 0);
(0%nat, M3 (-4) 0 0 (-3) 3 3 1 3 (-3));
(0%nat, M3 (-4) 0 0 (-3) 3 3 (-1) 3 (-3));
(0%nat, M3 (-4) 0 0 (-1) (-3) (-3) (-1) (-3) 3);
(2%nat, M3 0 0 (-4) 6 3 (-4) 0 (-3) 0);
(0%nat, M3 (-4) 0 0 (-1) (-3) (-3) 1 (-3) 3);
(4%nat, M3 0 0 4 0 3 2 (-6) (-3) 0);
(2%nat, M3 0 0 4 0 3 2 (-6) (-3) 2);
(2%nat, M3 0 0 4 0 (-3) 2 6 3 (-2));
(1%nat, M3 0 0 4 3 0 3 0 12 0);
(0%nat, M3 0 4 8 3 3 3 0 4 (-4));
(0%nat, M3 0 4 8 (-3) 3 3 0 (-4) 4);
(1%nat, M3 0 0 4 3 0 1 0 12 0);
(0%nat, M3 0 4 8 3 1 5 0 4 (-4));
(0%nat, M3 0 4 8 (-3) 1 5 0 (-4) 4);
(3%nat, M3 0 4 0 3 2 0 0 0 (-12));
(1%nat, M3 4 0 (-8) 2 3 (-4) 4 0 4);
(1%nat, M3 4 0 (-8) 2 (-3) (-4) (-4) 0 (-4));
(0%nat, M3 (-4) 0 (-4) 0 (-3) (-6) 0 (-3) 6);
(0%nat, M3 0 4 4 3 0 6 3 4 (-2));
(0%nat, M3 (-4) 0 (-4) (-3) 3 3 1 3 (-5));
(0%nat, M3 (-4) 0 (-4) (-1) (-3) (-7) (-1) (-3) 5);
(0%nat, M3 0 4 4 (-3) 4 (-2) (-3) (-4) 2);
(0%nat, M3 (-4) 0 (-4) (-4) 3 2 0 3 (-6));
(0%nat, M3 (-4) 0 (-4) (-2) (-3) (-8) (-2) (-3) 4);
(2%nat, M3 0 (-4) 0 6 1 3 (-6) (-3) 3);
(0%nat, M3 (-4) 0 (-4) (-2) 3 4 2 3 (-4));
(2%nat, M3 0 0 4 (-6) (-3) 6 0 (-6) 0);
(0%nat, M3 4 (-4) 0 3 0 6 (-2) (-4) 0);
(0%nat, M3 (-4) (-4) 0 (-3) 0 6 (-2) 4 0);
(0%nat, M3 4 (-4) 0 1 (-4) (-6) 2 4 0);
(2%nat, M3 0 0 4 6 3 (-2) 0 6 0);
(0%nat, M3 (-4) 4 0 (-1) 4 6 2 4 0);
(4%nat, M3 0 0 4 (-6) (-3) 2 0 (-6) 0);
(2%nat, M3 (-8) (-4) (-4) (-4) 1 (-2) 4 2 (-4));
(2%nat, M3 8 4 4 4 (-1) 2 4 2 (-4));
(0%nat, M3 4 0 (-4) 0 (-3) (-6) 0 3 (-6));
(0%nat, M3 4 0 (-4) 3 3 3 1 (-3) 5);
(0%nat, M3 0 (-4) (-4) (-3) 0 (-6) 3 4 (-2));
(0%nat, M3 4 0 (-4) 4 3 2 0 (-3) 6);
(0%nat, M3 0 (-4) (-4) (-3) 2 (-4) 3 2 (-4));
(0%nat, M3 4 0 4 1 3 7 (-1) (-3) 5);
(0%nat, M3 4 0 4 2 (-3) (-4) 2 3 (-4));
(2%nat, M3 0 4 0 6 5 3 6 3 (-3));
(0%nat, M3 4 0 4 2 3 8 (-2) (-3) 4);
(12%nat, M3 (-4) 0 0 0 (-4) 0 0 0 1);
(12%nat, M3 (-4) 0 0 0 (-4) 0 0 0 2);
(12%nat, M3 (-4) 0 0 0 (-4) 0 0 0 3);
(2%nat, M3 8 4 0 4 0 0 2 1 (-3));
(2%nat, M3 8 4 0 4 0 0 (-2) (-1) (-3));
(2%nat, M3 (-4) 0 0 (-8) (-4) 0 (-2) (-1) 3);
(11%nat, M3 4 (-8) 0 (-4) (-4) (-4) 0 0 (-1));
(2%nat, M3 (-4) 0 0 4 4 0 2 1 (-3));
(2%nat, M3 (-4) 0 0 (-8) (-4) 0 2 1 3);
(2%nat, M3 (-4) (-4) 0 4 0 0 (-2) (-1) 3);
(11%nat, M3 (-4) 8 0 4 4 4 0 0 (-1));
(12%nat, M3 (-4) 0 0 0 (-4) 0 0 0 4);
(12%nat, M3 (-4) 0 0 0 (-4) 0 0 0 6);
(2%nat, M3 8 4 8 4 0 4 4 2 (-2));
(2%nat, M3 8 4 8 4 4 4 (-4) (-2) 2);
(2%nat, M3 (-4) 0 (-4) (-8) (-4) (-8) (-4) (-2) 2);
(11%nat, M3 (-8) 4 (-4) (-4) (-4) (-4) 0 0 2);
(2%nat, M3 (-4) 0 (-4) 4 4 4 4 2 (-2));
(2%nat, M3 (-4) (-4) (-4) (-8) (-4) (-8) 4 2 (-2));
(2%nat, M3 (-4) (-4) (-4) 4 0 4 (-4) (-2) 2);
(11%nat, M3 (-4) (-4) (-4) 4 (-8) 0 0 0 2);
(12%nat, M3 (-4) 0 0 0 (-4) 0 0 0 12);
(2%nat, M3 8 4 8 4 0 4 8 4 (-4));
(2%nat, M3 8 4 8 4 4 4 (-8) (-4) 4);
(2%nat, M3 (-4) 0 (-4) (-8) (-4) (-8) (-8) (-4) 4);
(11%nat, M3 (-8) 4 (-4) (-4) (-4) (-4) 0 0 4);
(2%nat, M3 (-4) 0 (-4) 4 4 4 8 4 (-4));
(2%nat, M3 (-4) (-4) (-4) (-8) (-4) (-8) 8 4 (-4));
(2%nat, M3 (-4) (-4) (-4) 4 0 4 (-8) (-4) 4);
(11%nat, M3 (-4) (-4) (-4) 4 (-8) 0 0 0 4);
(1%nat, M3 (-4) 0 (-4) 0 0 (-6) 0 (-1) 0);
(3%nat, M3 0 (-4) 0 0 (-2) 6 (-1) 0 0);
(1%nat, M3 (-4) 0 4 (-4) 0 (-2) 0 (-1) 0);
(1%nat, M3 (-4) 0 (-4) 0 0 (-6) 0 (-2) 0);
(3%nat, M3 0 (-4) 0 0 (-2) 6 (-2) 0 0);
(1%nat, M3 (-4) 0 4 (-4) 0 (-2) 0 (-2) 0);
(2%nat, M3 8 4 (-4) 12 6 0 0 (-1) 0);
(5%nat, M3 (-4) 0 (-4) (-2) (-6) (-8) (-1) (-1) 0);
(2%nat, M3 (-8) (-4) (-4) 4 2 (-4) 0 (-1) 0);
(1%nat, M3 (-4) 0 (-4) 0 0 (-6) 0 (-3) 0);
(0%nat, M3 0 (-4) 4 0 0 6 (-3) (-1) 1);
(0%nat, M3 0 (-4) 4 0 0 6 (-3) 1 (-1));
(3%nat, M3 0 (-4) 0 0 (-2) 6 (-3) 0 0);
(1%nat, M3 0 0 (-4) 0 (-6) (-2) (-3) 0 (-1));
(1%nat, M3 0 0 (-4) 0 (-6) (-2) (-3) 0 1);
(1%nat, M3 (-4) 0 4 (-4) 0 (-2) 0 (-3) 0);
(0%nat, M3 0 (-4) (-4) 0 (-4) 2 (-3) (-1) (-1));
(0%nat, M3 0 (-4) (-4) 0 (-4) 2 (-3) 1 1);
(1%nat, M3 4 0 (-4) 0 0 (-6) 0 4 0);
(3%nat, M3 4 0 0 2 0 (-6) 0 4 0);
(1%nat, M3 4 0 4 4 0 (-2) 0 4 0);
(2%nat, M3 8 4 (-4) 12 6 0 0 (-2) 0);
(5%nat, M3 4 4 0 2 8 6 2 0 2);
(2%nat, M3 (-8) (-4) (-4) 4 2 (-4) 0 (-2) 0);
(1%nat, M3 (-4) 0 (-4) 0 0 (-6) 0 (-6) 0);
(0%nat, M3 4 (-4) (-4) 0 0 (-6) 2 4 (-2));
(0%nat, M3 4 (-4) 4 0 0 6 (-2) (-4) (-2));
(3%nat, M3 (-4) 0 0 (-2) (-6) 0 0 0 6);
(1%nat, M3 4 0 (-4) 2 6 (-2) 2 0 4);
(1%nat, M3 4 0 (-4) 2 (-6) (-2) (-2) 0 (-4));
(1%nat, M3 (-4) 0 4 (-4) 0 (-2) 0 (-6) 0);
(0%nat, M3 4 (-4) 4 4 (-4) (-2) 2 4 2);
(0%nat, M3 4 (-4) (-4) 4 (-4) 2 (-2) (-4) 2);
(2%nat, M3 8 4 (-4) 12 6 0 0 (-3) 0);
(0%nat, M3 (-4) (-4) (-4) 0 (-6) 0 (-2) 1 4);
(0%nat, M3 (-4) 4 (-4) 0 6 0 2 1 (-4));
(2%nat, M3 0 0 (-4) 0 6 (-2) 6 3 (-1));
(5%nat, M3 0 (-4) (-4) 6 4 (-2) 3 0 3);
(2%nat, M3 0 0 (-4) 0 6 (-2) 6 3 1);
(2%nat, M3 (-8) (-4) (-4) 4 2 (-4) 0 (-3) 0);
(0%nat, M3 (-4) 4 (-4) (-4) (-2) (-4) (-2) (-1) 4);
(0%nat, M3 (-4) (-4) (-4) (-4) 2 (-4) 2 (-1) (-4));
(1%nat, M3 (-4) 0 (-4) 0 0 (-6) 0 (-12) 0);
(0%nat, M3 (-4) 0 (-8) 0 (-6) (-6) (-4) 0 4);
(0%nat, M3 (-4) 0 (-8) 0 6 (-6) 4 0 (-4));
(3%nat, M3 (-4) 0 0 (-2) (-6) 0 0 0 12);
(1%nat, M3 (-4) 0 (-8) (-2) (-6) (-4) (-4) 0 4);
(1%nat, M3 (-4) 0 (-8) (-2) 6 (-4) 4 0 (-4));
(1%nat, M3 (-4) 0 4 (-4) 0 (-2) 0 (-12) 0);
(0%nat, M3 (-4) 0 (-8) (-4) (-6) (-2) (-4) 0 4);
(0%nat, M3 (-4) 0 (-8) (-4) 6 (-2) 4 0 (-4));
(2%nat, M3 (-8) (-4) 4 (-12) (-6) 0 0 (-6) 0);
(0%nat, M3 4 (-4) 0 0 (-6) (-6) 4 2 (-6));
(0%nat, M3 (-4) (-4) 0 (-6) 0 6 (-2) 4 (-6));
(2%nat, M3 (-8) (-4) (-4) (-4) 4 (-2) 8 4 (-2));
(5%nat, M3 4 4 0 2 8 6 6 0 6);
(2%nat, M3 (-8) (-4) (-4) (-4) (-8) (-2) (-8) (-4) 2);
(2%nat, M3 8 4 4 (-4) (-2) 4 0 (-6) 0);
(0%nat, M3 (-4) 4 0 (-4) (-2) (-6) (-4) (-2) 6);
(0%nat, M3 4 (-4) 0 4 2 6 (-4) (-2) 6);
(4%nat, M3 (-4) 4 0 0 12 0 0 0 (-1));
(4%nat, M3 (-4) (-8) 0 (-4) 4 0 0 0 (-1));
(12%nat, M3 (-4) 8 0 (-8) 4 0 0 0 1);
(4%nat, M3 (-4) 4 0 0 12 0 0 0 (-2));
(4%nat, M3 (-4) (-8) 0 (-4) 4 0 0 0 (-2));
(12%nat, M3 (-4) 8 0 (-8) 4 0 0 0 2);
(4%nat, M3 (-4) 4 0 0 12 0 0 0 (-3));
(2%nat, M3 4 8 4 0 12 0 (-2) (-1) 1);
(2%nat, M3 (-4) 4 4 0 12 0 (-2) (-1) (-1));
(4%nat, M3 (-4) (-8) 0 (-4) 4 0 0 0 (-3));
(2%nat, M3 4 (-4) 4 4 8 4 (-2) (-1) 1);
(2%nat, M3 (-4) (-8) 4 (-4) 4 4 (-2) (-1) (-1));
(12%nat, M3 (-4) 8 0 (-8) 4 0 0 0 3);
(11%nat, M3 0 12 4 (-12) 12 (-4) 0 0 1);
(11%nat, M3 (-12) 0 (-8) (-12) 12 (-4) 0 0 (-1));
(4%nat, M3 4 (-4) 0 0 (-12) 0 0 0 (-4));
(4%nat, M3 4 8 0 4 (-4) 0 0 0 (-4));
(12%nat, M3 (-4) 8 0 (-8) 4 0 0 0 4);
(4%nat, M3 4 (-4) 0 0 (-12) 0 0 0 (-6));
(2%nat, M3 (-4) 4 (-4) 0 12 0 4 2 (-2));
(2%nat, M3 (-4) 4 4 0 12 0 (-4) (-2) (-2));
(4%nat, M3 4 8 0 4 (-4) 0 0 0 (-6));
(2%nat, M3 (-4) (-8) (-4) (-4) 4 (-4) 4 2 (-2));
(2%nat, M3 (-4) (-8) 4 (-4) 4 4 (-4) (-2) (-2));
(12%nat, M3 (-4) 8 0 (-8) 4 0 0 0 6);
(11%nat, M3 0 12 4 (-12) 12 (-4) 0 0 2);
(11%nat, M3 (-12) 0 (-8) (-12) 12 (-4) 0 0 (-2));
(4%nat, M3 (-4) 4 0 0 12 0 0 0 (-12));
(2%nat, M3 (-4) (-8) 8 0 (-12) 0 8 4 (-4));
(2%nat, M3 (-4) 4 4 0 12 0 (-8) (-4) (-4));
(4%nat, M3 (-4) (-8) 0 (-4) 4 0 0 0 (-12));
(2%nat, M3 (-4) 4 8 (-4) (-8) 8 8 4 (-4));
(2%nat, M3 (-4) (-8) 4 (-4) 4 4 (-8) (-4) (-4));
(12%nat, M3 (-4) 8 0 (-8) 4 0 0 0 12);
(11%nat, M3 (-12) 12 (-4) 0 12 4 0 0 (-4));
(11%nat, M3 0 (-12) (-4) 12 (-12) 4 0 0 4);
(3%nat, M3 0 0 6 (-1) 0 3 0 (-1) 0);
(3%nat, M3 0 0 6 (-1) 0 3 0 (-2) 0);
(4%nat, M3 0 6 0 0 3 (-1) (-2) (-1) 0);
(5%nat, M3 0 6 6 (-1) 3 2 (-1) (-1) 0);
(4%nat, M3 0 0 6 0 1 3 (-2) (-1) 0);
(3%nat, M3 0 0 6 (-1) 0 3 0 (-3) 0);
(1%nat, M3 0 (-6) 0 (-1) (-3) 2 (-1) 0 (-1));
(1%nat, M3 0 6 0 (-1) 3 1 1 0 2);
(3%nat, M3 0 0 6 (-1) 0 3 0 (-4) 0);
(4%nat, M3 0 6 0 0 3 (-1) (-4) (-2) 0);
(0%nat, M3 0 0 6 (-1) 2 3 (-1) (-2) (-1));
(0%nat, M3 0 0 6 (-1) 2 2 (-1) (-2) 0);
(5%nat, M3 6 0 6 2 (-1) 3 0 (-2) (-2));
(4%nat, M3 0 0 6 (-2) (-1) 3 0 (-2) 0);
(0%nat, M3 0 0 (-6) (-1) 2 (-3) 1 2 (-1));
(0%nat, M3 0 0 (-6) (-1) 2 (-2) 1 2 0);
(3%nat, M3 0 6 0 1 3 0 0 0 (-6));
(4%nat, M3 0 6 0 0 3 (-1) (-6) (-3) 0);
(2%nat, M3 0 6 0 2 4 (-3) (-4) (-2) 3);
(1%nat, M3 0 (-6) 0 (-1) (-3) 3 (-1) 0 (-3));
(1%nat, M3 0 (-6) 0 (-1) (-3) 2 (-2) 0 (-2));
(2%nat, M3 0 (-6) 0 2 (-2) 1 (-2) (-1) 2);
(5%nat, M3 6 6 0 3 4 1 3 0 3);
(4%nat, M3 0 0 6 (-2) (-1) 3 0 (-3) 0);
(1%nat, M3 0 6 0 (-1) 3 2 2 0 2);
(2%nat, M3 0 (-6) 0 2 (-2) (-1) 2 1 2);
(2%nat, M3 0 6 0 2 4 3 4 2 3);
(1%nat, M3 0 6 0 (-1) 3 3 1 0 3);
(3%nat, M3 0 6 0 1 3 0 0 0 (-12));
(4%nat, M3 0 (-6) 0 0 (-3) 1 (-12) (-6) 0);
(0%nat, M3 0 6 6 1 1 8 1 1 (-4));
(0%nat, M3 0 6 6 (-1) 5 (-2) (-1) (-1) 4);
(2%nat, M3 0 6 0 4 5 (-5) (-4) (-2) 2);
(1%nat, M3 0 6 0 (-1) 3 (-5) (-2) 0 2);
(0%nat, M3 0 0 6 (-1) 4 4 (-3) 0 0);
(0%nat, M3 0 0 6 (-1) 4 2 (-3) 0 0);
(1%nat, M3 0 6 0 (-3) 3 1 0 0 4);
(2%nat, M3 0 (-6) 0 (-2) (-4) (-1) 4 2 (-4));
(0%nat, M3 0 0 (-6) (-2) 3 (-5) 2 3 (-1));
(0%nat, M3 0 0 (-6) (-2) 3 (-4) 2 3 (-2));
(5%nat, M3 (-6) 0 (-6) (-3) (-1) (-4) (-6) (-6) 0);
(4%nat, M3 0 0 6 2 1 3 0 6 0);
(0%nat, M3 0 0 (-6) (-2) (-3) (-5) (-2) 3 1);
(0%nat, M3 0 0 (-6) (-2) (-3) (-4) (-2) 3 2);
(1%nat, M3 0 (-6) 0 (-3) (-3) 1 0 0 (-4));
(2%nat, M3 0 (-6) 0 (-2) (-4) 1 (-4) (-2) (-4));
(0%nat, M3 0 0 (-6) (-1) 4 (-4) 3 0 0);
(0%nat, M3 0 0 (-6) (-1) 4 (-2) 3 0 0);
(2%nat, M3 0 (-6) 0 4 (-1) (-5) 4 2 (-2));
(1%nat, M3 0 (-6) 0 1 (-3) 5 (-2) 0 2);
(0%nat, M3 0 (-6) 6 1 (-2) 7 (-1) 2 5);
(0%nat, M3 0 (-6) (-6) 1 (-5) 2 (-1) (-1) 4);
(4%nat, M3 0 (-6) 0 2 (-2) 0 0 0 1);
(3%nat, M3 0 0 (-6) 0 2 (-3) 1 0 0);
(4%nat, M3 0 6 0 (-2) 2 0 0 0 2);
(6%nat, M3 0 0 6 (-2) 0 2 0 (-2) (-1));
(3%nat, M3 0 0 6 (-2) 0 3 0 (-2) 0);
(4%nat, M3 0 6 0 0 3 (-2) (-2) (-1) 0);
(2%nat, M3 0 0 6 4 2 4 0 1 0);
(2%nat, M3 0 0 6 4 2 2 0 1 0);
(4%nat, M3 0 6 0 (-2) 2 0 0 0 3);
(3%nat, M3 0 0 6 (-2) 0 3 0 (-3) 0);
(2%nat, M3 0 (-6) 0 2 (-2) 2 (-2) (-1) 1);
(1%nat, M3 0 (-6) 0 (-2) (-3) 2 (-1) 0 (-2));
(2%nat, M3 0 (-6) 0 2 (-2) (-2) 2 1 1);
(1%nat, M3 0 6 0 (-2) 3 2 1 0 2);
(4%nat, M3 0 6 0 (-2) 2 0 0 0 4);
(6%nat, M3 0 0 6 (-2) 0 2 0 (-4) (-2));
(3%nat, M3 0 0 6 (-2) 0 3 0 (-4) 0);
(4%nat, M3 0 6 0 0 3 (-2) (-4) (-2) 0);
(2%nat, M3 0 0 (-6) (-4) (-2) (-4) 0 2 0);
(2%nat, M3 0 0 (-6) (-4) (-2) (-2) 0 2 0);
(2%nat, M3 0 0 6 0 2 3 (-4) (-2) (-1));
(2%nat, M3 0 0 6 0 2 3 (-4) (-2) 1);
(4%nat, M3 0 (-6) 0 2 (-2) 0 0 0 6);
(6%nat, M3 0 0 6 (-2) 0 2 0 (-6) (-3));
(3%nat, M3 0 6 0 2 3 0 0 0 (-6));
(4%nat, M3 0 6 0 0 3 (-2) (-6) (-3) 0);
(0%nat, M3 0 0 6 (-2) 2 2 (-1) (-5) 1);
(0%nat, M3 0 6 0 2 4 2 1 (-1) (-5));
(2%nat, M3 0 6 0 2 4 (-4) (-4) (-2) 2);
(2%nat, M3 0 6 0 (-2) 2 (-4) (-2) (-1) 2);
(2%nat, M3 0 (-6) 0 4 (-1) 2 (-2) (-1) 2);
(1%nat, M3 0 (-6) 0 (-2) (-3) 4 (-2) 0 (-2));
(2%nat, M3 0 0 (-6) (-4) (-2) (-4) 0 3 0);
(2%nat, M3 0 0 (-6) (-4) (-2) (-2) 0 3 0);
(2%nat, M3 0 (-6) 0 2 (-2) (-2) 4 2 2);
(2%nat, M3 0 6 0 (-2) 2 2 2 1 4);
(1%nat, M3 0 6 0 (-2) 3 2 2 0 4);
(2%nat, M3 0 6 0 (-4) 1 2 (-2) (-1) 4);
(0%nat, M3 0 0 (-6) (-2) 2 (-2) 1 5 1);
(0%nat, M3 0 0 (-6) (-2) 2 (-4) 1 5 (-1));
(4%nat, M3 0 (-6) 0 2 (-2) 0 0 0 12);
(6%nat, M3 0 12 6 (-2) 6 2 0 0 6);
(3%nat, M3 0 6 0 2 3 0 0 0 (-12));
(4%nat, M3 0 (-6) 0 0 (-3) 2 (-12) (-6) 0);
(0%nat, M3 0 6 6 2 2 8 2 2 (-4));
(0%nat, M3 0 6 6 (-2) 4 (-2) (-2) (-2) 4);
(0%nat, M3 0 6 6 2 1 7 2 1 (-5));
(0%nat, M3 0 6 6 (-2) 5 (-1) (-2) (-1) 5);
(2%nat, M3 0 6 0 (-6) 0 (-4) 0 0 4);
(2%nat, M3 0 (-6) 0 (-2) (-4) 4 (-4) (-2) (-4));
(2%nat, M3 0 (-6) 0 4 (-1) 2 (-4) (-2) 4);
(1%nat, M3 0 6 0 (-2) 3 (-4) (-4) 0 4);
(2%nat, M3 0 0 6 4 2 4 0 6 0);
(2%nat, M3 0 0 6 4 2 2 0 6 0);
(2%nat, M3 (-12) (-6) 6 (-6) (-1) 3 (-6) (-3) (-3));
(2%nat, M3 0 0 (-6) 0 2 (-3) 12 6 (-3));
(2%nat, M3 0 6 0 (-6) 0 4 0 0 4);
(2%nat, M3 0 6 0 2 4 (-4) (-4) (-2) (-4));
(1%nat, M3 0 (-6) 0 2 (-3) 4 (-4) 0 4);
(2%nat, M3 0 6 0 4 5 2 4 2 (-4));
(0%nat, M3 0 (-6) 6 2 (-2) 8 (-2) 2 4);
(0%nat, M3 0 (-6) (-6) 2 (-4) 2 (-2) (-2) 4);
(0%nat, M3 0 (-6) (-6) 2 (-5) 1 (-2) (-1) 5);
(0%nat, M3 0 (-6) 6 2 (-1) 7 (-2) 1 5);
(3%nat, M3 0 0 (-6) 0 3 (-3) 1 0 0);
(3%nat, M3 0 0 (-6) 0 3 (-3) 2 0 0);
(4%nat, M3 0 (-6) 0 0 (-3) (-3) 2 1 0);
(5%nat, M3 0 (-6) (-6) 3 0 (-3) 1 0 1);
(4%nat, M3 0 0 (-6) 0 3 (-3) 2 1 0);
(3%nat, M3 0 0 6 (-3) 0 3 0 (-3) 0);
(3%nat, M3 0 0 6 (-3) 0 3 0 (-4) 0);
(4%nat, M3 0 6 0 0 3 (-3) (-4) (-2) 0);
(0%nat, M3 0 0 6 (-3) 0 3 (-1) (-4) 1);
(0%nat, M3 0 0 6 (-3) 0 3 (-1) (-4) (-1));
(5%nat, M3 0 6 6 (-3) 3 0 (-2) (-2) 0);
(4%nat, M3 0 0 6 0 3 3 (-4) (-2) 0);
(0%nat, M3 0 0 6 (-3) 0 3 1 (-4) (-1));
(0%nat, M3 0 0 6 (-3) 0 3 1 (-4) 1);
(3%nat, M3 0 6 0 3 3 0 0 0 (-6));
(4%nat, M3 0 6 0 0 3 (-3) (-6) (-3) 0);
(5%nat, M3 0 6 6 (-3) 3 0 (-3) (-3) 0);
(4%nat, M3 0 0 6 0 3 3 (-6) (-3) 0);
(3%nat, M3 0 6 0 3 3 0 0 0 (-12));
(4%nat, M3 0 (-6) 0 0 (-3) 3 (-12) (-6) 0);
(0%nat, M3 0 6 6 3 0 9 3 0 (-3));
(0%nat, M3 0 6 6 (-3) 6 0 (-3) 0 6);
(5%nat, M3 6 0 6 0 (-3) 3 0 (-6) (-6));
(4%nat, M3 0 0 6 6 3 3 0 6 0);
(0%nat, M3 0 (-6) 6 3 0 9 (-3) 0 3);
(0%nat, M3 0 (-6) 0 3 (-6) 6 (-3) 0 6);
(1%nat, M3 0 0 6 4 0 4 0 1 0);
(1%nat, M3 0 0 6 4 0 2 0 1 0);
(1%nat, M3 0 0 6 4 0 4 0 2 0);
(2%nat, M3 (-12) (-6) 0 (-8) (-4) 4 0 1 0);
(1%nat, M3 0 0 6 4 0 2 0 2 0);
(2%nat, M3 (-12) (-6) 0 (-4) (-2) (-4) 0 (-1) 0);
(1%nat, M3 0 0 6 4 0 4 0 3 0);
(1%nat, M3 0 0 6 4 0 2 0 3 0);
(0%nat, M3 0 0 (-6) 0 4 (-4) 3 1 (-1));
(0%nat, M3 0 0 (-6) 0 4 (-2) 3 1 1);
(0%nat, M3 0 0 (-6) 0 4 (-4) 3 (-1) 1);
(0%nat, M3 0 0 (-6) 0 4 (-2) 3 (-1) (-1));
(1%nat, M3 0 0 6 (-4) 0 4 0 (-4) 0);
(2%nat, M3 (-12) (-6) 0 (-8) (-4) 4 0 2 0);
(1%nat, M3 0 0 6 (-4) 0 2 0 (-4) 0);
(2%nat, M3 12 6 0 4 2 (-4) 0 2 0);
(1%nat, M3 0 0 6 4 0 4 0 6 0);
(2%nat, M3 (-12) (-6) 0 (-8) (-4) 4 0 3 0);
(1%nat, M3 0 0 6 4 0 2 0 6 0);
(2%nat, M3 12 6 0 4 2 (-4) 0 3 0);
(0%nat, M3 0 0 6 (-4) 4 4 (-2) (-4) 2);
(0%nat, M3 0 6 0 4 4 4 2 (-1) (-4));
(0%nat, M3 0 6 0 4 2 4 2 1 (-4));
(0%nat, M3 0 6 0 4 2 4 2 (-2) (-4));
(0%nat, M3 0 0 (-6) (-4) 4 (-4) 2 4 2);
(0%nat, M3 0 (-6) 0 4 (-4) 4 (-2) (-1) 4);
(0%nat, M3 0 (-6) 0 4 (-2) 4 (-2) (-2) 4);
(0%nat, M3 0 (-6) 0 4 (-2) 4 (-2) 1 4);
(1%nat, M3 0 0 6 4 0 4 0 12 0);
(2%nat, M3 12 6 0 8 4 (-4) 0 6 0);
(1%nat, M3 0 0 6 4 0 2 0 12 0);
(2%nat, M3 12 6 0 4 2 4 0 (-6) 0);
(0%nat, M3 0 6 6 4 0 8 4 0 (-4));
(0%nat, M3 0 6 6 (-4) 4 0 (-4) (-2) 6);
(0%nat, M3 (-6) 0 (-6) (-2) (-4) (-6) (-2) (-4) 6);
(0%nat, M3 0 6 6 (-4) 6 (-2) (-4) 0 4);
(0%nat, M3 0 (-6) 6 4 0 8 (-4) 0 4);
(0%nat, M3 6 0 (-6) 4 4 0 2 (-4) 6);
(0%nat, M3 0 (-6) (-6) 4 (-6) 2 (-4) 0 4);
(0%nat, M3 0 (-6) 6 4 (-2) 6 (-4) 2 6);
(12%nat, M3 (-6) 0 0 0 (-6) 0 0 0 1);
(3%nat, M3 0 (-6) 0 0 (-3) 6 (-1) 0 0);
(12%nat, M3 (-6) 0 0 0 (-6) 0 0 0 2);
(6%nat, M3 0 0 6 0 (-6) 0 2 0 1);
(3%nat, M3 0 (-6) 0 0 (-3) 6 (-2) 0 0);
(4%nat, M3 0 (-6) 0 0 (-3) 6 (-2) (-1) 0);
(6%nat, M3 0 6 0 0 0 (-6) (-2) 0 (-1));
(6%nat, M3 6 0 6 6 0 0 0 2 1);
(12%nat, M3 (-6) 0 0 0 (-6) 0 0 0 3);
(3%nat, M3 0 (-6) 0 0 (-3) 6 (-3) 0 0);
(12%nat, M3 (-6) 0 0 0 (-6) 0 0 0 4);
(6%nat, M3 0 0 6 0 (-6) 0 4 0 2);
(3%nat, M3 0 (-6) 0 0 (-3) 6 (-4) 0 0);
(4%nat, M3 0 (-6) 0 0 (-3) 6 (-4) (-2) 0);
(6%nat, M3 0 6 0 0 0 (-6) (-4) 0 (-2));
(6%nat, M3 6 0 6 6 0 0 0 4 2);
(2%nat, M3 0 0 (-6) 0 (-6) (-3) (-4) (-2) (-1));
(2%nat, M3 0 0 (-6) 0 (-6) (-3) (-4) (-2) 1);
(12%nat, M3 (-6) 0 0 0 (-6) 0 0 0 6);
(6%nat, M3 0 0 6 0 (-6) 0 6 0 3);
(3%nat, M3 (-6) 0 0 (-3) (-6) 0 0 0 6);
(4%nat, M3 0 (-6) 0 0 (-3) 6 (-6) (-3) 0);
(6%nat, M3 0 6 0 0 0 (-6) (-6) 0 (-3));
(6%nat, M3 6 0 6 6 0 0 0 6 3);
(12%nat, M3 (-6) 0 0 0 (-6) 0 0 0 12);
(6%nat, M3 0 12 6 6 6 6 0 0 (-6));
(3%nat, M3 (-6) 0 0 (-3) (-6) 0 0 0 12);
(4%nat, M3 0 (-6) 0 0 (-3) (-6) 12 6 0);
(6%nat, M3 (-6) (-6) (-6) 0 (-12) (-6) 0 0 6);
(6%nat, M3 6 (-6) 0 6 6 6 0 0 6);
(2%nat, M3 0 0 (-6) 0 (-6) (-3) (-12) (-6) 9);
(2%nat, M3 0 0 (-6) 0 6 (-3) 12 6 (-9));
(3%nat, M3 0 (-6) 6 0 0 12 (-1) 0 0);
(3%nat, M3 0 (-6) (-6) 0 (-6) 6 (-1) 0 0);
(3%nat, M3 0 (-6) 6 0 0 12 (-2) 0 0);
(5%nat, M3 (-6) 0 6 0 12 12 (-1) 0 (-1));
(3%nat, M3 0 (-6) (-6) 0 (-6) 6 (-2) 0 0);
(5%nat, M3 (-6) (-12) (-6) (-6) 0 6 (-1) 0 (-1));
(3%nat, M3 0 (-6) 6 0 0 12 (-3) 0 0);
(3%nat, M3 0 (-6) (-6) 0 (-6) 6 (-3) 0 0);
(3%nat, M3 0 (-6) 6 0 0 12 (-4) 0 0);
(5%nat, M3 (-6) 0 6 0 12 12 (-2) 0 (-2));
(3%nat, M3 0 (-6) (-6) 0 (-6) 6 (-4) 0 0);
(5%nat, M3 (-6) (-12) (-6) (-6) 0 6 (-2) 0 (-2));
(3%nat, M3 6 0 (-6) 0 0 (-12) 0 6 0);
(5%nat, M3 (-6) 0 6 0 12 12 (-3) 0 (-3));
(3%nat, M3 6 0 6 6 0 (-6) 0 6 0);
(5%nat, M3 (-6) (-12) (-6) (-6) 0 6 (-3) 0 (-3));
(3%nat, M3 (-6) (-6) 0 0 (-12) 0 0 0 12);
(5%nat, M3 6 (-6) 0 0 (-12) (-12) 6 6 0);
(3%nat, M3 (-6) 6 0 (-6) (-6) 0 0 0 12);
(5%nat, M3 0 6 (-6) 12 6 6 0 (-6) (-6));
(3%nat, M3 0 0 12 (-1) 0 6 0 (-1) 0);
(3%nat, M3 0 0 12 (-1) 0 6 0 (-2) 0);
(4%nat, M3 0 0 12 0 1 6 (-2) (-1) 0);
(3%nat, M3 0 0 12 (-1) 0 6 0 (-3) 0);
(1%nat, M3 0 (-12) 0 (-1) (-6) 2 (-1) 0 (-1));
(1%nat, M3 0 12 0 (-1) 6 1 1 0 2);
(3%nat, M3 0 0 12 (-1) 0 6 0 (-4) 0);
(2%nat, M3 0 (-12) 0 2 (-5) 1 (-2) (-1) 1);
(4%nat, M3 0 0 12 (-2) (-1) 6 0 (-2) 0);
(2%nat, M3 0 (-12) 0 2 (-5) (-1) 2 1 1);
(3%nat, M3 0 0 12 (-1) 0 6 0 (-6) 0);
(1%nat, M3 0 (-12) 0 (-1) (-6) 3 (-1) 0 (-3));
(1%nat, M3 0 (-12) 0 (-1) (-6) 2 (-2) 0 (-2));
(4%nat, M3 0 0 12 (-2) (-1) 6 0 (-3) 0);
(1%nat, M3 0 12 0 (-1) 6 2 2 0 2);
(1%nat, M3 0 12 0 (-1) 6 3 1 0 3);
(3%nat, M3 0 12 0 1 6 0 0 0 (-12));
(2%nat, M3 0 (-12) 0 6 (-3) 1 (-6) (-3) 1);
(1%nat, M3 0 (-12) 0 (-1) (-6) 5 (-2) 0 (-2));
(2%nat, M3 0 (-12) 0 4 (-4) 1 0 0 3);
(1%nat, M3 0 12 0 (-3) 6 1 0 0 4);
(2%nat, M3 0 (-12) 0 (-2) (-7) (-3) 2 1 (-3));
(4%nat, M3 0 0 12 (-2) (-1) 6 0 (-6) 0);
(2%nat, M3 0 12 0 (-2) 5 (-3) (-2) (-1) 3);
(1%nat, M3 0 (-12) 0 (-3) (-6) 1 0 0 (-4));
(2%nat, M3 0 (-12) 0 4 (-4) (-1) 0 0 3);
(1%nat, M3 0 12 0 (-1) 6 5 2 0 2);
(2%nat, M3 0 (-12) 0 6 (-3) (-1) 6 3 1);
(3%nat, M3 0 0 (-12) 0 2 (-6) 1 0 0);
(3%nat, M3 0 0 12 (-2) 0 6 0 (-2) 0);
(5%nat, M3 0 (-12) (-12) 2 (-4) (-6) 1 0 1);
(3%nat, M3 0 0 12 (-2) 0 6 0 (-3) 0);
(1%nat, M3 0 (-12) 0 (-2) (-6) 2 (-1) 0 (-2));
(1%nat, M3 0 12 0 (-2) 6 2 1 0 2);
(3%nat, M3 0 0 12 (-2) 0 6 0 (-4) 0);
(5%nat, M3 0 12 12 (-2) 6 4 (-2) (-2) 0);
(3%nat, M3 0 0 12 (-2) 0 6 0 (-6) 0);
(2%nat, M3 0 12 0 (-4) 4 (-2) 4 2 5);
(1%nat, M3 0 (-12) 0 (-2) (-6) 4 (-2) 0 (-2));
(5%nat, M3 0 12 12 (-2) 6 4 (-3) (-3) 0);
(1%nat, M3 0 12 0 (-2) 6 2 2 0 4);
(2%nat, M3 0 12 0 (-4) 4 2 (-4) (-2) 5);
(3%nat, M3 0 12 0 2 6 0 0 0 (-12));
(2%nat, M3 0 12 0 4 8 (-6) (-8) (-4) 6);
(1%nat, M3 0 (-12) 0 (-2) (-6) 4 (-4) 0 (-4));
(5%nat, M3 12 12 0 6 8 2 6 0 6);
(1%nat, M3 0 12 0 (-2) 6 4 4 0 4);
(2%nat, M3 0 12 0 4 8 6 8 4 6);
(3%nat, M3 0 0 (-12) 0 3 (-6) 1 0 0);
(3%nat, M3 0 0 (-12) 0 3 (-6) 2 0 0);
(4%nat, M3 0 0 (-12) 0 3 (-6) 2 1 0);
(3%nat, M3 0 0 12 (-3) 0 6 0 (-3) 0);
(3%nat, M3 0 0 12 (-3) 0 6 0 (-4) 0);
(2%nat, M3 0 12 0 0 6 (-3) (-4) (-2) (-1));
(4%nat, M3 0 0 12 0 3 6 (-4) (-2) 0);
(2%nat, M3 0 12 0 0 6 (-3) (-4) (-2) 1);
(3%nat, M3 0 0 12 (-3) 0 6 0 (-6) 0);
(4%nat, M3 0 0 12 0 3 6 (-6) (-3) 0);
(3%nat, M3 0 12 0 3 6 0 0 0 (-12));
(2%nat, M3 0 12 0 6 9 (-3) (-6) (-3) (-3));
(4%nat, M3 0 0 12 (-6) (-3) 6 0 (-6) 0);
(2%nat, M3 0 12 0 6 9 3 6 3 (-3));
(4%nat, M3 0 (-12) 0 4 (-4) 0 0 0 1);
(4%nat, M3 0 (-12) 0 4 (-4) 0 0 0 2);
(4%nat, M3 0 (-12) 0 4 (-4) 0 0 0 3);
(2%nat, M3 0 (-12) 0 (-4) (-8) (-4) 2 1 (-1));
(2%nat, M3 0 (-12) 0 4 (-4) (-4) 2 1 1);
(4%nat, M3 0 12 0 (-4) 4 0 0 0 4);
(4%nat, M3 0 12 0 (-4) 4 0 0 0 6);
(2%nat, M3 0 (-12) 0 4 (-4) 4 (-4) (-2) 2);
(2%nat, M3 0 (-12) 0 4 (-4) (-4) 4 2 2);
(4%nat, M3 0 (-12) 0 4 (-4) 0 0 0 12);
(2%nat, M3 0 12 0 4 8 (-8) (-8) (-4) 4);
(2%nat, M3 0 (-12) 0 4 (-4) (-4) 8 4 4);
(3%nat, M3 0 0 (-12) 0 6 (-6) 1 0 0);
(3%nat, M3 0 0 (-12) 0 6 (-6) 2 0 0);
(5%nat, M3 0 (-12) (-12) 6 0 (-6) 1 0 1);
(3%nat, M3 0 0 (-12) 0 6 (-6) 3 0 0);
(3%nat, M3 0 0 (-12) 0 6 (-6) 4 0 0);
(5%nat, M3 0 (-12) (-12) 6 0 (-6) 2 0 2);
(3%nat, M3 0 0 12 (-6) 0 6 0 (-6) 0);
(5%nat, M3 0 (-12) (-12) 6 0 (-6) 3 0 3);
(3%nat, M3 0 12 0 6 6 0 0 0 (-12));
(5%nat, M3 0 12 12 (-6) 6 0 (-6) (-6) 0);
(12%nat, M3 (-12) 0 0 0 (-12) 0 0 0 1);
(12%nat, M3 (-12) 0 0 0 (-12) 0 0 0 2);
(12%nat, M3 (-12) 0 0 0 (-12) 0 0 0 3);
(12%nat, M3 (-12) 0 0 0 (-12) 0 0 0 4);
(12%nat, M3 (-12) 0 0 0 (-12) 0 0 0 6);
(12%nat, M3 (-12) 0 0 0 (-12) 0 0 0 12)].
