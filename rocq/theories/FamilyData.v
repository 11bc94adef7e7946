(** * FamilyData: witnesses found by search outside Coq and checked in PropFamily (proof support
    for C78).  Nothing here is trusted. *)
From Verif Require Import Base.
Open Scope Z_scope.

(** either a point (in 24ths of the cell) that all operations keep, or a reason why there is none:
    a combination of the fixed-point equations of some operations that has no solution *)
Inductive fix_witness := Fix (p : vec3) | NoFix (l : list (nat * vec3)).
Definition full_fix : list fix_witness := [
  Fix (V3 0 0 0);
  Fix (V3 0 0 0);
  Fix (V3 0 0 0);
  Fix (V3 0 0 0);
  Fix (V3 0 0 0);
  NoFix [(1%nat, V3 0 (-1) 0)];
  NoFix [(1%nat, V3 0 0 (-1))];
  NoFix [(1%nat, V3 (-1) 0 0)];
  Fix (V3 0 0 0);
  Fix (V3 0 0 0);
  Fix (V3 0 0 0);
  Fix (V3 0 0 0);
  Fix (V3 0 0 0);
  Fix (V3 0 0 0);
  Fix (V3 0 0 0);
  Fix (V3 0 0 0);
  Fix (V3 0 0 0);
  Fix (V3 0 0 0);
  Fix (V3 0 0 0);
  Fix (V3 0 0 0);
  NoFix [(1%nat, V3 0 0 (-1))];
  NoFix [(1%nat, V3 (-1) 0 0)];
  NoFix [(1%nat, V3 (-1) 0 0)];
  NoFix [(1%nat, V3 (-1) 0 0)];
  NoFix [(1%nat, V3 0 (-1) 0)];
  NoFix [(1%nat, V3 0 (-1) 0)];
  NoFix [(1%nat, V3 0 (-1) 0)];
  NoFix [(1%nat, V3 0 (-1) 0)];
  NoFix [(1%nat, V3 0 0 (-1))];
  Fix (V3 0 0 0);
  Fix (V3 0 0 0);
  Fix (V3 0 0 0);
  Fix (V3 0 0 0);
  Fix (V3 0 0 0);
  Fix (V3 0 0 0);
  Fix (V3 0 0 0);
  Fix (V3 0 0 0);
  Fix (V3 0 0 0);
  NoFix [(1%nat, V3 0 0 (-1))];
  NoFix [(1%nat, V3 (-1) 0 0)];
  NoFix [(1%nat, V3 (-1) 0 (-1))];
  NoFix [(1%nat, V3 (-1) 0 0)];
  NoFix [(1%nat, V3 0 0 (-1))];
  NoFix [(1%nat, V3 (-1) 0 (-1))];
  NoFix [(1%nat, V3 (-1) 0 0)];
  NoFix [(1%nat, V3 0 (-1) 0)];
  NoFix [(1%nat, V3 (-1) (-1) 0)];
  NoFix [(1%nat, V3 0 (-1) 0)];
  NoFix [(1%nat, V3 (-1) 0 0)];
  NoFix [(1%nat, V3 (-1) (-1) 0)];
  NoFix [(1%nat, V3 0 (-1) 0)];
  NoFix [(1%nat, V3 0 0 (-1))];
  NoFix [(1%nat, V3 0 1 (-1))];
  NoFix [(1%nat, V3 0 0 (-1))];
  NoFix [(1%nat, V3 0 (-1) 0)];
  NoFix [(1%nat, V3 0 1 (-1))];
  Fix (V3 0 0 0);
  Fix (V3 0 0 0);
  Fix (V3 0 0 0);
  NoFix [(1%nat, V3 0 (-1) 0)];
  NoFix [(1%nat, V3 0 0 (-1))];
  NoFix [(1%nat, V3 (-1) 0 0)];
  Fix (V3 0 0 0);
  Fix (V3 0 0 0);
  Fix (V3 0 0 0);
  Fix (V3 0 0 0);
  Fix (V3 0 0 0);
  Fix (V3 0 0 0);
  Fix (V3 0 0 0);
  Fix (V3 0 0 0);
  Fix (V3 0 0 0);
  NoFix [(2%nat, V3 0 0 (-1))];
  NoFix [(2%nat, V3 (-1) 0 0)];
  NoFix [(2%nat, V3 (-1) 0 0)];
  NoFix [(3%nat, V3 (-1) 0 0)];
  NoFix [(3%nat, V3 0 (-1) 0)];
  NoFix [(3%nat, V3 0 (-1) 0)];
  NoFix [(2%nat, V3 0 (-1) 0)];
  NoFix [(2%nat, V3 0 (-1) 0)];
  NoFix [(2%nat, V3 0 0 (-1))];
  NoFix [(1%nat, V3 0 (-1) 0)];
  NoFix [(1%nat, V3 0 (-1) 0)];
  NoFix [(1%nat, V3 0 (-1) 0)];
  NoFix [(1%nat, V3 0 0 (-1))];
  NoFix [(1%nat, V3 0 0 (-1))];
  NoFix [(1%nat, V3 0 0 (-1))];
  NoFix [(1%nat, V3 (-1) 0 0)];
  NoFix [(1%nat, V3 (-1) 0 0)];
  NoFix [(1%nat, V3 (-1) 0 0)];
  NoFix [(2%nat, V3 0 0 (-1))];
  NoFix [(2%nat, V3 (-1) 0 0)];
  NoFix [(2%nat, V3 (-1) 0 (-1))];
  NoFix [(2%nat, V3 (-1) 0 0)];
  NoFix [(2%nat, V3 0 0 (-1))];
  NoFix [(2%nat, V3 (-1) 0 (-1))];
  NoFix [(3%nat, V3 (-1) 0 0)];
  NoFix [(3%nat, V3 0 (-1) 0)];
  NoFix [(3%nat, V3 (-1) (-1) 0)];
  NoFix [(3%nat, V3 0 (-1) 0)];
  NoFix [(3%nat, V3 (-1) 0 0)];
  NoFix [(3%nat, V3 (-1) (-1) 0)];
  NoFix [(2%nat, V3 0 (-1) 0)];
  NoFix [(2%nat, V3 0 0 (-1))];
  NoFix [(2%nat, V3 0 1 (-1))];
  NoFix [(2%nat, V3 0 0 (-1))];
  NoFix [(2%nat, V3 0 (-1) 0)];
  NoFix [(2%nat, V3 0 1 (-1))];
  Fix (V3 0 0 0);
  NoFix [(1%nat, V3 0 0 (-1))];
  NoFix [(3%nat, V3 (-1) 0 0)];
  NoFix [(2%nat, V3 0 (-1) 0)];
  NoFix [(2%nat, V3 0 (-1) 0)];
  NoFix [(1%nat, V3 0 0 (-1))];
  NoFix [(1%nat, V3 0 0 (-1))];
  NoFix [(1%nat, V3 0 0 (-1))];
  NoFix [(1%nat, V3 0 0 (-1))];
  NoFix [(3%nat, V3 (-1) 0 0)];
  NoFix [(2%nat, V3 0 (-1) 0)];
  Fix (V3 0 0 0);
  Fix (V3 0 0 0);
  Fix (V3 0 0 0);
  Fix (V3 0 0 0);
  Fix (V3 0 0 0);
  Fix (V3 0 6 6);
  Fix (V3 0 0 0);
  Fix (V3 0 0 0);
  Fix (V3 0 0 0);
  NoFix [(1%nat, V3 0 0 (-1))];
  NoFix [(1%nat, V3 0 0 (-1))];
  NoFix [(1%nat, V3 (-1) 0 0)];
  NoFix [(1%nat, V3 (-1) 0 0)];
  NoFix [(1%nat, V3 0 (-1) 0)];
  NoFix [(1%nat, V3 0 (-1) 0)];
  NoFix [(2%nat, V3 0 0 (-1))];
  NoFix [(2%nat, V3 (-1) 0 0)];
  NoFix [(2%nat, V3 0 (-1) 0)];
  NoFix [(2%nat, V3 (-1) 0 0)];
  NoFix [(3%nat, V3 0 (-1) 0)];
  NoFix [(3%nat, V3 0 (-1) 0)];
  NoFix [(2%nat, V3 0 0 (-1))];
  NoFix [(2%nat, V3 0 0 (-1))];
  NoFix [(3%nat, V3 (-1) 0 0)];
  NoFix [(1%nat, V3 0 0 (-1))];
  NoFix [(1%nat, V3 0 0 (-1))];
  NoFix [(1%nat, V3 (-1) 0 0)];
  NoFix [(1%nat, V3 (-1) 0 0)];
  NoFix [(1%nat, V3 0 (-1) 0)];
  NoFix [(1%nat, V3 0 (-1) 0)];
  NoFix [(2%nat, V3 0 0 (-1))];
  NoFix [(2%nat, V3 (-1) 0 0)];
  NoFix [(2%nat, V3 (-1) 0 0)];
  NoFix [(2%nat, V3 (-1) 0 0)];
  NoFix [(2%nat, V3 0 (-1) 0)];
  NoFix [(2%nat, V3 0 (-1) 0)];
  NoFix [(1%nat, V3 0 0 (-1))];
  NoFix [(1%nat, V3 0 0 (-1))];
  NoFix [(1%nat, V3 (-1) 0 0)];
  NoFix [(1%nat, V3 (-1) 0 0)];
  NoFix [(1%nat, V3 0 (-1) 0)];
  NoFix [(1%nat, V3 0 (-1) 0)];
  NoFix [(2%nat, V3 (-1) 0 0)];
  NoFix [(2%nat, V3 0 0 (-1))];
  NoFix [(2%nat, V3 0 0 (-1))];
  NoFix [(1%nat, V3 0 0 (-1))];
  NoFix [(1%nat, V3 0 0 (-1))];
  NoFix [(1%nat, V3 (-1) 0 0)];
  NoFix [(1%nat, V3 (-1) 0 0)];
  NoFix [(1%nat, V3 0 (-1) 0)];
  NoFix [(1%nat, V3 0 (-1) 0)];
  NoFix [(2%nat, V3 (-1) 0 0)];
  NoFix [(2%nat, V3 (-1) 0 0)];
  NoFix [(2%nat, V3 0 (-1) 0)];
  Fix (V3 0 0 0);
  Fix (V3 0 0 0);
  Fix (V3 0 0 0);
  NoFix [(1%nat, V3 0 0 (-1))];
  NoFix [(1%nat, V3 0 0 (-1))];
  NoFix [(1%nat, V3 (-1) 0 0)];
  NoFix [(1%nat, V3 (-1) 0 0)];
  NoFix [(1%nat, V3 0 (-1) 0)];
  NoFix [(1%nat, V3 0 (-1) 0)];
  NoFix [(2%nat, V3 0 0 (-1))];
  NoFix [(2%nat, V3 (-1) 0 0)];
  NoFix [(2%nat, V3 0 (-1) 0)];
  Fix (V3 0 0 0);
  Fix (V3 0 0 0);
  Fix (V3 0 0 0);
  Fix (V3 0 0 0);
  Fix (V3 0 0 0);
  Fix (V3 0 0 0);
  NoFix [(3%nat, V3 0 (-1) (-1))];
  NoFix [(2%nat, V3 (-1) 0 (-1))];
  NoFix [(2%nat, V3 (-1) 0 (-1))];
  NoFix [(3%nat, V3 (-1) (-1) 0)];
  NoFix [(3%nat, V3 (-1) (-1) 0)];
  NoFix [(2%nat, V3 0 (-1) (-1))];
  NoFix [(2%nat, V3 (-1) 0 0)];
  NoFix [(3%nat, V3 0 (-1) 0)];
  NoFix [(3%nat, V3 0 (-1) 0)];
  NoFix [(2%nat, V3 0 0 (-1))];
  NoFix [(2%nat, V3 0 0 (-1))];
  NoFix [(3%nat, V3 (-1) 0 0)];
  NoFix [(2%nat, V3 (-1) 0 0)];
  NoFix [(2%nat, V3 (-1) 0 (-1))];
  NoFix [(2%nat, V3 (-1) 0 (-1))];
  NoFix [(2%nat, V3 0 0 (-1))];
  NoFix [(2%nat, V3 0 0 (-1))];
  NoFix [(2%nat, V3 0 (-1) (-1))];
  Fix (V3 0 0 0);
  Fix (V3 0 0 0);
  Fix (V3 0 0 0);
  NoFix [(2%nat, V3 0 0 2)];
  NoFix [(2%nat, V3 0 0 2)];
  NoFix [(2%nat, V3 0 0 2)];
  Fix (V3 0 0 0);
  Fix (V3 0 0 0);
  Fix (V3 0 0 0);
  NoFix [(2%nat, V3 (-1) 0 (-1))];
  NoFix [(2%nat, V3 (-1) 0 (-1))];
  NoFix [(2%nat, V3 0 1 (-1))];
  NoFix [(2%nat, V3 (-1) 0 (-1))];
  NoFix [(3%nat, V3 0 1 (-1))];
  NoFix [(3%nat, V3 (-1) (-1) 0)];
  NoFix [(2%nat, V3 (-1) 0 (-1))];
  NoFix [(2%nat, V3 0 1 (-1))];
  NoFix [(3%nat, V3 (-1) (-1) 0)];
  Fix (V3 0 0 0);
  NoFix [(4%nat, V3 (-1) 0 0)];
  NoFix [(4%nat, V3 (-1) 0 0)];
  NoFix [(4%nat, V3 0 0 (-1))];
  NoFix [(4%nat, V3 (-1) 0 0)];
  NoFix [(5%nat, V3 0 (-1) 0)];
  NoFix [(4%nat, V3 (-1) 0 0)];
  NoFix [(4%nat, V3 (-1) 0 0)];
  NoFix [(4%nat, V3 0 0 (-1))];
  NoFix [(4%nat, V3 0 0 (-1))];
  NoFix [(4%nat, V3 (-1) 0 0)];
  NoFix [(4%nat, V3 (-1) 0 0)];
  NoFix [(3%nat, V3 (-1) 0 0)];
  NoFix [(2%nat, V3 0 (-1) 0)];
  NoFix [(2%nat, V3 0 (-1) 0)];
  NoFix [(1%nat, V3 0 0 (-1))];
  NoFix [(1%nat, V3 0 0 (-1))];
  NoFix [(3%nat, V3 (-1) 0 0)];
  NoFix [(2%nat, V3 0 (-1) 0)];
  NoFix [(3%nat, V3 (-1) 0 0)];
  NoFix [(1%nat, V3 0 0 (-1))];
  NoFix [(2%nat, V3 0 (-1) 0)];
  NoFix [(3%nat, V3 (-1) 0 0)];
  NoFix [(1%nat, V3 0 0 (-1))];
  NoFix [(1%nat, V3 0 0 (-1))];
  NoFix [(1%nat, V3 0 0 (-1))];
  NoFix [(3%nat, V3 (-1) 0 0)];
  NoFix [(3%nat, V3 (-1) 0 0)];
  NoFix [(2%nat, V3 0 (-1) 0)];
  NoFix [(2%nat, V3 0 (-1) 0)];
  NoFix [(3%nat, V3 (-1) 0 0)];
  NoFix [(2%nat, V3 0 (-1) 0)];
  NoFix [(2%nat, V3 0 (-1) 0)];
  NoFix [(1%nat, V3 0 0 (-1))];
  NoFix [(1%nat, V3 0 0 (-1))];
  NoFix [(3%nat, V3 (-1) 0 0)];
  NoFix [(2%nat, V3 0 (-1) 0)];
  NoFix [(1%nat, V3 0 0 (-1))];
  NoFix [(1%nat, V3 0 0 (-1))];
  NoFix [(2%nat, V3 0 (-1) 0)];
  NoFix [(1%nat, V3 0 0 (-1))];
  NoFix [(1%nat, V3 0 0 (-1))];
  NoFix [(1%nat, V3 0 0 (-1))];
  NoFix [(1%nat, V3 0 0 (-1))];
  NoFix [(1%nat, V3 0 0 (-1))];
  NoFix [(2%nat, V3 0 (-1) 0)];
  NoFix [(2%nat, V3 0 (-1) 0)];
  NoFix [(1%nat, V3 0 0 (-1))];
  NoFix [(2%nat, V3 0 (-1) 0)];
  NoFix [(1%nat, V3 0 0 (-1))];
  NoFix [(1%nat, V3 0 0 (-1))];
  NoFix [(2%nat, V3 0 (-1) 0)];
  NoFix [(2%nat, V3 0 (-1) 0)];
  NoFix [(1%nat, V3 0 0 (-1))];
  NoFix [(1%nat, V3 0 0 (-1))];
  NoFix [(1%nat, V3 0 0 (-1))];
  NoFix [(1%nat, V3 0 0 (-1))];
  NoFix [(1%nat, V3 0 0 (-1))];
  NoFix [(1%nat, V3 0 0 (-1))];
  NoFix [(2%nat, V3 0 (-1) 0)];
  NoFix [(1%nat, V3 0 0 (-1))];
  NoFix [(1%nat, V3 0 0 (-1))];
  NoFix [(2%nat, V3 0 (-1) 0)];
  NoFix [(1%nat, V3 0 0 (-1))];
  NoFix [(1%nat, V3 0 0 (-1))];
  NoFix [(1%nat, V3 0 0 (-1))];
  NoFix [(1%nat, V3 0 0 (-1))];
  NoFix [(1%nat, V3 0 0 (-1))];
  NoFix [(1%nat, V3 0 0 (-1))];
  NoFix [(1%nat, V3 0 0 (-1))];
  NoFix [(1%nat, V3 0 0 (-1))];
  NoFix [(1%nat, V3 0 0 (-1))];
  NoFix [(1%nat, V3 0 0 (-1))];
  NoFix [(3%nat, V3 (-1) 0 0)];
  NoFix [(3%nat, V3 (-1) 0 0)];
  NoFix [(2%nat, V3 0 (-1) 0)];
  NoFix [(2%nat, V3 0 (-1) 0)];
  NoFix [(1%nat, V3 0 0 (-1))];
  NoFix [(1%nat, V3 0 0 (-1))];
  NoFix [(3%nat, V3 (-1) 0 0)];
  NoFix [(3%nat, V3 (-1) 0 0)];
  NoFix [(2%nat, V3 0 (-1) 0)];
  NoFix [(2%nat, V3 0 (-1) 0)];
  Fix (V3 0 0 0);
  Fix (V3 0 0 0);
  Fix (V3 0 0 0);
  NoFix [(4%nat, V3 0 0 (-1))];
  NoFix [(4%nat, V3 (-1) 0 0)];
  NoFix [(5%nat, V3 0 (-1) 0)];
  NoFix [(7%nat, V3 (-1) (-1) 0)];
  NoFix [(7%nat, V3 (-1) (-1) 0)];
  NoFix [(5%nat, V3 0 (-1) (-1))];
  NoFix [(5%nat, V3 0 (-1) (-1))];
  NoFix [(4%nat, V3 (-1) 0 (-1))];
  NoFix [(4%nat, V3 (-1) 0 (-1))];
  NoFix [(4%nat, V3 0 0 (-1))];
  NoFix [(4%nat, V3 0 0 (-1))];
  NoFix [(4%nat, V3 0 0 (-1))];
  NoFix [(4%nat, V3 0 0 (-1))];
  NoFix [(4%nat, V3 (-1) 0 0)];
  NoFix [(4%nat, V3 (-1) 0 0)];
  NoFix [(4%nat, V3 (-1) 0 0)];
  NoFix [(4%nat, V3 (-1) 0 0)];
  NoFix [(4%nat, V3 (-1) 0 (-1))];
  NoFix [(4%nat, V3 (-1) 0 (-1))];
  NoFix [(4%nat, V3 (-1) 0 (-1))];
  NoFix [(4%nat, V3 (-1) 0 (-1))];
  Fix (V3 0 0 0);
  NoFix [(4%nat, V3 0 0 2)];
  NoFix [(4%nat, V3 0 0 2)];
  Fix (V3 0 0 0);
  NoFix [(4%nat, V3 (-1) 0 (-1))];
  NoFix [(4%nat, V3 (-1) 0 (-1))];
  NoFix [(5%nat, V3 0 1 (-1))];
  NoFix [(4%nat, V3 (-1) 0 (-1))];
  NoFix [(4%nat, V3 (-1) 0 (-1))];
  NoFix [(7%nat, V3 (-1) (-1) 0)];
  NoFix [(7%nat, V3 (-1) (-1) 0)];
  NoFix [(5%nat, V3 0 1 (-1))];
  NoFix [(5%nat, V3 0 1 (-1))];
  NoFix [(4%nat, V3 (-1) 0 (-1))];
  NoFix [(4%nat, V3 (-1) 0 (-1))];
  Fix (V3 0 0 0);
  NoFix [(1%nat, V3 0 0 (-1))];
  NoFix [(2%nat, V3 0 0 (-1))];
  NoFix [(1%nat, V3 0 0 (-1))];
  Fix (V3 0 0 0);
  NoFix [(2%nat, V3 0 0 2)];
  Fix (V3 0 0 0);
  Fix (V3 0 0 0);
  Fix (V3 0 0 0);
  NoFix [(2%nat, V3 0 0 (-1))];
  NoFix [(7%nat, V3 0 (-1) 0)];
  NoFix [(7%nat, V3 0 (-1) 0)];
  NoFix [(2%nat, V3 0 0 (-1))];
  NoFix [(2%nat, V3 0 0 (-1))];
  Fix (V3 0 0 0);
  NoFix [(2%nat, V3 0 0 2)];
  NoFix [(2%nat, V3 0 0 2)];
  Fix (V3 0 0 0);
  NoFix [(4%nat, V3 0 (-1) 0)];
  NoFix [(1%nat, V3 0 0 (-1))];
  NoFix [(1%nat, V3 0 0 (-1))];
  NoFix [(2%nat, V3 0 0 (-1))];
  NoFix [(2%nat, V3 0 0 (-1))];
  NoFix [(1%nat, V3 0 0 (-1))];
  NoFix [(1%nat, V3 0 0 (-1))];
  Fix (V3 0 0 0);
  NoFix [(2%nat, V3 0 0 2)];
  Fix (V3 0 0 0);
  NoFix [(4%nat, V3 (-1) 0 0)];
  NoFix [(2%nat, V3 0 0 (-1))];
  NoFix [(2%nat, V3 0 0 (-1))];
  NoFix [(4%nat, V3 0 0 (-1))];
  NoFix [(4%nat, V3 (-1) 0 0)];
  NoFix [(2%nat, V3 0 0 (-1))];
  NoFix [(2%nat, V3 0 0 (-1))];
  Fix (V3 0 0 0);
  NoFix [(4%nat, V3 (-1) 0 (-1))];
  NoFix [(2%nat, V3 0 0 2)];
  NoFix [(2%nat, V3 0 0 2)];
  Fix (V3 0 0 0);
  NoFix [(6%nat, V3 0 0 (-1))];
  NoFix [(4%nat, V3 0 (-1) 0)];
  NoFix [(4%nat, V3 0 (-1) 0)];
  Fix (V3 0 0 0);
  NoFix [(4%nat, V3 0 0 (-1))];
  NoFix [(4%nat, V3 (-1) 0 0)];
  NoFix [(4%nat, V3 (-1) 0 0)];
  Fix (V3 0 0 0);
  NoFix [(4%nat, V3 (-1) 0 (-1))];
  Fix (V3 0 0 0);
  NoFix [(6%nat, V3 0 0 2)];
  Fix (V3 0 0 0);
  NoFix [(8%nat, V3 0 0 (-1))];
  NoFix [(8%nat, V3 (-1) 0 0)];
  NoFix [(8%nat, V3 (-1) 0 0)];
  NoFix [(8%nat, V3 (-1) 0 0)];
  NoFix [(8%nat, V3 (-1) 0 0)];
  NoFix [(6%nat, V3 0 (-1) 0)];
  NoFix [(6%nat, V3 0 (-1) 0)];
  NoFix [(6%nat, V3 0 (-1) 0)];
  NoFix [(6%nat, V3 0 (-1) 0)];
  NoFix [(6%nat, V3 0 (-1) 0)];
  NoFix [(6%nat, V3 0 (-1) 0)];
  NoFix [(2%nat, V3 0 0 (-1))];
  NoFix [(2%nat, V3 0 0 (-1))];
  NoFix [(2%nat, V3 0 0 (-1))];
  NoFix [(2%nat, V3 0 0 (-1))];
  NoFix [(2%nat, V3 0 0 (-1))];
  NoFix [(2%nat, V3 0 0 (-1))];
  NoFix [(2%nat, V3 0 0 (-1))];
  NoFix [(2%nat, V3 0 0 (-1))];
  NoFix [(2%nat, V3 0 0 (-1))];
  NoFix [(2%nat, V3 0 0 (-1))];
  NoFix [(2%nat, V3 0 0 (-1))];
  NoFix [(2%nat, V3 0 0 (-1))];
  Fix (V3 0 0 0);
  NoFix [(8%nat, V3 (-1) 0 (-1))];
  NoFix [(2%nat, V3 0 0 2)];
  NoFix [(2%nat, V3 0 0 2)];
  NoFix [(2%nat, V3 0 0 2)];
  NoFix [(2%nat, V3 0 0 2)];
  Fix (V3 0 0 0);
  NoFix [(1%nat, V3 0 0 (-1))];
  NoFix [(1%nat, V3 0 0 (-1))];
  Fix (V3 0 0 0);
  Fix (V3 0 0 0);
  Fix (V3 0 0 0);
  Fix (V3 0 0 0);
  Fix (V3 0 0 0);
  Fix (V3 0 0 0);
  Fix (V3 0 0 0);
  NoFix [(1%nat, V3 0 0 (-1))];
  NoFix [(1%nat, V3 0 0 (-1))];
  NoFix [(1%nat, V3 0 0 (-1))];
  NoFix [(1%nat, V3 0 0 (-1))];
  Fix (V3 0 0 0);
  Fix (V3 0 0 0);
  Fix (V3 0 0 0);
  Fix (V3 0 0 0);
  NoFix [(3%nat, V3 0 0 (-1))];
  NoFix [(3%nat, V3 0 0 (-1))];
  Fix (V3 0 0 0);
  Fix (V3 0 0 0);
  NoFix [(3%nat, V3 (-1) 1 1)];
  NoFix [(3%nat, V3 0 (-1) 0)];
  Fix (V3 0 0 0);
  NoFix [(9%nat, V3 0 0 (-1))];
  Fix (V3 0 0 0);
  NoFix [(9%nat, V3 0 0 (-1))];
  Fix (V3 0 0 0);
  Fix (V3 0 0 0);
  NoFix [(9%nat, V3 (-1) 1 1)];
  NoFix [(9%nat, V3 0 (-1) 0)];
  Fix (V3 0 0 0);
  NoFix [(1%nat, V3 0 0 (-1))];
  NoFix [(1%nat, V3 0 0 (-1))];
  NoFix [(1%nat, V3 0 0 (-1))];
  NoFix [(1%nat, V3 0 0 (-1))];
  NoFix [(3%nat, V3 0 0 (-1))];
  Fix (V3 0 0 0);
  Fix (V3 0 0 0);
  NoFix [(3%nat, V3 0 0 (-1))];
  Fix (V3 0 0 0);
  NoFix [(1%nat, V3 0 0 (-1))];
  NoFix [(1%nat, V3 0 0 (-1))];
  NoFix [(1%nat, V3 0 0 (-1))];
  NoFix [(1%nat, V3 0 0 (-1))];
  NoFix [(3%nat, V3 0 0 (-1))];
  Fix (V3 0 0 0);
  NoFix [(6%nat, V3 0 0 (-1))];
  NoFix [(3%nat, V3 0 0 (-1))];
  NoFix [(3%nat, V3 0 0 (-1))];
  Fix (V3 0 0 0);
  NoFix [(9%nat, V3 0 0 (-1))];
  Fix (V3 0 0 0);
  NoFix [(9%nat, V3 0 0 (-1))];
  Fix (V3 0 0 0);
  NoFix [(18%nat, V3 0 0 (-1))];
  NoFix [(3%nat, V3 0 0 (-1))];
  NoFix [(3%nat, V3 0 0 (-1))];
  Fix (V3 0 0 0);
  Fix (V3 0 0 0);
  Fix (V3 0 0 0);
  NoFix [(1%nat, V3 0 0 (-1))];
  NoFix [(1%nat, V3 1 (-1) (-2)); (2%nat, V3 (-2) 0 (-2))];
  Fix (V3 0 0 0);
  NoFix [(12%nat, V3 (-1) 0 0)];
  NoFix [(12%nat, V3 (-1) 0 0)];
  Fix (V3 0 0 0);
  NoFix [(12%nat, V3 0 0 2)];
  NoFix [(12%nat, V3 0 0 2)];
  Fix (V3 0 0 0);
  NoFix [(1%nat, V3 0 0 (-1))];
  NoFix [(12%nat, V3 (-1) 0 (-1))];
  Fix (V3 0 0 0);
  NoFix [(10%nat, V3 0 0 (-1))];
  Fix (V3 0 0 0);
  NoFix [(10%nat, V3 0 0 (-2))];
  Fix (V3 0 0 0);
  NoFix [(1%nat, V3 0 0 (-1))];
  NoFix [(1%nat, V3 0 0 (-1))];
  NoFix [(10%nat, V3 0 0 2)];
  Fix (V3 0 0 0);
  Fix (V3 0 0 0);
  Fix (V3 0 0 0);
  NoFix [(14%nat, V3 0 0 (-1))];
  NoFix [(14%nat, V3 (-1) 1 (-1))];
  NoFix [(14%nat, V3 0 0 2)];
  Fix (V3 0 0 0);
  NoFix [(18%nat, V3 (-1) 0 0)];
  NoFix [(18%nat, V3 (-1) 0 0)];
  NoFix [(10%nat, V3 0 0 (-1))];
  NoFix [(10%nat, V3 0 0 (-1))];
  NoFix [(10%nat, V3 0 0 (-1))];
  Fix (V3 0 0 0);
  NoFix [(38%nat, V3 (-1) 1 (-1))];
  NoFix [(10%nat, V3 0 0 (-2))];
  NoFix [(10%nat, V3 0 0 (-2))];
  NoFix [(10%nat, V3 0 0 (-2))];
  NoFix [(10%nat, V3 0 0 (-2))];
  Fix (V3 0 0 0);
  NoFix [(10%nat, V3 0 0 2)]].
(** a point (in 24ths) that some other operation than the identity keeps, if there is one *)
Definition full_special : list vec3 := [
  V3 0 0 0;
  V3 0 0 0;
  V3 0 0 0;
  V3 0 0 0;
  V3 0 0 0;
  V3 0 0 0;
  V3 0 0 0;
  V3 0 0 0;
  V3 0 0 0;
  V3 0 0 0;
  V3 0 0 0;
  V3 0 0 0;
  V3 0 0 0;
  V3 0 0 0;
  V3 0 0 0;
  V3 0 0 0;
  V3 0 0 0;
  V3 0 0 0;
  V3 0 0 0;
  V3 0 0 0;
  V3 0 0 0;
  V3 0 0 0;
  V3 0 0 0;
  V3 0 0 0;
  V3 0 0 0;
  V3 0 0 0;
  V3 0 0 0;
  V3 0 0 0;
  V3 0 0 0;
  V3 0 0 0;
  V3 0 0 0;
  V3 0 0 0;
  V3 0 0 0;
  V3 0 0 0;
  V3 0 0 0;
  V3 0 0 0;
  V3 0 0 0;
  V3 0 0 0;
  V3 0 0 0;
  V3 0 0 0;
  V3 0 0 0;
  V3 0 0 0;
  V3 0 0 0;
  V3 0 0 0;
  V3 0 0 0;
  V3 0 0 0;
  V3 0 0 0;
  V3 0 0 0;
  V3 0 0 0;
  V3 0 0 0;
  V3 0 0 0;
  V3 0 0 0;
  V3 0 0 0;
  V3 0 0 0;
  V3 0 0 0;
  V3 0 0 0;
  V3 0 0 0;
  V3 0 0 0;
  V3 0 0 0;
  V3 0 6 0;
  V3 0 0 0;
  V3 6 0 0;
  V3 0 0 0;
  V3 0 0 0;
  V3 0 0 0;
  V3 0 0 0;
  V3 0 0 0;
  V3 0 0 0;
  V3 0 0 0;
  V3 0 0 0;
  V3 0 0 0;
  V3 0 0 6;
  V3 6 0 6;
  V3 6 0 0;
  V3 6 0 0;
  V3 6 6 0;
  V3 0 6 0;
  V3 0 6 0;
  V3 0 6 6;
  V3 0 0 6;
  V3 0 0 0;
  V3 0 0 0;
  V3 0 0 0;
  V3 0 0 0;
  V3 0 0 0;
  V3 0 0 0;
  V3 0 0 0;
  V3 0 0 0;
  V3 0 0 0;
  V3 0 0 6;
  V3 6 0 6;
  V3 6 0 0;
  V3 6 0 0;
  V3 6 0 6;
  V3 0 0 6;
  V3 6 0 0;
  V3 6 6 0;
  V3 0 6 0;
  V3 0 6 0;
  V3 6 6 0;
  V3 6 0 0;
  V3 0 6 0;
  V3 0 6 6;
  V3 0 0 6;
  V3 0 0 6;
  V3 0 6 6;
  V3 0 6 0;
  V3 0 0 0;
  V3 0 0 6;
  V3 6 0 0;
  V3 0 0 0;
  V3 0 0 0;
  V3 0 0 0;
  V3 0 0 0;
  V3 0 0 0;
  V3 0 0 6;
  V3 6 0 0;
  V3 0 0 0;
  V3 0 0 0;
  V3 0 0 0;
  V3 0 0 0;
  V3 0 0 0;
  V3 0 0 0;
  V3 0 6 0;
  V3 0 0 0;
  V3 0 0 0;
  V3 0 0 0;
  V3 0 0 0;
  V3 0 0 0;
  V3 0 0 0;
  V3 0 0 0;
  V3 0 0 0;
  V3 0 0 0;
  V3 0 0 0;
  V3 0 0 0;
  V3 0 0 0;
  V3 0 0 0;
  V3 0 0 0;
  V3 0 0 0;
  V3 0 0 0;
  V3 0 0 0;
  V3 0 0 0;
  V3 0 0 0;
  V3 0 0 0;
  V3 0 0 0;
  V3 0 0 0;
  V3 0 0 0;
  V3 0 0 0;
  V3 0 0 0;
  V3 0 0 0;
  V3 0 0 0;
  V3 0 0 0;
  V3 0 0 0;
  V3 0 0 0;
  V3 0 0 0;
  V3 0 0 0;
  V3 0 0 0;
  V3 0 0 0;
  V3 0 0 0;
  V3 0 0 0;
  V3 0 0 0;
  V3 0 0 0;
  V3 0 0 0;
  V3 0 0 0;
  V3 0 0 0;
  V3 0 0 0;
  V3 0 0 0;
  V3 0 0 0;
  V3 0 0 0;
  V3 0 0 0;
  V3 0 0 0;
  V3 0 0 0;
  V3 0 0 0;
  V3 0 0 0;
  V3 0 0 0;
  V3 0 0 0;
  V3 0 0 0;
  V3 0 0 0;
  V3 0 0 0;
  V3 0 0 0;
  V3 0 0 0;
  V3 0 0 0;
  V3 0 0 0;
  V3 0 0 0;
  V3 0 0 0;
  V3 0 0 0;
  V3 0 0 0;
  V3 0 0 0;
  V3 0 0 0;
  V3 0 0 0;
  V3 0 0 0;
  V3 0 0 0;
  V3 0 0 0;
  V3 0 0 0;
  V3 0 0 0;
  V3 0 0 0;
  V3 0 0 0;
  V3 0 0 0;
  V3 0 0 0;
  V3 0 0 0;
  V3 0 0 0;
  V3 0 0 0;
  V3 0 0 0;
  V3 0 0 0;
  V3 0 0 0;
  V3 0 0 0;
  V3 0 0 0;
  V3 0 0 0;
  V3 0 0 0;
  V3 0 0 0;
  V3 0 0 0;
  V3 0 0 0;
  V3 0 0 0;
  V3 0 0 0;
  V3 0 0 0;
  V3 0 0 0;
  V3 0 0 0;
  V3 0 0 0;
  V3 0 0 0;
  V3 0 0 0;
  V3 0 0 0;
  V3 0 0 0;
  V3 0 0 0;
  V3 0 0 0;
  V3 0 0 0;
  V3 0 0 0;
  V3 0 0 0;
  V3 0 0 0;
  V3 6 6 0;
  V3 0 0 0;
  V3 6 0 0;
  V3 0 6 0;
  V3 0 0 0;
  V3 6 6 0;
  V3 0 0 0;
  V3 0 6 0;
  V3 0 0 0;
  V3 6 0 0;
  V3 6 0 0;
  V3 0 6 0;
  V3 0 0 0;
  V3 0 0 0;
  V3 0 0 6;
  V3 0 0 0;
  V3 6 0 0;
  V3 0 6 0;
  V3 6 0 6;
  V3 6 6 0;
  V3 6 6 0;
  V3 6 0 0;
  V3 6 0 6;
  V3 0 0 0;
  V3 6 6 0;
  V3 0 0 0;
  V3 0 0 0;
  V3 6 6 0;
  V3 6 0 0;
  V3 0 6 0;
  V3 6 0 0;
  V3 6 0 0;
  V3 0 0 6;
  V3 0 6 0;
  V3 0 0 0;
  V3 0 0 0;
  V3 0 0 0;
  V3 6 6 0;
  V3 0 6 6;
  V3 6 0 6;
  V3 0 6 0;
  V3 6 0 0;
  V3 0 0 6;
  V3 0 6 0;
  V3 6 0 0;
  V3 0 0 6;
  V3 0 0 0;
  V3 0 0 0;
  V3 0 0 0;
  V3 0 0 0;
  V3 6 6 0;
  V3 0 0 0;
  V3 0 6 6;
  V3 0 0 0;
  V3 6 0 6;
  V3 0 0 6;
  V3 0 0 6;
  V3 6 0 0;
  V3 6 0 0;
  V3 0 6 0;
  V3 0 6 0;
  V3 0 0 0;
  V3 0 0 0;
  V3 0 6 0;
  V3 6 0 0;
  V3 0 0 0;
  V3 0 6 0;
  V3 6 0 0;
  V3 0 0 0;
  V3 0 0 6;
  V3 0 0 0;
  V3 6 0 0;
  V3 0 0 0;
  V3 0 0 0;
  V3 0 6 0;
  V3 6 0 6;
  V3 0 0 0;
  V3 6 6 0;
  V3 0 0 0;
  V3 0 0 0;
  V3 6 6 0;
  V3 0 0 0;
  V3 0 0 0;
  V3 0 0 0;
  V3 0 0 0;
  V3 6 0 0;
  V3 0 6 0;
  V3 0 6 0;
  V3 0 6 0;
  V3 0 6 0;
  V3 0 0 0;
  V3 0 0 0;
  V3 6 0 0;
  V3 0 0 0;
  V3 0 6 0;
  V3 0 0 0;
  V3 0 6 0;
  V3 0 0 0;
  V3 6 0 0;
  V3 0 0 0;
  V3 6 6 0;
  V3 0 0 0;
  V3 6 6 0;
  V3 0 0 0;
  V3 0 6 0;
  V3 0 0 0;
  V3 0 0 0;
  V3 3 3 0;
  V3 0 0 0;
  V3 0 0 0;
  V3 6 0 0;
  V3 0 6 0;
  V3 0 6 0;
  V3 6 0 0;
  V3 0 6 0;
  V3 6 0 0;
  V3 6 6 0;
  V3 0 0 0;
  V3 0 0 0;
  V3 6 6 0;
  V3 0 0 0;
  V3 0 0 0;
  V3 0 0 0;
  V3 0 0 0;
  V3 0 0 0;
  V3 0 0 0;
  V3 0 0 0;
  V3 0 0 0;
  V3 0 0 0;
  V3 0 0 0;
  V3 0 0 0;
  V3 6 6 0;
  V3 0 0 0;
  V3 6 6 0;
  V3 0 0 0;
  V3 0 0 0;
  V3 0 6 0;
  V3 0 0 0;
  V3 0 0 0;
  V3 0 0 0;
  V3 0 0 0;
  V3 0 0 0;
  V3 0 0 0;
  V3 0 0 0;
  V3 0 0 0;
  V3 0 0 0;
  V3 0 0 0;
  V3 0 0 0;
  V3 0 0 0;
  V3 0 0 0;
  V3 0 0 0;
  V3 0 0 0;
  V3 0 0 0;
  V3 0 0 0;
  V3 0 0 0;
  V3 0 0 0;
  V3 0 0 0;
  V3 0 0 0;
  V3 0 0 0;
  V3 0 0 0;
  V3 0 0 0;
  V3 0 0 0;
  V3 0 0 0;
  V3 0 0 0;
  V3 0 0 0;
  V3 0 0 0;
  V3 0 0 0;
  V3 0 0 0;
  V3 0 0 0;
  V3 0 0 0;
  V3 0 0 0;
  V3 0 0 0;
  V3 0 0 0;
  V3 0 0 0;
  V3 6 6 0;
  V3 0 0 0;
  V3 6 6 0;
  V3 0 0 0;
  V3 0 0 0;
  V3 0 0 0;
  V3 6 6 0;
  V3 0 0 0;
  V3 6 6 0;
  V3 0 0 0;
  V3 0 0 0;
  V3 0 0 0;
  V3 6 6 0;
  V3 0 0 0;
  V3 6 6 0;
  V3 0 0 0;
  V3 0 0 0;
  V3 0 0 0;
  V3 6 6 0;
  V3 0 0 0;
  V3 6 6 0;
  V3 0 0 0;
  V3 0 0 0;
  V3 0 0 0;
  V3 0 6 0;
  V3 0 0 0;
  V3 0 6 0;
  V3 0 0 0;
  V3 0 0 0;
  V3 0 0 0;
  V3 0 0 0;
  V3 0 0 0;
  V3 0 0 0;
  V3 0 0 0;
  V3 0 0 0;
  V3 0 0 0;
  V3 0 0 0;
  V3 0 0 8;
  V3 0 0 0;
  V3 0 0 4;
  V3 0 0 0;
  V3 0 0 0;
  V3 0 0 0;
  V3 0 0 0;
  V3 0 0 0;
  V3 0 0 0;
  V3 0 0 0;
  V3 0 0 0;
  V3 0 0 0;
  V3 0 0 0;
  V3 0 0 0;
  V3 0 0 0;
  V3 0 0 0;
  V3 0 0 0;
  V3 0 0 0;
  V3 0 0 0;
  V3 0 0 0;
  V3 0 0 0;
  V3 0 0 0;
  V3 0 0 0;
  V3 0 0 0;
  V3 0 0 0;
  V3 0 0 0;
  V3 0 0 0;
  V3 0 0 0;
  V3 0 0 0;
  V3 0 0 0;
  V3 0 0 0;
  V3 0 0 0;
  V3 0 0 4;
  V3 0 0 8;
  V3 0 0 0;
  V3 0 0 0;
  V3 0 0 0;
  V3 0 0 0;
  V3 0 0 0;
  V3 0 0 0;
  V3 0 0 0;
  V3 0 0 0;
  V3 0 0 0;
  V3 0 0 0;
  V3 0 0 0;
  V3 0 0 0;
  V3 0 0 0;
  V3 0 0 0;
  V3 0 0 0;
  V3 0 0 0;
  V3 0 0 0;
  V3 0 0 0;
  V3 0 0 0;
  V3 0 6 0;
  V3 0 0 0;
  V3 0 0 0;
  V3 6 6 0;
  V3 0 0 0;
  V3 0 0 0;
  V3 3 3 0;
  V3 0 0 0;
  V3 0 0 0;
  V3 0 6 0;
  V3 0 0 0;
  V3 0 0 0;
  V3 0 0 0;
  V3 0 0 0;
  V3 0 0 0;
  V3 0 0 0;
  V3 0 0 0;
  V3 0 6 0;
  V3 0 0 0;
  V3 0 0 0;
  V3 0 0 0;
  V3 0 0 0;
  V3 0 0 0;
  V3 0 6 0;
  V3 0 0 0;
  V3 0 0 0;
  V3 6 6 0;
  V3 0 0 0;
  V3 0 0 0;
  V3 6 6 0;
  V3 0 0 0;
  V3 0 0 0;
  V3 0 0 0;
  V3 3 3 0;
  V3 0 0 0;
  V3 3 3 0;
  V3 0 0 0;
  V3 0 6 0].
Definition default_fix : list fix_witness := [
  Fix (V3 0 0 0);
  Fix (V3 0 0 0);
  Fix (V3 0 0 0);
  NoFix [(1%nat, V3 0 (-1) 0)];
  Fix (V3 0 0 0);
  Fix (V3 0 0 0);
  NoFix [(1%nat, V3 0 0 (-1))];
  Fix (V3 0 0 0);
  NoFix [(1%nat, V3 0 0 (-1))];
  Fix (V3 0 0 0);
  NoFix [(1%nat, V3 0 (-1) 0)];
  Fix (V3 0 0 0);
  NoFix [(2%nat, V3 0 0 (-1))];
  NoFix [(1%nat, V3 0 (-1) 0)];
  NoFix [(2%nat, V3 0 0 (-1))];
  Fix (V3 0 0 0);
  NoFix [(1%nat, V3 0 0 (-1))];
  NoFix [(2%nat, V3 0 (-1) 0)];
  NoFix [(1%nat, V3 0 0 (-1))];
  NoFix [(1%nat, V3 0 0 (-1))];
  Fix (V3 0 0 0);
  Fix (V3 0 0 0);
  Fix (V3 0 0 0);
  NoFix [(1%nat, V3 1 0 1); (2%nat, V3 (-1) (-1) 0)];
  Fix (V3 0 0 0);
  NoFix [(1%nat, V3 0 0 (-1))];
  NoFix [(2%nat, V3 0 0 (-1))];
  NoFix [(2%nat, V3 (-1) 0 0)];
  NoFix [(1%nat, V3 0 0 (-1))];
  NoFix [(2%nat, V3 0 0 (-1))];
  NoFix [(1%nat, V3 0 0 (-1))];
  NoFix [(2%nat, V3 (-1) 0 0)];
  NoFix [(1%nat, V3 0 0 (-1))];
  NoFix [(2%nat, V3 (-1) 0 0)];
  Fix (V3 0 0 0);
  NoFix [(1%nat, V3 0 0 (-1))];
  NoFix [(2%nat, V3 0 0 (-1))];
  Fix (V3 0 0 0);
  NoFix [(3%nat, V3 0 (-1) (-1))];
  NoFix [(2%nat, V3 (-1) 0 0)];
  NoFix [(2%nat, V3 (-1) 0 0)];
  Fix (V3 0 0 0);
  NoFix [(2%nat, V3 0 0 2)];
  Fix (V3 0 0 0);
  NoFix [(2%nat, V3 (-1) 0 (-1))];
  NoFix [(2%nat, V3 (-1) 0 (-1))];
  Fix (V3 0 0 0);
  NoFix [(4%nat, V3 (-1) 0 0)];
  NoFix [(4%nat, V3 0 0 (-1))];
  NoFix [(4%nat, V3 (-1) 0 0)];
  NoFix [(3%nat, V3 (-1) 0 0)];
  NoFix [(2%nat, V3 0 (-1) 0)];
  NoFix [(1%nat, V3 0 0 (-1))];
  NoFix [(3%nat, V3 (-1) 0 0)];
  NoFix [(2%nat, V3 0 (-1) 0)];
  NoFix [(2%nat, V3 0 (-1) 0)];
  NoFix [(1%nat, V3 0 0 (-1))];
  NoFix [(2%nat, V3 0 (-1) 0)];
  NoFix [(2%nat, V3 0 (-1) 0)];
  NoFix [(1%nat, V3 0 0 (-1))];
  NoFix [(1%nat, V3 0 0 (-1))];
  NoFix [(1%nat, V3 0 0 (-1))];
  NoFix [(1%nat, V3 0 0 (-1))];
  NoFix [(1%nat, V3 0 0 (-1))];
  Fix (V3 0 0 0);
  NoFix [(4%nat, V3 0 0 (-1))];
  NoFix [(7%nat, V3 (-1) (-1) 0)];
  NoFix [(4%nat, V3 0 0 (-1))];
  Fix (V3 0 0 0);
  NoFix [(4%nat, V3 0 0 2)];
  Fix (V3 0 0 0);
  NoFix [(4%nat, V3 (-1) 0 (-1))];
  NoFix [(4%nat, V3 (-1) 0 (-1))];
  NoFix [(7%nat, V3 (-1) (-1) 0)];
  Fix (V3 0 0 0);
  NoFix [(1%nat, V3 0 0 (-1))];
  NoFix [(2%nat, V3 0 0 (-1))];
  NoFix [(1%nat, V3 0 0 (-1))];
  Fix (V3 0 0 0);
  NoFix [(2%nat, V3 0 0 2)];
  Fix (V3 0 0 0);
  Fix (V3 0 0 0);
  Fix (V3 0 0 0);
  NoFix [(2%nat, V3 0 0 (-1))];
  NoFix [(7%nat, V3 0 (-1) 0)];
  NoFix [(2%nat, V3 0 0 (-1))];
  Fix (V3 0 0 0);
  NoFix [(2%nat, V3 0 0 2)];
  Fix (V3 0 0 0);
  NoFix [(4%nat, V3 0 (-1) 0)];
  NoFix [(1%nat, V3 0 0 (-1))];
  NoFix [(1%nat, V3 0 0 (-1))];
  NoFix [(2%nat, V3 0 0 (-1))];
  NoFix [(2%nat, V3 0 0 (-1))];
  NoFix [(1%nat, V3 0 0 (-1))];
  NoFix [(1%nat, V3 0 0 (-1))];
  Fix (V3 0 0 0);
  NoFix [(2%nat, V3 0 0 2)];
  Fix (V3 0 0 0);
  NoFix [(4%nat, V3 (-1) 0 0)];
  NoFix [(2%nat, V3 0 0 (-1))];
  NoFix [(2%nat, V3 0 0 (-1))];
  NoFix [(4%nat, V3 0 0 (-1))];
  NoFix [(4%nat, V3 (-1) 0 0)];
  NoFix [(2%nat, V3 0 0 (-1))];
  NoFix [(2%nat, V3 0 0 (-1))];
  Fix (V3 0 0 0);
  NoFix [(4%nat, V3 (-1) 0 (-1))];
  NoFix [(2%nat, V3 0 0 2)];
  NoFix [(2%nat, V3 0 0 2)];
  Fix (V3 0 0 0);
  NoFix [(6%nat, V3 0 0 (-1))];
  NoFix [(4%nat, V3 0 (-1) 0)];
  NoFix [(4%nat, V3 0 (-1) 0)];
  Fix (V3 0 0 0);
  NoFix [(4%nat, V3 0 0 (-1))];
  NoFix [(4%nat, V3 (-1) 0 0)];
  NoFix [(4%nat, V3 (-1) 0 0)];
  Fix (V3 0 0 0);
  NoFix [(4%nat, V3 (-1) 0 (-1))];
  Fix (V3 0 0 0);
  NoFix [(6%nat, V3 0 0 2)];
  Fix (V3 0 0 0);
  NoFix [(8%nat, V3 0 0 (-1))];
  NoFix [(8%nat, V3 (-1) 0 0)];
  NoFix [(8%nat, V3 (-1) 0 0)];
  NoFix [(6%nat, V3 0 (-1) 0)];
  NoFix [(6%nat, V3 0 (-1) 0)];
  NoFix [(6%nat, V3 0 (-1) 0)];
  NoFix [(6%nat, V3 0 (-1) 0)];
  NoFix [(2%nat, V3 0 0 (-1))];
  NoFix [(2%nat, V3 0 0 (-1))];
  NoFix [(2%nat, V3 0 0 (-1))];
  NoFix [(2%nat, V3 0 0 (-1))];
  NoFix [(2%nat, V3 0 0 (-1))];
  NoFix [(2%nat, V3 0 0 (-1))];
  NoFix [(2%nat, V3 0 0 (-1))];
  NoFix [(2%nat, V3 0 0 (-1))];
  Fix (V3 0 0 0);
  NoFix [(8%nat, V3 (-1) 0 (-1))];
  NoFix [(2%nat, V3 0 0 2)];
  NoFix [(2%nat, V3 0 0 2)];
  Fix (V3 0 0 0);
  NoFix [(1%nat, V3 0 0 (-1))];
  NoFix [(1%nat, V3 0 0 (-1))];
  Fix (V3 0 0 0);
  Fix (V3 0 0 0);
  Fix (V3 0 0 0);
  Fix (V3 0 0 0);
  Fix (V3 0 0 0);
  NoFix [(1%nat, V3 0 0 (-1))];
  NoFix [(1%nat, V3 0 0 (-1))];
  NoFix [(1%nat, V3 0 0 (-1))];
  NoFix [(1%nat, V3 0 0 (-1))];
  Fix (V3 0 0 0);
  Fix (V3 0 0 0);
  Fix (V3 0 0 0);
  NoFix [(3%nat, V3 0 0 (-1))];
  NoFix [(3%nat, V3 0 0 (-1))];
  Fix (V3 0 0 0);
  NoFix [(3%nat, V3 (-1) 1 1)];
  Fix (V3 0 0 0);
  NoFix [(9%nat, V3 0 0 (-1))];
  Fix (V3 0 0 0);
  NoFix [(9%nat, V3 0 0 (-1))];
  Fix (V3 0 0 0);
  NoFix [(9%nat, V3 (-1) 1 1)];
  Fix (V3 0 0 0);
  NoFix [(1%nat, V3 0 0 (-1))];
  NoFix [(1%nat, V3 0 0 (-1))];
  NoFix [(1%nat, V3 0 0 (-1))];
  NoFix [(1%nat, V3 0 0 (-1))];
  NoFix [(3%nat, V3 0 0 (-1))];
  Fix (V3 0 0 0);
  Fix (V3 0 0 0);
  NoFix [(3%nat, V3 0 0 (-1))];
  Fix (V3 0 0 0);
  NoFix [(1%nat, V3 0 0 (-1))];
  NoFix [(1%nat, V3 0 0 (-1))];
  NoFix [(1%nat, V3 0 0 (-1))];
  NoFix [(1%nat, V3 0 0 (-1))];
  NoFix [(3%nat, V3 0 0 (-1))];
  Fix (V3 0 0 0);
  NoFix [(6%nat, V3 0 0 (-1))];
  NoFix [(3%nat, V3 0 0 (-1))];
  NoFix [(3%nat, V3 0 0 (-1))];
  Fix (V3 0 0 0);
  NoFix [(9%nat, V3 0 0 (-1))];
  Fix (V3 0 0 0);
  NoFix [(9%nat, V3 0 0 (-1))];
  Fix (V3 0 0 0);
  NoFix [(18%nat, V3 0 0 (-1))];
  NoFix [(3%nat, V3 0 0 (-1))];
  NoFix [(3%nat, V3 0 0 (-1))];
  Fix (V3 0 0 0);
  Fix (V3 0 0 0);
  Fix (V3 0 0 0);
  NoFix [(1%nat, V3 0 0 (-1))];
  NoFix [(1%nat, V3 1 (-1) (-2)); (2%nat, V3 (-2) 0 (-2))];
  Fix (V3 0 0 0);
  NoFix [(12%nat, V3 (-1) 0 0)];
  Fix (V3 0 0 0);
  NoFix [(12%nat, V3 0 0 2)];
  Fix (V3 0 0 0);
  NoFix [(1%nat, V3 0 0 (-1))];
  NoFix [(12%nat, V3 (-1) 0 (-1))];
  Fix (V3 0 0 0);
  NoFix [(10%nat, V3 0 0 (-1))];
  Fix (V3 0 0 0);
  NoFix [(10%nat, V3 0 0 (-2))];
  Fix (V3 0 0 0);
  NoFix [(1%nat, V3 0 0 (-1))];
  NoFix [(1%nat, V3 0 0 (-1))];
  NoFix [(10%nat, V3 0 0 2)];
  Fix (V3 0 0 0);
  Fix (V3 0 0 0);
  Fix (V3 0 0 0);
  NoFix [(14%nat, V3 0 0 (-1))];
  NoFix [(14%nat, V3 (-1) 1 (-1))];
  NoFix [(14%nat, V3 0 0 2)];
  Fix (V3 0 0 0);
  NoFix [(18%nat, V3 (-1) 0 0)];
  NoFix [(10%nat, V3 0 0 (-1))];
  NoFix [(10%nat, V3 0 0 (-1))];
  Fix (V3 0 0 0);
  NoFix [(38%nat, V3 (-1) 1 (-1))];
  NoFix [(10%nat, V3 0 0 (-2))];
  NoFix [(10%nat, V3 0 0 (-2))];
  Fix (V3 0 0 0);
  NoFix [(10%nat, V3 0 0 2)]].
(** a point (in 24ths) that some other operation than the identity keeps, if there is one *)
Definition default_special : list vec3 := [
  V3 0 0 0;
  V3 0 0 0;
  V3 0 0 0;
  V3 0 0 0;
  V3 0 0 0;
  V3 0 0 0;
  V3 0 0 0;
  V3 0 0 0;
  V3 0 0 0;
  V3 0 0 0;
  V3 0 6 0;
  V3 0 0 0;
  V3 0 0 6;
  V3 0 0 0;
  V3 0 0 6;
  V3 0 0 0;
  V3 0 0 6;
  V3 0 0 0;
  V3 0 0 0;
  V3 0 0 6;
  V3 0 0 0;
  V3 0 0 0;
  V3 0 0 0;
  V3 0 6 0;
  V3 0 0 0;
  V3 0 0 0;
  V3 0 0 0;
  V3 0 0 0;
  V3 0 0 0;
  V3 0 0 0;
  V3 0 0 0;
  V3 0 0 0;
  V3 0 0 0;
  V3 0 0 0;
  V3 0 0 0;
  V3 0 0 0;
  V3 0 0 0;
  V3 0 0 0;
  V3 0 0 0;
  V3 0 0 0;
  V3 0 0 0;
  V3 0 0 0;
  V3 0 0 0;
  V3 0 0 0;
  V3 0 0 0;
  V3 0 0 0;
  V3 0 0 0;
  V3 6 6 0;
  V3 0 0 0;
  V3 6 6 0;
  V3 6 0 0;
  V3 6 0 0;
  V3 6 0 6;
  V3 6 0 0;
  V3 0 0 0;
  V3 6 6 0;
  V3 0 6 0;
  V3 0 0 0;
  V3 6 6 0;
  V3 0 0 6;
  V3 0 0 0;
  V3 0 6 0;
  V3 0 0 6;
  V3 6 0 6;
  V3 0 0 0;
  V3 0 0 0;
  V3 0 6 0;
  V3 0 6 0;
  V3 0 0 0;
  V3 3 3 0;
  V3 0 0 0;
  V3 0 0 0;
  V3 0 6 0;
  V3 0 6 0;
  V3 0 0 0;
  V3 0 0 0;
  V3 0 0 0;
  V3 0 0 0;
  V3 0 0 0;
  V3 0 0 0;
  V3 0 0 0;
  V3 0 0 0;
  V3 0 0 0;
  V3 0 0 0;
  V3 6 6 0;
  V3 6 6 0;
  V3 0 0 0;
  V3 0 6 0;
  V3 0 0 0;
  V3 0 0 0;
  V3 0 0 0;
  V3 0 0 0;
  V3 0 0 0;
  V3 0 0 0;
  V3 0 0 0;
  V3 0 0 0;
  V3 0 0 0;
  V3 0 0 0;
  V3 0 0 0;
  V3 0 0 0;
  V3 0 0 0;
  V3 0 0 0;
  V3 0 0 0;
  V3 0 0 0;
  V3 0 0 0;
  V3 0 0 0;
  V3 0 0 0;
  V3 0 0 0;
  V3 0 0 0;
  V3 0 0 0;
  V3 0 0 0;
  V3 0 0 0;
  V3 0 0 0;
  V3 0 0 0;
  V3 0 0 0;
  V3 0 0 0;
  V3 0 0 0;
  V3 0 0 0;
  V3 0 0 0;
  V3 0 0 0;
  V3 0 0 0;
  V3 0 0 0;
  V3 0 0 0;
  V3 0 0 0;
  V3 6 6 0;
  V3 6 6 0;
  V3 0 0 0;
  V3 0 0 0;
  V3 6 6 0;
  V3 6 6 0;
  V3 0 0 0;
  V3 0 0 0;
  V3 6 6 0;
  V3 6 6 0;
  V3 0 0 0;
  V3 0 0 0;
  V3 6 6 0;
  V3 6 6 0;
  V3 0 0 0;
  V3 0 0 0;
  V3 0 6 0;
  V3 0 6 0;
  V3 0 0 0;
  V3 0 0 0;
  V3 0 0 0;
  V3 0 0 0;
  V3 0 0 0;
  V3 0 0 0;
  V3 0 0 0;
  V3 0 0 0;
  V3 0 0 8;
  V3 0 0 0;
  V3 0 0 4;
  V3 0 0 0;
  V3 0 0 0;
  V3 0 0 0;
  V3 0 0 0;
  V3 0 0 0;
  V3 0 0 0;
  V3 0 0 0;
  V3 0 0 0;
  V3 0 0 0;
  V3 0 0 0;
  V3 0 0 0;
  V3 0 0 0;
  V3 0 0 0;
  V3 0 0 0;
  V3 0 0 0;
  V3 0 0 0;
  V3 0 0 0;
  V3 0 0 0;
  V3 0 0 0;
  V3 0 0 0;
  V3 0 0 0;
  V3 0 0 0;
  V3 0 0 0;
  V3 0 0 0;
  V3 0 0 4;
  V3 0 0 8;
  V3 0 0 0;
  V3 0 0 0;
  V3 0 0 0;
  V3 0 0 0;
  V3 0 0 0;
  V3 0 0 0;
  V3 0 0 0;
  V3 0 0 0;
  V3 0 0 0;
  V3 0 0 0;
  V3 0 0 0;
  V3 0 0 0;
  V3 0 0 0;
  V3 0 0 0;
  V3 0 0 0;
  V3 0 0 0;
  V3 0 0 0;
  V3 0 0 0;
  V3 0 0 0;
  V3 0 6 0;
  V3 0 0 0;
  V3 6 6 0;
  V3 0 0 0;
  V3 3 3 0;
  V3 0 0 0;
  V3 0 0 0;
  V3 0 6 0;
  V3 0 0 0;
  V3 0 0 0;
  V3 0 0 0;
  V3 0 0 0;
  V3 0 0 0;
  V3 0 0 0;
  V3 0 0 0;
  V3 0 6 0;
  V3 0 0 0;
  V3 0 0 0;
  V3 0 0 0;
  V3 0 0 0;
  V3 0 0 0;
  V3 0 6 0;
  V3 0 0 0;
  V3 6 6 0;
  V3 0 0 0;
  V3 6 6 0;
  V3 0 0 0;
  V3 0 0 0;
  V3 3 3 0;
  V3 3 3 0;
  V3 0 0 0;
  V3 0 6 0].
