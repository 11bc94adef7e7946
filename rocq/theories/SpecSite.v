(** * SpecSite: site symmetry (C77). *)
From Coq Require Import QArith.
From Verif Require Import Base Seitz Generate Positions Spec SpecOrbit.
Open Scope Z_scope.

(** the listed operations that leave the site of [p] where it is (up to whole cells) *)
Definition site_symmetry (g : gpos) (p : qvec) : list seitz :=
  filter (fun m => same_site (act m p) p) (all_operations g).
