(** * SpecTables: facts of International Tables vol. A used to state the table properties. *)
From Verif Require Import Base Seitz Spec.
Open Scope Z_scope.

(** leading decimal number of a label such as 68:1ba-c *)
Fixpoint leading_number_from (acc : nat) (s : string) : nat :=
  match s with
  | EmptyString => acc
  | String c r =>
      let d := nat_of_ascii c in
      if andb (Nat.leb 48 d) (Nat.leb d 57) then leading_number_from (10 * acc + (d - 48)) r else acc
  end.
Definition leading_number (s : string) : nat := leading_number_from 0 s.

(** numbers of operations of each kind in a point group, in the order
    -6 -4 -3 m -1 1 2 3 4 6 *)
Definition census := list nat.
(** kinds by determinant and trace *)
Definition kinds : list (Z * Z) :=
  [(-1, -2); (-1, -1); (-1, 0); (-1, 1); (-1, -3); (1, 3); (1, -1); (1, 0); (1, 1); (1, 2)].
Definition count_kind (k : Z * Z) (l : list mat3) : nat :=
  List.length (filter (fun R => (mdet R =? fst k) && (mtrace R =? snd k)) l).
Definition census_of (l : list mat3) : census := map (fun k => count_kind k l) kinds.

(** International Tables: the last space-group number of each of the 32 crystal classes, in
    their conventional order, with the census of the class *)
Definition crystal_classes : list (nat * census) := [
  (1,   [0; 0; 0; 0; 0; 1; 0; 0; 0; 0]);   (* 1     *)
  (2,   [0; 0; 0; 0; 1; 1; 0; 0; 0; 0]);   (* -1    *)
  (5,   [0; 0; 0; 0; 0; 1; 1; 0; 0; 0]);   (* 2     *)
  (9,   [0; 0; 0; 1; 0; 1; 0; 0; 0; 0]);   (* m     *)
  (15,  [0; 0; 0; 1; 1; 1; 1; 0; 0; 0]);   (* 2/m   *)
  (24,  [0; 0; 0; 0; 0; 1; 3; 0; 0; 0]);   (* 222   *)
  (46,  [0; 0; 0; 2; 0; 1; 1; 0; 0; 0]);   (* mm2   *)
  (74,  [0; 0; 0; 3; 1; 1; 3; 0; 0; 0]);   (* mmm   *)
  (80,  [0; 0; 0; 0; 0; 1; 1; 0; 2; 0]);   (* 4     *)
  (82,  [0; 2; 0; 0; 0; 1; 1; 0; 0; 0]);   (* -4    *)
  (88,  [0; 2; 0; 1; 1; 1; 1; 0; 2; 0]);   (* 4/m   *)
  (98,  [0; 0; 0; 0; 0; 1; 5; 0; 2; 0]);   (* 422   *)
  (110, [0; 0; 0; 4; 0; 1; 1; 0; 2; 0]);   (* 4mm   *)
  (122, [0; 2; 0; 2; 0; 1; 3; 0; 0; 0]);   (* -42m  *)
  (142, [0; 2; 0; 5; 1; 1; 5; 0; 2; 0]);   (* 4/mmm *)
  (146, [0; 0; 0; 0; 0; 1; 0; 2; 0; 0]);   (* 3     *)
  (148, [0; 0; 2; 0; 1; 1; 0; 2; 0; 0]);   (* -3    *)
  (155, [0; 0; 0; 0; 0; 1; 3; 2; 0; 0]);   (* 32    *)
  (161, [0; 0; 0; 3; 0; 1; 0; 2; 0; 0]);   (* 3m    *)
  (167, [0; 0; 2; 3; 1; 1; 3; 2; 0; 0]);   (* -3m   *)
  (173, [0; 0; 0; 0; 0; 1; 1; 2; 0; 2]);   (* 6     *)
  (174, [2; 0; 0; 1; 0; 1; 0; 2; 0; 0]);   (* -6    *)
  (176, [2; 0; 2; 1; 1; 1; 1; 2; 0; 2]);   (* 6/m   *)
  (182, [0; 0; 0; 0; 0; 1; 7; 2; 0; 2]);   (* 622   *)
  (186, [0; 0; 0; 6; 0; 1; 1; 2; 0; 2]);   (* 6mm   *)
  (190, [2; 0; 0; 4; 0; 1; 3; 2; 0; 0]);   (* -6m2  *)
  (194, [2; 0; 2; 7; 1; 1; 7; 2; 0; 2]);   (* 6/mmm *)
  (199, [0; 0; 0; 0; 0; 1; 3; 8; 0; 0]);   (* 23    *)
  (206, [0; 0; 8; 3; 1; 1; 3; 8; 0; 0]);   (* m-3   *)
  (214, [0; 0; 0; 0; 0; 1; 9; 8; 6; 0]);   (* 432   *)
  (220, [0; 6; 0; 6; 0; 1; 3; 8; 0; 0]);   (* -43m  *)
  (230, [0; 6; 8; 9; 1; 1; 9; 8; 6; 0])    (* m-3m  *)
]%nat.
Fixpoint class_of_number_in (cs : list (nat * census)) (n : nat) : option census :=
  match cs with
  | [] => None
  | (last, c) :: r => if Nat.leb n last then Some c else class_of_number_in r n
  end.
(** census of the crystal class of space group number [n] *)
Definition class_of_number (n : nat) : option census :=
  match n with O => None | _ => class_of_number_in crystal_classes n end.
(** order of the point group *)
Definition census_order (c : census) : nat := fold_right Nat.add 0%nat c.
