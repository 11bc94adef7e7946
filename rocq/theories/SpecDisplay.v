(** * SpecDisplay: vocabulary for C49: the words of a printed text and the numbers they show. *)
From Coq Require Import QArith.
From Verif Require Import Base Seitz Spec SpecXyz.
Open Scope string_scope.

Definition separator (c : ascii) : bool := Ascii.eqb c " " || Ascii.eqb c "010".
(** the maximal runs of characters other than blanks and newlines *)
Fixpoint words (s : string) : list string :=
  match s with
  | EmptyString => []
  | String c r =>
      if separator c then words r
      else match r with
           | EmptyString => [String c EmptyString]
           | String d _ =>
               if separator d then String c EmptyString :: words r
               else match words r with
                    | w :: ws => String c w :: ws
                    | [] => [String c EmptyString]
                    end
           end
  end.
(** the word [w] is a number or a fraction, of value [q] *)
Definition shows (w : string) (q : Q) : Prop :=
  exists f, read_coord w = Some f /\ lx f = 0%Z /\ ly f = 0%Z /\ lz f = 0%Z /\ (lconst f == q)%Q.
Definition shows_int (w : string) (z : Z) : Prop := shows w (inject_Z z).
Definition shows_twelfths (w : string) (z : Z) : Prop := shows w (inject_Z z / 12)%Q.
(** the lines of a text *)
Definition lines (s : string) : list string := split_on "010" s.
(** the 16 entries of an operation, row by row: the translation column in twelfths of a cell *)
Definition entries_in_cells (m : seitz) : list (list Q) :=
  let i := inject_Z in let R := rot m in let t := tra m in let b := bot m in
  [[i (m11 R); i (m12 R); i (m13 R); i (vx t) / 12]; [i (m21 R); i (m22 R); i (m23 R); i (vy t) / 12];
   [i (m31 R); i (m32 R); i (m33 R); i (vz t) / 12]; [i (vx b); i (vy b); i (vz b); i (cor m)]]%Q.
(** the same, the translation column in units *)
Definition entries_in_units (m : seitz) : list (list Q) :=
  let i := inject_Z in let R := rot m in let t := tra m in let b := bot m in
  [[i (m11 R); i (m12 R); i (m13 R); i (vx t)]; [i (m21 R); i (m22 R); i (m23 R); i (vy t)];
   [i (m31 R); i (m32 R); i (m33 R); i (vz t)]; [i (vx b); i (vy b); i (vz b); i (cor m)]]%Q.
(** rows of cells in a box *)
Definition boxed (cells : list (list string)) : list string :=
  (["┌"; "┐"] ++ flat_map (fun r => "│" :: r ++ ["│"]) cells ++ ["└"; "┘"])%list.
