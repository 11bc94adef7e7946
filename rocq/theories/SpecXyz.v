(** * SpecXyz: an independent reader of "x,y,z" texts, and metrics (C22, C23). *)
From Coq Require Import QArith.
From Verif Require Import Base Seitz Spec.
Open Scope Z_scope.

(** the parts of a text between the separators [c] *)
Fixpoint split_on (c : ascii) (s : string) : list string :=
  match s with
  | EmptyString => [EmptyString]
  | String d r =>
      if Ascii.eqb d c then EmptyString :: split_on c r
      else match split_on c r with
           | [] => [String d EmptyString]
           | p :: ps => String d p :: ps
           end
  end.
(** a decimal number, at least one digit *)
Fixpoint digits_value (acc : Z) (s : string) : option Z :=
  match s with
  | EmptyString => Some acc
  | String c r =>
      let d := Z.of_nat (nat_of_ascii c) in
      if (48 <=? d) && (d <=? 57) then digits_value (10 * acc + (d - 48)) r else None
  end.
Definition number_value (s : string) : option Z :=
  match s with EmptyString => None | _ => digits_value 0 s end.
(** the signed terms of a sum: a text without signs, then the terms with the sign before each *)
Fixpoint signed_terms (s : string) : string * list (bool * string) :=
  match s with
  | EmptyString => (EmptyString, [])
  | String c r =>
      let (b, ts) := signed_terms r in
      if Ascii.eqb c "+" then (EmptyString, (false, b) :: ts)
      else if Ascii.eqb c "-" then (EmptyString, (true, b) :: ts)
      else (String c b, ts)
  end.
(** a linear form in x, y, z with a constant *)
Record form := Lin { lx : Z; ly : Z; lz : Z; lconst : Q }.
Definition form_zero := Lin 0 0 0 0.
Definition form_add (a b : form) : form :=
  Lin (lx a + lx b) (ly a + ly b) (lz a + lz b) (lconst a + lconst b).
Definition form_neg (a : form) : form := Lin (- lx a) (- ly a) (- lz a) (- lconst a).
(** one term: x, y, z, n or n/d *)
Definition read_term (s : string) : option form :=
  if String.eqb s "x" then Some (Lin 1 0 0 0)
  else if String.eqb s "y" then Some (Lin 0 1 0 0)
  else if String.eqb s "z" then Some (Lin 0 0 1 0)
  else match split_on "/" s with
       | [n] => option_map (fun n => Lin 0 0 0 (inject_Z n)) (number_value n)
       | [n; d] =>
           match number_value n, number_value d with
           | Some n, Some (Z.pos d) => Some (Lin 0 0 0 (n # d))
           | _, _ => None
           end
       | _ => None
       end.
Fixpoint sum_terms (ts : list (bool * string)) : option form :=
  match ts with
  | [] => Some form_zero
  | (neg, s) :: r =>
      match read_term s, sum_terms r with
      | Some f, Some g => Some (form_add (if neg then form_neg f else f) g)
      | _, _ => None
      end
  end.
(** a coordinate: a sum of terms, nothing being zero *)
Definition read_coord (s : string) : option form :=
  let (b, ts) := signed_terms s in
  match b with EmptyString => sum_terms ts | _ => sum_terms ((false, b) :: ts) end.
(** three coordinates separated by commas: the matrix and the translation they denote *)
Definition read_xyz (s : string) : option (mat3 * qvec) :=
  match split_on "," s with
  | [a; b; c] =>
      match read_coord a, read_coord b, read_coord c with
      | Some a, Some b, Some c =>
          Some (M3 (lx a) (ly a) (lz a) (lx b) (ly b) (lz b) (lx c) (ly c) (lz c),
                QV (lconst a) (lconst b) (lconst c))
      | _, _, _ => None
      end
  | _ => None
  end.
(** the translation of an operation in cells *)
Definition cells_of (t : vec3) : qvec :=
  QV (inject_Z (vx t) / 12) (inject_Z (vy t) / 12) (inject_Z (vz t) / 12).
Definition within_one_cell (q : qvec) : Prop :=
  (-(1) < qx q < 1 /\ -(1) < qy q < 1 /\ -(1) < qz q < 1)%Q.
(** every entry is -1, 0 or 1 *)
Definition unit_matrix (M : mat3) : Prop :=
  -1 <= m11 M <= 1 /\ -1 <= m12 M <= 1 /\ -1 <= m13 M <= 1 /\
  -1 <= m21 M <= 1 /\ -1 <= m22 M <= 1 /\ -1 <= m23 M <= 1 /\
  -1 <= m31 M <= 1 /\ -1 <= m32 M <= 1 /\ -1 <= m33 M <= 1.

(** ** Metrics: [R] maps the lattice with Gram matrix [G] to itself *)
Definition transposed (a : mat3) : mat3 :=
  M3 (m11 a) (m21 a) (m31 a) (m12 a) (m22 a) (m32 a) (m13 a) (m23 a) (m33 a).
Definition preserves (G R : mat3) : Prop := mmul (mmul (transposed R) G) R = G.
(** a = b = c, right angles *)
Definition cubic_rotation (R : mat3) : Prop := preserves (M3 1 0 0 0 1 0 0 0 1) R.
(** a = b, gamma = 120 degrees, any length [c] *)
Definition hexagonal_rotation (R : mat3) : Prop := forall c, preserves (M3 2 (-1) 0 (-1) 2 0 0 0 c) R.
(** a = b = c, three equal angles of any size *)
Definition rhombohedral_rotation (R : mat3) : Prop := forall a b, preserves (M3 a b b b a b b b a) R.
