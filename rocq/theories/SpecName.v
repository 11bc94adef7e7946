(** * SpecName: blanks behind a name, for property C104, independent of the model. *)
From Verif Require Import Base.
(** [k] blanks *)
Fixpoint blanks (k : nat) : string :=
  match k with O => "" | S k' => String " "%char (blanks k') end.
Definition ends_in_blank (s : string) : Prop := exists r, s = (r ++ " ")%string.
(** [name] is [s] with the blanks at its end taken off *)
Definition trimmed_to (s name : string) : Prop :=
  (exists k, s = (name ++ blanks k)%string) /\ ~ ends_in_blank name.
(** the only names written alike in both tables, with the label in the full table and the label
    in the default table *)
Definition common_names : list (string * (string * string)) :=
  [ ("P 21 21 21", ("19", "19")); ("I 21 21 21", ("24", "24"));
    ("P 4", ("75", "83")); ("P 42", ("77", "84")); ("I 4", ("79", "87")); ("I 41", ("80", "88:1"));
    ("P 6", ("168", "175")); ("P 63", ("173", "176"));
    ("P n -3 n:1", ("222:1", "222:1")); ("P n -3 m:1", ("224:1", "224:1"));
    ("F d -3 m:1", ("227:1", "227:1")); ("F d -3 c:1", ("228:1", "228:1")) ]%string.
(** the only names without a blank at the end that the default table knows *)
Definition default_names_found : list (string * string) :=
  [ ("P 1 2", "10:b"); ("P 1 21", "11:b"); ("C 1 2", "12:b1");
    ("P 21 21 21", "19"); ("I 21 21 21", "24");
    ("P 4", "83"); ("P 42", "84"); ("I 4", "87"); ("I 41", "88:1"); ("P 6", "175"); ("P 63", "176");
    ("P n -3 n:1", "222:1"); ("P n -3 m:1", "224:1"); ("F d -3 m:1", "227:1"); ("F d -3 c:1", "228:1") ]%string.
