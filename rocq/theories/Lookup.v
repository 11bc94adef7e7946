(** * Lookup: the space-group tables. *)
From Verif Require Import Base Notations Parser Seitz Generate Positions Tables.

(** space_group_table.rs:1671-1677: number, HM and Hall columns *)
Record sgtable := SG { t_number : list string; t_hm : list string; t_hall : list string }.
(** space_group_table.rs:1671 [FULL_SPACE_GROUP_SYMBOLS] *)
Definition full_table : sgtable := SG full_number full_hm full_hall.
(** space_group_table.rs:1673-1677 [DEFAULT_SPACE_GROUP_SYMBOLS] *)
Definition default_table : sgtable := SG default_number default_hm default_hall.

(** space_group_table.rs:10-12, 38-40 *)
Definition get_hm_full_notation (t : sgtable) (i : nat) : option string := nth_error (t_hm t) i.
(** space_group_table.rs:14-16, 42-44 *)
Definition get_hall_symbol (t : sgtable) (i : nat) : option string := nth_error (t_hall t) i.
(** space_group_table.rs:32-34, 60-62 *)
Definition get_space_group_number (t : sgtable) (i : nat) : option string :=
  nth_error (t_number t) i.
(** space_group_table.rs:18-21, 46-49 *)
Definition number_by_hm (t : sgtable) (s : string) : option string :=
  match position (fun x => String.eqb x s) (t_hm t) with
  | Some i => nth_error (t_number t) i
  | None => None
  end.
(** space_group_table.rs:23-30, 51-58 *)
Definition number_by_hall (t : sgtable) (s : string) : option string :=
  match position (fun x => String.eqb x s) (t_hall t) with
  | Some i => nth_error (t_number t) i
  | None => None
  end.

(** src/database/mod.rs:14-545 [SpaceGroupHallSymbol]: a variant is its discriminant *)
Definition variant := nat.
(** the discriminants that exist *)
Definition is_variant (v : variant) : Prop := (v < List.length variant_names)%nat.
(** database/mod.rs:547-569; [None] is the [unwrap] panic *)
Definition variant_hall (v : variant) : option string := get_hall_symbol full_table v.
(** database/mod.rs:547-569 [get_hm_symbol] *)
Definition variant_hm (v : variant) : option string := get_hm_full_notation full_table v.
(** database/mod.rs:547-569 [get_space_group_number_code] *)
Definition variant_number (v : variant) : option string := get_space_group_number full_table v.
(** src/hall_symbols/mod.rs:208-212 [From<SpaceGroupHallSymbol>] *)
Definition notation_of_variant (v : variant) : outcome hall :=
  match variant_hall v with
  | None => Panic "called `Option::unwrap()` on a `None` value"
  | Some s =>
      match try_from_str s with
      | Done (Some h) => Done h
      | Done None => Panic "called `Result::unwrap()` on an `Err` value"
      | Panic w => Panic w
      | OutOfFuel => OutOfFuel
      end
  end.

(** src/database/crystal_system.rs:3-20 *)
Inductive crystal_system :=
  Triclinic | Monoclinic | Orthorhombic | Tetragonal | Trigonal | Hexagonal | Cubic.
(** src/database/crystal_system.rs:3: the derived [Debug] text *)
Definition crystal_system_debug (c : crystal_system) : string :=
  match c with
  | Triclinic => "Triclinic" | Monoclinic => "Monoclinic" | Orthorhombic => "Orthorhombic"
  | Tetragonal => "Tetragonal" | Trigonal => "Trigonal" | Hexagonal => "Hexagonal"
  | Cubic => "Cubic"
  end.
(** [str::to_lowercase] on ASCII text *)
Definition lower_char (c : ascii) : ascii :=
  let n := nat_of_ascii c in if (Nat.leb 65 n) && (Nat.leb n 90) then ascii_of_nat (n + 32) else c.
Fixpoint lowercase (s : string) : string :=
  match s with EmptyString => EmptyString | String c r => String (lower_char c) (lowercase r) end.
(** src/database/crystal_system.rs:15-20: the [Display] text *)
Definition crystal_system_text (c : crystal_system) : string := lowercase (crystal_system_debug c).
(** src/database/crystal_system.rs:3: the discriminants, by which the derived [PartialOrd], [Ord] compare *)
Definition crystal_system_index (c : crystal_system) : Z :=
  match c with
  | Triclinic => 0 | Monoclinic => 1 | Orthorhombic => 2 | Tetragonal => 3 | Trigonal => 4 | Hexagonal => 5 | Cubic => 6
  end.
Definition crystal_system_cmp (a b : crystal_system) : comparison := Z.compare (crystal_system_index a) (crystal_system_index b).
(** src/database/crystal_system.rs:5: [#[default]] *)
Definition crystal_system_default : crystal_system := Triclinic.
