(** * SpecOutcome: for which symbols [general_positions] returns (C62). *)
From Verif Require Import Base Notations Parser Seitz SpecCompat.
Open Scope Z_scope.

(** the rotations of a rhombohedron with its axis along the body diagonal: 1, 3* and the
    2-fold symbols with a single quote *)
Definition rhombohedral_kind (ms : msym) : Prop :=
  match ms_fold ms, ms_diag ms with
  | F1, _ | F3, Asterisk | F2, SingleQuote => True
  | _, _ => False
  end.
(** the first symbol fixes the family to which all symbols have to belong: hexagonal about the
    third axis after a 6-fold or plain 3-fold, rhombohedral after 3*, cubic otherwise *)
Definition one_family (l : list msym) : Prop :=
  match l with
  | [] => False
  | first :: _ =>
      match ms_fold first, ms_diag first with
      | F6, _ => forall ms, In ms l -> hexagonal_kind AxZ ms
      | F3, Asterisk => forall ms, In ms l -> rhombohedral_kind ms
      | F3, _ => forall ms, In ms l -> hexagonal_kind AxZ ms
      | _, _ => forall ms, In ms l -> cubic_kind ms
      end
  end.
