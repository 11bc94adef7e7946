(** * SpecPatterson: the symmetry of the vectors between points of a crystal (C96). *)
From Coq Require Import QArith.
From Verif Require Import Base Notations Parser Seitz Tables Lookup Spec SpecHall SpecTables SpecType SpecLatticeClass.
Open Scope Z_scope.

(** the vectors between the points of a set *)
Definition vectors_of (S : qvec -> Prop) (d : qvec) : Prop :=
  exists p q, S p /\ S q /\ qsame d (QV (qx p - qx q) (qy p - qy q) (qz p - qz q)).
(** a set of points that the operations of [G] take into itself *)
Definition symmetric_set (G : op -> Prop) (S : qvec -> Prop) : Prop :=
  (forall p q, qsame p q -> S p -> S q) /\ forall o p, G o -> S p -> S (move o p).
(** the rotations of a group and their opposites, with the translations of the group *)
Definition patterson_group (G : op -> Prop) (o : op) : Prop :=
  G (I3, snd o) /\ exists u, G (fst o, u) \/ G (mopp (fst o), u).
(** the notation without screws, letters and shift, with a minus in front *)
Definition patterson (h : hall) : hall := Hall (LS true (ls_char (h_lat h))) (map bare_symbol (h_syms h)) (V3 0 0 0).
(** International Tables: the 24 Patterson symmetries, each with the numbers of the types that have it *)
Local Open Scope nat_scope.
Definition patterson_types : list (nat * list nat) :=
  [(2, seq 1 2);
   (10, [3; 4; 6; 7; 10; 11; 13; 14]);
   (12, [5; 8; 9; 12; 15]);
   (47, seq 16 4 ++ seq 25 10 ++ seq 47 16);
   (65, seq 20 2 ++ seq 35 7 ++ seq 63 6);
   (69, [22; 42; 43; 69; 70]);
   (71, [23; 24; 44; 45; 46; 71; 72; 73; 74]);
   (83, seq 75 4 ++ [81] ++ seq 83 4);
   (87, [79; 80; 82; 87; 88]);
   (123, seq 89 8 ++ seq 99 8 ++ seq 111 8 ++ seq 123 16);
   (139, seq 97 2 ++ seq 107 4 ++ seq 119 4 ++ seq 139 4);
   (147, seq 143 3 ++ [147]);
   (148, [146; 148]);
   (162, [149; 151; 153; 157; 159; 162; 163]);
   (164, [150; 152; 154; 156; 158; 164; 165]);
   (166, [155; 160; 161; 166; 167]);
   (175, seq 168 9);
   (191, seq 177 18);
   (200, [195; 198; 200; 201; 205]);
   (202, [196; 202; 203]);
   (204, [197; 199; 204; 206]);
   (221, [207; 208; 212; 213; 215; 218] ++ seq 221 4);
   (225, [209; 210; 216; 219] ++ seq 225 4);
   (229, [211; 214; 217; 220; 229; 230])]%list.
