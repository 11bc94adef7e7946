(** * SpecLatticeClass: arithmetic crystal classes (C89, C90): a point group together with the lattice
    it acts on. *)
From Coq Require Import List Arith.
From Verif Require Import Base Notations Parser Seitz Tables Lookup Spec SpecHall SpecTables SpecType SpecKind PropTableGroups.
Import ListNotations.
Open Scope Z_scope.

(** a linear change of coordinates v |-> M v / d turns the translations of one group into the translations
    of the other and the rotation parts of one into the rotation parts of the other *)
Definition same_arithmetic_class (G G' : op -> Prop) : Prop :=
  exists M d, 0 < d /\ mdet M <> 0 /\
    (forall v, G (I3, v) -> exists v', G' (I3, v') /\ mvmul M v = vscale d v') /\
    (forall v', G' (I3, v') -> exists v, G (I3, v) /\ mvmul M v = vscale d v') /\
    (forall R t, G (R, t) -> exists R' t', G' (R', t') /\ mmul M R = mmul R' M) /\
    (forall R' t', G' (R', t') -> exists R t, G (R, t) /\ mmul M R = mmul R' M).
(** the notation belongs to the class of the default row numbered [k] *)
Definition of_class (h : hall) (k : nat) : Prop :=
  exists j label s, get_space_group_number default_table j = Some label /\ get_hall_symbol default_table j = Some s /\
    leading_number label = k /\ same_arithmetic_class (hall_group h) (text_group s).
(** International Tables: the 73 arithmetic crystal classes, each with the numbers of its types *)
Definition arithmetic_classes : list (list nat) :=
  [[1]; [2]; [3; 4]; [5]; [6; 7]; [8; 9]; [10; 11; 13; 14]; [12; 15];
   [16; 17; 18; 19]; [20; 21]; [22]; [23; 24]; [25; 26; 27; 28; 29; 30; 31; 32; 33; 34]; [35; 36; 37];
   [38; 39; 40; 41]; [42; 43]; [44; 45; 46];
   [47; 48; 49; 50; 51; 52; 53; 54; 55; 56; 57; 58; 59; 60; 61; 62]; [63; 64; 65; 66; 67; 68]; [69; 70]; [71; 72; 73; 74];
   [75; 76; 77; 78]; [79; 80]; [81]; [82]; [83; 84; 85; 86]; [87; 88]; [89; 90; 91; 92; 93; 94; 95; 96]; [97; 98];
   [99; 100; 101; 102; 103; 104; 105; 106]; [107; 108; 109; 110]; [111; 112; 113; 114]; [115; 116; 117; 118];
   [119; 120]; [121; 122]; [123; 124; 125; 126; 127; 128; 129; 130; 131; 132; 133; 134; 135; 136; 137; 138]; [139; 140; 141; 142];
   [143; 144; 145]; [146]; [147]; [148]; [149; 151; 153]; [150; 152; 154]; [155]; [156; 158]; [157; 159]; [160; 161];
   [162; 163]; [164; 165]; [166; 167]; [168; 169; 170; 171; 172; 173]; [174]; [175; 176]; [177; 178; 179; 180; 181; 182];
   [183; 184; 185; 186]; [187; 188]; [189; 190]; [191; 192; 193; 194];
   [195; 198]; [196]; [197; 199]; [200; 201; 205]; [202; 203]; [204; 206]; [207; 208; 212; 213]; [209; 210]; [211; 214];
   [215; 218]; [216; 219]; [217; 220]; [221; 222; 223; 224]; [225; 226; 227; 228]; [229; 230]]%nat.
(** two numbers in one class *)
Definition classmates (n k : nat) : Prop := exists c, In c arithmetic_classes /\ In n c /\ In k c.

(** a symbol without its screw subscript and its translation letters, and a notation of such symbols
    with the origin left where it is *)
Definition bare_symbol (ms : msym) : msym := MS (ms_minus ms) (ms_fold ms) SubNone (ms_diag ms) (ms_axis ms) None.
Definition bare (h : hall) : hall := Hall (h_lat h) (map bare_symbol (h_syms h)) (V3 0 0 0).
