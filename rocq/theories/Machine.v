(** * Machine: the generation of positions with the machine integers of the compiled program.

    [Seitz], [Rotations], [Generate] and [Positions] compute with [Z].  This file models the
    same source lines once more with [i32] and [usize]: every addition, subtraction,
    multiplication and negation goes through [i32] (or [usize]), which is checked in a debug
    build (a panic) and wraps around in a release build.  [% 12] never overflows.  The
    fixed-size constants and the comparisons are those of the other files. *)
From Verif Require Import Base Notations Parser Seitz F64 Jones Rotations Tables Generate Positions.
Open Scope Z_scope.

(** Cargo's two profiles: overflow checks on, overflow checks off *)
Inductive profile := DebugBuild | ReleaseBuild.
(** the values of [i32] *)
Definition in_i32 (z : Z) : bool := (-2147483648 <=? z) && (z <=? 2147483647).
(** wrapping [i32] arithmetic (two's complement) *)
Definition wrap32 (z : Z) : Z := (z + 2147483648) mod 4294967296 - 2147483648.
(** the panic of a build with overflow checks *)
Definition overflow {A} : outcome A := Panic "attempt to compute with overflow".
(** result of an [i32] operation whose exact value is [z] *)
Definition i32 (p : profile) (z : Z) : outcome Z :=
  if in_i32 z then Done z else match p with DebugBuild => overflow | ReleaseBuild => Done (wrap32 z) end.
(** the same for [usize] (64 bits) *)
Definition usize (p : profile) (z : Z) : outcome Z :=
  if (0 <=? z) && (z <=? 18446744073709551615) then Done z
  else match p with DebugBuild => overflow | ReleaseBuild => Done (z mod 18446744073709551616) end.

Declare Scope outcome_scope.
Notation "'let*' x := a 'in' b" := (obind a (fun x => b)) (at level 200, x name, b at level 200) : outcome_scope.
Open Scope outcome_scope.

(** [i32 + i32] *)
Definition iadd p a b := i32 p (a + b).
(** [i32 - i32] *)
Definition isub p a b := i32 p (a - b).
(** [i32 * i32] *)
Definition imul p a b := i32 p (a * b).
(** [- i32] *)
Definition ineg p a := i32 p (- a).
(** [Vector3::map] with a fallible closure *)
Definition lift3 (f : Z -> outcome Z) (v : vec3) : outcome vec3 :=
  let* x := f (vx v) in let* y := f (vy v) in let* z := f (vz v) in Done (V3 x y z).
(** [Vector3<i32> + Vector3<i32>] *)
Definition ivadd p (a b : vec3) : outcome vec3 :=
  let* x := iadd p (vx a) (vx b) in let* y := iadd p (vy a) (vy b) in let* z := iadd p (vz a) (vz b) in
  Done (V3 x y z).

(** nalgebra [Matrix4<i32> * Matrix4<i32>]: each column of the result is accumulated column by
    column of the left factor ([gemv]: [y = a*x] first, then [y = a*x + y]) *)
Definition idot p (a1 a2 a3 a4 b1 b2 b3 b4 : Z) : outcome Z :=
  let* y1 := imul p a1 b1 in
  let* x2 := imul p a2 b2 in let* y2 := iadd p x2 y1 in
  let* x3 := imul p a3 b3 in let* y3 := iadd p x3 y2 in
  let* x4 := imul p a4 b4 in iadd p x4 y3.
(** one column of the product *)
Definition icolumn p (a : seitz) (b1 b2 b3 b4 : Z) : outcome (vec3 * Z) :=
  let* r1 := idot p (m11 (rot a)) (m12 (rot a)) (m13 (rot a)) (vx (tra a)) b1 b2 b3 b4 in
  let* r2 := idot p (m21 (rot a)) (m22 (rot a)) (m23 (rot a)) (vy (tra a)) b1 b2 b3 b4 in
  let* r3 := idot p (m31 (rot a)) (m32 (rot a)) (m33 (rot a)) (vz (tra a)) b1 b2 b3 b4 in
  let* r4 := idot p (vx (bot a)) (vy (bot a)) (vz (bot a)) (cor a) b1 b2 b3 b4 in
  Done (V3 r1 r2 r3, r4).
(** nalgebra [Matrix4<i32> * Matrix4<i32>] *)
Definition imat4_mul p (a b : seitz) : outcome seitz :=
  let* c1 := icolumn p a (m11 (rot b)) (m21 (rot b)) (m31 (rot b)) (vx (bot b)) in
  let* c2 := icolumn p a (m12 (rot b)) (m22 (rot b)) (m32 (rot b)) (vy (bot b)) in
  let* c3 := icolumn p a (m13 (rot b)) (m23 (rot b)) (m33 (rot b)) (vz (bot b)) in
  let* c4 := icolumn p a (vx (tra b)) (vy (tra b)) (vz (tra b)) (cor b) in
  Done (Sz (M3 (vx (fst c1)) (vx (fst c2)) (vx (fst c3))
               (vy (fst c1)) (vy (fst c2)) (vy (fst c3))
               (vz (fst c1)) (vz (fst c2)) (vz (fst c3)))
           (fst c4) (V3 (snd c1) (snd c2) (snd c3)) (snd c4)).

(** seitz_mat_impl.rs:316-331 [Add<Vector3<i32>>] *)
Definition isz_addv p (a : seitz) (v : vec3) : outcome seitz :=
  let* t := ivadd p (tra a) v in
  let* c := iadd p (cor a) 0 in
  Done (Sz (rot a) (vmap rem12 t) (bot a) c).
(** seitz_mat_impl.rs:340-353 [Mul] *)
Definition isz_mul p (a b : seitz) : outcome seitz :=
  let* res := imat4_mul p a b in
  Done (Sz (rot res) (vmap rem12 (tra res)) (bot res) (cor res)).
(** seitz_mat_impl.rs:22-34 [PartialEq::eq] *)
Definition isz_eq p (a b : seitz) : outcome bool :=
  if meqb (rot a) (rot b) then
    let* x := isub p (vx (tra a)) (vx (tra b)) in
    let* y := isub p (vy (tra a)) (vy (tra b)) in
    let* z := isub p (vz (tra a)) (vz (tra b)) in
    Done (vforall (fun v => rem12 v =? 0) (V3 x y z))
  else Done false.
(** seitz_mat_impl.rs:145-147 [trace]: nalgebra sums the diagonal, then one is subtracted *)
Definition itrace p (m : seitz) : outcome Z :=
  let* a := iadd p (m11 (rot m)) (m22 (rot m)) in let* b := iadd p a (m33 (rot m)) in
  let* c := iadd p b (cor m) in isub p c 1.
(** seitz_mat_impl.rs:36-52 [equiv_num]; [det] is computed in [f64] and converted with
    saturation, so it cannot overflow *)
Definition iequiv_num p (m : seitz) : outcome Z :=
  let* t := itrace p m in
  match rotation_type_of (sz_det m) t with
  | Some k => Done (rtype_equiv_num k)
  | None => Panic "Invalid Seitz Matrix"
  end.

(** src/utils/mod.rs:5-11 [positive_mod_stbn_i32] *)
Definition ipositive_mod p (v : Z) : outcome Z :=
  if v <? 0 then iadd p (Z.rem v STBN) STBN else Done (Z.rem v STBN).
(** origin_shift/mod.rs:47-64 [shifted_matrix] *)
Definition ishifted p (v : vec3) (m : seitz) : outcome seitz :=
  let* nv := lift3 (ineg p) v in
  let* x := imat4_mul p (aff I3 v) m in
  let* r := imat4_mul p x (aff I3 nv) in
  let* t := lift3 (ipositive_mod p) (tra r) in
  let* c := ipositive_mod p (cor r) in
  Done (Sz (rot r) t (bot r) c).
(** origin_shift/mod.rs:33-45 [OriginShift::new]: one component; [v % 12 + 12] is the only
    arithmetic *)
Definition ishift_component p (v : Z) : outcome Z :=
  if negb ((-11 <=? v) && (v <? 12)) then iadd p (Z.rem v STBN) STBN else Done v.

(** lattice_symbol/mod.rs:54-69 [seitz_matrices]; [SeitzMatrix::inversion] negates ones and zeros *)
Definition ilattice_seitz p (l : lattice_symbol) : outcome (list seitz) :=
  if ls_minus l then
    let* ps := omap (fun v => let* a := isz_addv p sz_identity v in let* b := isz_addv p sz_inversion v in
                              Done [a; b]) (translations (ls_char l)) in
    Done (List.concat ps)
  else omap (fun v => isz_addv p sz_identity v) (translations (ls_char l)).

(** rotation_matrices.rs:275-287, one component *)
Definition iletter_mod p (v : Z) : outcome Z :=
  if negb ((0 <=? v) && (v <? 12)) then
    let new_v := Z.rem v 12 in if new_v <? 0 then iadd p new_v STBN else Done new_v
  else Done v.
(** rotation_matrices.rs:270-274: the sum of the letters' vectors, from zero, left to right *)
Fixpoint iletter_sum p (acc : vec3) (l : list tsym) : outcome vec3 :=
  match l with
  | [] => Done acc
  | t :: r => let* s := ivadd p acc (translation_vector t) in iletter_sum p s r
  end.
(** rotation_matrices.rs:266-294 [set_translation_from_symbols] *)
Definition iset_letters p (ms : msym) (m : seitz) : outcome seitz :=
  match ms_trs ms with
  | Some l =>
      let* s := iletter_sum p v0 l in
      let* w := lift3 (iletter_mod p) s in
      let* t := ivadd p (tra m) w in
      let* c := iadd p (cor m) 0 in
      Done (Sz (rot m) t (bot m) c)
  | None => Done m
  end.
(** rotation_matrices.rs:258-264 [set_inversion]: the 3x3 product with minus the identity *)
Definition iset_inversion p (m : seitz) : outcome seitz :=
  let* r := imat4_mul p (aff (mopp I3) v0) (aff (rot m) v0) in
  Done (Sz (rot r) (tra m) v0 (cor m)).
(** matrices/mod.rs:28-44 [seitz_matrix]; [Done None] is [Err(Invalid)] *)
Definition iseitz_matrix p (ms : msym) : outcome (option seitz) :=
  match get_rotation_matrix ms with
  | None => Done None
  | Some r =>
      match set_transform ms r with
      | None => Done None
      | Some v =>
          let* w := iset_letters p ms v in
          if ms_minus ms then let* i := iset_inversion p w in Done (Some i) else Done (Some w)
      end
  end.

(** src/hall_symbols/mod.rs:103-122 [translation_minimal_repr] *)
Definition iplus_mod p (t tr : vec3) : outcome vec3 :=
  let* s := ivadd p t tr in lift3 (ipositive_mod p) s.
(** mod.rs:103-122 [translation_minimal_repr] *)
Definition iminimal_repr p (lt : list vec3) (t : vec3) : outcome vec3 :=
  let* t0 := lift3 (ipositive_mod p) t in
  let* cands := omap (iplus_mod p t) lt in
  Done (fold_left minimal_step cands t0).
(** mod.rs:126-166 [add_to_list]: the test of line 146-153, and the function.  The closure of
    [all] evaluates the sum a second time only when the first test succeeds; it is the same
    sum. *)
Fixpoint inew_everywhere p (lt : list vec3) (t : vec3) (tr_set : list vec3) : outcome bool :=
  match lt with
  | [] => Done true
  | tr :: r =>
      let* u := iplus_mod p t tr in
      if set_mem u tr_set then Done false else
      let* w := ivadd p t tr in
      if vforall (fun v => negb (rem12 v =? 0)) w then inew_everywhere p r t tr_set else Done false
  end.
(** mod.rs:126-166 [add_to_list] *)
Definition iadd_to_list p (lt : list vec3) (st : gstate) (m : seitz) : outcome (bool * gstate) :=
  let push t := GS (g_list st ++ [set_translation_part t m]) (map_add (g_map st) (rot m) t) in
  match map_get (g_map st) (rot m) with
  | None => let* t := iminimal_repr p lt (tra m) in Done (true, push t)
  | Some tr_set =>
      let* fresh := inew_everywhere p lt (tra m) tr_set in
      if fresh then
        let* t := iminimal_repr p lt (tra m) in
        Done (if set_mem t tr_set then (false, st) else (true, push t))
      else Done (false, st)
  end.
(** mod.rs:182-189 *)
Fixpoint iinner_loop p (lt : list vec3) (i : seitz) (js : list seitz) (st : gstate) : outcome gstate :=
  match js with
  | [] => Done st
  | j :: r =>
      let* x := isz_mul p i j in
      let* res := iadd_to_list p lt st x in
      if fst res then Done (snd res) else iinner_loop p lt i r (snd res)
  end.
(** mod.rs:184-191: the [for i] loop *)
Fixpoint iouter_loop p (lt : list vec3) (l is : list seitz) (st : gstate) : outcome gstate :=
  match is with
  | [] => Done st
  | i :: r => let* st' := iinner_loop p lt i l st in iouter_loop p lt l r st'
  end.
(** mod.rs:183-191: one round of the [loop] *)
Definition ione_pass p (lt : list vec3) (st : gstate) : outcome gstate :=
  let l := skipn 1 (g_list st) in iouter_loop p lt l l st.
(** mod.rs:180-196 *)
Fixpoint igen_loop p (fuel : nat) (lt : list vec3) (st : gstate) : outcome (list seitz) :=
  match fuel with
  | O => OutOfFuel
  | S f =>
      let* st' := ione_pass p lt st in
      if Nat.ltb (List.length (g_list st)) (List.length (g_list st'))
      then igen_loop p f lt st' else Done (g_list st)
  end.
(** mod.rs:65-70 [max_equiv_pos]: a [usize] product *)
Fixpoint imax_equiv_pos p (l : list msym) (acc : Z) : outcome Z :=
  match l with
  | [] => Done acc
  | ms :: r =>
      let* o := iseitz_matrix p ms in
      match o with
      | None => Panic "Invalid Seitz Matrix"
      | Some m => let* n := iequiv_num p m in let* a := usize p (acc * n) in imax_equiv_pos p r a
      end
  end.
(** mod.rs:171-179 *)
Definition isymbol_generator p (h : hall) (ms : msym) : outcome seitz :=
  let* o := iseitz_matrix p ms in
  match o with
  | None => Panic "SeitzMatrix generation failed"
  | Some m => ishifted p (h_shift h) m
  end.
(** mod.rs:170-172: adding the lattice operations one after the other *)
Fixpoint iadd_all p (lt : list vec3) (st : gstate) (ms : list seitz) : outcome gstate :=
  match ms with
  | [] => Done st
  | m :: r => let* res := iadd_to_list p lt st m in iadd_all p lt (snd res) r
  end.
(** mod.rs:173-179: each symbol's matrix is computed, shifted and added before the next one *)
Fixpoint iadd_symbols p (lt : list vec3) (h : hall) (st : gstate) (l : list msym) : outcome gstate :=
  match l with
  | [] => Done st
  | ms :: r =>
      let* m := isymbol_generator p h ms in
      let* res := iadd_to_list p lt st m in iadd_symbols p lt h (snd res) r
  end.
(** mod.rs:166-197 [generate_positions] up to the sort *)
Definition igenerate_unsorted p (fuel : nat) (h : hall) : outcome (list seitz) :=
  let* n := imax_equiv_pos p (h_syms h) (lattice_equiv_num (h_lat h)) in
  if capacity_limit <? n then Panic "capacity overflow" else
  let* ls := ilattice_seitz p (h_lat h) in
  let lt := translations (ls_char (h_lat h)) in
  let* st0 := iadd_all p lt (GS [] []) ls in
  let* st := iadd_symbols p lt h st0 (h_syms h) in
  igen_loop p fuel lt st.

(** seitz_mat_impl.rs:231-244: ['x' as i32 * val] and its neighbours; [unsigned_abs] cannot
    overflow *)
Definition ijf_entry p (code val : Z) : outcome string :=
  let* v := imul p code val in
  match char_utf8 (Z.abs v) with
  | None => Panic "called `Option::unwrap()` on a `None` value"
  | Some c =>
      Done (match Z.compare v 0 with
            | Lt => ("-" ++ c)%string
            | Eq => "0"%string
            | Gt => ("+" ++ c)%string
            end)
  end.
(** seitz_mat_impl.rs:248-258: one row *)
Definition ijf_row p (a b c : Z) : outcome string :=
  let* x := ijf_entry p 120 a in let* y := ijf_entry p 121 b in let* z := ijf_entry p 122 c in
  Done (trim_plus (remove_zeros (sconcat [x; y; z]))).
(** seitz_mat_impl.rs:225-259 [rotation_jf_repr], 260-262 [jones_faithful_repr_rot] *)
Definition irotation_jf p (R : mat3) : outcome (list string) :=
  let* r1 := ijf_row p (m11 R) (m12 R) (m13 R) in
  let* r2 := ijf_row p (m21 R) (m22 R) (m23 R) in
  let* r3 := ijf_row p (m31 R) (m32 R) (m33 R) in Done [r1; r2; r3].
(** seitz_mat_impl.rs:261-263 [jones_faithful_repr_rot] *)
Definition ijones_rot p (m : seitz) : outcome string :=
  let* l := irotation_jf p (rot m) in Done (sjoin "," l).
(** seitz_mat_impl.rs:267-295: [v.abs()] is taken of values from -11 to -1 only *)
Definition ijones p (m : seitz) : outcome string :=
  let* l := irotation_jf p (rot m) in
  Done (sjoin "," (map (fun q => (fst q ++ snd q)%string) (combine l (map jf_translation (vlist (tra m)))))).
(** mod.rs:84-101 [sort_general_positions] *)
Definition iorder_index p (order : list string) (m : seitz) : outcome nat :=
  let* s := ijones_rot p m in
  match position (String.eqb s) order with
  | Some i => Done i
  | None => Panic (s ++ " fails to match")
  end.
(** mod.rs:84-99 [sort_general_positions] *)
Definition isort_positions p (h : hall) (l : list seitz) : outcome (list seitz) :=
  let* order := get_matrice_order h in
  match l with
  | [] | [_] => Done l
  | _ => let* kl := omap (fun m => let* i := iorder_index p order m in Done (i, m)) l in
         Done (map snd (stable_sort kl))
  end.
(** mod.rs:168-205 [generate_positions], [general_positions] *)
Definition igeneral_positions p (fuel : nat) (h : hall) : outcome gpos :=
  let* l := igenerate_unsorted p fuel h in
  let* s := isort_positions p h l in
  Done (GP (translations (ls_char (h_lat h))) s).
(** general_positions.rs:26-31 [derive_full_sets] *)
Definition iderive_full_sets p (g : gpos) : outcome (list (list seitz)) :=
  omap (fun v => omap (fun m => isz_addv p m v) (gp_core g)) (gp_lattice g).
(** general_positions.rs:66-76 [pure_txt] *)
Definition ipure_txt p (g : gpos) : outcome (list string) :=
  let* sets := iderive_full_sets p g in
  let* l := omap (fun s => omap (ijones p) s) sets in Done (List.concat l).

(** seitz_mat_impl.rs:150-171 [powi] *)
Fixpoint ipow_acc p (m acc : seitz) (n : nat) : outcome seitz :=
  match n with O => Done acc | S k => let* a := imat4_mul p acc m in ipow_acc p m a k end.
(** seitz_mat_impl.rs:156-159, 164-167: the [reduce]; an empty range gives [None] and the [unwrap] panics *)
Definition ipow_pos p (m : seitz) (n : nat) : outcome seitz :=
  match n with
  | O => Panic "called `Option::unwrap()` on a `None` value"
  | S k => ipow_acc p m m k
  end.
(** [exponent.abs()] of [i32::MIN] overflows; wrapped, it is negative and the range is empty *)
Definition ipowi p (m : seitz) (e : Z) : outcome seitz :=
  match Z.compare e 0 with
  | Lt => match try_inverse m with
          | Some inv => let* n := i32 p (Z.abs e) in ipow_pos p inv (Z.to_nat n)
          | None => Panic "called `Option::unwrap()` on a `None` value"
          end
  | Eq => Done sz_identity
  | Gt => ipow_pos p m (Z.to_nat e)
  end.
