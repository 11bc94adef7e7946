(** * Generate: generation and sorting of the general positions.
    Source: src/hall_symbols/mod.rs:61-205. *)
From Verif Require Import Base Notations Parser Seitz F64 Jones Rotations Tables.

(** [HashMap<Matrix3<i32>, HashSet<Vector3<i32>>>]: only [get]/[insert] are used and the
    keys are hashed by value, so an association list gives the same results *)
Definition trmap := list (mat3 * list vec3).
(** [HashMap::get_mut] (src/hall_symbols/mod.rs:132) *)
Fixpoint map_get (mp : trmap) (R : mat3) : option (list vec3) :=
  match mp with
  | [] => None
  | (R', s) :: r => if meqb R R' then Some s else map_get r R
  end.
(** [HashSet::get(..).is_some()] (mod.rs:146) *)
Definition set_mem (t : vec3) (s : list vec3) : bool := existsb (veqb t) s.
(** [HashMap::insert] and [HashSet::insert] (mod.rs:137-138, 154) *)
Fixpoint map_add (mp : trmap) (R : mat3) (t : vec3) : trmap :=
  match mp with
  | [] => [(R, [t])]
  | (R', s) :: r => if meqb R R' then (R', t :: s) :: r else (R', s) :: map_add r R t
  end.

(** mod.rs:103-122 [translation_minimal_repr]; [lt] are the lattice translations.  The
    [f64] norms are sums of three squares of integers 0..12, hence exact. *)
Definition norm2 (v : vec3) : Z := vx v * vx v + vy v * vy v + vz v * vz v.
(** mod.rs:114-115: [iter().filter(|&&v| v <= 0).count()] *)
Definition count_le0 (v : vec3) : nat := List.length (filter (fun x => x <=? 0) (vlist v)).
(** mod.rs:112-121: the closure of [fold] *)
Definition minimal_step (curr next : vec3) : vec3 :=
  if (norm2 next <? norm2 curr) && Nat.leb (count_le0 next) (count_le0 curr) then next else curr.
(** mod.rs:103-122 [translation_minimal_repr] *)
Definition minimal_repr (lt : list vec3) (t : vec3) : vec3 :=
  fold_left minimal_step (map (fun tr => vmap positive_mod (vadd t tr)) lt) (vmap positive_mod t).

(** the two [&mut] arguments of [add_to_list] *)
Record gstate := GS { g_list : list seitz; g_map : trmap }.

(** mod.rs:126-166 [add_to_list] *)
Definition add_to_list (lt : list vec3) (st : gstate) (m : seitz) : bool * gstate :=
  let push :=
    let t := minimal_repr lt (tra m) in
    GS (g_list st ++ [set_translation_part t m]) (map_add (g_map st) (rot m) t) in
  match map_get (g_map st) (rot m) with
  | None => (true, push)
  | Some tr_set =>
      if forallb (fun tr =>
           negb (set_mem (vmap positive_mod (vadd (tra m) tr)) tr_set)
           && vforall (fun v => negb (rem12 v =? 0)) (vadd (tra m) tr)) lt
      then
        if set_mem (minimal_repr lt (tra m)) tr_set then (false, st) else (true, push)
      else (false, st)
  end.

(** mod.rs:182-189: the inner [for j] loop with its [break], and the [for i] loop *)
Fixpoint inner_loop (lt : list vec3) (i : seitz) (js : list seitz) (st : gstate) : gstate :=
  match js with
  | [] => st
  | j :: r =>
      match add_to_list lt st (sz_mul i j) with
      | (true, st') => st'
      | (false, st') => inner_loop lt i r st'
      end
  end.
(** mod.rs:183-191: one round of the [loop]; [list] is not changed during a round *)
Definition one_pass (lt : list vec3) (st : gstate) : gstate :=
  let l := skipn 1 (g_list st) in
  fold_left (fun s i => inner_loop lt i l s) l st.
(** mod.rs:180-196 the outer [loop]; [fuel] bounds the number of iterations *)
Fixpoint gen_loop (fuel : nat) (lt : list vec3) (st : gstate) : outcome (list seitz) :=
  match fuel with
  | O => OutOfFuel
  | S f =>
      let st' := one_pass lt st in
      if Nat.ltb (List.length (g_list st)) (List.length (g_list st'))
      then gen_loop f lt st' else Done (g_list st)
  end.

(** mod.rs:65-70 [max_equiv_pos], with the [expect]s as panics *)
Definition max_equiv_pos (h : hall) : outcome Z :=
  fold_left (fun acc ms =>
    obind acc (fun a =>
      match seitz_matrix ms with
      | None => Panic "Invalid Seitz Matrix"
      | Some m => match sz_equiv_num m with
                  | Some n => Done (a * n)
                  | None => Panic "Invalid Seitz Matrix"
                  end
      end)) (h_syms h) (Done (lattice_equiv_num (h_lat h))).
(** [Vec::with_capacity]: 64 bytes per [SeitzMatrix], at most [isize::MAX] bytes.  A failed
    allocation of a smaller amount aborts the process and is not modelled. *)
Definition capacity_limit : Z := 144115188075855871.

(** mod.rs:171-179: the generators, in the order in which they are added *)
Definition symbol_generator (h : hall) (ms : msym) : outcome seitz :=
  match seitz_matrix ms with
  | None => Panic "SeitzMatrix generation failed"
  | Some m => Done (shifted_matrix (h_shift h) m)
  end.
(** mod.rs:172-181: all generators *)
Definition generators (h : hall) : outcome (list seitz) :=
  obind (omap (symbol_generator h) (h_syms h)) (fun gs => Done (lattice_seitz (h_lat h) ++ gs)).
(** mod.rs:172-181: adding them one after the other *)
Definition add_all (lt : list vec3) (st : gstate) (ms : list seitz) : gstate :=
  fold_left (fun s m => snd (add_to_list lt s m)) ms st.

(** mod.rs:168-196 [generate_positions] up to the sort *)
Definition generate_unsorted (fuel : nat) (h : hall) : outcome (list seitz) :=
  obind (max_equiv_pos h) (fun n =>
  if capacity_limit <? n then Panic "capacity overflow" else
  obind (generators h) (fun gs =>
    let lt := translations (ls_char (h_lat h)) in
    gen_loop fuel lt (add_all lt (GS [] []) gs))).

(** mod.rs:72-82 [get_matrice_order] *)
Definition get_matrice_order (h : hall) : outcome (list string) :=
  match h_syms h with
  | [] => Panic "called `Option::unwrap()` on a `None` value"
  | m :: _ =>
      Done (match ms_fold m with
            | F6 => order_24
            | F3 => match ms_diag m with Asterisk => order_12 | _ => order_24 end
            | _ => order_48
            end)
  end.

(** mod.rs:84-101 [sort_general_positions].  [sort_by] is a stable sort and calls the
    comparator on every element as soon as there are two, so it panics exactly when some
    element of a list of at least two has no position in the order table. *)
Definition order_index (order : list string) (m : seitz) : outcome nat :=
  obind (jones_rot m) (fun s =>
    match position (String.eqb s) order with
    | Some i => Done i
    | None => Panic (s ++ " fails to match")
    end).
(** stable insertion *)
Fixpoint insert_sorted {A} (x : nat * A) (l : list (nat * A)) : list (nat * A) :=
  match l with
  | [] => [x]
  | y :: r => if Nat.ltb (fst y) (fst x) then y :: insert_sorted x r else x :: l
  end.
(** [slice::sort_by] (mod.rs:87-97): the stable sort by the index *)
Definition stable_sort {A} (l : list (nat * A)) : list (nat * A) := fold_right insert_sorted [] l.
(** mod.rs:84-99 [sort_general_positions] *)
Definition sort_positions (h : hall) (l : list seitz) : outcome (list seitz) :=
  obind (get_matrice_order h) (fun order =>
    match l with
    | [] | [_] => Done l
    | _ => obind (omap (fun m => obind (order_index order m) (fun i => Done (i, m))) l)
             (fun kl => Done (map snd (stable_sort kl)))
    end).

(** mod.rs:168-199 [generate_positions] *)
Definition generate_positions (fuel : nat) (h : hall) : outcome (list seitz) :=
  obind (generate_unsorted fuel h) (sort_positions h).
