(** * SpecHash: hash tables as the standard library promises them (C74).
    [std::collections::HashMap]/[HashSet] with [RandomState]: the arrangement inside the table
    depends on a random seed.  What is promised is only this: looking up after insertion.  A
    [tables] value is any such implementation, with whatever hidden arrangement. *)
From Verif Require Import Base Notations Parser Seitz F64 Jones Rotations Tables Generate Positions.
Open Scope Z_scope.

Record tables := Tables {
  hset : Type; hset_new : hset; hset_get : hset -> vec3 -> bool; hset_insert : hset -> vec3 -> hset;
  hmap : Type; hmap_new : hmap; hmap_get : hmap -> mat3 -> option hset; hmap_insert : hmap -> mat3 -> hset -> hmap }.
(** the promise *)
Definition lawful (T : tables) : Prop :=
  (forall t, hset_get T (hset_new T) t = false) /\
  (forall s t u, hset_get T (hset_insert T s t) u = true <-> t = u \/ hset_get T s u = true) /\
  (forall R, hmap_get T (hmap_new T) R = None) /\
  (forall m R s, hmap_get T (hmap_insert T m R s) R = Some s) /\
  (forall m R s R', R <> R' -> hmap_get T (hmap_insert T m R s) R' = hmap_get T m R').

(** ** The program over any implementation of the tables *)
(** src/hall_symbols/mod.rs:126-166 [add_to_list] *)
Definition add_to_list_h (T : tables) (lt : list vec3) (st : list seitz * hmap T) (m : seitz) : bool * (list seitz * hmap T) :=
  let t := minimal_repr lt (tra m) in
  match hmap_get T (snd st) (rot m) with
  | None => (true, (fst st ++ [set_translation_part t m], hmap_insert T (snd st) (rot m) (hset_insert T (hset_new T) t)))
  | Some tr_set =>
      if forallb (fun tr =>
           negb (hset_get T tr_set (vmap positive_mod (vadd (tra m) tr)))
           && vforall (fun v => negb (rem12 v =? 0)) (vadd (tra m) tr)) lt
      then
        if hset_get T tr_set t then (false, st)
        else (true, (fst st ++ [set_translation_part t m], hmap_insert T (snd st) (rot m) (hset_insert T tr_set t)))
      else (false, st)
  end.
(** mod.rs:183-191: the loops of one round *)
Fixpoint inner_loop_h (T : tables) (lt : list vec3) (i : seitz) (js : list seitz) (st : list seitz * hmap T) : list seitz * hmap T :=
  match js with
  | [] => st
  | j :: r => match add_to_list_h T lt st (sz_mul i j) with (true, st') => st' | (false, st') => inner_loop_h T lt i r st' end
  end.
(** mod.rs:183-191: one round *)
Definition one_pass_h (T : tables) (lt : list vec3) (st : list seitz * hmap T) : list seitz * hmap T :=
  fold_left (fun s i => inner_loop_h T lt i (skipn 1 (fst st)) s) (skipn 1 (fst st)) st.
(** mod.rs:180-196: the outer loop *)
Fixpoint gen_loop_h (T : tables) (fuel : nat) (lt : list vec3) (st : list seitz * hmap T) : outcome (list seitz) :=
  match fuel with
  | O => OutOfFuel
  | S f => let st' := one_pass_h T lt st in
           if Nat.ltb (List.length (fst st)) (List.length (fst st')) then gen_loop_h T f lt st' else Done (fst st)
  end.
(** mod.rs:168-199, 200-205: [generate_positions] and [general_positions] *)
Definition general_positions_h (T : tables) (fuel : nat) (h : hall) : outcome gpos :=
  obind (obind (max_equiv_pos h) (fun n =>
           if capacity_limit <? n then Panic "capacity overflow" else
           obind (generators h) (fun gs =>
             let lt := translations (ls_char (h_lat h)) in
             gen_loop_h T fuel lt (fold_left (fun s m => snd (add_to_list_h T lt s m)) gs ([], hmap_new T)))))
    (fun l => obind (sort_positions h l) (fun l' => Done (GP (translations (ls_char (h_lat h))) l'))).

(** ** Hash tables with buckets: any hash functions, any number of buckets *)
Section Buckets.
Variable hash_mat : mat3 -> nat.
Variable hash_vec : vec3 -> nat.
Variable width : nat.
(** a table is its list of buckets; an entry lives in the bucket its hash selects, and new
    entries go to the front *)
Definition bucket {A} (n : nat) (b : list (list A)) : list A := nth (Nat.modulo n (S width)) b [].
Fixpoint set_nth {A} (n : nat) (x : list A) (b : list (list A)) : list (list A) :=
  match n, b with
  | O, [] => [x] | O, _ :: r => x :: r
  | S k, [] => [] :: set_nth k x [] | S k, y :: r => y :: set_nth k x r
  end.
Definition bucket_tables : tables :=
  {| hset := list (list vec3); hset_new := [];
     hset_get := fun s t => existsb (veqb t) (bucket (hash_vec t) s);
     hset_insert := fun s t => set_nth (Nat.modulo (hash_vec t) (S width)) (t :: bucket (hash_vec t) s) s;
     hmap := list (list (mat3 * list (list vec3))); hmap_new := [];
     hmap_get := fun m R => option_map snd (find (fun p => meqb R (fst p)) (bucket (hash_mat R) m));
     hmap_insert := fun m R s => set_nth (Nat.modulo (hash_mat R) (S width)) ((R, s) :: bucket (hash_mat R) m) m |}.
End Buckets.
