(** * Jones: the "Jones faithful" text of an operation.
    Source: src/hall_symbols/matrix_symbol/matrices/seitz_mat_impl.rs:225-306. *)
From Verif Require Import Base Notations Seitz Parser.

(** one byte of a UTF-8 text *)
Definition byte (z : Z) : ascii := ascii_of_nat (Z.to_nat z).

(** [char::from_u32(v)] followed by formatting: the UTF-8 bytes of the scalar value [v];
    [None] (surrogates and values above 0x10FFFF) is the [unwrap] panic of line 239 *)
Definition char_utf8 (v : Z) : option string :=
  if v <? 128 then Some (String (byte v) "")
  else if v <? 2048 then
    Some (String (byte (192 + v / 64)) (String (byte (128 + v mod 64)) ""))
  else if v <? 65536 then
    if (55296 <=? v) && (v <=? 57343) then None
    else Some (String (byte (224 + v / 4096))
              (String (byte (128 + (v / 64) mod 64)) (String (byte (128 + v mod 64)) "")))
  else if v <=? 1114111 then
    Some (String (byte (240 + v / 262144)) (String (byte (128 + (v / 4096) mod 64))
         (String (byte (128 + (v / 64) mod 64)) (String (byte (128 + v mod 64)) ""))))
  else None.

(** seitz_mat_impl.rs:231-244: one entry, [code] is 'x', 'y' or 'z' as a number.
    The product is an [i32] in the code; for its overflow (|entry| > 17 million) see [Machine.v]. *)
Definition jf_entry (code val : Z) : outcome string :=
  let p := code * val in
  match char_utf8 (Z.abs p) with
  | None => Panic "called `Option::unwrap()` on a `None` value"
  | Some c =>
      Done (match Z.compare p 0 with
            | Lt => ("-" ++ c)%string
            | Eq => "0"%string
            | Gt => ("+" ++ c)%string
            end)
  end.

(** [str::replace('0', "")] *)
Fixpoint remove_zeros (s : string) : string :=
  match s with
  | EmptyString => EmptyString
  | String c r => if Ascii.eqb c "0"%char then remove_zeros r else String c (remove_zeros r)
  end.
(** [str::trim_start_matches('+')] *)
Fixpoint trim_plus (s : string) : string :=
  match s with
  | String c r => if Ascii.eqb c "+"%char then trim_plus r else s
  | EmptyString => EmptyString
  end.

(** seitz_mat_impl.rs:248-256: one row *)
Definition jf_row (a b c : Z) : outcome string :=
  obind (jf_entry 120 a) (fun x =>
  obind (jf_entry 121 b) (fun y =>
  obind (jf_entry 122 c) (fun z =>
    Done (trim_plus (remove_zeros (sconcat [x; y; z])))))).

(** seitz_mat_impl.rs:225-259 [rotation_jf_repr].  (The source builds the strings column by
    column, the model row by row: both panic when some entry does.) *)
Definition rotation_jf (R : mat3) : outcome (list string) :=
  obind (jf_row (m11 R) (m12 R) (m13 R)) (fun r1 =>
  obind (jf_row (m21 R) (m22 R) (m23 R)) (fun r2 =>
  obind (jf_row (m31 R) (m32 R) (m33 R)) (fun r3 => Done [r1; r2; r3]))).

(** seitz_mat_impl.rs:260-262 [jones_faithful_repr_rot] *)
Definition jones_rot (m : seitz) : outcome string :=
  obind (rotation_jf (rot m)) (fun l => Done (sjoin "," l)).

(** [GenericFraction::<i32>::new(v, 12)] displayed: reduced, no denominator when it is 1 *)
Definition frac12_text (v : Z) : string :=
  let g := Z.gcd v STBN in
  let n := Z.quot v g in
  let d := STBN / g in
  if d =? 1 then Z_text n else (Z_text n ++ "/" ++ Z_text d)%string.

(** seitz_mat_impl.rs:267-295: one translation component.  [Z.rem v 12] is [v] itself on
    -11..11, so both branches of the source are the same formula. *)
Definition jf_translation (v : Z) : string :=
  let w := if (- STBN + 1 <=? v) && (v <? STBN) then v else Z.rem v STBN in
  match Z.compare w 0 with
  | Lt => frac12_text w
  | Eq => ""
  | Gt => ("+" ++ frac12_text w)%string
  end.

(** seitz_mat_impl.rs:263-305 [jones_faithful_repr] *)
Definition jones (m : seitz) : outcome string :=
  obind (rotation_jf (rot m)) (fun l =>
    Done (sjoin "," (map (fun p => (fst p ++ snd p)%string)
                         (combine l (map jf_translation (vlist (tra m))))))).

Example jones_ex : jones (aff (M3 0 (-1) 0 1 (-1) 0 0 0 (-1)) (V3 8 (-3) 18))
  = Done "-y+2/3,x-y-1/4,-z+1/2"%string.
Proof. vm_compute. reflexivity. Qed.
