(** The arguments of [square()] in a run of the square-root loop (fr.rs:178-207), and squares of residues. *)
From Coq Require Import ZArith List Bool.
From Verif Require Import LimbModel FieldModel FieldSpec.
Import ListNotations.
Local Open Scope Z_scope.

(** The loops of [ts_inner] and [ts_outer], listing what they square. *)
Section Squared.
Context {A : Type} (amul : A -> A -> A) (asq : A -> A) (aone : A) (aeqb : A -> A -> bool).
Fixpoint ts_inner_squares (js : list Z) (v : Z) (st : Z * A * bool * A) : list A :=
  match js with
  | [] => []
  | j :: js' =>
      let '(k, b2k, jlt, z) := st in
      let jlt := jlt && negb (j =? v) in
      if aeqb b2k aone
      then (if jlt then [z] else []) ++ ts_inner_squares js' v (k, b2k, jlt, if jlt then asq z else z)
      else b2k :: ts_inner_squares js' v (j, asq b2k, jlt, z)
  end.
Fixpoint ts_outer_squares (max_v : nat) (st : Z * A * A * A) : list A :=
  match max_v with
  | O => []
  | S n =>
      let '(v, x, b, z) := st in
      let '(k, _, _, z') := ts_inner asq aone aeqb (range2 max_v) v (1, asq b, true, z) in
      let x := if negb (aeqb b aone) then amul x z' else x in
      b :: ts_inner_squares (range2 max_v) v (1, asq b, true, z) ++ z' :: ts_outer_squares n (k, x, amul b (asq z'), asq z')
  end.
End Squared.

(** The exponents of the two [pow_vartime] calls: [(q + 1) / 4] and [(t - 1) / 2], [r = 2^28 t + 1]. *)
Definition fq_root_exponent : Z := (Q_MOD + 1) / 4.
Definition fr_root_exponent : Z := ((R_MOD - 1) / 2 ^ 28 - 1) / 2.
(** Every value squared by the loop of [Fr::sqrt], and by its final test. *)
Definition fr_sqrt_squares (a : l4) : list l4 :=
  let w := pow_vartime fr a (L4 0xcdcb848a1f0fac9f 0x0c0ac2e9419f4243 0x098d014dc2822db4 0x0000000183227397) in
  let x := fmul fr w a in
  let b := fmul fr x w in
  let '(_, x', _, _) := ts_outer (fmul fr) (fsquare fr) (fone fr) feqb 28 (fr_S, x, b, fr_root_of_unity) in
  ts_outer_squares (fmul fr) (fsquare fr) (fone fr) feqb 28 (fr_S, x, b, fr_root_of_unity) ++ [x'].
(** No call of [square()] in [a.sqrt()] loses a carry ([x] is the residue of [a]). *)
Definition fr_sqrt_exact (a : l4) (x : Z) : Prop :=
  carry_free R_MOD x fr_root_exponent /\ Forall (fun s => drops_carry s = false) (fr_sqrt_squares a).
Definition fq_sqrt_exact (x : Z) : Prop :=
  carry_free Q_MOD x fq_root_exponent /\
  (forall s, represents Q_MOD s (x ^ fq_root_exponent mod Q_MOD) -> drops_carry s = false).

Definition is_square (m x : Z) : Prop := exists y, (y * y) mod m = x.
(** What a square-root function should answer on the element of residue [x]. *)
Definition sqrt_answer (m x : Z) (r : option l4) : Prop :=
  match r with
  | Some s => exists y, represents m s y /\ (y * y) mod m = x
  | None => ~ is_square m x
  end.
