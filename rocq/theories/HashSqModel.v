(** nova/src/hash.rs once more, with the field's [square] as a parameter: the limb functions of Fr and Fq lose
    a carry in [square] on some elements (C02), which NovaModel.v leaves out.  The circuit
    (gadget/mimc.rs, AugmentedModel.v) squares with a product, which is exact. *)
From Coq Require Import List Bool.
From Verif Require Import Algebra NovaModel.
Import ListNotations.
Local Open Scope fld_scope.

Section HashSq.
Variable F : Fld.
Variable sq : F -> F.

(** hash.rs:34-48 [Mimc::hash]: one round, and the loop over the constants. *)
Definition sq_mimc_round (st : F * F) (c : F) : F * F :=
  let '(xl, xr) := st in
  let cxl := xl + c in
  let ccxl := sq cxl in
  let cccxl := sq ccxl in
  let ccccxl := ccxl * cccxl in
  let ccccxl := ccccxl * cxl in
  let ccccxl := ccccxl + xr in
  (ccccxl, xl).
Definition sq_mimc_hash (constants : list F) (xl xr : F) : F := fst (fold_left sq_mimc_round constants (xl, xr)).
(** hash.rs:88-91: the fold of [squeeze]. *)
Definition sq_mimc_absorb (constants : list F) (state : list F) : F :=
  fold_left (fun acc scalar => acc + scalar + sq_mimc_hash constants scalar acc) state 0.

(** The elements squared in a run (specification of the exactness conditions): in a round from [(xl, xr)] with
    constant [c], [xl + c] and its square. *)
Definition round_squares (st : F * F) (c : F) : list F := let y := fst st + c in [y; y * y].
Fixpoint rounds_squares (constants : list F) (st : F * F) : list F :=
  match constants with [] => [] | c :: l => round_squares st c ++ rounds_squares l (mimc_round st c) end.
Definition hash_squares (constants : list F) (xl xr : F) : list F := rounds_squares constants (xl, xr).
Fixpoint absorb_squares_from (constants : list F) (state : list F) (acc : F) : list F :=
  match state with
  | [] => []
  | s :: l => hash_squares constants s acc ++ absorb_squares_from constants l (acc + s + mimc_hash constants s acc)
  end.
Definition absorb_squares (constants : list F) (state : list F) : list F := absorb_squares_from constants state 0.
End HashSq.

(** hash.rs:87-103 [squeeze]. *)
Definition sq_squeeze (B S : pfield) (sq : B -> B) (state : list B) (num_bits : nat) : S :=
  bits_loop (firstn num_bits (rev (pf_bits B (sq_mimc_absorb B sq (pf_consts B) state)))) 1 0.
