(** fft.rs once more, with the [square], the [invert] and the [pow] of the field as parameters: the limb functions lose a
    carry in [square] on some elements (C02), which PolyModel.v leaves out.  The transforms themselves only add, subtract and
    multiply and are used as they are. *)
From Coq Require Import ZArith List Bool.
From Verif Require Import Algebra PolyModel.
Import ListNotations.

Section FftSq.
Variable F : Fld.
Variable sq1 : F -> F.
Variable inv1 : F -> option F.
Variable pow1 : F -> Z -> F.
(** fft.rs:34 [(0..F::S - k).fold(F::ROOT_OF_UNITY, |acc, _| acc.square())]. *)
Fixpoint s_squares (n : nat) (x : F) : F := match n with O => x | S n => s_squares n (sq1 x) end.
(** fft.rs:27-89 [Fft::new]; [None] as in PolyModel.v [fft_new]. *)
Definition s_fft_new (s : nat) (root gen : F) (k : nat) : option (fft F) :=
  if Nat.eqb k 0 then None
  else if Nat.ltb s k then None
  else
    let n := (2 ^ k)%nat in
    let half := (2 ^ (k - 1))%nat in
    let g := s_squares (s - k) root in
    match inv1 g, inv1 gen, inv1 (kofnat n) with
    | Some g_inv, Some gen_inv, Some n_inv =>
        Some (mkFft F n (powers F k1 g half) (powers F k1 g_inv half) (powers F k1 gen n) (powers F k1 gen_inv n) n_inv (rev_pairs k))
    | _, _, _ => None
    end.
(** fft.rs:131-136 [z], 140-145 [z_on_coset], 150-154 [divide_by_z_on_coset]. *)
Definition s_fft_z (f : fft F) (tau : F) : F := ksub (pow1 tau (Z.of_nat (fft_n f))) k1.
Definition s_z_on_coset (f : fft F) (gen : F) : F := ksub (pow1 gen (Z.of_nat (fft_n f))) k1.
Definition s_divide_by_z_on_coset (f : fft F) (gen : F) (points : list F) : option (list F) :=
  match inv1 (s_z_on_coset f gen) with Some i => Some (map (fun v => kmul v i) points) | None => None end.
End FftSq.
