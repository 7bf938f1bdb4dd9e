(** groth16/src/poly.rs and groth16/src/fft.rs: polynomials and the radix-2 transform.
    Vectors are lists, first coefficient (the constant term) first. *)
From Coq Require Import ZArith List Bool.
From Verif Require Import LimbModel FieldModel FieldSpec Algebra.
Import ListNotations.
Local Open Scope fld_scope.

Section Poly.
Variable F : Fld.

(** poly.rs:133-138 and 52-57 [format_degree]: pop the last entry while it is zero. *)
Fixpoint drop_zeros (l : list F) : list F :=
  match l with [] => [] | x :: r => if kis0 x then drop_zeros r else l end.
Definition format_degree (l : list F) : list F := rev (drop_zeros (rev l)).
(** poly.rs:61-63 [Coefficients::new]. *)
Definition coeffs_new (l : list F) : list F := format_degree l.
(** The [scan] used at poly.rs:72-76 and fft.rs:35-71: [w, w g, w g^2, ...]. *)
Fixpoint powers (w g : F) (n : nat) : list F :=
  match n with O => [] | S n => w :: powers (w * g) g n end.
(** poly.rs:67-79 [setup], with the drawn [randomness]. *)
Definition poly_setup (randomness : F) (k : nat) : F * list F := (randomness, powers 1 randomness (2 ^ k)).
Definition dot (l r : list F) : F := fold_left (fun acc '(a, b) => acc + a * b) (combine l r) 0.
(** poly.rs:82-90 [commit]; [None] = the failed [assert!]. *)
Definition poly_commit (p domain : list F) : option F :=
  if Nat.leb (length p) (length domain) then Some (dot p (skipn (length domain - length p) domain)) else None.
(** poly.rs:93-98 [evaluate]. *)
Definition evaluate (p : list F) (at_ : F) : F := fold_left (fun acc coeff => acc * at_ + coeff) (rev p) 0.
(** poly.rs:102-116 [divide]. *)
Fixpoint div_scan (at_ w : F) (l : list F) : list F :=
  match l with [] => [] | c :: l => let tmp := w + c in tmp :: div_scan at_ (tmp * at_) l end.
Definition divide (p : list F) (at_ : F) : list F := rev (removelast (div_scan at_ 0 (rev p))).
(** poly.rs:119-121 [t]. *)
Definition poly_t (n : nat) (tau : F) : F := kpow tau n - 1.
(** poly.rs:125-131 [blind], with the drawn scalars; [None] = index out of bounds. *)
Fixpoint sub_at (l : list F) (i : nat) (v : F) : option (list F) :=
  match l, i with
  | [], _ => None
  | x :: l, O => Some (x - v :: l)
  | x :: l, S i => match sub_at l i v with Some l => Some (x :: l) | None => None end
  end.
Fixpoint blind_from (i : nat) (scalars : list F) (p : list F) : option (list F) :=
  match scalars with
  | [] => Some p
  | s :: scalars => match sub_at p i s with Some p => blind_from (S i) scalars (p ++ [s]) | None => None end
  end.
Definition blind (scalars p : list F) : option (list F) := blind_from 0 scalars p.
(** poly.rs:149-151 [is_zero], 141-147 [degree] ([None] = the failed [assert!]). *)
Definition poly_is_zero (p : list F) : bool := forallb kis0 p.
Definition degree (p : list F) : option nat :=
  if poly_is_zero p then Some O
  else match rev p with
       | x :: _ => if kis0 x then None else Some (length p - 1)%nat
       | [] => None
       end.

(** [left.zip(right.chain(repeat(0))).map(op)] with [left] the longer operand. *)
Fixpoint pad_zip (op : F -> F -> F) (l r : list F) : list F :=
  match l, r with
  | [], _ => []
  | a :: l, [] => op a 0 :: pad_zip op l []
  | a :: l, b :: r => op a b :: pad_zip op l r
  end.
(** [left.chain(repeat(0)).zip(right).map(op)]. *)
Fixpoint zip_pad (op : F -> F -> F) (l r : list F) : list F :=
  match r, l with
  | [], _ => []
  | b :: r, [] => op 0 b :: zip_pad op [] r
  | b :: r, a :: l => op a b :: zip_pad op l r
  end.
Definition longer (l r : list F) : bool := Nat.ltb (length r) (length l).
(** poly.rs:154-166, 197-209 [Add]: the operands are exchanged when the left one is not longer. *)
Definition poly_add (l r : list F) : list F :=
  coeffs_new (if longer l r then pad_zip kadd l r else pad_zip kadd r l).
(** poly.rs:211-223 [Sub for Coefficients]. *)
Definition poly_sub (l r : list F) : list F :=
  coeffs_new (if longer l r then pad_zip ksub l r else pad_zip ksub r l).
(** poly.rs:225-231 [Mul<&F>]. *)
Definition poly_scale (p : list F) (s : F) : list F := coeffs_new (map (fun c => c * s) p).
(** poly.rs:38-45 [Sum]. *)
Definition poly_sum (l : list (list F)) : list F := fold_left poly_add l [].
(** poly.rs:168-181 [Sub for &PointsValue]. *)
Definition points_sub (l r : list F) : list F :=
  if longer l r then pad_zip ksub l r else zip_pad ksub l r.
(** poly.rs:183-195 [Mul for &PointsValue]. *)
Definition points_mul (l r : list F) : list F :=
  if longer l r then pad_zip kmul l r else pad_zip kmul r l.

(** ** fft.rs *)
(** fft.rs:8-23 [Fft]. *)
Record fft := mkFft {
  fft_n : nat; fft_tw : list F; fft_itw : list F; fft_cosets : list F; fft_icosets : list F; fft_ninv : F;
  fft_rev : list (nat * nat)
}.
Fixpoint squares (n : nat) (x : F) : F := match n with O => x | S n => squares n (ksq x) end.
(** [u64::reverse_bits]. *)
Definition reverse_bits (i : Z) : Z :=
  fold_left (fun acc j => 2 * acc + Z.b2z (Z.testbit i (Z.of_nat j)))%Z (seq 0 64) 0%Z.
(** fft.rs:73-78. *)
Definition rev_pairs (k : nat) : list (nat * nat) :=
  flat_map (fun i => let r := Z.to_nat (Z.shiftr (reverse_bits (Z.of_nat i)) (64 - Z.of_nat k)) in
                     if Nat.ltb i r then [(i, r)] else []) (seq 0 (2 ^ k)).
(** fft.rs:27-89 [Fft::new].  [s], [root], [gen] are the constants [S], [ROOT_OF_UNITY] and
    [MULTIPLICATIVE_GENERATOR] of the field.  [None]: the [assert!], the subtraction [S - k] below
    zero, or an [unwrap] of a missing inverse.  [F::from(n)] is the [n]-fold sum of one. *)
Definition fft_new (s : nat) (root gen : F) (k : nat) : option fft :=
  if Nat.eqb k 0 then None
  else if Nat.ltb s k then None
  else
    let n := (2 ^ k)%nat in
    let half := (2 ^ (k - 1))%nat in
    let g := squares (s - k) root in
    match kinvert g, kinvert gen, kinvert (kofnat n) with
    | Some g_inv, Some gen_inv, Some n_inv =>
        Some (mkFft n (powers 1 g half) (powers 1 g_inv half) (powers 1 gen n) (powers 1 gen_inv n) n_inv (rev_pairs k))
    | _, _, _ => None
    end.
(** [Vec::resize(n, 0)]. *)
Definition resize (n : nat) (l : list F) : list F := firstn n l ++ repeat 0 (n - length l).
(** [slice::swap]; [None] = index out of bounds. *)
Fixpoint set_at (l : list F) (i : nat) (v : F) : list F :=
  match l, i with [], _ => [] | _ :: l, O => v :: l | x :: l, S i => x :: set_at l i v end.
Definition swap (l : list F) (i j : nat) : option (list F) :=
  match nth_error l i, nth_error l j with
  | Some x, Some y => Some (set_at (set_at l i y) j x)
  | _, _ => None
  end.
Fixpoint swaps (ps : list (nat * nat)) (l : list F) : option (list F) :=
  match ps with
  | [] => Some l
  | (i, ri) :: ps => match swap l ri i with Some l => swaps ps l | None => None end
  end.
(** fft.rs:157-162 [prepare_fft]. *)
Definition prepare_fft (f : fft) (l : list F) : option (list F) := swaps (fft_rev f) (resize (fft_n f) l).
(** fft.rs:195-218 [butterfly_arithmetic]: entry 0 without, the others with a twiddle factor;
    [None] = a twiddle index out of bounds. *)
Fixpoint butterfly_from (i chunk : nat) (tw lf rt : list F) : option (list F * list F) :=
  match lf, rt with
  | a :: lf, b :: rt =>
      match (if Nat.eqb i 0 then Some b else match nth_error tw (i * chunk) with Some w => Some (b * w) | None => None end),
            butterfly_from (S i) chunk tw lf rt with
      | Some t, Some (lf, rt) => Some (a + t :: lf, a - t :: rt)
      | _, _ => None
      end
  | _, _ => Some (lf, rt)
  end.
Definition butterfly (chunk : nat) (tw lf rt : list F) : option (list F * list F) :=
  match lf, rt with
  | _ :: _, _ :: _ => butterfly_from 0 chunk tw lf rt
  | _, _ => None
  end.
(** fft.rs:166-192 [classic_fft_arithmetic].  The fuel bounds the recursion depth. *)
Fixpoint classic_fft (fuel : nat) (coeffs : list F) (n chunk : nat) (tw : list F) : option (list F) :=
  match fuel with
  | O => None
  | S fuel =>
      if Nat.eqb n 2 then
        match coeffs with
        | c0 :: c1 :: rest => Some (c0 + c1 :: c0 - c1 :: rest)
        | _ => None
        end
      else if Nat.ltb (length coeffs) (n / 2) then None
      else
        match classic_fft fuel (firstn (n / 2) coeffs) (n / 2) (chunk * 2) tw,
              classic_fft fuel (skipn (n / 2) coeffs) (n / 2) (chunk * 2) tw with
        | Some lf, Some rt =>
            match butterfly chunk tw lf rt with Some (lf, rt) => Some (lf ++ rt) | None => None end
        | _, _ => None
        end
  end.
Definition transform (f : fft) (tw l : list F) : option (list F) :=
  match prepare_fft f l with Some l => classic_fft (fft_n f) l (fft_n f) 1 tw | None => None end.
(** fft.rs:92-97 [dft]. *)
Definition dft (f : fft) (coeffs : list F) : option (list F) := transform f (fft_tw f) coeffs.
(** fft.rs:100-106 [idft]. *)
Definition idft (f : fft) (points : list F) : option (list F) :=
  match transform f (fft_itw f) points with
  | Some l => Some (coeffs_new (map (fun c => c * fft_ninv f) l))
  | None => None
  end.
(** [a.iter_mut().zip(b).for_each(|(x, y)| *x *= *y)]: entries beyond [b] are left alone. *)
Fixpoint zip_scale (l c : list F) : list F :=
  match l, c with x :: l, y :: c => x * y :: zip_scale l c | _, _ => l end.
(** fft.rs:109-116 [coset_dft], 119-127 [coset_idft]. *)
Definition coset_dft (f : fft) (coeffs : list F) : option (list F) := dft f (zip_scale coeffs (fft_cosets f)).
Definition coset_idft (f : fft) (points : list F) : option (list F) :=
  match idft f points with Some l => Some (coeffs_new (zip_scale l (fft_icosets f))) | None => None end.
(** fft.rs:131-136 [z], 140-145 [z_on_coset], 150-154 [divide_by_z_on_coset]. *)
Definition fft_z (f : fft) (tau : F) : F := kpow tau (fft_n f) - 1.
Definition z_on_coset (f : fft) (gen : F) : F := kpow gen (fft_n f) - 1.
Definition divide_by_z_on_coset (f : fft) (gen : F) (points : list F) : option (list F) :=
  match kinvert (z_on_coset f gen) with Some i => Some (map (fun v => v * i) points) | None => None end.
End Poly.
Arguments fft_n {F}. Arguments fft_tw {F}. Arguments fft_itw {F}. Arguments fft_cosets {F}. Arguments fft_icosets {F}.
Arguments fft_ninv {F}. Arguments fft_rev {F}.
