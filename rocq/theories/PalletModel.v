(** pallet/nova/src/lib.rs and sample/src/lib.rs: the two runtime modules.
    The framework (frame_support, frame_system) is not in the repository: an origin is its three kinds
    (frame_system [RawOrigin]), storage values are read with their default, and an extrinsic is one call
    with its origin.  The events of a block after the genesis block are a list. *)
From Coq Require Import ZArith List Bool.
Import ListNotations.
Local Open Scope Z_scope.

(** frame_system [RawOrigin]; [ensure_signed] accepts only the second kind. *)
Inductive origin := Root | Signed (who : Z) | Unsigned.
(** [DispatchError]: [BadOrigin] from [ensure_signed], [Other("invalid proof")] from pallet/nova/src/lib.rs:111-114. *)
Inductive derror := BadOrigin | InvalidProof.
(** [DispatchResultWithPostInfo] of a call, or a panic. *)
Inductive dispatch := Accepted | Rejected (e : derror) | Aborted.
Definition ensure_signed (o : origin) : option derror := match o with Signed _ => None | _ => Some BadOrigin end.

Section Pallet.
(** Proofs, parameters and [RecursiveProof::verify] (IvcModel.v); [None] is a panic. *)
Variables (rproof pparams : Type) (ivc_verify : pparams -> rproof -> option bool).

(** pallet/nova/src/lib.rs:101-116 [IvcVerifier::verify]. *)
Definition nova_api_verify (proof : rproof) (pp : pparams) : dispatch :=
  match ivc_verify pp proof with
  | Some true => Accepted
  | Some false => Rejected InvalidProof
  | None => Aborted
  end.
(** pallet/nova/src/lib.rs:87-96 [verify]. *)
Definition nova_verify (o : origin) (proof : rproof) (pp : pparams) : dispatch :=
  match ensure_signed o with
  | Some e => Rejected e
  | None => nova_api_verify proof pp
  end.

(** sample/src/lib.rs:41-47 [Thing1], [Thing2] and 30-34 [Event::ValueSet]. *)
Record storage := mkSt { thing1 : Z; thing2 : Z; events : list (Z * Z) }.
(** [ValueQuery]: zero when never written. *)
Definition genesis : storage := mkSt 0 0 [].
(** sample/src/lib.rs:55-70 [set_thing_1]. *)
Definition set_thing_1 (o : origin) (val : Z) (proof : rproof) (pp : pparams) (s : storage) : storage * dispatch :=
  match nova_verify o proof pp with
  | Accepted => (mkSt val (thing2 s) (events s ++ [(1, val)]), Accepted)
  | d => (s, d)
  end.
(** sample/src/lib.rs:72-81 [set_thing_2]. *)
Definition set_thing_2 (o : origin) (val : Z) (s : storage) : storage * dispatch :=
  match ensure_signed o with
  | Some e => (s, Rejected e)
  | None => (mkSt (thing1 s) val (events s ++ [(2, val)]), Accepted)
  end.

(** The calls of the two modules, and a history of them. *)
Inductive call := SetThing1 (val : Z) (proof : rproof) (pp : pparams) | SetThing2 (val : Z) | NovaVerify (proof : rproof) (pp : pparams).
Definition extrinsic : Type := origin * call.
Definition apply_extrinsic (s : storage) (x : extrinsic) : storage * dispatch :=
  match snd x with
  | SetThing1 val proof pp => set_thing_1 (fst x) val proof pp s
  | SetThing2 val => set_thing_2 (fst x) val s
  | NovaVerify proof pp => (s, nova_verify (fst x) proof pp)
  end.
Definition run_calls (s : storage) (h : list extrinsic) : storage := fold_left (fun s x => fst (apply_extrinsic s x)) h s.

(** sample/src/lib.rs:86-88 [get_sum]: [u32] addition, a panic ([None]) with overflow checks, else modulo 2^32. *)
Definition get_sum (overflow_checks : bool) (s : storage) : option Z :=
  let sum := thing1 s + thing2 s in
  if sum <? 2 ^ 32 then Some sum else if overflow_checks then None else Some (sum mod 2 ^ 32).
End Pallet.
Arguments SetThing1 {rproof pparams}. Arguments SetThing2 {rproof pparams}. Arguments NovaVerify {rproof pparams}.
