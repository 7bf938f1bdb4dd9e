(** C48, C49: the runtime modules. *)
From Coq Require Import ZArith List Bool Lia.
From Verif Require Import ClaimsIvc FieldSpec Algebra GroupLib NovaModel NovaFields AugmentedModel IvcModel IvcSpec PalletModel PalletSpec.
Import ListNotations.
Local Open Scope Z_scope.

Section History.
Variables (rproof pparams : Type) (ivc_verify : pparams -> rproof -> option bool).
Notation extrinsic := (extrinsic rproof pparams).
Notation papply := (apply_extrinsic rproof pparams ivc_verify).
Notation prun := (run_calls rproof pparams ivc_verify).
(** A proof is valid when the verifier says so. *)
Notation valid := (fun pp p => ivc_verify pp p = Some true).
Notation sets1 := (sets1 rproof pparams valid).
Notation sets2 := (sets2 rproof pparams).
Implicit Types (x : extrinsic) (h : list extrinsic).

(** A call that is not accepted, whether rejected or aborted, changes nothing. *)
Theorem C48_failing_calls_change_nothing s x : snd (papply s x) <> Accepted -> fst (papply s x) = s.
Proof.
  destruct x as [o [v p pp|v|p pp]]; unfold apply_extrinsic; cbn [fst snd].
  - unfold set_thing_1. destruct (nova_verify _ _ _ o p pp); cbn [fst snd]; intros H; [destruct (H eq_refl)|reflexivity|reflexivity].
  - unfold set_thing_2. destruct (ensure_signed o); cbn [fst snd]; intros H; [reflexivity|destruct (H eq_refl)].
  - reflexivity.
Qed.
(** Verification through the nova module: signed, and the verifier says yes; it says why not otherwise. *)
Theorem C48_nova_verify o p pp :
  (nova_verify rproof pparams ivc_verify o p pp = Accepted <-> (exists who, o = Signed who) /\ ivc_verify pp p = Some true) /\
  (nova_verify rproof pparams ivc_verify o p pp = Rejected BadOrigin <-> o = Root \/ o = Unsigned) /\
  (nova_verify rproof pparams ivc_verify o p pp = Rejected InvalidProof <-> (exists who, o = Signed who) /\ ivc_verify pp p = Some false).
Proof.
  unfold nova_verify, nova_api_verify. destruct o as [|who|]; cbn [ensure_signed].
  - split; [|split]; split; intros H; try discriminate H; auto; destruct H as [(w & E) _]; discriminate E.
  - destruct (ivc_verify pp p) as [[|]|]; (split; [|split]); split; intros H; try discriminate H; eauto; try (destruct H as [_ E]; discriminate E); try (destruct H as [E|E]; discriminate E).
  - split; [|split]; split; intros H; try discriminate H; auto; destruct H as [(w & E) _]; discriminate E.
Qed.
Theorem C48_accepted_iff s x : snd (papply s x) = Accepted <->
  (exists who, fst x = Signed who) /\ match snd x with SetThing1 _ p pp | NovaVerify p pp => ivc_verify pp p = Some true | SetThing2 _ => True end.
Proof.
  destruct x as [o [v p pp|v|p pp]]; unfold apply_extrinsic; cbn [fst snd].
  - rewrite <- (proj1 (C48_nova_verify o p pp)). unfold set_thing_1. destruct (nova_verify _ _ _ o p pp); cbn [snd]; split; intros H; congruence.
  - unfold set_thing_2. destruct o; cbn [ensure_signed snd]; split; intros H; try discriminate H; eauto; destruct H as [(w & E) _]; discriminate E.
  - exact (proj1 (C48_nova_verify o p pp)).
Qed.

(** One call: what it does to the slots and the events. *)
Lemma apply_sets s x :
  (exists v, sets1 x v /\ fst (papply s x) = mkSt v (thing2 s) (events s ++ [(1, v)])) \/
  (exists v, sets2 x v /\ fst (papply s x) = mkSt (thing1 s) v (events s ++ [(2, v)])) \/
  ((forall v, ~ sets1 x v) /\ (forall v, ~ sets2 x v) /\ fst (papply s x) = s).
Proof.
  destruct x as [o [v p pp|v|p pp]]; unfold apply_extrinsic; cbn [fst snd].
  - unfold set_thing_1. pose proof (proj1 (C48_nova_verify o p pp)) as N. destruct (nova_verify _ _ _ o p pp) eqn:E; cbn [fst].
    + left. destruct (proj1 N eq_refl) as [(w & ->) V]. exists v. split; [constructor; exact V|reflexivity].
    + right; right. split; [|split; [|reflexivity]]; intros u H; inversion H; subst. assert (C : Rejected e = Accepted) by (apply N; eauto). discriminate C.
    + right; right. split; [|split; [|reflexivity]]; intros u H; inversion H; subst. assert (C : Aborted = Accepted) by (apply N; eauto). discriminate C.
  - unfold set_thing_2. destruct o as [|w|]; cbn [ensure_signed fst].
    + right; right. split; [|split; [|reflexivity]]; intros u H; inversion H.
    + right; left. exists v. split; [constructor|reflexivity].
    + right; right. split; [|split; [|reflexivity]]; intros u H; inversion H.
  - right; right. split; [|split; [|reflexivity]]; intros u H; inversion H.
Qed.
(** The first value changes only in a signed call with a proof that verified, to the value of the call; the
    second only in a signed call. *)
Theorem C48_first_value_changes s x : thing1 (fst (papply s x)) <> thing1 s ->
  exists who v p pp, x = (Signed who, SetThing1 v p pp) /\ ivc_verify pp p = Some true /\ thing1 (fst (papply s x)) = v.
Proof.
  intros H. destruct (apply_sets s x) as [(v & HS & E)|[(v & HS & E)|(_ & _ & E)]]; rewrite E in *; cbn [thing1] in *.
  - inversion HS; subst. eauto 8.
  - destruct (H eq_refl).
  - destruct (H eq_refl).
Qed.
Theorem C48_second_value_changes s x : thing2 (fst (papply s x)) <> thing2 s ->
  exists who v, x = (Signed who, SetThing2 v) /\ thing2 (fst (papply s x)) = v.
Proof.
  intros H. destruct (apply_sets s x) as [(v & HS & E)|[(v & HS & E)|(_ & _ & E)]]; rewrite E in *; cbn [thing2] in *.
  - destruct (H eq_refl).
  - inversion HS; subst. eauto.
  - destruct (H eq_refl).
Qed.

Lemma last_app sets h x v : last_set rproof pparams sets h v -> (forall u, ~ sets x u) -> last_set rproof pparams sets (h ++ [x]) v.
Proof.
  intros H N. destruct H as [h H|h1 y u h2 H H2].
  - apply last_none. apply Forall_app. split; [exact H|constructor; [exact N|constructor]].
  - rewrite <- app_assoc. cbn [app]. apply last_some; [exact H|]. apply Forall_app. split; [exact H2|constructor; [exact N|constructor]].
Qed.
Lemma trace_app h l h' l' : trace rproof pparams valid h l -> trace rproof pparams valid h' l' -> trace rproof pparams valid (h ++ h') (l ++ l').
Proof. intros H H'. induction H; cbn [app]; [exact H'|constructor 2|constructor 3|constructor 4]; assumption. Qed.
Lemma run_app s h x : prun s (h ++ [x]) = fst (papply (prun s h) x).
Proof. unfold run_calls. rewrite fold_left_app. reflexivity. Qed.
(** After any history the slots hold the last values set by signed calls, the first with a valid proof, and
    the events tell all of them in order. *)
Theorem C48_history h : last_set rproof pparams sets1 h (thing1 (prun genesis h)) /\ last_set rproof pparams sets2 h (thing2 (prun genesis h)) /\
  trace rproof pparams valid h (events (prun genesis h)).
Proof.
  induction h as [|x h IH] using rev_ind.
  - cbn. split; [apply last_none; constructor|]. split; [apply last_none; constructor|constructor].
  - rewrite run_app. destruct IH as (I1 & I2 & I3). destruct (apply_sets (prun genesis h) x) as [(v & HS & E)|[(v & HS & E)|(N1 & N2 & E)]]; rewrite E; cbn [thing1 thing2 events].
    + split; [apply last_some; [exact HS|constructor]|]. split; [apply last_app; [exact I2|]|apply trace_app; [exact I3|econstructor 2; [exact HS|constructor]]].
      intros u H. inversion HS; subst. inversion H.
    + split; [apply last_app; [exact I1|]|]. { intros u H. inversion HS; subst. inversion H. }
      split; [apply last_some; [exact HS|constructor]|apply trace_app; [exact I3|econstructor 3; [exact HS|constructor]]].
    + split; [apply last_app; assumption|]. split; [apply last_app; assumption|]. rewrite <- (app_nil_r (events _)). apply trace_app; [exact I3|constructor 4; [exact N1|exact N2|constructor]].
Qed.
(** The value is not part of what is proved, and proofs can be used again: whoever sees an accepted call can
    set any value with its proof, in any state. *)
Theorem C48_replay s who v p pp s' who' v' : snd (papply s (Signed who, SetThing1 v p pp)) = Accepted ->
  snd (papply s' (Signed who', SetThing1 v' p pp)) = Accepted /\ thing1 (fst (papply s' (Signed who', SetThing1 v' p pp))) = v'.
Proof.
  intros H. apply (proj1 (C48_accepted_iff _ _)) in H. cbn [fst snd] in H. destruct H as [_ V].
  unfold apply_extrinsic, set_thing_1, nova_verify, nova_api_verify. cbn [fst snd ensure_signed]. rewrite V. split; reflexivity.
Qed.

(** ** C49 *)
Theorem C49_values_fit h : Forall (u32_call rproof pparams) h -> u32 (thing1 (prun genesis h)) /\ u32 (thing2 (prun genesis h)).
Proof.
  induction h as [|x h IH] using rev_ind; intros H; [cbn; unfold u32; lia|]. apply Forall_app in H. destruct H as [H HX]. inversion HX as [|? ? HX' _]; subst.
  specialize (IH H). rewrite run_app. destruct (apply_sets (prun genesis h) x) as [(v & HS & E)|[(v & HS & E)|(N1 & N2 & E)]]; rewrite E; cbn [thing1 thing2]; [inversion HS; subst; cbn in HX'; tauto..|exact IH].
Qed.
(** The sum of the stored values, when it is below 2^32; beyond, a panic or the sum modulo 2^32. *)
Theorem C49_get_sum b h : Forall (u32_call rproof pparams) h ->
  let s := prun genesis h in
  (thing1 s + thing2 s < 2 ^ 32 <-> get_sum b s = Some (thing1 s + thing2 s)) /\
  (2 ^ 32 <= thing1 s + thing2 s -> get_sum b s = if b then None else Some (thing1 s + thing2 s - 2 ^ 32)).
Proof.
  intros H s. destruct (C49_values_fit h H) as [A B]. fold s in A, B. unfold u32 in *. unfold get_sum. destruct (Z.ltb_spec (thing1 s + thing2 s) (2 ^ 32)) as [C|C].
  - split; [tauto|lia].
  - split.
    + split; [lia|]. destruct b; intros E; [discriminate E|]. injection E as E. pose proof (Z.mod_pos_bound (thing1 s + thing2 s) (2 ^ 32)). lia.
    + intros _. destruct b; [reflexivity|]. apply (f_equal Some). symmetry. apply (Z.mod_unique_pos _ _ 1); lia.
Qed.
(** It can be: one accepted proof and two calls are enough. *)
Theorem C49_sum_refuted (who : Z) p pp b : ivc_verify pp p = Some true ->
  exists h, Forall (u32_call rproof pparams) h /\ let s := prun genesis h in thing1 s = 2 ^ 32 - 1 /\ thing2 s = 1 /\ get_sum b s = if b then None else Some 0.
Proof.
  intros V. exists [(Signed who, SetThing1 (2 ^ 32 - 1) p pp); (Signed who, SetThing2 1)]. split.
  - constructor; [cbn; unfold u32; lia|]. constructor; [cbn; unfold u32; lia|constructor].
  - cbn. unfold set_thing_1, nova_verify, nova_api_verify. cbn [ensure_signed fst snd]. rewrite V. cbn. destruct b; auto.
Qed.
End History.

(** ** The modules as the mock runtime configures them *)
Section Runtime.
Variables (cr : list FrFld) (cq : list FqFld).
Notation R := (fr_pf cr).
Notation Q := (fq_pf cq).
Notation E1 := (bn254_driver cr cq).
Notation E2 := (grumpkin_driver cr cq).
Variables (FC1 : fcircuit R) (FC2 : fcircuit Q).
Hypothesis SC1 : step_circuit FC1.
Hypothesis SC2 : step_circuit FC2.
Variables (ck1 : list (d_pt E1)) (ck2 : list (d_pt E2)).
Notation papply := (apply_extrinsic (rproof R Q E1 E2) (pparams R Q E1 E2) verify).

(** The proof is no barrier: whoever can sign can set any value, even under parameters from an honest setup,
    with a proof that claims any number of steps between any two states. *)
Theorem C48_any_signer_sets_any_value : exists pp, setup FC1 FC2 ck1 ck2 = Some pp /\
  forall s who v i z01 z02 zn1 zn2, exists p, rp_i p = i /\ rp_z01 p = z01 /\ rp_z02 p = z02 /\ rp_zi1 p = zn1 /\ rp_zi2 p = zn2 /\
    papply s (Signed who, SetThing1 v p pp) = (mkSt v (thing2 s) (events s ++ [(1, v)]), Accepted).
Proof.
  destruct (C43_anything_accepted cr cq FC1 FC2 SC1 SC2 ck1 ck2) as (pp & ES & H). exists pp. split; [exact ES|]. intros s who v i z01 z02 zn1 zn2.
  destruct (H i z01 z02 zn1 zn2) as (p & A & B & C & D & E & V). exists p. split; [exact A|]. split; [exact B|]. split; [exact C|]. split; [exact D|]. split; [exact E|].
  unfold apply_extrinsic, set_thing_1, nova_verify, nova_api_verify. cbn [fst snd ensure_signed]. rewrite V. reflexivity.
Qed.
(** And an honest proof sets it as well. *)
Theorem C48_honest_proof_sets : exists pp, setup FC1 FC2 ck1 ck2 = Some pp /\
  forall z01 z02 n, length z01 = 1%nat -> length z02 = 1%nat -> (1 <= n)%nat -> Z.of_nat n < 2 ^ 64 ->
  exists s0 st p, init FC1 FC2 pp z01 z02 = Some s0 /\ prove_steps FC1 FC2 pp s0 n = Some (st, p) /\
    forall s who v, papply s (Signed who, SetThing1 v p pp) = (mkSt v (thing2 s) (events s ++ [(1, v)]), Accepted).
Proof.
  destruct (C42_steps_and_acceptance cr cq FC1 FC2 SC1 SC2 ck1 ck2) as (pp & ES & H). exists pp. split; [exact ES|]. intros z01 z02 n L1 L2 H1 H2.
  destruct (H z01 z02 n L1 L2 H1 H2) as (s0 & st & p & A & B & _ & _ & _ & _ & _ & _ & _ & _ & _ & _ & V). exists s0, st, p. split; [exact A|]. split; [exact B|]. intros s who v.
  unfold apply_extrinsic, set_thing_1, nova_verify, nova_api_verify. cbn [fst snd ensure_signed]. rewrite V. reflexivity.
Qed.
End Runtime.

(** A history with an accepted, two rejected and an aborted call. *)
Example C48_hypotheses_met :
  let ok := fun (pp : unit) (p : Z) => if p =? 0 then Some true else if p =? 1 then Some false else None in
  let h := [(Signed 7, SetThing1 5 0 tt); (Signed 8, SetThing1 6 1 tt); (Unsigned, SetThing2 9); (Signed 8, SetThing1 6 2 tt); (Signed 9, SetThing2 4); (Root, SetThing1 1 0 tt)] in
  run_calls Z unit ok genesis h = mkSt 5 4 [(1, 5); (2, 4)] /\ Forall (u32_call Z unit) h /\ get_sum true (run_calls Z unit ok genesis h) = Some 9.
Proof.
  cbv zeta. split; [vm_compute; reflexivity|]. split; [|vm_compute; reflexivity].
  do 6 (apply Forall_cons; [unfold u32_call, u32; cbn [snd]; lia|]). apply Forall_nil.
Qed.
Example C49_hypotheses_met cr cq ck1 ck2 : exists pp p, setup (E1 := bn254_driver cr cq) (E2 := grumpkin_driver cr cq) (example_function (fr_pf cr)) (example_function (fq_pf cq)) ck1 ck2 = Some pp /\ verify pp p = Some true.
Proof.
  destruct (C43_anything_accepted cr cq _ _ (example_step (fr_pf cr)) (example_step (fq_pf cq)) ck1 ck2) as (pp & ES & H). destruct (H 1 [k0] [k0] [k1] [k1]) as (p & _ & _ & _ & _ & _ & V).
  exists pp, p. split; [exact ES|exact V].
Qed.
