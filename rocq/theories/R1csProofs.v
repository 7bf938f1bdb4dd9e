(** Rows are linear; satisfaction; a calculus for gadgets. *)
From Coq Require Import ZArith List Bool Lia Field.
From Verif Require Import Algebra R1csModel R1csSpec.
Import ListNotations.
Local Open Scope fld_scope.

Lemma wire_eqb_spec a b : reflect (a = b) (wire_eqb a b).
Proof.
  destruct a as [i|i], b as [j|j]; cbn; try (constructor; congruence).
  - destruct (Nat.eqb_spec i j); constructor; congruence.
  - destruct (Nat.eqb_spec i j); constructor; congruence.
Qed.
Section R.
Variable F : Fld.
Add Field rfield : (kth F).
Implicit Types (r l : row F) (s : asg F) (cs : r1cs F) (x y z : row F).

(** ** Rows *)
Lemma lc_nil s : lc s [] = 0. Proof. reflexivity. Qed.
Lemma lc_cons s w (c : F) r : lc s ((w, c) :: r) = c * s w + lc s r. Proof. reflexivity. Qed.
Lemma lc_app s l r : lc s (l ++ r) = lc s l + lc s r.
Proof. induction l as [|[w c] l IH]; cbn [app]; rewrite ?lc_cons, ?lc_nil; [ring|rewrite IH; ring]. Qed.
Lemma lc_filter s (p : wire * F -> bool) l : lc s l = lc s (filter p l) + lc s (filter (fun e => negb (p e)) l).
Proof.
  induction l as [|[w c] l IH]; cbn [filter]; [cbn; ring|]. rewrite lc_cons, IH. destruct (p (w, c)); cbn [negb]; rewrite lc_cons; ring.
Qed.
Lemma lc_new s r : lc s (row_new F r) = lc s r.
Proof.
  unfold row_new. rewrite (lc_filter s (fun e => negb (kis0 (snd e))) r). match goal with |- _ = _ + ?t => replace t with (0 : F); [ring|] end.
  induction r as [|[w c] r IH]; [reflexivity|]. cbn [filter snd]. unfold kis0 at 1. destruct (keqb_spec F c 0) as [->|N]; cbn [negb]; [|exact IH].
  rewrite lc_cons, <- IH. ring.
Qed.
Lemma map_fst_filter (p : wire * F -> bool) l : forall w, In w (map fst (filter p l)) -> In w (map fst l).
Proof. intros w H. apply in_map_iff in H as (e & <- & H). apply filter_In in H. apply in_map, H. Qed.
Lemma nodup_filter (p : wire * F -> bool) l : NoDup (map fst l) -> NoDup (map fst (filter p l)).
Proof.
  induction l as [|e l IH]; cbn [map filter]; intros N; [constructor|]. inversion N as [|? ? A B]; subst.
  destruct (p e); [|apply IH, B]. cbn [map]. constructor; [|apply IH, B]. intros H. apply A. apply (map_fst_filter p), H.
Qed.
Lemma get_none w l : get_value_from_wire F w l = None <-> ~ In w (map fst l).
Proof.
  induction l as [|[u c] l IH]; cbn; [tauto|]. destruct (wire_eqb_spec w u) as [->|N]; [split; [discriminate|tauto]|].
  rewrite IH. split; [intros H [E|E]; [congruence|tauto]|tauto].
Qed.
Definition getd (l : row F) (w : wire) : F := match get_value_from_wire F w l with Some v => v | None => 0 end.
Lemma single s r w (v : F) : NoDup (map fst r) ->
  ksum (map (fun e => (if wire_eqb (fst e) w then v else 0) * s (fst e)) r) = match get_value_from_wire F w r with Some _ => v * s w | None => 0 end.
Proof.
  induction r as [|[u c] r IH]; intros N; [reflexivity|]. inversion N as [|? ? A B]; subst. cbn [map fst]. rewrite (ksum_cons F), IH by exact B.
  cbn [get_value_from_wire]. destruct (wire_eqb_spec u w) as [->|D].
  - destruct (wire_eqb_spec w w); [|congruence]. replace (get_value_from_wire F w r) with (@None F); [ring|]. symmetry. apply get_none, A.
  - destruct (wire_eqb_spec w u); [congruence|]. ring.
Qed.
Lemma overlap s l r : NoDup (map fst l) -> NoDup (map fst r) ->
  ksum (map (fun e => getd l (fst e) * s (fst e)) r) =
  lc s (filter (fun e => negb match get_value_from_wire F (fst e) r with None => true | Some _ => false end) l).
Proof.
  intros NL NR. induction l as [|[w c] l IH].
  - cbn. clear. induction r as [|e r IH]; [reflexivity|]. cbn [map]. rewrite (ksum_cons F), IH. cbn. ring.
  - inversion NL as [|? ? A B]; subst. cbn [filter fst].
    transitivity (ksum (map (fun e => (if wire_eqb (fst e) w then c else 0) * s (fst e)) r) + ksum (map (fun e => getd l (fst e) * s (fst e)) r)).
    + clear IH NR. induction r as [|e r IH]; [cbn; ring|]. cbn [map]. rewrite !(ksum_cons F), IH.
      assert (E : getd ((w, c) :: l) (fst e) = (if wire_eqb (fst e) w then c else 0) + getd l (fst e)).
      { unfold getd. cbn [get_value_from_wire]. destruct (wire_eqb_spec (fst e) w) as [->|]; [|ring].
        replace (get_value_from_wire F w l) with (@None F); [ring|]. symmetry. apply get_none, A. }
      rewrite E. ring.
    + rewrite (single s r w c NR), IH by exact B. destruct (get_value_from_wire F w r); cbn [negb]; [rewrite lc_cons|]; ring.
Qed.
Lemma lc_add s l r : NoDup (map fst l) -> NoDup (map fst r) -> lc s (row_add F l r) = lc s l + lc s r.
Proof.
  intros NL NR. unfold row_add. rewrite lc_new, lc_app.
  rewrite (lc_filter s (fun e => match get_value_from_wire F (fst e) r with None => true | Some _ => false end) l).
  assert (E : lc s (map (fun e => match get_value_from_wire F (fst e) l with Some a => (fst e, a + snd e) | None => e end) r) =
    lc s r + ksum (map (fun e => getd l (fst e) * s (fst e)) r)).
  { clear. induction r as [|[w c] r IH]; [cbn; ring|]. cbn [map fst]. rewrite (ksum_cons F), (lc_cons s w c r). unfold getd at 1.
    destruct (get_value_from_wire F w l); rewrite lc_cons, IH; cbn [snd]; ring. }
  rewrite E, (overlap s l r NL NR). ring.
Qed.
Lemma add_wires l r w : In w (map fst (row_add F l r)) -> In w (map fst l) \/ In w (map fst r).
Proof.
  unfold row_add. intros H. apply map_fst_filter in H. rewrite map_app in H. apply in_app_iff in H as [H|H]; [left; apply map_fst_filter in H; exact H|].
  right. rewrite map_map in H. apply in_map_iff in H as (e & <- & H). apply in_map_iff. exists e. split; [|exact H].
  destruct (get_value_from_wire F (fst e) l); reflexivity.
Qed.
Lemma nodup_add l r : NoDup (map fst l) -> NoDup (map fst r) -> NoDup (map fst (row_add F l r)).
Proof.
  intros NL NR. unfold row_add. apply nodup_filter. rewrite map_app, map_map.
  replace (map (fun e => fst match get_value_from_wire F (fst e) l with Some a => (fst e, a + snd e) | None => e end) r) with (map fst r).
  2:{ apply map_ext. intros e. destruct (get_value_from_wire F (fst e) l); reflexivity. }
  induction l as [|[w c] l IH]; [exact NR|]. inversion NL as [|? ? A B]; subst. cbn [filter fst].
  destruct (get_value_from_wire F w r) eqn:E; [apply IH, B|]. cbn [map fst app]. constructor; [|apply IH, B].
  rewrite in_app_iff. intros [H|H]; [apply map_fst_filter in H; tauto|]. apply get_none in E. tauto.
Qed.
Lemma lc_scale s r c : lc s (row_scale F r c) = lc s r * c.
Proof. unfold row_scale. rewrite lc_new. induction r as [|[w k] r IH]; cbn [map fst snd]; rewrite ?lc_cons, ?lc_nil; [ring|]. rewrite IH. ring. Qed.
Lemma scale_map r c : map fst (map (fun e => (fst e, snd e * c)) r) = map fst r.
Proof. rewrite map_map. apply map_ext. reflexivity. Qed.
Lemma scale_wires r c w : In w (map fst (row_scale F r c)) -> In w (map fst r).
Proof. unfold row_scale. intros H. apply map_fst_filter in H. rewrite scale_map in H. exact H. Qed.
Lemma nodup_scale r c : NoDup (map fst r) -> NoDup (map fst (row_scale F r c)).
Proof. intros N. unfold row_scale. apply nodup_filter. rewrite scale_map. exact N. Qed.
Lemma lc_neg s r : lc s (row_neg F r) = - lc s r. Proof. unfold row_neg. rewrite lc_scale. ring. Qed.
Lemma lc_sub s l r : NoDup (map fst l) -> NoDup (map fst r) -> lc s (row_sub F l r) = lc s l - lc s r.
Proof. intros NL NR. unfold row_sub. rewrite lc_add by (try apply nodup_scale; assumption). rewrite lc_neg. ring. Qed.
Lemma nodup_sub l r : NoDup (map fst l) -> NoDup (map fst r) -> NoDup (map fst (row_sub F l r)).
Proof. intros NL NR. apply nodup_add; [exact NL|apply nodup_scale, NR]. Qed.
Lemma row_wire_eq w : row_wire F w = [(w, 1)].
Proof. unfold row_wire, row_new. cbn. unfold kis0. destruct (keqb_spec F 1 0) as [E|]; [destruct (k1_neq0 F E)|]. reflexivity. Qed.
Lemma lc_wire s w : lc s (row_wire F w) = s w. Proof. rewrite row_wire_eq, lc_cons, lc_nil. ring. Qed.
Lemma lc_const s c : s ONE = 1 -> lc s (row_const F c) = c.
Proof. intros H. unfold row_const. rewrite lc_new, lc_cons, lc_nil, H. ring. Qed.
Lemma lc_constant s c : s ONE = 1 -> lc s (fa_constant F c) = c.
Proof. intros H. unfold fa_constant. rewrite lc_cons, lc_nil, H. ring. Qed.
Lemma as_constant_spec s r c : s ONE = 1 -> as_constant F r = Some c -> lc s r = c.
Proof.
  intros H. unfold as_constant. destruct r as [|[w v] [|e r]]; try discriminate. cbn. destruct w as [[|i]|i]; try discriminate. cbn.
  intros E. injection E as <-. change (lc s [(ONE, v)] = v). rewrite lc_cons, lc_nil, H. ring.
Qed.

(** ** Ranges, growth *)
Lemma range_add cs l r : Forall (in_range cs) (map fst l) -> Forall (in_range cs) (map fst r) -> Forall (in_range cs) (map fst (row_add F l r)).
Proof. rewrite !Forall_forall. intros A B w H. apply add_wires in H as [H|H]; auto. Qed.
Lemma range_scale cs r c : Forall (in_range cs) (map fst r) -> Forall (in_range cs) (map fst (row_scale F r c)).
Proof. rewrite !Forall_forall. intros A w H. apply scale_wires in H; auto. Qed.
Lemma ok_add cs l r : row_ok cs l -> row_ok cs r -> row_ok cs (row_add F l r).
Proof. intros [A B] [C D]. split; [apply range_add; assumption|apply nodup_add; assumption]. Qed.
Lemma ok_scale cs r c : row_ok cs r -> row_ok cs (row_scale F r c).
Proof. intros [A B]. split; [apply range_scale, A|apply nodup_scale, B]. Qed.
Lemma ok_sub cs l r : row_ok cs l -> row_ok cs r -> row_ok cs (row_sub F l r).
Proof. intros A B. apply ok_add; [exact A|apply ok_scale, B]. Qed.
Lemma ok_wire cs w : in_range cs w -> row_ok cs (row_wire F w).
Proof. intros H. rewrite row_wire_eq. split; cbn; [constructor; [exact H|constructor]|]. constructor; [intros []|constructor]. Qed.
Lemma one_range cs : wf_cs cs -> in_range cs ONE.
Proof. intros (_ & _ & _ & H & _). cbn. apply nth_error_Some. rewrite H. discriminate. Qed.
Lemma own_one cs : wf_cs cs -> own cs ONE = 1.
Proof. intros (_ & _ & _ & H & _). unfold own. cbn [wire_value ONE]. rewrite H. reflexivity. Qed.
Lemma ok_constant cs c : wf_cs cs -> row_ok cs (fa_constant F c).
Proof. intros W. split; cbn; [constructor; [apply one_range, W|constructor]|]. constructor; [intros []|constructor]. Qed.
Lemma ok_const cs c : wf_cs cs -> row_ok cs (row_const F c).
Proof.
  intros W. destruct (ok_constant cs c W) as [A B]. split; [|apply nodup_filter, B].
  rewrite Forall_forall in *. intros w H. apply A. apply map_fst_filter in H. exact H.
Qed.

(** [cs'] has the wires and values of [cs] and the additional gates [new]. *)
Definition grow (cs cs' : r1cs F) (new : list (gate3 F)) : Prop :=
  (exists dx, r_x cs' = r_x cs ++ dx) /\ (exists dw, r_w cs' = r_w cs ++ dw) /\ gates cs' = gates cs ++ new.
Lemma grow_refl cs : grow cs cs [].
Proof. repeat split; [exists []; rewrite app_nil_r; reflexivity|exists []; rewrite app_nil_r; reflexivity|rewrite app_nil_r; reflexivity]. Qed.
Lemma grow_trans cs1 cs2 cs3 n1 n2 : grow cs1 cs2 n1 -> grow cs2 cs3 n2 -> grow cs1 cs3 (n1 ++ n2).
Proof.
  intros ((dx & X) & (dw & W) & G1) ((dx' & X') & (dw' & W') & G2).
  split; [exists (dx ++ dx'); rewrite X', X, app_assoc; reflexivity|]. split; [exists (dw ++ dw'); rewrite W', W, app_assoc; reflexivity|].
  rewrite G2, G1, app_assoc. reflexivity.
Qed.
Lemma grow_range cs cs' new w : grow cs cs' new -> in_range cs w -> in_range cs' w.
Proof. intros ((dx & X) & (dw & W) & _). destruct w; cbn; rewrite ?X, ?W, app_length; lia. Qed.
Lemma grow_ranges cs cs' new (l : list wire) : grow cs cs' new -> Forall (in_range cs) l -> Forall (in_range cs') l.
Proof. intros Gr. apply Forall_impl. intros w. apply (grow_range _ _ _ _ Gr). Qed.
Lemma grow_ok cs cs' new r : grow cs cs' new -> row_ok cs r -> row_ok cs' r.
Proof. intros Gr [A B]. split; [apply (grow_ranges _ _ _ _ Gr A)|exact B]. Qed.
Lemma grow_own cs cs' new w : grow cs cs' new -> in_range cs w -> own cs' w = own cs w.
Proof.
  intros ((dx & X) & (dw & W) & _) H. unfold own. destruct w as [i|i]; cbn [wire_value] in *; cbn in H; [rewrite X|rewrite W]; rewrite nth_error_app1 by exact H; reflexivity.
Qed.
Lemma grow_lc cs cs' new r : grow cs cs' new -> Forall (in_range cs) (map fst r) -> lc (own cs') r = lc (own cs) r.
Proof.
  intros Gr H. induction r as [|[w c] r IH]; [reflexivity|]. cbn [map fst] in H. inversion H as [|? ? A B]; subst.
  rewrite !lc_cons, IH, (grow_own _ _ _ _ Gr A) by exact B. reflexivity.
Qed.
Lemma grow_extends cs cs' new : grow cs cs' new -> extends cs cs'.
Proof. intros (A & B & C). split; [exact A|]. split; [exact B|]. exists new. exact C. Qed.
Lemma gates_range cs : wf_cs cs -> Forall (fun g => Forall (in_range cs) (map fst (fst g)) /\ Forall (in_range cs) (map fst (fst (snd g))) /\ Forall (in_range cs) (map fst (snd (snd g)))) (gates cs).
Proof.
  intros (_ & _ & _ & _ & H). rewrite Forall_forall in *. intros [a [b c]] I. unfold gates in I.
  pose proof (in_combine_l _ _ _ _ I) as Ia. pose proof (in_combine_r _ _ _ _ I) as I'. pose proof (in_combine_l _ _ _ _ I') as Ib. pose proof (in_combine_r _ _ _ _ I') as Ic.
  cbn [fst snd]. split; [|split]; apply H; rewrite !in_app_iff; tauto.
Qed.
(** Old gates keep holding for the prover's values. *)
Lemma grow_holds cs cs' new : wf_cs cs -> grow cs cs' new -> Forall (holds (own cs)) (gates cs) -> Forall (holds (own cs')) (gates cs).
Proof.
  intros W Gr H. pose proof (gates_range cs W) as R. rewrite Forall_forall in *. intros g I. destruct (R g I) as (A & B & C).
  unfold holds. rewrite !(grow_lc _ _ _ _ Gr) by assumption. apply (H g I).
Qed.

(** ** Evaluation *)
Lemma wire_value_ok cs w : in_range cs w -> wire_value (r_x cs) (r_w cs) w = Some (own cs w).
Proof.
  intros H. unfold own. destruct w as [i|i]; cbn in *.
  - destruct (nth_error (r_x cs) i) eqn:E; [reflexivity|]. apply nth_error_None in E. lia.
  - destruct (nth_error (r_w cs) i) eqn:E; [reflexivity|]. apply nth_error_None in E. lia.
Qed.
Lemma row_evaluate_ok cs r : Forall (in_range cs) (map fst r) -> row_evaluate r (r_x cs) (r_w cs) = Some (lc (own cs) r).
Proof.
  intros H. unfold row_evaluate. assert (GG : forall r a, Forall (in_range cs) (map fst r) -> fold_left (fun acc e => match acc, wire_value (r_x cs) (r_w cs) (fst e) with
    Some s, Some v => Some (s + v * snd e) | _, _ => None end) r (Some a) = Some (a + lc (own cs) r)).
  { clear. induction r as [|[w c] r IH]; intros a H; cbn [fold_left]; [rewrite lc_nil; apply f_equal; ring|]. cbn [map fst] in H. inversion H as [|? ? A B]; subst.
    cbn [fst snd]. rewrite (wire_value_ok cs w A), IH by exact B. apply f_equal. rewrite lc_cons. ring. }
  rewrite GG by exact H. apply f_equal. ring.
Qed.
Lemma prod_row_ok cs r : Forall (in_range cs) (map fst r) -> prod_row F (length (r_x cs)) (r_x cs ++ r_w cs) r = Some (lc (own cs) r).
Proof.
  intros H. unfold prod_row. assert (GG : forall r a, Forall (in_range cs) (map fst r) -> fold_left (fun acc e => match acc, nth_error (r_x cs ++ r_w cs) (match fst e with Inst i => i | Wit i => (i + length (r_x cs))%nat end) with
    Some s, Some v => Some (s + snd e * v) | _, _ => None end) r (Some a) = Some (a + lc (own cs) r)).
  { clear. induction r as [|[w c] r IH]; intros a H; cbn [fold_left]; [rewrite lc_nil; apply f_equal; ring|]. cbn [map fst] in H. inversion H as [|? ? A B]; subst.
    cbn [fst snd]. assert (E : nth_error (r_x cs ++ r_w cs) (match w with Inst i => i | Wit i => (i + length (r_x cs))%nat end) = Some (own cs w)).
    { rewrite <- (wire_value_ok cs w A). destruct w as [i|i]; cbn [wire_value]; cbn in A.
      - apply nth_error_app1, A.
      - rewrite nth_error_app2 by lia. f_equal. lia. }
    rewrite E, IH by exact B. apply f_equal. rewrite lc_cons. ring. }
  rewrite GG by exact H. apply f_equal. ring.
Qed.
Lemma all_some_map {A B} (f : A -> option B) (g : A -> B) (l : list A) : (forall a, In a l -> f a = Some (g a)) -> all_some (map f l) = Some (map g l).
Proof.
  induction l as [|a l IH]; intros H; [reflexivity|]. cbn [map all_some]. rewrite (H a) by (left; reflexivity).
  rewrite IH by (intros; apply H; right; assumption). reflexivity.
Qed.
Lemma rows_range cs r : wf_cs cs -> In r (r_a cs) \/ In r (r_b cs) \/ In r (r_c cs) -> Forall (in_range cs) (map fst r).
Proof. intros (_ & _ & _ & _ & H) I. rewrite Forall_forall in H. apply H. rewrite !in_app_iff. exact I. Qed.
Lemma matrix_prod_ok cs mat : length mat = r_m cs -> (forall r, In r mat -> Forall (in_range cs) (map fst r)) ->
  matrix_prod F mat (r_m cs) (length (r_x cs)) (r_x cs ++ r_w cs) = Some (map (lc (own cs)) mat).
Proof.
  intros L H. unfold matrix_prod. rewrite L, Nat.ltb_irrefl, (all_some_map _ (lc (own cs))), Nat.sub_diag by (intros r I; apply prod_row_ok, H, I).
  cbn [repeat]. rewrite app_nil_r. reflexivity.
Qed.
Lemma is_sat_ok cs : wf_cs cs -> exists b, is_sat F cs = Some b /\ (b = true <-> Forall (holds (own cs)) (gates cs)).
Proof.
  intros W. pose proof W as (LA & LB & LC & _ & _). unfold is_sat.
  rewrite (matrix_prod_ok cs _ LA) by (intros r I; apply rows_range; tauto). rewrite (matrix_prod_ok cs _ LB) by (intros r I; apply rows_range; tauto).
  rewrite (matrix_prod_ok cs _ LC) by (intros r I; apply rows_range; tauto). unfold hadamard. rewrite !map_length, LA, LB, Nat.eqb_refl.
  eexists. split; [reflexivity|]. unfold gates.
  assert (LAB : length (r_a cs) = length (r_b cs)) by congruence. assert (LAC : length (r_a cs) = length (r_c cs)) by congruence.
  clear - LAB LAC. generalize dependent (r_c cs). generalize dependent (r_b cs). generalize (own cs). generalize (r_a cs).
  induction l as [|a la IH]; intros s [|b lb] LAB [|c lcs] LAC; try discriminate; [cbn; split; [constructor|reflexivity]|].
  cbn [map combine forallb]. rewrite andb_true_iff, (IH s lb) by (cbn in *; congruence). cbn [fst snd].
  split; [intros [E H]; constructor; [apply keqb_eq in E; exact E|exact H]|intros H; inversion H; subst; split; [apply keqb_eq; assumption|assumption]].
Qed.

(** ** Primitive steps *)
Lemma push_x_ok cs v : wf_cs cs -> wf_cs (snd (push_x F v cs)) /\ grow cs (snd (push_x F v cs)) [] /\ in_range (snd (push_x F v cs)) (fst (push_x F v cs)) /\ own (snd (push_x F v cs)) (fst (push_x F v cs)) = v.
Proof.
  intros (LA & LB & LC & O & R).
  assert (Gr : grow cs (snd (push_x F v cs)) []).
  { split; [exists [v]; reflexivity|]. split; [exists []; cbn; rewrite app_nil_r; reflexivity|]. unfold gates. cbn. rewrite app_nil_r. reflexivity. }
  split; [|split; [exact Gr|split]].
  - unfold wf_cs. cbn [push_x snd r_a r_b r_c r_m r_x r_w]. repeat (split; [assumption|]). split; [rewrite nth_error_app1; [exact O|apply nth_error_Some; rewrite O; discriminate]|].
    eapply Forall_impl; [|exact R]. intros r. apply (grow_ranges _ _ _ _ Gr).
  - cbn. rewrite app_length. cbn. lia.
  - unfold own. cbn [push_x push_w fst snd r_x r_w wire_value]. rewrite nth_error_app2, Nat.sub_diag by lia. reflexivity.
Qed.
Lemma push_w_ok cs v : wf_cs cs -> wf_cs (snd (push_w F v cs)) /\ grow cs (snd (push_w F v cs)) [] /\ in_range (snd (push_w F v cs)) (fst (push_w F v cs)) /\ own (snd (push_w F v cs)) (fst (push_w F v cs)) = v.
Proof.
  intros (LA & LB & LC & O & R).
  assert (Gr : grow cs (snd (push_w F v cs)) []).
  { split; [exists []; cbn; rewrite app_nil_r; reflexivity|]. split; [exists [v]; reflexivity|]. unfold gates. cbn. rewrite app_nil_r. reflexivity. }
  split; [|split; [exact Gr|split]].
  - unfold wf_cs. cbn [push_w snd r_a r_b r_c r_m r_x r_w]. repeat (split; [assumption|]). eapply Forall_impl; [|exact R]. intros r. apply (grow_ranges _ _ _ _ Gr).
  - cbn. rewrite app_length. cbn. lia.
  - unfold own. cbn [push_x push_w fst snd r_x r_w wire_value]. rewrite nth_error_app2, Nat.sub_diag by lia. reflexivity.
Qed.
Lemma combine_snoc {A B} (l : list A) (r : list B) a b : length l = length r -> combine (l ++ [a]) (r ++ [b]) = combine l r ++ [(a, b)].
Proof. revert r. induction l as [|x l IH]; intros [|y r] L; try discriminate; [reflexivity|]. cbn. rewrite IH by (cbn in L; congruence). reflexivity. Qed.
Lemma append_ok cs a b c : wf_cs cs -> Forall (in_range cs) (map fst a) -> Forall (in_range cs) (map fst b) -> Forall (in_range cs) (map fst c) ->
  wf_cs (append F cs a b c) /\ grow cs (append F cs a b c) [(a, (b, c))] /\ own (append F cs a b c) = own cs.
Proof.
  intros (LA & LB & LC & O & R) Ha Hb Hc. split; [|split; [|reflexivity]].
  - unfold wf_cs. cbn. rewrite !app_length, LA, LB, LC. cbn. split; [lia|]. split; [lia|]. split; [lia|]. split; [exact O|].
    rewrite !Forall_app in *. destruct R as (RA & RB & RC).
    repeat split; try assumption; constructor; try constructor; assumption.
  - split; [exists []; cbn; rewrite app_nil_r; reflexivity|]. split; [exists []; cbn; rewrite app_nil_r; reflexivity|].
    unfold gates. cbn. rewrite (combine_snoc (r_b cs)), combine_snoc by (rewrite ?combine_length; lia). reflexivity.
Qed.

(** ** The calculus *)
(** Running [g] from [cs] succeeds; [ok] holds of the new system and the result; the new gates hold for
    the prover's values if the prover is honest ([H]); and [R] holds for every assignment under which
    the new gates hold. *)
Definition computes {A} (H : Prop) (cs : r1cs F) (g : G F A) (ok : r1cs F -> A -> Prop) (R : asg F -> A -> Prop) : Prop :=
  exists a cs' new, g cs = Some (a, cs') /\ wf_cs cs' /\ grow cs cs' new /\ (H -> Forall (holds (own cs')) new) /\ ok cs' a /\
    (forall s, s ONE = 1 -> Forall (holds s) new -> R s a).
Lemma computes_bind {A B} (H : Prop) cs (g : G F A) (k : A -> G F B) (ok1 : r1cs F -> A -> Prop) (R1 : asg F -> A -> Prop) (ok2 : r1cs F -> B -> Prop) (R2 : asg F -> B -> Prop) : computes H cs g ok1 R1 ->
  (forall a cs' new, wf_cs cs' -> grow cs cs' new -> ok1 cs' a -> (H -> R1 (own cs') a) -> computes H cs' (k a) ok2 (fun s b => R1 s a -> R2 s b)) ->
  computes H cs (bind g k) ok2 R2.
Proof.
  intros (a & cs1 & n1 & E1 & W1 & G1 & H1 & O1 & S1) K.
  destruct (K a cs1 n1 W1 G1 O1 (fun h => S1 _ (own_one _ W1) (H1 h))) as (b & cs2 & n2 & E2 & W2 & G2 & H2 & O2 & S2).
  exists b, cs2, (n1 ++ n2). split; [unfold bind; rewrite E1; exact E2|]. split; [exact W2|]. split; [apply (grow_trans _ _ _ _ _ G1 G2)|].
  split; [|split; [exact O2|]].
  - intros h. specialize (H1 h). specialize (H2 h). apply Forall_app. split; [|exact H2]. assert (GR := gates_range cs1 W1). destruct G1 as (GX & GW & GG). rewrite GG in GR. apply Forall_app in GR as [_ GR].
    rewrite Forall_forall in *. intros g0 I. destruct (GR g0 I) as (RA & RB & RC). unfold holds. rewrite !(grow_lc _ _ _ _ G2) by assumption. apply (H1 g0 I).
  - intros s S HS. apply Forall_app in HS as [HA HB]. apply (S2 s S HB), (S1 s S HA).
Qed.
Lemma computes_ret {A} (H : Prop) cs (a : A) (ok : r1cs F -> A -> Prop) (R : asg F -> A -> Prop) : wf_cs cs -> ok cs a -> (forall s, s ONE = 1 -> R s a) -> computes H cs (ret a) ok R.
Proof. intros W O HR. exists a, cs, []. split; [reflexivity|]. split; [exact W|]. split; [apply grow_refl|]. split; [constructor|]. split; [exact O|]. intros s S _. apply HR, S. Qed.
Lemma computes_weaken {A} (H : Prop) cs (g : G F A) (ok ok' : r1cs F -> A -> Prop) (R R' : asg F -> A -> Prop) : computes H cs g ok R ->
  (forall cs' new a, wf_cs cs' -> grow cs cs' new -> ok cs' a -> (H -> R (own cs') a) -> ok' cs' a) -> (forall s a, s ONE = 1 -> R s a -> R' s a) -> computes H cs g ok' R'.
Proof.
  intros (a & cs' & new & E & W & Gr & HN & O & S) K1 K2. exists a, cs', new. split; [exact E|]. split; [exact W|]. split; [exact Gr|]. split; [exact HN|].
  split; [apply (K1 cs' new a W Gr O); intros h; apply S; [apply own_one, W|exact (HN h)]|]. intros s S1 HS. apply K2; [exact S1|]. apply S; assumption.
Qed.
Lemma computes_complete {A} (H : Prop) cs (g : G F A) ok R : H -> wf_cs cs -> computes H cs g ok R -> complete_at cs g (fun cs' a => ok cs' a /\ R (own cs') a).
Proof.
  intros h W (a & cs' & new & E & W' & Gr & HN & O & S). specialize (HN h). exists a, cs'. split; [exact E|]. split; [exact W'|]. split; [apply (grow_extends _ _ _ Gr)|].
  split; [|split; [exact O|apply S; [apply own_one, W'|exact HN]]].
  intros HS. destruct (is_sat_ok cs W) as (b & E1 & I1). rewrite HS in E1. injection E1 as <-. destruct (is_sat_ok cs' W') as (b' & E2 & I2). rewrite E2. apply f_equal, I2.
  pose proof (grow_holds cs cs' new W Gr (proj1 I1 eq_refl)) as HO. destruct Gr as (_ & _ & GG). rewrite GG. apply Forall_app. split; assumption.
Qed.
Lemma complete_weaken {A} cs (g : G F A) (Q Q' : r1cs F -> A -> Prop) : complete_at cs g Q -> (forall cs' a, extends cs cs' -> Q cs' a -> Q' cs' a) -> complete_at cs g Q'.
Proof. intros (a & cs' & E & W & X & S & H) K. exists a, cs'. split; [exact E|]. split; [exact W|]. split; [exact X|]. split; [exact S|]. apply (K _ _ X H). Qed.
Lemma computes_sound {A} (H : Prop) cs (g : G F A) ok R : computes H cs g ok R -> sound_at cs g R.
Proof.
  intros (a & cs' & new & E & W' & (_ & _ & GG) & HN & O & S) a1 cs1 E1 s [S1 HS]. rewrite E in E1. injection E1 as <- <-. rewrite GG in HS. apply Forall_app in HS as [_ HS].
  apply S; assumption.
Qed.
End R.
Arguments computes {F A}. Arguments grow {F}.
