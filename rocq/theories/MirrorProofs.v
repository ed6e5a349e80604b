(** * Exchanging ham and spam in double precision *)
From Coq Require Import Reals Lra Lia String.
From Flocq Require Import Core.
From Verif Require Import Py NumModel ClassifierModel TrainSpec TrainProofs ScoreProofs ScoreSpec ClueProofs TileProofs RealModel RealSpec
  RealProofs ExactProofs ApiProofs FloatProofs FloatApiProofs OnceCases SwaySpec SwayProofs FormulaProofs MirrorSpec.
Local Open Scope R_scope.

Lemma mirrored_total b (ms : list message) : total b (mirrored ms) = total (negb b) ms.
Proof. induction ms as [|[ws b'] ms IH]; [done|]. simpl. rewrite IH. by destruct b, b'. Qed.

Lemma mirrored_containing b w (ms : list message) : containing b w (mirrored ms) = containing (negb b) w ms.
Proof. induction ms as [|[ws b'] ms IH]; [done|]. simpl. rewrite IH. by destruct b, b'. Qed.

Lemma mirrored_matched bg h ms : matched bg h ms -> matched bg (opposite <$> h) (mirrored ms).
Proof.
  induction 1 as [|h ms s b ws H IH Hw|h ms1 ws b ms2 s H IH Hw|h ms s H IH]; [constructor|..]; rewrite fmap_app; cbn [fmap list_fmap opposite].
  - by apply (matched_learn _ _ (mirrored ms) s (negb b) ws).
  - unfold mirrored in *. rewrite fmap_app in *. rewrite fmap_cons in IH. by apply (matched_unlearn _ _ _ ws (negb b)).
  - by constructor.
Qed.

Lemma formula_mirrored (ms : list message) w : formula (mirrored ms) w = 1 - formula ms w.
Proof.
  unfold formula. rewrite !mirrored_total, !mirrored_containing. cbn [negb].
  rewrite (Z.add_comm (containing false w ms)). case_bool_decide as Hz; [lra|].
  apply robinson_swap.
  pose proof (containing_le true w ms). pose proof (containing_le false w ms). unfold consistent.
  destruct (Z.eqb_spec (total true ms) 0), (Z.eqb_spec (total false ms) 0); lia.
Qed.

Lemma strength_mirrored (ms : list message) w : Rabs (formula (mirrored ms) w - 1 / 2) = Rabs (formula ms w - 1 / 2).
Proof. rewrite formula_mirrored. replace (1 - formula ms w - 1 / 2) with (- (formula ms w - 1 / 2)) by lra. apply Rabs_Ropp. Qed.

(** With few clues and clear cut words, the words used are the clues. *)
Lemma used_exactly (ms : list message) (ws used : list pyword) : NoDup used -> clear_cut ms ws -> few_clues ms ws ->
  (forall w, w ∈ used -> w ∈ ws /\ 1 / 10 - 1 / 10 ^ 14 <= Rabs (formula ms w - 1 / 2)) ->
  (forall w, w ∈ ws -> w ∉ used -> Rabs (formula ms w - 1 / 2) < 1 / 10 + 1 / 10 ^ 14 \/
     length used = 150%nat /\ forall v, v ∈ used -> Rabs (formula ms w - 1 / 2) <= Rabs (formula ms v - 1 / 2) + 1 / 10 ^ 14) ->
  forall w, w ∈ used <-> w ∈ ws /\ 1 / 10 <= Rabs (formula ms w - 1 / 2).
Proof.
  intros Hnd Hc Hf Hin Hout. assert (0 < 1 / 10 ^ 14) as He by (apply Rdiv_lt_0_compat; [lra|apply pow_lt; lra]).
  assert (forall w, w ∈ used -> w ∈ ws /\ 1 / 10 <= Rabs (formula ms w - 1 / 2)) as Hin'.
  { intros w Hw. destruct (Hin w Hw) as [H1 H2]. split; [done|]. destruct (Hc w H1); lra. }
  intros w. split; [apply Hin'|]. intros [H1 H2]. destruct (decide (w ∈ used)) as [|Hn]; [done|]. exfalso.
  destruct (Hc w H1) as [H3|H3]; [lra|]. destruct (Hout w H1 Hn) as [H4|[H4 _]]; [lra|].
  enough (length (w :: used) <= 150)%nat by (simpl in *; lia). apply Hf; [by constructor|].
  intros v [->|Hv]%elem_of_cons; [done|by apply Hin'].
Qed.

Lemma score_mirror_double (M1 M2 : machine) it1 it2 h ms s :
  set_order_ok it1 -> set_order_ok it2 -> matched false h ms ->
  (Z.of_nat (length ms) < 2 ^ 44)%Z -> Forall (fun m => WNone ∉ m.1) ms -> one_type false (elems s) ->
  clear_cut ms (elems s) -> few_clues ms (elems s) ->
  exists o1 p1 ev1 o2 p2 ev2,
    spamprob_evidence mem_backend it1 s
      (fst (run mem_backend it1 h (c_new false ∅ : obj (mnum M1) (gmap pyword winfo)))) = (o1, Ok (p1, ev1)) /\
    spamprob_evidence mem_backend it2 s
      (fst (run mem_backend it2 (opposite <$> h) (c_new false ∅ : obj (mnum M2) (gmap pyword winfo)))) = (o2, Ok (p2, ev2)) /\
    (drop 2 ev1).*1 ≡ₚ (drop 2 ev2).*1 /\
    Rabs (p2 - (1 - p1)) <= 2 * (3 * INR (length ms) + 4) / 10 ^ 12.
Proof.
  intros Hit1 Hit2 Hm Hb Hn Ht Hc Hf.
  destruct (@score_formula_double M1 it1 Hit1 h ms s Hm Hb Hn Ht) as (u1&o1&p1&ev1&E1&D1&N1&_&P1&I1&O1).
  assert (length (mirrored ms) = length ms) as Hlen by (unfold mirrored; by rewrite fmap_length).
  destruct (@score_formula_double M2 it2 Hit2 (opposite <$> h) (mirrored ms) s) as (u2&o2&p2&ev2&E2&D2&N2&_&P2&I2&O2);
    [by apply mirrored_matched|by rewrite Hlen|unfold mirrored; by apply Forall_fmap|done|].
  rewrite Hlen in P2.
  pose proof (used_exactly ms (elems s) u1 N1 Hc Hf I1 O1) as U1.
  assert (forall w, w ∈ u2 <-> w ∈ elems s /\ 1 / 10 <= Rabs (formula ms w - 1 / 2)) as U2.
  { apply used_exactly; [done..| |].
    - intros w Hw. rewrite <- strength_mirrored. by apply I2.
    - intros w Hw Hw'. destruct (O2 w Hw Hw') as [H|[H1 H2]]; [left; by rewrite strength_mirrored in H|]. right. split; [done|].
      intros v Hv. specialize (H2 v Hv). by rewrite !strength_mirrored in H2. }
  assert (u1 ≡ₚ u2) as HP.
  { apply NoDup_Permutation; [done..|]. intros w. by rewrite U1, U2. }
  exists o1, p1, ev1, o2, p2, ev2. split; [done|]. split; [done|]. split; [by rewrite D1, D2|].
  assert (combined_score (formula (mirrored ms) <$> u2) = 1 - combined_score (formula ms <$> u1)) as Em.
  { destruct (indicators_mirror (formula ms <$> u1)) as (_&_&Em). rewrite <- Em, <- list_fmap_compose.
    assert ((formula (mirrored ms) <$> u2) = ((fun p => 1 - p) ∘ formula ms) <$> u2) as ->.
    { apply list_fmap_ext. intros i w _. apply formula_mirrored. }
    symmetry. apply indicators_perm. by apply fmap_Permutation. }
  rewrite Em in P2. apply Rabs_le_inv in P1. apply Rabs_le_inv in P2. apply Rabs_le. lra.
Qed.
