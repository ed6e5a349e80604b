(** * Property theorems C08 - C22 (scoring) *)
From Coq Require Import Reals Lra String.
From Verif Require Import Py NumModel ClassifierModel TrainSpec TrainProofs ScoreProofs ScoreSpec
  TileProofs RealModel RealSpec RealProofs ExactProofs ApiProofs TrainProps.

(** ** C08 *)
Theorem C08_scoring_never_raises_after_matched_training :
  forall (it : set_order) (bigrams : bool) (h : list call) (ms : list message) (s : stream),
  set_order_ok it -> matched bigrams h ms ->
  Forall (fun m => WNone ∉ m.1) ms -> one_type bigrams (elems s) ->
  exists o' p ev, spamprob_evidence mem_backend it s
    (fst (run mem_backend it h (c_new bigrams ∅ : mem_obj exact))) = (o', Ok (p, ev)).
Proof. intros it bg h ms s. exact (score_returns bg h ms it s). Qed.
Print Assumptions C08_scoring_never_raises_after_matched_training.

Example C08_case :
  one_type false [WBytes (str "a"); WBytes (str "b")] /\ one_type true [WStr (str "a"); WStr (str "b")].
Proof.
  split.
  - intros w1 w2 [->|[->|[]%elem_of_nil]%elem_of_cons]%elem_of_cons
                [->|[->|[]%elem_of_nil]%elem_of_cons]%elem_of_cons; done.
  - intros w. rewrite !elem_of_cons, elem_of_nil. intros [->|[->|[]]]; eauto.
Qed.

(** Without matching, scoring can raise, whatever the arithmetic. *)
Theorem C08_unmatched_history_refuted :
  forall (A : num), exists (h : list call) (s : stream) (e : exn), one_type false (elems s) /\
  snd (spamprob_evidence mem_backend remove_dups s
         (fst (run mem_backend remove_dups h (c_new false ∅ : mem_obj A)))) = Err e.
Proof. exact unmatched_raises. Qed.
Print Assumptions C08_unmatched_history_refuted.

(** ** C09 *)
Theorem C09_probability_is_the_documented_formula :
  forall (it : set_order) (bigrams : bool) (h : list call) (r : winfo), set_order_ok it ->
  let o := fst (run mem_backend it h (c_new bigrams ∅ : mem_obj exact)) in
  consistent (spamcount r) (o_nspam o) (hamcount r) (o_nham o) ->
  snd (probability r o) = Ok (robinson (spamcount r) (o_nspam o) (hamcount r) (o_nham o)).
Proof. exact probability_exact. Qed.
Print Assumptions C09_probability_is_the_documented_formula.

Theorem C09_formula_strictly_between_0_and_1 :
  forall sc nspam hc nham, consistent sc nspam hc nham ->
  (0 < robinson sc nspam hc nham < 1)%R.
Proof. exact robinson_range. Qed.
Print Assumptions C09_formula_strictly_between_0_and_1.

Theorem C09_formula_compares_ratios :
  forall sc nspam hc nham, consistent sc nspam hc nham ->
  (robinson sc nspam hc nham = 1 / 2 <-> fraction sc nspam = fraction hc nham)%R /\
  (1 / 2 < robinson sc nspam hc nham <-> fraction hc nham < fraction sc nspam)%R.
Proof. exact robinson_sign. Qed.
Print Assumptions C09_formula_compares_ratios.

Theorem C09_rounded_probability_in_unit_interval :
  forall (rnd : R -> R) (it : set_order) (bigrams : bool) (h : list call) (r : winfo) (p : R),
  rounding rnd -> set_order_ok it ->
  let o := fst (run mem_backend it h (c_new bigrams ∅ : mem_obj (rnum rnd))) in
  (0 <= spamcount r)%Z -> (0 <= hamcount r)%Z -> (spamcount r <> 0 \/ hamcount r <> 0)%Z ->
  snd (probability r o) = Ok p -> (0 <= p <= 1)%R.
Proof. exact probability_range. Qed.
Print Assumptions C09_rounded_probability_in_unit_interval.

Example C09_case : consistent 3 10 1 4 /\ rounding b64.
Proof. split; [unfold consistent; simpl; lia|exact rounding_b64]. Qed.

(** ** C10 *)
Theorem C10_more_spam_never_lowers :
  forall sc nspam hc nham, consistent sc nspam hc nham -> consistent (sc + 1) nspam hc nham ->
  (nonempty_total nspam <= 11 * nonempty_total nham)%R \/ (fraction hc nham <= fraction sc nspam)%R ->
  (robinson sc nspam hc nham <= robinson (sc + 1) nspam hc nham)%R.
Proof. exact more_spam. Qed.
Print Assumptions C10_more_spam_never_lowers.

Theorem C10_more_ham_never_raises :
  forall sc nspam hc nham, consistent sc nspam hc nham -> consistent sc nspam (hc + 1) nham ->
  (nonempty_total nham <= 11 * nonempty_total nspam)%R \/ (fraction sc nspam <= fraction hc nham)%R ->
  (robinson sc nspam (hc + 1) nham <= robinson sc nspam hc nham)%R.
Proof. exact more_ham. Qed.
Print Assumptions C10_more_ham_never_raises.

Example C10_case : consistent 3 11 1 4 /\ consistent 4 11 1 4 /\
  (nonempty_total 11 <= 11 * nonempty_total 4)%R.
Proof.
  split; [unfold consistent; simpl; lia|]. split; [unfold consistent; simpl; lia|].
  unfold nonempty_total. simpl. lra.
Qed.

(** The bound eleven is sharp. *)
Theorem C10_unbalanced_totals_refuted :
  consistent 0 12 1 1 /\ consistent 1 12 1 1 /\ (robinson 1 12 1 1 < robinson 0 12 1 1)%R.
Proof. exact robinson_not_monotone. Qed.
Print Assumptions C10_unbalanced_totals_refuted.

(** ** C11 *)
Theorem C11_clues_are_the_strongest :
  forall (A : num) (it : set_order) (h : list call) (s : stream) p ev o',
  total_num A -> set_order_ok it ->
  let o := fst (run mem_backend it h (c_new false ∅ : mem_obj A)) in
  spamprob_evidence mem_backend it s o = (o', Ok (p, ev)) ->
  exists evH evS used, ev = evH :: evS :: used /\
    NoDup (used.*1) /\ length used <= 150 /\
    (forall w q, (w, q) ∈ used ->
       w ∈ elems s /\ spam_probability o w = Ok q /\ strong q = true) /\
    (forall w q, w ∈ elems s -> w ∉ used.*1 -> spam_probability o w = Ok q ->
       strong q = false \/
       (length used = 150 /\
        forall w' q', (w', q') ∈ used -> nle A (strength q) (strength q') = true)).
Proof. intros A it h s p ev o' HA Hit. exact (clues_uni HA it Hit h s p ev o'). Qed.
Print Assumptions C11_clues_are_the_strongest.

(** A score that returns and uses a clue. *)
Example C11_case : total_num exact /\ exists o' p ev,
  spamprob_evidence mem_backend remove_dups (SList [WStr (str "a")])
    (fst (run mem_backend remove_dups [CLearn (SList [WStr (str "a")]) true]
            (c_new false ∅ : mem_obj exact))) = (o', Ok (p, ev)) /\ length ev = 3.
Proof. split; [exact Hex|]. exact one_clue_case. Qed.

(** ** C12 *)
Theorem C12_score_depends_on_word_set_only :
  forall (A : num) (it0 it1 it2 : set_order) (h : list call) (s1 s2 : stream),
  total_num A -> set_order_ok it0 -> set_order_ok it1 -> set_order_ok it2 ->
  (forall w, w ∈ elems s1 <-> w ∈ elems s2) ->
  let o := fst (run mem_backend it0 h (c_new false ∅ : mem_obj A)) in
  same_result (snd (spamprob_evidence mem_backend it1 s1 o))
              (snd (spamprob_evidence mem_backend it2 s2 o)).
Proof. intros A it0 it1 it2 h s1 s2 HA. exact (score_same HA it0 it1 it2 h s1 s2). Qed.
Print Assumptions C12_score_depends_on_word_set_only.

Example C12_case : total_num (rnum b64) /\
  forall w, w ∈ elems (SList [WStr (str "a"); WStr (str "b"); WStr (str "a")]) <->
            w ∈ elems (SIter [WStr (str "b"); WStr (str "a")]).
Proof.
  split; [apply rnum_total|]. intros w. cbn [elems]. rewrite !elem_of_cons, elem_of_nil. tauto.
Qed.

(** ** C13 *)
Theorem C13_bigram_clues_use_disjoint_positions :
  forall (A : num) (it : set_order) (h : list call) (s : stream) p ev o',
  total_num A -> set_order_ok it ->
  let o := fst (run mem_backend it h (c_new true ∅ : mem_obj A)) in
  o_store o !! WNone = None -> strong (nQ A 1 2) = false ->
  spamprob_evidence mem_backend it s o = (o', Ok (p, ev)) ->
  exists evH evS rest (used : list ((pyword * F A) * list Z)),
    ev = evH :: evS :: rest /\ rest ≡ₚ used.*1 /\
    NoDup (used.*1.*1) /\ length used <= 150 /\
    NoDup (mjoin (used.*2)) /\
    (forall w q pos, ((w, q), pos) ∈ used ->
       occurs (elems s) w pos /\ spam_probability o w = Ok q /\ strong q = true) /\
    (forall w q pos0, occurs (elems s) w pos0 -> spam_probability o w = Ok q ->
       strong q = true -> w ∉ used.*1.*1 ->
       (exists pos w' q' pos' i, occurs (elems s) w pos /\ ((w', q'), pos') ∈ used /\
          i ∈ pos /\ i ∈ pos' /\ nle A (strength q) (strength q') = true) \/
       (length used = 150 /\
        forall w' q' pos', ((w', q'), pos') ∈ used -> nle A (strength q) (strength q') = true)).
Proof. intros A it h s p ev o' HA Hit. exact (clues_bi HA it Hit h s p ev o'). Qed.
Print Assumptions C13_bigram_clues_use_disjoint_positions.

Example C13_case : strong (A:=exact) (nQ exact 1 2) = false /\
  let s := SList [WStr (str "a"); WStr (str "b")] in
  let o := fst (run mem_backend remove_dups [CLearn s true] (c_new true ∅ : mem_obj exact)) in
  o_store o !! WNone = None /\ exists o' p ev,
    spamprob_evidence mem_backend remove_dups s o = (o', Ok (p, ev)).
Proof. split; [exact exact_strong_half|]. exact bigram_case. Qed.

(** ** C14 *)
Theorem C14_score_in_unit_interval :
  forall (rnd : R -> R) (it : set_order) (bigrams : bool) (h : list call) (s : stream) p ev o',
  rounding rnd -> set_order_ok it ->
  let o := fst (run mem_backend it h (c_new bigrams ∅ : mem_obj (rnum rnd))) in
  spamprob_evidence mem_backend it s o = (o', Ok (p, ev)) ->
  (0 <= p <= 1)%R /\
  exists H S rest, ev = (WBytes (str "*H*"), H) :: (WBytes (str "*S*"), S) :: rest /\
    (rest <> [] -> 0 <= H <= 1 /\ 0 <= S <= 1)%R /\
    Forall (fun x => 0 <= x.2 <= 1)%R rest.
Proof. intros rnd it bg h s p ev o' Hr Hit. exact (score_range rnd Hr it Hit bg h s p ev o'). Qed.
Print Assumptions C14_score_in_unit_interval.

Example C14_case : rounding (fun x => x) /\ rounding b64.
Proof. split; [exact rounding_exact|exact rounding_b64]. Qed.

(** ** C15 *)
Theorem C15_no_clues_scores_one_half :
  forall (A : num) (it : set_order) (bigrams : bool) (h : list call) (s : stream),
  total_num A -> set_order_ok it -> sane A ->
  let o := fst (run mem_backend it h (c_new bigrams ∅ : mem_obj A)) in
  o_store o !! WNone = None ->
  (forall w, candidate bigrams (elems s) w ->
     exists q, spam_probability o w = Ok q /\ strong q = false) ->
  exists o' H S, spamprob_evidence mem_backend it s o =
    (o', Ok (nQ A 1 2, [(WBytes (str "*H*"), H); (WBytes (str "*S*"), S)])).
Proof. exact @no_clues_score. Qed.
Print Assumptions C15_no_clues_scores_one_half.

Theorem C15_untrained_scores_one_half :
  forall (A : num) (it : set_order) (bigrams : bool) (s : stream),
  total_num A -> set_order_ok it -> sane A ->
  exists o', spamprob mem_backend it s (c_new bigrams ∅ : mem_obj A) = (o', Ok (nQ A 1 2)).
Proof. exact @untrained_score. Qed.
Print Assumptions C15_untrained_scores_one_half.

Example C15_case : sane exact /\ sane (rnum b64).
Proof. split; [exact exact_sane|exact b64_sane]. Qed.

(** ** C16 *)
Theorem C16_exchanging_labels_mirrors_the_score :
  forall (it1 it2 : set_order) (h : list call) (s : stream) p ev o',
  set_order_ok it1 -> set_order_ok it2 ->
  let o1 := fst (run mem_backend it1 h (c_new false ∅ : mem_obj exact)) in
  let o2 := fst (run mem_backend it2 (opposite <$> h) (c_new false ∅ : mem_obj exact)) in
  few_strong_words o1 (elems s) ->
  spamprob_evidence mem_backend it1 s o1 = (o', Ok (p, ev)) ->
  exists o'' ev', spamprob_evidence mem_backend it2 s o2 = (o'', Ok (1 - p, ev')%R) /\
    drop 2 ev' ≡ₚ (fun x => (x.1, 1 - x.2)%R) <$> drop 2 ev /\
    (drop 2 ev <> [] -> exists H S,
       take 2 ev = [(WBytes (str "*H*"), H); (WBytes (str "*S*"), S)] /\
       take 2 ev' = [(WBytes (str "*H*"), S); (WBytes (str "*S*"), H)]).
Proof. intros it1 it2 h s p ev o'. exact (score_mirror it1 it2 h s p ev o'). Qed.
Print Assumptions C16_exchanging_labels_mirrors_the_score.

(** A short message always has few strong words. *)
Example C16_case (o : mem_obj exact) : few_strong_words o [WStr (str "a"); WStr (str "b")].
Proof. exists [WStr (str "a"); WStr (str "b")]. split; [simpl; lia|]. done. Qed.

(** ** C17 *)
Theorem C17_score_monotone_in_the_clues :
  forall (it1 it2 : set_order) (bg1 bg2 : bool) (h1 h2 : list call) (s1 s2 : stream)
         p1 p2 ev1 ev2 o1' o2',
  set_order_ok it1 -> set_order_ok it2 ->
  spamprob_evidence mem_backend it1 s1
    (fst (run mem_backend it1 h1 (c_new bg1 ∅ : mem_obj exact))) = (o1', Ok (p1, ev1)) ->
  spamprob_evidence mem_backend it2 s2
    (fst (run mem_backend it2 h2 (c_new bg2 ∅ : mem_obj exact))) = (o2', Ok (p2, ev2)) ->
  Forall2 (fun a b => a.2 <= b.2)%R (drop 2 ev1) (drop 2 ev2) ->
  (p1 <= p2)%R.
Proof. exact score_monotone. Qed.
Print Assumptions C17_score_monotone_in_the_clues.

(** ** C18 *)
Theorem C18_chi2Q_is_the_chi_squared_tail :
  forall (k : nat) (x2 : R), (0 <= x2)%R ->
  chi2Q exact x2 (2 * Z.of_nat (S k)) = Ok (chi_tail (S k) (x2 / 2)).
Proof. exact chi2Q_exact. Qed.
Print Assumptions C18_chi2Q_is_the_chi_squared_tail.

Theorem C18_tail_range_and_monotonicity :
  forall (k : nat) (m : R), (0 <= m)%R ->
  (0 < chi_tail (S k) m <= 1)%R /\ chi_tail (S k) 0 = 1%R /\
  (forall m', (m <= m')%R -> (chi_tail (S k) m' <= chi_tail (S k) m)%R) /\
  (forall j, (k <= j)%nat -> (chi_tail (S k) m <= chi_tail (S j) m)%R).
Proof. exact chi_tail_facts. Qed.
Print Assumptions C18_tail_range_and_monotonicity.

Theorem C18_odd_degrees_raise :
  forall (A : num) (x2 : F A) (v : Z), Z.odd v = true -> chi2Q A x2 v = Err ValueError.
Proof. exact @chi2Q_odd. Qed.
Print Assumptions C18_odd_degrees_raise.

(** ** C19 *)
Theorem C19_underflow_guard_is_exact :
  forall ps : list R, Forall (fun p => 0 < p < 1)%R ps -> ps <> [] ->
  score_probs exact ps = Ok (combined_score ps, indicator_S ps, indicator_H ps).
Proof. exact score_probs_exact. Qed.
Print Assumptions C19_underflow_guard_is_exact.

Theorem C19_score_is_fisher_of_the_evidence :
  forall (it : set_order) (bigrams : bool) (h : list call) (s : stream) p ev o',
  set_order_ok it ->
  let o := fst (run mem_backend it h (c_new bigrams ∅ : mem_obj exact)) in
  spamprob_evidence mem_backend it s o = (o', Ok (p, ev)) ->
  exists H S rest, ev = (WBytes (str "*H*"), H) :: (WBytes (str "*S*"), S) :: rest /\
    Forall (fun x => 0 < x.2 < 1)%R rest /\
    p = combined_score (rest.*2) /\
    (rest <> [] -> S = indicator_S (rest.*2) /\ H = indicator_H (rest.*2)).
Proof. intros it bg h s p ev o' Hit. exact (score_exact it Hit bg h s p ev o'). Qed.
Print Assumptions C19_score_is_fisher_of_the_evidence.

Example C19_case : Forall (fun p => 0 < p < 1)%R [(1/3)%R; (9/10)%R].
Proof. repeat constructor; lra. Qed.

(** ** C20 *)
Theorem C20_evidence_is_complete_and_ordered :
  forall (A : num) (it : set_order) (bigrams : bool) (h : list call) (s : stream) p ev o',
  total_num A -> set_order_ok it ->
  let o := fst (run mem_backend it h (c_new bigrams ∅ : mem_obj A)) in
  spamprob_evidence mem_backend it s o = (o', Ok (p, ev)) ->
  exists cs o2 H S rest, getclues mem_backend it s o = (o2, Ok cs) /\
    ev = (WBytes (str "*H*"), H) :: (WBytes (str "*S*"), S) :: rest /\
    rest ≡ₚ ((fun c => (c_word c, c_prob c)) <$> cs) /\
    StronglySorted (fun a b => nle A a.2 b.2 = true) rest.
Proof. intros A it bg h s p ev o' HA Hit. exact (evidence_spec HA it Hit bg h s p ev o'). Qed.
Print Assumptions C20_evidence_is_complete_and_ordered.

Theorem C20_evidence_does_not_change_the_score :
  forall (A : num) (it : set_order) (bigrams : bool) (h : list call) (s : stream),
  set_order_ok it ->
  let o := fst (run mem_backend it h (c_new bigrams ∅ : mem_obj A)) in
  snd (spamprob mem_backend it s o) =
  match snd (spamprob_evidence mem_backend it s o) with
  | Ok (p, _) => Ok p
  | Err e => Err e
  end.
Proof. intros A it bg h s Hit. exact (evidence_same_score it Hit bg h s). Qed.
Print Assumptions C20_evidence_does_not_change_the_score.

(** ** C21 *)
Theorem C21_list_learns_all_but_the_last_word :
  forall (A : num) (it : set_order) (l : list pyword) (x : pyword) (b : bool),
  set_order_ok it -> exists o',
  learn mem_backend it (SList (l ++ [x])) b (c_new true ∅ : mem_obj A) = (o', Ok tt) /\
  forall w, is_Some (o_store o' !! w) <->
    w ∈ l \/ exists l1 y z l2, l ++ [x] = l1 ++ y :: z :: l2 /\ w = bigram y z.
Proof. intros A it l x b Hit. exact (fresh_learn_list it Hit l x b). Qed.
Print Assumptions C21_list_learns_all_but_the_last_word.

Theorem C21_one_word_learns_nothing :
  forall (A : num) (it : set_order) (x : pyword) (b : bool), set_order_ok it -> exists o',
  learn mem_backend it (SList [x]) b (c_new true ∅ : mem_obj A) = (o', Ok tt) /\
  total_of b o' = 1%Z /\ o_store o' = ∅.
Proof. intros A it x b Hit. exact (fresh_learn_single it Hit x b). Qed.
Print Assumptions C21_one_word_learns_nothing.

Theorem C21_iterator_learns_every_third_word :
  forall (A : num) (it : set_order) (l : list pyword) (b : bool), set_order_ok it -> exists o',
  learn mem_backend it (SIter l) b (c_new true ∅ : mem_obj A) = (o', Ok tt) /\
  forall w, is_Some (o_store o' !! w) <->
    (exists x y z, l !! 0 = Some x /\ l !! 1 = Some y /\ l !! 3 = Some z /\
       (w = x \/ w = bigram y z)) \/
    (exists k x y z, 0 < k /\ l !! (3 * k + 1) = Some x /\ l !! (3 * k + 2) = Some y /\
       l !! (3 * k + 3) = Some z /\ (w = x \/ w = bigram y z)).
Proof. intros A it l b Hit. exact (fresh_learn_iter it Hit l b). Qed.
Print Assumptions C21_iterator_learns_every_third_word.

Theorem C21_documented_tokens_refuted :
  forall (A : num) (it : set_order), set_order_ok it -> exists l w b o',
  learn mem_backend it (SList l) b (c_new true ∅ : mem_obj A) = (o', Ok tt) /\
  documented_tokens l w /\ o_store o' !! w = None.
Proof. intros A it Hit. exact (documented_refuted it Hit). Qed.
Print Assumptions C21_documented_tokens_refuted.

(** ** C22 *)
Theorem C22_type_error_exactly_on_mixed_ties :
  forall (A : num) (it : set_order) (bigrams : bool) (h : list call) (s : stream),
  total_num A -> set_order_ok it ->
  let o := fst (run mem_backend it h (c_new bigrams ∅ : mem_obj A)) in
  strong (nQ A 1 2) = false -> o_store o !! WNone = None ->
  (forall w, candidate bigrams (elems s) w -> exists q, spam_probability o w = Ok q) ->
  snd (spamprob_evidence mem_backend it s o) = Err TypeError <->
  exists w1 w2 q, candidate bigrams (elems s) w1 /\ candidate bigrams (elems s) w2 /\
    wkind w1 <> wkind w2 /\ spam_probability o w1 = Ok q /\ spam_probability o w2 = Ok q /\
    strong q = true.
Proof. intros A it bg h s HA Hit. exact (type_error HA it Hit bg h s). Qed.
Print Assumptions C22_type_error_exactly_on_mixed_ties.

Theorem C22_two_byte_tokens_with_bigrams_raise :
  forall (it : set_order) (b1 b2 : codes), set_order_ok it ->
  let s := SList [WBytes b1; WBytes b2] in
  snd (spamprob_evidence mem_backend it s
         (fst (run mem_backend it [CLearn s true] (c_new true ∅ : mem_obj exact)))) = Err TypeError.
Proof. exact bigram_bytes_TypeError. Qed.
Print Assumptions C22_two_byte_tokens_with_bigrams_raise.
