(** * Property theorems C89 - C92 (scoring in double precision) *)
From Coq Require Import Reals Lra String.
From Verif Require Import Py NumModel ClassifierModel TrainSpec ScoreProofs ScoreSpec RealModel RealSpec
  RealProofs ExactProofs ApiProofs FloatProofs FloatApiProofs TrainProps.

(** ** C89 *)
Theorem C89_scoring_in_doubles_never_raises :
  forall (M : machine) (it : set_order) (bigrams : bool) (h : list call) (ms : list message) (s : stream),
  set_order_ok it -> matched bigrams h ms -> (Z.of_nat (length ms) < 2 ^ 48)%Z ->
  Forall (fun m => WNone ∉ m.1) ms -> one_type bigrams (elems s) ->
  exists o' p ev, spamprob_evidence mem_backend it s
    (fst (run mem_backend it h (c_new bigrams ∅ : mem_obj (mnum M)))) = (o', Ok (p, ev)).
Proof. intros M it bg h ms s Hit Hm Hb. exact (score_returns_b64 it Hit bg h ms Hm Hb s). Qed.
Print Assumptions C89_scoring_in_doubles_never_raises.

Example C89_case : matched false [CLearn (SList [WStr (str "a")]) true] [([WStr (str "a")], true)] /\
  (Z.of_nat (length [([WStr (str "a")], true)]) < 2 ^ 48)%Z.
Proof.
  split; [|done]. apply (matched_learn false [] [] (SList [WStr (str "a")]) true [WStr (str "a")]); [constructor|done].
Qed.

(** ** C90 *)
Theorem C90_double_probability_is_the_formula :
  forall (M : machine) (it : set_order) (bigrams : bool) (h : list call) (r : winfo),
  set_order_ok it -> (Z.of_nat (length h) < 2 ^ 48)%Z ->
  let o := fst (run mem_backend it h (c_new bigrams ∅ : mem_obj (mnum M))) in
  consistent (spamcount r) (o_nspam o) (hamcount r) (o_nham o) ->
  exists p, snd (probability r o) = Ok p /\
    (Rabs (p - robinson (spamcount r) (o_nspam o) (hamcount r) (o_nham o))
     <= 2 / 10 ^ 15 * robinson (spamcount r) (o_nspam o) (hamcount r) (o_nham o))%R /\
    (0 < p < 1)%R.
Proof. intros M it bg h r Hit Hb. exact (probability_b64 it Hit bg h r Hb). Qed.
Print Assumptions C90_double_probability_is_the_formula.

Theorem C90_double_evidence_is_the_formula :
  forall (M : machine) (it : set_order) (bigrams : bool) (h : list call) (ms : list message) (s : stream) p ev o',
  set_order_ok it -> matched bigrams h ms -> (Z.of_nat (length ms) < 2 ^ 48)%Z ->
  spamprob_evidence mem_backend it s
    (fst (run mem_backend it h (c_new bigrams ∅ : mem_obj (mnum M)))) = (o', Ok (p, ev)) ->
  Forall (fun x =>
    let r := robinson (containing true x.1 ms) (total true ms)
                      (containing false x.1 ms) (total false ms) in
    (0 < containing true x.1 ms + containing false x.1 ms)%Z /\
    (Rabs (x.2 - r) <= 2 / 10 ^ 15 * r)%R /\ (0 < x.2 < 1)%R) (drop 2 ev).
Proof. intros M it bg h ms s p ev o' Hit Hm Hb. exact (evidence_b64 it Hit bg h ms Hm Hb s p ev o'). Qed.
Print Assumptions C90_double_evidence_is_the_formula.

Example C90_case :
  forall (M : machine), consistent 1 1 0 0 /\ exists o' p ev,
  spamprob_evidence mem_backend remove_dups (SList [WStr (str "a")])
    (fst (run mem_backend remove_dups [CLearn (SList [WStr (str "a")]) true]
            (c_new false ∅ : mem_obj (mnum M)))) = (o', Ok (p, ev)) /\ length ev = 3.
Proof. intros M. split; [exact once_consistent|]. exact one_clue_b64. Qed.

(** ** C91 *)
Theorem C91_double_score_is_fishers :
  forall (M : machine) (it : set_order) (bigrams : bool) (h : list call) (s : stream) p ev o',
  set_order_ok it -> (Z.of_nat (length h) < 2 ^ 48)%Z ->
  let o := fst (run mem_backend it h (c_new bigrams ∅ : mem_obj (mnum M))) in
  spamprob_evidence mem_backend it s o = (o', Ok (p, ev)) ->
  exists H S rest, ev = (WBytes (str "*H*"), H) :: (WBytes (str "*S*"), S) :: rest /\
    Forall (fun x => 0 < x.2 < 1)%R rest /\ (0 <= p <= 1 /\ 0 <= S <= 1 /\ 0 <= H <= 1)%R /\
    (Rabs (p - combined_score (rest.*2)) <= 4 / 10 ^ 12)%R /\
    (rest <> [] -> (Rabs (S - indicator_S (rest.*2)) <= 4 / 10 ^ 12)%R /\
                   (Rabs (H - indicator_H (rest.*2)) <= 4 / 10 ^ 12)%R).
Proof. intros M it bg h s p ev o' Hit Hb. exact (score_b64 it Hit bg h s p ev o' Hb). Qed.
Print Assumptions C91_double_score_is_fishers.

Example C91_case :
  forall (M : machine), exists o' p ev,
  spamprob_evidence mem_backend remove_dups (SList [WStr (str "a")])
    (fst (run mem_backend remove_dups [CLearn (SList [WStr (str "a")]) true]
            (c_new false ∅ : mem_obj (mnum M)))) = (o', Ok (p, ev)) /\ length ev = 3.
Proof. intros M. exact one_clue_b64. Qed.

(** ** C92 *)
Theorem C92_double_score_monotone :
  forall (M : machine) it1 it2 (bg1 bg2 : bool) (h1 h2 : list call) (s1 s2 : stream) p1 p2 ev1 ev2 o1' o2',
  set_order_ok it1 -> set_order_ok it2 ->
  (Z.of_nat (length h1) < 2 ^ 48)%Z -> (Z.of_nat (length h2) < 2 ^ 48)%Z ->
  spamprob_evidence mem_backend it1 s1
    (fst (run mem_backend it1 h1 (c_new bg1 ∅ : mem_obj (mnum M)))) = (o1', Ok (p1, ev1)) ->
  spamprob_evidence mem_backend it2 s2
    (fst (run mem_backend it2 h2 (c_new bg2 ∅ : mem_obj (mnum M)))) = (o2', Ok (p2, ev2)) ->
  Forall2 (fun a b => a.2 <= b.2)%R (drop 2 ev1) (drop 2 ev2) ->
  (p1 <= p2 + 8 / 10 ^ 12)%R.
Proof. intros M. exact score_monotone_b64. Qed.
Print Assumptions C92_double_score_monotone.

Example C92_case :
  forall (M : machine), exists o' p ev,
  spamprob_evidence mem_backend remove_dups (SList [WStr (str "a")])
    (fst (run mem_backend remove_dups [CLearn (SList [WStr (str "a")]) true]
            (c_new false ∅ : mem_obj (mnum M)))) = (o', Ok (p, ev)) /\
  drop 2 ev <> [] /\ Forall2 (fun a b => a.2 <= b.2)%R (drop 2 ev) (drop 2 ev).
Proof.
  intros M. destruct one_clue_b64 as (o'&p&ev&E&L). exists o', p, ev. split; [done|].
  destruct ev as [|x [|y [|z [|]]]]; try done. split; [done|].
  constructor; [simpl; lra|constructor].
Qed.
