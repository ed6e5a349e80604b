(** * From messages to classifications (C113) *)
From Coq Require Import String Reals.
From Verif Require Import RealModel.
From Verif Require Import Py Regex NumModel CdbModel ClassifierModel TrainSpec TrainProofs ScoreSpec StripModel RaiseModel RaiseProofs
  TokenModel TokenProofs MessageModel HeadModel HeadProofs HeadCallProofs FloatApiProofs OnceSpec OnceCases TreeModel TreeSpec TreeProofs
  SeenSpec SidedSpec SeenProofs.

(** ** Every message has two words *)
Lemma call_two_words U E o a2b parts h texts ws :
  tokenizer_call U E false false o a2b parts h texts = (ws, None) ->
  exists w1 w2, w1 ∈ ws /\ w2 ∈ ws /\ w1 <> w2.
Proof.
  unfold tokenizer_call. destruct (gapp (tokenize_headers U E o parts h) (tokenize_body a2b texts)) as [ts e] eqn:Eg.
  intros Hc.
  destruct (convert_set ts e) as [C1 C2]. rewrite Hc in C1, C2. cbn [fst snd] in C1, C2.
  destruct (proj1 C1 eq_refl) as [-> Henc]. specialize (C2 eq_refl).
  apply gapp_none in Eg as (a&b&Ha&_&->). unfold tokenize_headers in Ha.
  apply gapp_none in Ha as (a1&b1&_&Ha&->). apply gapp_none in Ha as (a2&b2&_&Ha&->).
  apply gapp_none in Ha as (a3&b3&_&Ha&->). apply gapp_none in Ha as (a4&b4&_&Ha&->).
  apply gapp_none in Ha as (a5&b5&_&Ha&->). apply gapp_none in Ha as (a6&b6&Hm&Ha&->).
  apply gapp_none in Ha as (a7&b7&_&Ha&->). apply gapp_none in Ha as (a8&b8&Hi&_&->).
  assert (exists s, WStr (120%N :: s) ∈ a6) as [s1 H1].
  { unfold mailer_tokens in Hm. destruct (hget_default h (str "x-mailer") _); try done. injection Hm as <-. eexists. left. }
  assert (exists s, WStr (109%N :: s) ∈ a8) as [s2 H2].
  { unfold message_id_tokens in Hi. destruct (hget_default h (str "message-id") _); try done.
    destruct (rmatch1 _ _) as [[]|]; injection Hi as <-; eexists; left. }
  assert (WStr (120%N :: s1) ∈ (a1 ++ a2 ++ a3 ++ a4 ++ a5 ++ a6 ++ a7 ++ a8 ++ b8) ++ b) as I1 by (rewrite !elem_of_app; tauto).
  assert (WStr (109%N :: s2) ∈ (a1 ++ a2 ++ a3 ++ a4 ++ a5 ++ a6 ++ a7 ++ a8 ++ b8) ++ b) as I2 by (rewrite !elem_of_app; tauto).
  destruct (Henc _ I1) as [u1 E1]. destruct (Henc _ I2) as [u2 E2].
  exists (WBytes u1), (WBytes u2). split_and!; [apply C2; eauto..|].
  cbn [enc utf8] in E1, E2. change (utf8_char 120) with (Ok [120%N]) in E1. change (utf8_char 109) with (Ok [109%N]) in E2.
  destruct (utf8 s1); [|done]. destruct (utf8 s2); [|done]. cbn in E1, E2. injection E1 as <-. injection E2 as <-. done.
Qed.

Section sided.
  Context (U : unicode) (E : mailpkg) (o : topts) (a2b : codes -> res codes) (it : set_order) (Hit : set_order_ok it).
  Context (order : list part -> list part).
  Notation toks := (tokenize_message U E order o a2b).

  Notation learn_all := (learn_all U E o a2b it order).

  Definition calls (l : list (part * bool)) : list call := (fun mb => CLearn (SIter (toks mb.1).1) mb.2) <$> l.

  Lemma learn_all_run {A : num} l (ob : obj A (gmap pyword winfo)) : (forall mb : part * bool, mb ∈ l -> (toks mb.1).2 = None) ->
    learn_all l ob = fst (run mem_backend it (calls l) ob).
  Proof.
    revert ob. induction l as [|mb l IH]; intros ob Hl; [done|].
    unfold SidedSpec.learn_all. cbn [foldl calls fmap list_fmap run run_call].
    pose proof (Hl mb ltac:(left)) as Hn. destruct (toks mb.1) as [ws e] eqn:Et. cbn [snd] in Hn. subst e. cbn [fst].
    rewrite learn_gen_ok. destruct (learn mem_backend it (SIter ws) mb.2 ob) as [o1 r]. cbn [fst].
    change (foldl _ o1 l) with (learn_all l o1). rewrite IH by (intros x Hx; apply Hl; by right).
    unfold calls. by destruct (run mem_backend it _ o1).
  Qed.

  Definition msgs (l : list (part * bool)) : list message := (fun mb => ((toks mb.1).1, mb.2)) <$> rev l.

  Lemma calls_matched l : matched false (calls l) (msgs l).
  Proof.
    induction l as [|mb l IH] using rev_ind; [constructor|].
    unfold calls, msgs. rewrite fmap_app, rev_app_distr. cbn [fmap list_fmap rev app].
    apply matched_learn; [exact IH|done].
  Qed.

  Lemma containing_zero b w l : (forall mb, mb ∈ l -> mb.2 = b -> w ∉ (toks mb.1).1) -> containing b w (msgs l) = 0%Z.
  Proof.
    intros H. unfold msgs. assert (forall mb, mb ∈ rev l -> mb.2 = b -> w ∉ (toks mb.1).1) as H'.
    { intros mb Hm. apply H. by rewrite elem_of_list_In, in_rev, <- elem_of_list_In. }
    clear H. induction (rev l) as [|mb r IH]; [done|]. cbn [fmap list_fmap containing].
    rewrite IH by (intros x Hx; apply H'; by right).
    destruct (eqb b mb.2) eqn:Eb; [|done]. apply eqb_prop in Eb. rewrite bool_decide_eq_false_2; [done|]. apply H'; [left|done].
  Qed.

  Lemma containing_pos b w l mb : mb ∈ l -> mb.2 = b -> w ∈ (toks mb.1).1 -> (1 <= containing b w (msgs l))%Z.
  Proof.
    intros Hm Hb Hw. unfold msgs. rewrite elem_of_list_In, in_rev, <- elem_of_list_In in Hm.
    assert (forall r, (0 <= containing b w ((fun mb : part * bool => ((toks mb.1).1, mb.2)) <$> r))%Z) as Hge.
    { clear. induction r as [|x r IH]; [done|]. cbn [fmap list_fmap containing]. destruct (_ && _); lia. }
    induction (rev l) as [|x r IH]; [by apply elem_of_nil in Hm|]. cbn [fmap list_fmap containing].
    specialize (Hge r). apply elem_of_cons in Hm as [<-|Hm].
    - rewrite Hb, eqb_reflx, bool_decide_eq_true_2 by done. cbn [andb]. lia.
    - specialize (IH Hm). destruct (_ && _); lia.
  Qed.

  Lemma toks_bytes m ws : toks m = (ws, None) -> forall w, w ∈ ws -> exists b, w = WBytes b.
  Proof.
    unfold tokenize_message, tokenizer_call. destruct (gapp _ _) as [ts e]. intros H%convert_bytes.
    by rewrite Forall_forall in H.
  Qed.

  Lemma sided_words {M : machine} l (b : bool) g ws : (Z.of_nat (length l) < 2 ^ 48)%Z ->
    (forall mb : part * bool, mb ∈ l -> (toks mb.1).2 = None) -> g = (ws, None) ->
    (exists w1 w2, w1 ∈ ws /\ w2 ∈ ws /\ w1 <> w2) ->
    (forall w, w ∈ ws -> exists bs, w = WBytes bs) ->
    (forall w, w ∈ ws -> (exists mb, mb ∈ l /\ mb.2 = b /\ w ∈ (toks mb.1).1) /\
                         forall mb, mb ∈ l -> w ∈ (toks mb.1).1 -> mb.2 = b) ->
    exists o' p ev, score_gen mem_backend it g (learn_all l (c_new false ∅ : obj D (gmap pyword winfo))) = (o', Ok (p, ev)) /\
      (9 / 10 < (if b then p else 1 - p))%R /\ classify D p = (if b then spam else ham).
  Proof.
    intros Hlen Hl -> (w1&w2&H1&H2&Hne) Hby Hw. rewrite learn_all_run by done. cbn [score_gen].
    apply (such_words it Hit (calls l) (msgs l) (calls_matched l)) with w1 w2; try done.
    - unfold calls. by rewrite fmap_length.
    - unfold msgs. apply Forall_fmap, Forall_forall. intros mb Hm. cbn [fst compose].
      rewrite elem_of_list_In, <- in_rev, <- elem_of_list_In in Hm. specialize (Hl mb Hm).
      destruct (toks mb.1) as [vs e] eqn:Et. cbn [fst snd] in *. subst e. intros Hin.
      destruct (toks_bytes _ _ Et _ Hin) as [bs Hbs]. done.
    - intros u v Hu Hv. destruct (Hby u Hu) as [? ->]. by destruct (Hby v Hv) as [? ->].
    - intros w Hin. destruct (Hw w Hin) as [(mb&Hm&Hb&Hwm) Hall]. split.
      + apply containing_zero. intros mb' Hm' Hb' Hw'. specialize (Hall mb' Hm' Hw'). rewrite Hall in Hb'. by destruct b.
      + by apply (containing_pos b w l mb).
  Qed.

  Lemma sided_message {M : machine} l (b : bool) order' m : (Z.of_nat (length l) < 2 ^ 48)%Z ->
    (forall mb : part * bool, mb ∈ l -> (toks mb.1).2 = None) -> (tokenize_message U E order' o a2b m).2 = None ->
    (forall w, w ∈ (tokenize_message U E order' o a2b m).1 ->
       (exists mb, mb ∈ l /\ mb.2 = b /\ w ∈ (toks mb.1).1) /\ forall mb, mb ∈ l -> w ∈ (toks mb.1).1 -> mb.2 = b) ->
    exists o' p ev, score_gen mem_backend it (tokenize_message U E order' o a2b m)
        (learn_all l (c_new false ∅ : obj D (gmap pyword winfo))) = (o', Ok (p, ev)) /\
      (9 / 10 < (if b then p else 1 - p))%R /\ classify D p = (if b then spam else ham).
  Proof.
    intros Hlen Hl Hn Hw. destruct (tokenize_message U E order' o a2b m) as [ws e] eqn:Et. cbn [fst snd] in *. subst e.
    apply (sided_words l b _ ws); try done.
    - by apply (call_two_words _ _ _ _ _ _ _ _ Et).
    - intros w Hin. unfold tokenize_message, tokenizer_call in Et. destruct (gapp _ _) as [ts e]. apply convert_bytes in Et.
      rewrite Forall_forall in Et. by apply Et.
  Qed.

  Lemma sided_again {M : machine} l (b : bool) order' m m' : (Z.of_nat (length l) < 2 ^ 48)%Z ->
    parts_order_ok order -> parts_order_ok order' -> count_all o = false ->
    (forall mb : part * bool, mb ∈ l -> (toks mb.1).2 = None) -> (forall mb, mb ∈ l -> mb.2 = b) -> (m, b) ∈ l ->
    seen (mine_received o) (part_headers m) = seen (mine_received o) (part_headers m') -> alike m m' ->
    exists o' p ev, score_gen mem_backend it (tokenize_message U E order' o a2b m')
        (learn_all l (c_new false ∅ : obj D (gmap pyword winfo))) = (o', Ok (p, ev)) /\
      (9 / 10 < (if b then p else 1 - p))%R /\ classify D p = (if b then spam else ham).
  Proof.
    intros Hlen Ho Ho' Hc Hl Hb Hm Hs Ha.
    destruct (seen_tokens U E o a2b order order' m m' Ho Ho' Hc Hs Ha) as [Hn Hw].
    pose proof (Hl _ Hm) as Hnm. cbn [fst] in Hnm. pose proof (proj1 Hn Hnm) as Hnm'.
    apply sided_message; try done. intros w Hin. split.
    - exists (m, b). split_and!; [done|done|]. cbn [fst]. by apply Hw.
    - intros mb Hmb _. by apply Hb.
  Qed.
End sided.
