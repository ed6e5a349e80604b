(** * Remaining lemmas and concrete cases for the message properties *)
From Coq Require Import String Reals Lra.
From Flocq Require Import Core.
From Verif Require Import Py NumModel RealModel RealProofs LevelModel LevelProofs
  MessageModel MessageSpec MessageProofs TextProofs.

Lemma set_classification_outcome : forall (A : num) x m,
  let '(m', r) := set_classification A x m in
  g_id m' = g_id m /\ g_t m' = g_t m /\ g_h m' = g_h m /\
  match x with
  | COther _ => m' = m /\ r = Err ValueError
  | CEnum _ c => r = Ok c /\ g_c m' = Some c
  | CFloat _ p => exists c, r = Ok c /\ g_c m' = Some c
      /\ (c = ham <-> nlt A p (ham_cutoff A) = true)
      /\ (c = spam <-> nlt A p (ham_cutoff A) = false /\ nlt A (spam_cutoff A) p = true)
  end.
Proof.
  intros A x m. destruct x as [c|p|]; simpl; split_and!; try done.
  exists (classify A p). split_and!; [done|done|apply classify_ham|].
  unfold classify. destruct (nlt A p _), (nlt A _ p); naive_solver.
Qed.

Lemma exact_cutoffs : total_num exact /\ ham_cutoff exact = (1 / 5)%R /\ spam_cutoff exact = (9 / 10)%R /\
  nlt exact (ham_cutoff exact) (spam_cutoff exact) = true.
Proof.
  split_and!; [apply rnum_total|done|done|]. apply rltb_true. simpl. lra.
Qed.

Lemma b64_quarter : b64 (1 / 4) = (1 / 4)%R.
Proof.
  unfold b64. apply round_generic; [apply valid_rnd_N|].
  apply generic_format_FLT. apply (FLT_spec _ _ _ _ (Float radix2 1 (-2))).
  - unfold F2R. simpl. lra.
  - cbn [Fnum]. change (Zpower radix2 53) with (2 ^ 53)%Z. lia.
  - cbn [Fexp]. lia.
Qed.

Lemma b64_cutoffs : total_num (rnum b64) /\
  nlt (rnum b64) (ham_cutoff (rnum b64)) (spam_cutoff (rnum b64)) = true.
Proof.
  split; [apply rnum_total|]. apply rltb_true. simpl.
  apply Rle_lt_trans with (b64 (1 / 4)); [apply (rnd_mono _ rounding_b64); lra|].
  apply Rlt_le_trans with (b64 (1 / 2)); [|apply (rnd_mono _ rounding_b64); lra].
  rewrite b64_quarter, (rnd_half _ rounding_b64). lra.
Qed.

Lemma c49_case : forall (A : num) fs lv fc p,
  let h := [(str "To", HText (str "a@b")); (str "SUBJECT", HText (str "Hi"))] in
  let o := Opts A true true true p true [spam; ham; unsure] [spam; ham; unsure] in
  first_is h (str "subject") (HText (str "Hi")) /\ no_raw (str "Hi") /\
  first_is h (str "to") (HText (str "a@b")) /\ no_raw (str "a@b") /\
  Forall (fun kv => ~ is_filter_header kv.1) h /\
  (exists m', add_sb_headers (fun s => s) A fs lv fc (CFloat A p) [] o (Mail None None None h) = (m', Ok tt)
     /\ g_c m' = Some (classify A p) /\ classify A p ∈ o_notate_subject A o /\ length (g_h m') = 7) /\
  absent [(str "To", HText (str "a@b"))] (str "subject").
Proof.
  intros A fs lv fc p h o. split_and!.
  - exists [(str "To", HText (str "a@b"))], (str "SUBJECT"), [].
    split_and!; [done|by vm_compute|]. constructor; [done|constructor].
  - apply has_surrogates_spec. by vm_compute.
  - exists [], (str "To"), [(str "SUBJECT", HText (str "Hi"))]. split_and!; [done|by vm_compute|constructor].
  - apply has_surrogates_spec. by vm_compute.
  - apply (bool_decide_unpack _). by vm_compute.
  - eexists. split_and!; [reflexivity|done| |].
    + simpl. destruct (classify A p); set_solver.
    + cbn [g_h o_notate_to o_notate_subject o]. destruct (classify A p); by vm_compute.
  - constructor; [done|constructor].
Qed.

Lemma c50_case : subject_notation (str "ham,") /\ to_notation (str "spam@spambayes.invalid,") /\
  first_is [(str "Subject", HText (str "ham,Hi"))] (str "subject") (HText (str "ham," ++ str "Hi")) /\
  first_is [(str "To", HText (str "spam@spambayes.invalid,a@b"))] (str "to")
    (HText (str "spam@spambayes.invalid," ++ str "a@b")).
Proof.
  split_and!.
  - apply (bool_decide_unpack _). by vm_compute.
  - apply (bool_decide_unpack _). by vm_compute.
  - exists [], (str "Subject"), []. split_and!; [done|by vm_compute|constructor].
  - exists [], (str "To"), []. split_and!; [done|by vm_compute|constructor].
Qed.

Lemma c51_case : forall (A : num) fs lv fc,
  exists m', classified (A := A) (fun s => s) fs lv fc [ham; spam] (Mail None None None []) m'.
Proof.
  intros A fs lv fc.
  set (o := Opts A false false false (nZ A 0) false [] []).
  set (m1 := Mail None (Some ham) None [(n_class, HText (cls_name ham))]).
  set (m2 := Mail None (Some spam) None [(n_class, HText (cls_name ham)); (n_class, HText (cls_name spam))]).
  exists m2.
  apply (classified_cons _ _ _ _ (CEnum A ham) [] o ham [spam] _ m1 m2); [reflexivity|done|].
  apply (classified_cons _ _ _ _ (CEnum A spam) [] o spam [] _ m2 m2); [reflexivity|done|].
  constructor.
Qed.

(** ** Lines *)
Lemma force_crlf_lines : forall s,
  (exists ls, has_lines s ls) /\ forall ls, has_lines s ls -> has_lines (force_crlf s) ls.
Proof.
  intros s. split; [|by apply force_lines].
  destruct (has_lines_total s) as (l & ls & H). by exists (l :: ls).
Qed.

Fixpoint lines_of (s : codes) : list codes :=
  match s with
  | [] => [[]]
  | c :: s' =>
      if (c =? 13)%N
      then match s' with
           | d :: s'' => if (d =? 10)%N then [] :: lines_of s'' else [] :: lines_of s'
           | [] => [[]; []]
           end
      else if (c =? 10)%N then [] :: lines_of s'
      else match lines_of s' with l :: ls => (c :: l) :: ls | [] => [[c]] end
  end.

Lemma lines_of_app l s l' ls : 13%N ∉ l -> 10%N ∉ l -> lines_of s = l' :: ls -> lines_of (l ++ s) = (l ++ l') :: ls.
Proof.
  intros H1 H2 E. induction l as [|c l IH]; [done|].
  apply not_elem_of_cons in H1 as [? H1]. apply not_elem_of_cons in H2 as [? H2].
  change (lines_of ((c :: l) ++ s)) with (lines_of (c :: (l ++ s))). simpl lines_of.
  destruct (N.eqb_spec c 13); [congruence|]. destruct (N.eqb_spec c 10); [congruence|].
  by rewrite (IH H1 H2).
Qed.

Lemma lines_of_cr s : head s <> Some 10%N -> lines_of (13%N :: s) = [] :: lines_of s.
Proof.
  intros H. destruct s as [|d s]; [done|]. simpl. destruct (N.eqb_spec d 10) as [->|]; [done|]. done.
Qed.

Lemma has_lines_of s ls : has_lines s ls -> lines_of s = ls.
Proof.
  induction 1 as [l H1 H2|l s ls H1 H2 H IH|l s ls H1 H2 H IH|l s ls H1 H2 Hh H IH].
  - rewrite <- (app_nil_r l) at 1. rewrite (lines_of_app l [] [] []) by done. by rewrite app_nil_r.
  - rewrite (lines_of_app l _ [] ls); [by rewrite app_nil_r|done|done|]. simpl. by rewrite IH.
  - rewrite (lines_of_app l _ [] ls); [by rewrite app_nil_r|done|done|]. simpl. by rewrite IH.
  - rewrite (lines_of_app l _ [] ls); [by rewrite app_nil_r|done|done|]. rewrite lines_of_cr by done. by rewrite IH.
Qed.

Lemma has_lines_fun s ls ls' : has_lines s ls -> has_lines s ls' -> ls = ls'.
Proof. intros H H'. apply has_lines_of in H, H'. congruence. Qed.

Lemma c52_case :
  let s := (str "a" ++ [13; 10]%N ++ str "b" ++ [13]%N ++ str "c" ++ [10; 10]%N) in
  has_lines s [str "a"; str "b"; str "c"; []; []] /\
  force_crlf s = str "a" ++ [13; 10]%N ++ str "b" ++ [13; 10]%N ++ str "c" ++ [13; 10; 13; 10]%N.
Proof.
  assert (D : forall (x : N) (l : list N), bool_decide (x ∉ l) = true -> x ∉ l)
    by (intros x l; apply bool_decide_eq_true_1).
  split; [|by vm_compute].
  apply (lines_crlf (str "a")); [by apply D; vm_compute|by apply D; vm_compute|].
  apply (lines_cr (str "b")); [by apply D; vm_compute|by apply D; vm_compute|done|].
  apply (lines_lf (str "c")); [by apply D; vm_compute|by apply D; vm_compute|].
  apply (lines_lf []); [by apply D; vm_compute|by apply D; vm_compute|].
  apply (lines_last []); by apply D; vm_compute.
Qed.

(** ** Evidence *)
Lemma evidence_lines : forall evd, exists gs : list (list codes),
  wrap_evidence evd = join [59; 10; 9]%N (line_text <$> gs) /\ mjoin gs = evd /\ Forall (fun g => g <> []) gs /\
  forall i g, gs !! i = Some g -> 2 <= length g ->
    (if decide (i = 0) then length (str "X-Spambayes-Evidence: ") else 8) + total_length g + 2 < 78.
Proof.
  intros evd. destruct (wrap_lines (length n_evidence + 2) evd) as (gs & Hw & E).
  exists gs. split_and!; [done|by eapply wrapped_concat|by eapply wrapped_nonempty_lines|].
  intros i g Hi Hg. exact (wrapped_widths _ _ _ Hw i g Hi Hg).
Qed.

Lemma evidence_too_long : forall evd, Forall (fun c => length c = 10) evd -> 6 <= length evd ->
  exists g (gs : list (list codes)), gs <> [] /\ wrap_evidence evd = line_text g ++ [59; 10; 9]%N ++ join [59; 10; 9]%N (line_text <$> gs)
    /\ mjoin (g :: gs) = evd /\ 78 < length (str "X-Spambayes-Evidence: ") + length (line_text g).
Proof.
  intros evd Hl Hn. destruct (wrap_lines (length n_evidence + 2) evd) as (gs & Hw & E).
  destruct (wrapped_ten evd gs Hl Hn Hw) as (g & gs' & -> & Hg).
  pose proof (wrapped_concat _ _ _ Hw) as Hc. simpl in Hc.
  assert (Hne : gs' <> []).
  { intros ->. simpl in Hc. rewrite app_nil_r in Hc. rewrite <- Hc in Hn. change (6 <= length g) in Hn. lia. }
  exists g, gs'. split_and!; [done| |done|].
  - unfold wrap_evidence. rewrite E, fmap_cons. apply join_cons. by destruct gs'.
  - assert (Hlg : Forall (fun c => length c = 10) g).
    { rewrite <- Hc in Hl. by apply Forall_app in Hl as [? _]. }
    rewrite line_text_length by (by destruct g). rewrite (total_length_const 10) by done. rewrite Hg.
    change (length (str "X-Spambayes-Evidence: ")) with 22. change (78 < 22 + (10 * @length codes g + 2 * (5 - 1))). rewrite Hg. lia.
Qed.

Lemma c53_case : Forall (fun c => length c = 10) (replicate 6 (str "b'a': 0.99")) /\
  Forall plain_clue (replicate 6 (str "b'a': 0.99")).
Proof.
  split; [by repeat constructor|]. apply Forall_replicate. split_and!; [|done|].
  - apply (bool_decide_unpack _). by vm_compute.
  - intros x [= <-]. done.
Qed.

(** ** Exceptions *)
Lemma join_details_join ls : join_details ls = join [10; 32]%N ls.
Proof.
  induction ls as [|l ls IH]; [done|]. destruct ls as [|l' ls]; [done|].
  rewrite join_cons by done. rewrite <- IH. done.
Qed.

Lemma insert_exception_header_section' : forall (hdr : codes -> codes) s ls id h b,
  blank_line_at s h b -> Forall one_line ls ->
  hdr (join [10; 32]%N ls) = join [10; 32]%N ls ->
  (forall i, id = Some i -> 10%N ∉ i) ->
  let out := insert_exception_header hdr s ls id in
  out = h ++ [10%N] ++ exception_fields (join [13; 10; 32]%N ls) id ++ [13; 10]%N ++ b
  /\ exists h', blank_line_at out h' b /\ h' ++ [10%N] = h ++ [10%N] ++ exception_fields (join [13; 10; 32]%N ls) id.
Proof. intros hdr s ls id h b. rewrite <- (join_details_join ls). apply insert_exception_header_section. Qed.

Lemma c54_case :
  blank_line_at (str "A: b" ++ [13; 10; 13; 10]%N ++ str "body") (str "A: b" ++ [13%N]) (str "body") /\
  no_blank_line (str "A: b" ++ [10%N]) /\ Forall one_line [str "Traceback"; str "  File"].
Proof.
  split_and!.
  - apply split_blank_some. by vm_compute.
  - apply split_blank_none. by vm_compute.
  - repeat constructor; apply (bool_decide_unpack _); by vm_compute.
Qed.

(** ** Level *)
Lemma stars_b64 : forall p q, (0 <= p <= 1)%R -> b64 p = p -> (p <= q)%R ->
  stars b64 p <= 10 /\ stars b64 p <= stars b64 q /\ (stars b64 p = 10 <-> p = 1%R).
Proof.
  intros p q Hp Hf Hpq. split_and!.
  - by apply stars_le_10; [apply rounding_b64|apply b64_10|].
  - apply stars_mono; [apply rounding_b64|apply b64_10|lra|done].
  - split; [|intros ->; apply stars_one, b64_10].
    intros E. destruct (Req_dec p 1) as [|Hne]; [done|].
    pose proof (b64_below_one p ltac:(lra) Hf). lia.
Qed.

Lemma c55_case : b64 1 = 1%R /\ stars b64 1 = 10 /\ stars b64 (1 / 2) = 5.
Proof.
  split_and!; [apply (rnd_1 _ rounding_b64)|apply stars_one, b64_10|].
  unfold stars. simpl nmul. simpl nZ. rewrite b64_10.
  replace (1 / 2 * 10)%R with 5%R by lra. rewrite (b64_IZR 5) by lia. by rewrite Ztrunc_IZR.
Qed.

Lemma c66_case : raw_first [(str "Subject", HText [0xDCE9%N])] (str "subject").
Proof.
  exists [0xDCE9%N]. split.
  - exists [], (str "Subject"), []. split_and!; [done|by vm_compute|constructor].
  - intros H. apply has_surrogates_spec in H. by vm_compute in H.
Qed.
