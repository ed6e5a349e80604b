(** * Properties C46-C55, C66 and C67: messages, headers and texts *)
From Coq Require Import String Reals.
From Verif Require Import Py NumModel RealModel RealProofs LevelModel LevelProofs
  MessageModel MessageSpec MessageProofs TextProofs MessageCases.

(** ** C46 *)
Theorem C46_id_set_only_once :
  forall (hstr : codes -> codes) m s cs,
  s <> [] -> g_id m = Some s -> g_id (id_steps hstr m cs) = Some s.
Proof. intros hstr m s cs. exact (id_steps_keep hstr cs m s). Qed.
Print Assumptions C46_id_set_only_once.

Theorem C46_which_ids_are_accepted :
  forall x m r, set_id x m = r ->
  (snd r = Ok tt <-> exists s, x = AStr s /\ acceptable s
                        /\ (g_id m = None \/ g_id m = Some [] \/ g_id m = Some s)) /\
  (forall s, x = AStr s -> snd r = Ok tt -> fst r = Mail (Some s) (g_c m) (g_t m) (g_h m)) /\
  (forall e, snd r = Err e -> fst r = m /\ (e = ValueError \/ e = TypeError)).
Proof. exact set_id_accepts. Qed.
Print Assumptions C46_which_ids_are_accepted.

Theorem C46_id_from_payload :
  forall (hstr : codes -> codes) m r, set_id_from_payload hstr m = r ->
  (forall s, snd r = Ok (Some s) ->
     g_id (fst r) = Some s /\ acceptable s /\ first_is (g_h m) (str "x-spambayes-mailid") (HText s)) /\
  (snd r = Ok None -> fst r = m) /\ (forall e, snd r = Err e -> fst r = m /\ e = TypeError).
Proof. exact payload_id. Qed.
Print Assumptions C46_id_from_payload.

Theorem C46_ids_in_raw_bytes_raise :
  forall (hstr : codes -> codes) m, snd (set_id_from_payload hstr m) = Err TypeError <->
  (exists s, first_is (g_h m) (str "x-spambayes-mailid") (HText s) /\ ~ no_raw s /\
    (g_id m = None \/ g_id m = Some [] \/ g_id m = Some (hstr s))).
Proof. exact payload_raises. Qed.
Print Assumptions C46_ids_in_raw_bytes_raise.

Theorem C46_ids_are_always_acceptable :
  forall (hstr : codes -> codes) x m cs s,
  new_mail x = Ok m -> g_id (id_steps hstr m cs) = Some s -> acceptable s.
Proof. intros hstr x m cs s H. exact (id_steps_acceptable hstr cs m (new_mail_acceptable x m H) s). Qed.
Print Assumptions C46_ids_are_always_acceptable.

Example C46_case :
  new_mail (AStr (str "a")) = Ok (Mail (Some (str "a")) None None []) /\
  set_id (AStr (str "b")) (Mail (Some (str "a")) None None []) = (Mail (Some (str "a")) None None [], Err ValueError) /\
  snd (set_id (AStr (str "b")) (Mail (Some []) None None [])) = Ok tt.
Proof. split_and!; by vm_compute. Qed.

(** ** C47 *)
Theorem C47_thresholds :
  forall (A : num) p, total_num A -> nlt A (ham_cutoff A) (spam_cutoff A) = true ->
  (classify A p = ham <-> nlt A p (ham_cutoff A) = true) /\
  (classify A p = spam <-> nlt A (spam_cutoff A) p = true) /\
  (classify A p = unsure <-> nlt A p (ham_cutoff A) = false /\ nlt A (spam_cutoff A) p = false) /\
  (forall q, nlt A q p = false -> rank (classify A p) <= rank (classify A q)) /\
  ((is_unsure A p = true <-> classify A p = unsure) <-> p <> ham_cutoff A /\ p <> spam_cutoff A).
Proof.
  intros A p HA Hc.
  exact (conj (classify_ham A p) (conj (classify_spam A HA Hc p) (conj (classify_unsure A HA Hc p)
    (conj (classify_mono A HA Hc p) (unsure_agree A HA Hc p))))).
Qed.
Print Assumptions C47_thresholds.

Theorem C47_setting_the_classification :
  forall (A : num) x m,
  let '(m', r) := set_classification A x m in
  g_id m' = g_id m /\ g_t m' = g_t m /\ g_h m' = g_h m /\
  match x with
  | COther _ => m' = m /\ r = Err ValueError
  | CEnum _ c => r = Ok c /\ g_c m' = Some c
  | CFloat _ p => exists c, r = Ok c /\ g_c m' = Some c
      /\ (c = ham <-> nlt A p (ham_cutoff A) = true)
      /\ (c = spam <-> nlt A p (ham_cutoff A) = false /\ nlt A (spam_cutoff A) p = true)
  end.
Proof. exact set_classification_outcome. Qed.
Print Assumptions C47_setting_the_classification.

Example C47_case : total_num exact /\ ham_cutoff exact = (1 / 5)%R /\ spam_cutoff exact = (9 / 10)%R /\
  nlt exact (ham_cutoff exact) (spam_cutoff exact) = true.
Proof. exact exact_cutoffs. Qed.

Example C47_case_binary64 : total_num (rnum b64) /\ nlt (rnum b64) (ham_cutoff (rnum b64)) (spam_cutoff (rnum b64)) = true.
Proof. exact b64_cutoffs. Qed.

(** ** C48 *)
Theorem C48_removal_is_complete_and_nothing_else :
  forall a b h h' r, remove_sb_headers a b h = (h', r) ->
  Forall (fun kv => ~ is_filter_header kv.1) h' /\ up_to_notation (others h) h'.
Proof. exact remove_spec. Qed.
Print Assumptions C48_removal_is_complete_and_nothing_else.

Example C48_case :
  remove_sb_headers true true
    [(str "x-spambayes-TRAINED", HText (str "ham")); (str "From", HText (str "a@b")); (str "subject", HText (str "spam,ham,Hi"));
     (str "X-Spambayes-Level", HText []); (str "Subject", HText (str "ham,Hi")); (str "X-Spambayes-Trained", HNone)]
  = ([(str "From", HText (str "a@b")); (str "subject", HText (str "ham,Hi")); (str "Subject", HText (str "ham,Hi"))], Ok tt).
Proof. by vm_compute. Qed.

(** ** C49 *)
Theorem C49_adding_then_removing_restores :
  forall (hstr : codes -> codes) (A : num) fs lv fc x clues o m m' c s t,
  Forall (fun kv => ~ is_filter_header kv.1) (g_h m) ->
  first_is (g_h m) (str "subject") (HText s) -> no_raw s ->
  first_is (g_h m) (str "to") (HText t) -> no_raw t ->
  add_sb_headers hstr A fs lv fc x clues o m = (m', Ok tt) -> g_c m' = Some c ->
  (c ∈ o_notate_subject A o \/ forall d r, subject_notation d -> s <> d ++ r) ->
  (c ∈ o_notate_to A o \/ forall d r, to_notation d -> t <> d ++ r) ->
  remove_sb_headers true true (g_h m') = (g_h m, Ok tt).
Proof.
  intros hstr A fs lv fc x clues o m m' c s t.
  exact (add_remove_restores hstr A fs lv fc x clues o m m' c s t).
Qed.
Print Assumptions C49_adding_then_removing_restores.

Theorem C49_subject_notation_left_behind :
  forall (hstr : codes -> codes) (A : num) fs lv fc x clues o m m' c fl,
  absent (g_h m) (str "subject") ->
  add_sb_headers hstr A fs lv fc x clues o m = (m', Ok tt) -> g_c m' = Some c ->
  c ∈ o_notate_subject A o ->
  first_is (removals fl (g_h m')) (str "subject") (HText (cls_name c)).
Proof.
  intros hstr A fs lv fc x clues o m m' c fl.
  exact (subject_left_behind hstr A fs lv fc x clues o m m' c fl).
Qed.
Print Assumptions C49_subject_notation_left_behind.

Theorem C49_to_notation_left_behind :
  forall (hstr : codes -> codes) (A : num) fs lv fc x clues o m m' c fl,
  absent (g_h m) (str "to") ->
  add_sb_headers hstr A fs lv fc x clues o m = (m', Ok tt) -> g_c m' = Some c ->
  c ∈ o_notate_to A o ->
  first_is (removals fl (g_h m')) (str "to") (HText (cls_name c ++ str "@spambayes.invalid")).
Proof.
  intros hstr A fs lv fc x clues o m m' c fl.
  exact (to_left_behind hstr A fs lv fc x clues o m m' c fl).
Qed.
Print Assumptions C49_to_notation_left_behind.

Example C49_case : forall (A : num) fs lv fc p,
  let h := [(str "To", HText (str "a@b")); (str "SUBJECT", HText (str "Hi"))] in
  let o := Opts A true true true p true [spam; ham; unsure] [spam; ham; unsure] in
  first_is h (str "subject") (HText (str "Hi")) /\ no_raw (str "Hi") /\
  first_is h (str "to") (HText (str "a@b")) /\ no_raw (str "a@b") /\
  Forall (fun kv => ~ is_filter_header kv.1) h /\
  (exists m', add_sb_headers (fun s => s) A fs lv fc (CFloat A p) [] o (Mail None None None h) = (m', Ok tt)
     /\ g_c m' = Some (classify A p) /\ classify A p ∈ o_notate_subject A o /\ length (g_h m') = 7) /\
  absent [(str "To", HText (str "a@b"))] (str "subject").
Proof. exact c49_case. Qed.

(** ** C50 *)
Theorem C50_options_exchanged :
  forall a b h d s e t,
  subject_notation d -> first_is h (str "subject") (HText (d ++ s)) -> no_raw s ->
  to_notation e -> first_is h (str "to") (HText (e ++ t)) -> no_raw t ->
  let r := remove_sb_headers a b h in
  snd r = Ok tt
  /\ first_is (fst r) (str "subject") (HText (if a then s else d ++ s))
  /\ first_is (fst r) (str "to") (HText (if b then t else e ++ t)).
Proof. exact options_exchanged. Qed.
Print Assumptions C50_options_exchanged.

Example C50_case : subject_notation (str "ham,") /\ to_notation (str "spam@spambayes.invalid,") /\
  first_is [(str "Subject", HText (str "ham,Hi"))] (str "subject") (HText (str "ham," ++ str "Hi")) /\
  first_is [(str "To", HText (str "spam@spambayes.invalid,a@b"))] (str "to")
    (HText (str "spam@spambayes.invalid," ++ str "a@b")).
Proof. exact c50_case. Qed.

(** ** C51 *)
Theorem C51_first_classification_reported :
  forall (hstr : codes -> codes) (A : num) fs lv fc c cs m m',
  absent (g_h m) (str "x-spambayes-classification") ->
  classified (A := A) hstr fs lv fc (c :: cs) m m' ->
  first_is (g_h m') (str "x-spambayes-classification") (HText (cls_name c))
  /\ hget (g_h m') (str "X-Spambayes-Classification") = FText (cls_name c)
  /\ count_header (g_h m') (str "x-spambayes-classification") = S (length cs)
  /\ (forall c', last (c :: cs) = Some c' -> g_c m' = Some c').
Proof. intros hstr A fs lv fc c cs m m'. exact (first_reported hstr A fs lv fc c cs m m'). Qed.
Print Assumptions C51_first_classification_reported.

Example C51_case : forall (A : num) fs lv fc,
  exists m', classified (A := A) (fun s => s) fs lv fc [ham; spam] (Mail None None None []) m'.
Proof. exact c51_case. Qed.

(** ** C52 *)
Theorem C52_only_crlf : forall s, crlf_only (force_crlf s).
Proof. exact force_crlf_only. Qed.
Print Assumptions C52_only_crlf.

Theorem C52_idempotent : forall s, force_crlf (force_crlf s) = force_crlf s.
Proof. intros s. exact (crlf_only_fixed _ (force_crlf_only s)). Qed.
Print Assumptions C52_idempotent.

Theorem C52_lines_preserved :
  forall s, (exists ls, has_lines s ls) /\ forall ls, has_lines s ls -> has_lines (force_crlf s) ls.
Proof. exact force_crlf_lines. Qed.
Print Assumptions C52_lines_preserved.

Theorem C52_lines_are_unique : forall s ls ls', has_lines s ls -> has_lines s ls' -> ls = ls'.
Proof. exact has_lines_fun. Qed.
Print Assumptions C52_lines_are_unique.

Example C52_case :
  let s := (str "a" ++ [13; 10]%N ++ str "b" ++ [13]%N ++ str "c" ++ [10; 10]%N) in
  has_lines s [str "a"; str "b"; str "c"; []; []] /\
  force_crlf s = str "a" ++ [13; 10]%N ++ str "b" ++ [13; 10]%N ++ str "c" ++ [13; 10; 13; 10]%N.
Proof. exact c52_case. Qed.

(** ** C53 *)
Theorem C53_lines_of_clues :
  forall evd, exists gs : list (list codes),
  wrap_evidence evd = join [59; 10; 9]%N (line_text <$> gs) /\ mjoin gs = evd /\ Forall (fun g => g <> []) gs /\
  forall i g, gs !! i = Some g -> 2 <= length g ->
    (if decide (i = 0) then length (str "X-Spambayes-Evidence: ") else 8) + total_length g + 2 < 78.
Proof. exact evidence_lines. Qed.
Print Assumptions C53_lines_of_clues.

Theorem C53_no_clue_is_lost :
  forall evd, evd <> [] -> Forall plain_clue evd -> fields (wrap_evidence evd) = evd.
Proof. intros evd. exact (wrap_fields _ evd). Qed.
Print Assumptions C53_no_clue_is_lost.

Theorem C53_line_limit_exceeded_refuted :
  forall evd, Forall (fun c => length c = 10) evd -> 6 <= length evd ->
  exists g (gs : list (list codes)), gs <> [] /\ wrap_evidence evd = line_text g ++ [59; 10; 9]%N ++ join [59; 10; 9]%N (line_text <$> gs)
    /\ mjoin (g :: gs) = evd /\ 78 < length (str "X-Spambayes-Evidence: ") + length (line_text g).
Proof. exact evidence_too_long. Qed.
Print Assumptions C53_line_limit_exceeded_refuted.

Example C53_case : Forall (fun c => length c = 10) (replicate 6 (str "b'a': 0.99")) /\
  Forall plain_clue (replicate 6 (str "b'a': 0.99")).
Proof. exact c53_case. Qed.

(** ** C54 *)
Theorem C54_exception_header_in_header_section :
  forall (hdr : codes -> codes) s ls id h b,
  blank_line_at s h b -> Forall one_line ls ->
  hdr (join [10; 32]%N ls) = join [10; 32]%N ls ->
  (forall i, id = Some i -> 10%N ∉ i) ->
  let out := insert_exception_header hdr s ls id in
  out = h ++ [10%N] ++ exception_fields (join [13; 10; 32]%N ls) id ++ [13; 10]%N ++ b
  /\ exists h', blank_line_at out h' b /\ h' ++ [10%N] = h ++ [10%N] ++ exception_fields (join [13; 10; 32]%N ls) id.
Proof. exact insert_exception_header_section'. Qed.
Print Assumptions C54_exception_header_in_header_section.

Theorem C54_body_kept_for_any_exception_text :
  forall (hdr : codes -> codes) s ls id h b,
  blank_line_at s h b ->
  exists t, insert_exception_header hdr s ls id = h ++ [10%N] ++ exception_fields t id ++ [13; 10]%N ++ b.
Proof. intros hdr s ls id h b H. exact (ex_intro _ _ (insert_exception_eq hdr s ls id h b H)). Qed.
Print Assumptions C54_body_kept_for_any_exception_text.

Theorem C54_header_lands_in_the_body :
  forall (hdr : codes -> codes) s0 ls id,
  no_blank_line (s0 ++ [10%N]) ->
  exists rest, blank_line_at (insert_exception_header hdr (s0 ++ [10%N]) ls id) s0
                 (str "X-Spambayes-Exception: " ++ rest).
Proof. exact insert_exception_in_body. Qed.
Print Assumptions C54_header_lands_in_the_body.

Example C54_case :
  blank_line_at (str "A: b" ++ [13; 10; 13; 10]%N ++ str "body") (str "A: b" ++ [13%N]) (str "body") /\
  no_blank_line (str "A: b" ++ [10%N]) /\ Forall one_line [str "Traceback"; str "  File"].
Proof. exact c54_case. Qed.

(** ** C55 *)
Theorem C55_level_header_added :
  forall (hstr : codes -> codes) (A : num) fs lv fc p clues o m m',
  o_thermostat A o = true -> absent (g_h m) (str "x-spambayes-level") ->
  add_sb_headers hstr A fs lv fc (CFloat A p) clues o m = (m', Ok tt) ->
  first_is (g_h m') (str "x-spambayes-level") (HText (replicate (lv p) 42%N)).
Proof. intros hstr A fs lv fc p clues o m m'. exact (level_header_added hstr A fs lv fc p clues o m m'). Qed.
Print Assumptions C55_level_header_added.

Theorem C55_stars_in_binary64 :
  forall p q, (0 <= p <= 1)%R -> b64 p = p -> (p <= q)%R ->
  stars b64 p <= 10 /\ stars b64 p <= stars b64 q /\ (stars b64 p = 10 <-> p = 1%R).
Proof. exact stars_b64. Qed.
Print Assumptions C55_stars_in_binary64.

Theorem C55_stars_in_exact_arithmetic :
  forall p, (0 <= p <= 1)%R ->
  (INR (stars (fun x => x) p) / 10 <= p < (INR (stars (fun x => x) p) + 1) / 10)%R.
Proof. exact exact_floor. Qed.
Print Assumptions C55_stars_in_exact_arithmetic.

Example C55_case : b64 1 = 1%R /\ stars b64 1 = 10 /\ stars b64 (1 / 2) = 5.
Proof. exact c55_case. Qed.

(** ** C66 *)
Theorem C66_raw_bytes_make_removal_raise :
  forall a b h,
  let r := snd (remove_sb_headers a b h) in
  (r = Err AttributeError <->
     (a = true /\ raw_first h (str "subject")) \/ (b = true /\ raw_first h (str "to")))
  /\ (r = Ok tt \/ r = Err AttributeError).
Proof. exact remove_raises. Qed.
Print Assumptions C66_raw_bytes_make_removal_raise.

Example C66_case : raw_first [(str "Subject", HText [0xDCE9%N])] (str "subject").
Proof. exact c66_case. Qed.

(** ** C67 *)
Theorem C67_saved_headers_can_be_restored :
  forall a b h d,
  current_sb_headers h = (fun kv => (kv.1, FText kv.2)) <$> d ->
  let h' := fst (remove_sb_headers a b h) in
  current_sb_headers h' = [] /\ current_sb_headers (reassign h' d) = current_sb_headers h.
Proof. exact saved_headers_restored. Qed.
Print Assumptions C67_saved_headers_can_be_restored.

Example C67_case :
  current_sb_headers [(str "x-spambayes-level", HText (str "***")); (str "To", HText (str "a")); (str "X-Spambayes-Trained", HText (str "ham"))]
  = (fun kv => (kv.1, FText kv.2)) <$> [(str "X-Spambayes-Level", str "***"); (str "X-Spambayes-Trained", str "ham")].
Proof. by vm_compute. Qed.
