(** * Property theorems C140 (what the filter writes in the headers), C46 and C48 (continued) *)
From Coq Require Import String Reals.
From Verif Require Import Py NumModel RealModel ClassifierModel MessageModel MessageSpec MessageProofs MessageCases WriteSpec WriteProofs WriteCases.

(** ** C46 *)
Theorem C46_which_messages_can_be_made :
  forall x, ((exists m, new_mail x = Ok m) <-> x = ANone \/ exists s, x = AStr s /\ acceptable s) /\
  forall m, new_mail x = Ok m -> g_c m = None /\ g_t m = None /\ g_h m = [] /\ g_id m = match x with AStr s => Some s | _ => None end.
Proof. intros x. exact (conj (new_mail_spec x) (new_mail_fields x)). Qed.
Print Assumptions C46_which_messages_can_be_made.

(** ** C48 *)
Theorem C48_no_spelling_remains :
  forall a b h h' r, remove_sb_headers a b h = (h', r) ->
  forall k v n, (k, v) ∈ h' -> n ∈ filter_headers -> ~ spelled k n.
Proof. exact removed_in_any_spelling. Qed.
Print Assumptions C48_no_spelling_remains.

Theorem C48_spellings :
  forall k, is_filter_header k <-> exists n, n ∈ filter_headers /\ spelled k n.
Proof. exact filter_spelled. Qed.
Print Assumptions C48_spellings.

Example C48_spelling_case : spelled (str "X-SpamBayes-LEVEL") (str "x-spambayes-level").
Proof. exact spelling_case. Qed.

(** ** C140 *)
Theorem C140_headers_for_a_score :
  forall (hstr : codes -> codes) (A : num) fs lv fc p clues o m, exists m' c ev,
  add_sb_headers hstr A fs lv fc (CFloat A p) clues o m = (m', Ok tt) /\
  c = (if nlt A p (nQ A 1 5) then ham else if nlt A (nQ A 9 10) p then spam else unsure) /\
  added hstr fs lv fc clues o c (Some p) ev m m'.
Proof. intros hstr A fs lv fc p clues o m. exact (add_score_returns hstr A fs lv fc p clues o m). Qed.
Print Assumptions C140_headers_for_a_score.

Theorem C140_headers_for_a_classification :
  forall (hstr : codes -> codes) (A : num) fs lv fc c clues o m,
  (o_score A o = false -> o_thermostat A o = false -> exists m' ev,
     add_sb_headers hstr A fs lv fc (CEnum A c) clues o m = (m', Ok tt) /\ added hstr fs lv fc clues o c None ev m m') /\
  (o_score A o = true \/ o_thermostat A o = true ->
     add_sb_headers hstr A fs lv fc (CEnum A c) clues o m =
       (Mail (g_id m) (Some c) (g_t m) (g_h m ++ [(str "X-Spambayes-Classification", HText (called c))]), Err TypeError)) /\
  add_sb_headers hstr A fs lv fc (COther A) clues o m = (m, Err ValueError).
Proof.
  intros hstr A fs lv fc c clues o m.
  exact (conj (add_class_returns hstr A fs lv fc c clues o m)
    (conj (add_class_raises hstr A fs lv fc c clues o m) (add_other_raises hstr A fs lv fc clues o m))).
Qed.
Print Assumptions C140_headers_for_a_classification.

Theorem C140_headers_read_back :
  forall (hstr : codes -> codes) (A : num) fs lv fc clues (o : opts A) c p ev m m',
  Forall (fun kv => forall n, n ∈ filter_headers -> ~ spelled kv.1 n) (g_h m) ->
  added hstr fs lv fc clues o c p ev m m' ->
  forall n f, (n, f) ∈ current_sb_headers (g_h m') <->
    exists v, (n, v) ∈ written fs lv o c p (g_id m) ev /\ read_as v f.
Proof. intros hstr A fs lv fc clues o c p ev m m'. exact (current_after hstr A fs lv fc clues o c p ev m m'). Qed.
Print Assumptions C140_headers_read_back.

Theorem C140_indicators_are_always_shown :
  forall (A : num) (St : Type) (bk : backend St) (it : set_order) s (o o' : obj A St) p ev cutoff shown,
  spamprob_evidence bk it s o = (o', Ok (p, ev)) -> picked (worth_showing cutoff) ev shown ->
  exists h sp rest rest', ev = (WBytes (str "*H*"), h) :: (WBytes (str "*S*"), sp) :: rest /\
    shown = (WBytes (str "*H*"), h) :: (WBytes (str "*S*"), sp) :: rest' /\ picked (worth_showing cutoff) rest rest'.
Proof. intros A St bk it s o o' p ev cutoff shown. exact (evidence_shown bk it s o o' p ev cutoff shown). Qed.
Print Assumptions C140_indicators_are_always_shown.

(** A message with a subject in capitals and no To header. *)
Example C140_case : forall (A : num) fs lv fc p,
  let m := Mail (Some (str "id7")) None None [(str "SUBJECT", HText (str "Hi"))] in
  let o := Opts A true true false p true [spam; ham; unsure] [spam; ham; unsure] in
  Forall (fun kv => forall n, n ∈ filter_headers -> ~ spelled kv.1 n) (g_h m) /\
  exists m' c, add_sb_headers (fun s => s) A fs lv fc (CFloat A p) [] o m = (m', Ok tt) /\ g_c m' = Some c /\
  g_h m' = [(str "SUBJECT", HText (called c ++ str ",Hi")); (str "X-Spambayes-Classification", HText (called c));
    (str "X-Spambayes-Spam-Probability", HText (fs p)); (str "X-Spambayes-Level", HText (replicate (lv p) 42%N));
    (str "X-Spambayes-MailId", HText (str "id7")); (str "To", HText (called c ++ str "@spambayes.invalid"))].
Proof. exact written_case. Qed.

(** Of four clues at cutoff one tenth, three are shown. *)
Example C140_clues_case : picked (worth_showing (A := exact) (1 / 10)%R)
  [(WBytes (str "*H*"), 1 / 2); (WBytes (str "a"), 1 / 10); (WBytes (str "b"), 1 / 2); (WBytes (str "c"), 19 / 20)]%R
  [(WBytes (str "*H*"), 1 / 2); (WBytes (str "a"), 1 / 10); (WBytes (str "c"), 19 / 20)]%R.
Proof. exact clues_case. Qed.
