(** * The cutoffs (C47) and the temporary file (C30) *)
From Coq Require Import String Reals.
From Verif Require Import Py NumModel RealModel RealProofs LevelModel LevelProofs ClassifierModel MessageModel MessageSpec MessageProofs TextProofs MessageCases TrainSpec PickleModel PickleSpec PickleProofs.

Lemma explicit_cutoffs (A : num) (p : F A) : total_num A -> nlt A (nQ A 1 5) (nQ A 9 10) = true ->
  (classify A p = ham <-> nlt A p (nQ A 1 5) = true) /\
  (classify A p = spam <-> nlt A (nQ A 9 10) p = true) /\
  (is_unsure A p = true <-> nlt A (nQ A 1 5) p = true /\ nlt A p (nQ A 9 10) = true).
Proof.
  intros HA Hc. split_and!.
  - apply classify_ham.
  - by apply classify_spam.
  - unfold is_unsure. apply andb_true_iff.
Qed.
Lemma exact_cutoff_values (p : R) : (classify exact p = ham <-> (p < 1 / 5)%R) /\ (classify exact p = spam <-> (9 / 10 < p)%R) /\
  (is_unsure exact p = true <-> (1 / 5 < p < 9 / 10)%R).
Proof.
  destruct exact_cutoffs as (HT & E1 & E2 & HC). destruct (explicit_cutoffs exact p HT HC) as (H1 & H2 & H3).
  rewrite H1, H2, H3. change (nQ exact 1 5) with (ham_cutoff exact). change (nQ exact 9 10) with (spam_cutoff exact). rewrite E1, E2.
  change (nlt exact) with rltb. by rewrite !rltb_true.
Qed.

Lemma no_temporary same chunks copied old tmp : f_tmp (foldl fs_apply (FS old tmp) (write_steps same chunks copied)) = None.
Proof.
  unfold write_steps. cbn [foldl fs_apply f_db f_tmp]. rewrite foldl_app, (tmp_appends _ _ []) by done. cbn [f_db app].
  destruct same; [done|]. cbn [foldl fs_apply f_tmp]. by rewrite foldl_app.
Qed.
Lemma temporary_left same chunks copied old tmp n : n <= length chunks ->
  foldl fs_apply (FS old tmp) (take (S n) (write_steps same chunks copied)) = FS old (Some (concat (take n chunks))).
Proof.
  intros Hn. unfold write_steps. cbn [take foldl fs_apply f_db f_tmp]. rewrite take_app_le by (by rewrite fmap_length).
  rewrite <- fmap_take. by rewrite (tmp_appends _ _ []).
Qed.

Lemma level_header_b64 (hstr : codes -> codes) fs fc (p : R) clues (o : opts (rnum b64)) m m' :
  (0 <= p <= 1)%R -> b64 p = p -> o_thermostat (rnum b64) o = true -> absent (g_h m) (str "x-spambayes-level") ->
  add_sb_headers hstr (rnum b64) fs (stars b64) fc (CFloat (rnum b64) p) clues o m = (m', Ok tt) ->
  exists n, first_is (g_h m') (str "x-spambayes-level") (HText (replicate n 42%N)) /\ n <= 10 /\ (n = 10 <-> p = 1%R).
Proof.
  intros Hp Hb Ht Ha E. exists (stars b64 p). split; [by eapply (level_header_added hstr (rnum b64))|].
  destruct (stars_b64 p p Hp Hb (Rle_refl p)) as (H1 & _ & H2). done.
Qed.

Lemma level_header_case fs fc :
  let o := Opts (rnum b64) true false false 0%R false [] [] in
  o_thermostat (rnum b64) o = true /\ absent [] (str "x-spambayes-level") /\
  exists m', add_sb_headers (fun s => s) (rnum b64) fs (stars b64) fc (CFloat (rnum b64) 1%R) [] o (Mail None None None []) = (m', Ok tt).
Proof. split; [done|]. split; [by constructor|]. eexists. reflexivity. Qed.
