(** * C47: the values of the cutoffs; C30: the temporary file; C55: the level header in doubles *)
From Coq Require Import String Reals.
From Verif Require Import Py NumModel RealModel RealProofs ClassifierModel MessageModel MessageSpec MessageCases PickleModel PickleSpec LevelModel TidyProofs.

(** ** C47 *)
Theorem C47_cutoffs : forall (A : num) (p : F A), total_num A -> nlt A (nQ A 1 5) (nQ A 9 10) = true ->
  (classify A p = ham <-> nlt A p (nQ A 1 5) = true) /\
  (classify A p = spam <-> nlt A (nQ A 9 10) p = true) /\
  (is_unsure A p = true <-> nlt A (nQ A 1 5) p = true /\ nlt A p (nQ A 9 10) = true).
Proof. exact explicit_cutoffs. Qed.
Print Assumptions C47_cutoffs.

Theorem C47_cutoffs_in_exact_arithmetic : forall p : R,
  (classify exact p = ham <-> (p < 1 / 5)%R) /\ (classify exact p = spam <-> (9 / 10 < p)%R) /\
  (is_unsure exact p = true <-> (1 / 5 < p < 9 / 10)%R).
Proof. exact exact_cutoff_values. Qed.
Print Assumptions C47_cutoffs_in_exact_arithmetic.

Example C47_cutoffs_case : total_num (rnum b64) /\ nlt (rnum b64) (nQ (rnum b64) 1 5) (nQ (rnum b64) 9 10) = true.
Proof. exact b64_cutoffs. Qed.

(** ** C30 *)
Theorem C30_no_temporary_file_is_left : forall (same : bool) (chunks copied : list bytes) (old tmp : option bytes),
  f_tmp (foldl fs_apply (FS old tmp) (write_steps same chunks copied)) = None.
Proof. exact no_temporary. Qed.
Print Assumptions C30_no_temporary_file_is_left.

Theorem C30_crash_leaves_a_temporary_file : forall (same : bool) (chunks copied : list bytes) (old tmp : option bytes) (n : nat),
  n <= length chunks ->
  foldl fs_apply (FS old tmp) (take (S n) (write_steps same chunks copied)) = FS old (Some (concat (take n chunks))).
Proof. exact temporary_left. Qed.
Print Assumptions C30_crash_leaves_a_temporary_file.

(** Two writes, a crash after the first. *)
Example C30_temporary_case : 1 <= length [str "ab"; str "c"] /\
  foldl fs_apply (FS (Some (str "old")) None) (take 2 (write_steps true [str "ab"; str "c"] [])) = FS (Some (str "old")) (Some (str "ab")).
Proof. split; [cbn; lia|done]. Qed.

(** ** C55 *)
Theorem C55_level_header_in_binary64 :
  forall (hstr : codes -> codes) fs fc (p : R) clues (o : opts (rnum b64)) m m',
  (0 <= p <= 1)%R -> b64 p = p -> o_thermostat (rnum b64) o = true -> absent (g_h m) (str "x-spambayes-level") ->
  add_sb_headers hstr (rnum b64) fs (stars b64) fc (CFloat (rnum b64) p) clues o m = (m', Ok tt) ->
  exists n, first_is (g_h m') (str "x-spambayes-level") (HText (replicate n 42%N)) /\ n <= 10 /\ (n = 10 <-> p = 1%R).
Proof. exact level_header_b64. Qed.
Print Assumptions C55_level_header_in_binary64.

Example C55_level_header_case : forall fs fc,
  let o := Opts (rnum b64) true false false 0%R false [] [] in
  o_thermostat (rnum b64) o = true /\ absent [] (str "x-spambayes-level") /\
  exists m', add_sb_headers (fun s => s) (rnum b64) fs (stars b64) fc (CFloat (rnum b64) 1%R) [] o (Mail None None None []) = (m', Ok tt).
Proof. exact level_header_case. Qed.
