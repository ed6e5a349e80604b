(** * Concrete cases for C140 and C48 *)
From Coq Require Import String Reals Lra.
From Verif Require Import Py NumModel RealModel RealProofs MessageModel MessageSpec MessageProofs WriteSpec WriteProofs.

Lemma spelling_case : spelled (str "X-SpamBayes-LEVEL") (str "x-spambayes-level").
Proof. apply spelled_lower; [literal_small|by vm_compute]. Qed.

Lemma written_case : forall (A : num) fs lv fc p,
  let m := Mail (Some (str "id7")) None None [(str "SUBJECT", HText (str "Hi"))] in
  let o := Opts A true true false p true [spam; ham; unsure] [spam; ham; unsure] in
  Forall (fun kv => forall n, n ∈ filter_headers -> ~ spelled kv.1 n) (g_h m) /\
  exists m' c, add_sb_headers (fun s => s) A fs lv fc (CFloat A p) [] o m = (m', Ok tt) /\ g_c m' = Some c /\
  g_h m' = [(str "SUBJECT", HText (called c ++ str ",Hi")); (str "X-Spambayes-Classification", HText (called c));
    (str "X-Spambayes-Spam-Probability", HText (fs p)); (str "X-Spambayes-Level", HText (replicate (lv p) 42%N));
    (str "X-Spambayes-MailId", HText (str "id7")); (str "To", HText (called c ++ str "@spambayes.invalid"))].
Proof.
  intros A fs lv fc p m o. split.
  - constructor; [|constructor]. intros n Hn Hs. cbn [fst] in Hs.
    assert (is_filter_header (str "SUBJECT")) as H by (apply filter_spelled; by exists n).
    revert H. change (~ is_filter_header (str "SUBJECT")). apply (bool_decide_unpack _). by vm_compute.
  - eexists _, (classify A p). split; [reflexivity|]. split; [done|]. cbn [g_h]. by destruct (classify A p).
Qed.

Lemma clues_case : picked (worth_showing (A := exact) (1 / 10)%R)
  [(WBytes (str "*H*"), 1 / 2); (WBytes (str "a"), 1 / 10); (WBytes (str "b"), 1 / 2); (WBytes (str "c"), 19 / 20)]%R
  [(WBytes (str "*H*"), 1 / 2); (WBytes (str "a"), 1 / 10); (WBytes (str "c"), 19 / 20)]%R.
Proof.
  apply picked_take; [by left|].
  apply picked_take; [right; right; left; apply negb_true_iff, rltb_false; cbn; lra|].
  apply picked_skip; [|apply picked_take; [right; right; right; apply negb_true_iff, rltb_false; cbn; lra|constructor]].
  intros [H|[H|[H|H]]]; [done|done|..]; apply negb_true_iff, rltb_false in H; cbn in H; lra.
Qed.
