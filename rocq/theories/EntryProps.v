(** * Property theorems C139 (the convenience methods and the evidence flag) *)
From Coq Require Import String.
From Verif Require Import Py NumModel ClassifierModel TrainSpec EntryModel EntrySpec EntryProofs.

(** ** C139 *)
Theorem C139_evidence_changes_nothing :
  forall (A : num) (St : Type) (bk : backend St) (it : set_order) (s : stream) (o : obj A St),
  (spamprob bk it s o).1 = (spamprob_evidence bk it s o).1 /\
  (spamprob bk it s o).2 = rbind (spamprob_evidence bk it s o).2 (fun pe => Ok pe.1).
Proof. intros A St bk it. exact (evidence_flag bk it). Qed.
Print Assumptions C139_evidence_changes_nothing.

Theorem C139_convenience_methods_count_messages :
  forall (A : num) (it : set_order) (bigrams : bool) (es : list entry) (spams hams : list (list pyword)),
  set_order_ok it -> kept bigrams es spams hams ->
  let '(o, rs) := run_entries mem_backend it es (c_new bigrams ∅ : obj A (gmap pyword winfo)) in
  o_nspam o = Z.of_nat (length spams) /\ o_nham o = Z.of_nat (length hams) /\
  (forall w, o_store o !! w = if (with_word w spams =? 0)%Z && (with_word w hams =? 0)%Z then None
     else Some (WI (with_word w spams) (with_word w hams))) /\
  Forall returned rs.
Proof. intros A it bg es spams hams. exact (entry_counts it bg es spams hams). Qed.
Print Assumptions C139_convenience_methods_count_messages.

(** Two messages are learned, scored both ways, and the spam is unlearned. *)
Example C139_case : kept false
  [ELearnSpam (SList [WStr (str "a"); WStr (str "b"); WStr (str "a")]); ELearnHam (SIter [WStr (str "b")]);
   EProb (SList [WStr (str "b")]); EEvidence (SList [WStr (str "b")]); EUnlearnSpam (SList [WStr (str "b"); WStr (str "a")])]
  [] [[WStr (str "b")]].
Proof.
  apply (kept_unspam false [_;_;_;_] [] [WStr (str "a"); WStr (str "b")] [] _ _).
  - apply (kept_evidence false [_;_;_]). apply (kept_prob false [_;_]). simpl.
    apply (kept_ham false [_]); [|by intros w; cbn].
    apply (kept_spam false []); [constructor|]. intros w. cbn. rewrite !elem_of_cons. tauto.
  - intros w. cbn. rewrite !elem_of_cons. tauto.
Qed.
