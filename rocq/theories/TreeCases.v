(** * Concrete messages with parts *)
From Coq Require Import String.
From Verif Require Import Py NumModel ClassifierModel StripModel RaiseModel TokenModel MessageModel HeadModel HeadCases
  TrainSpec TrainProofs RaiseProofs ShelveApiProofs TreeModel TreeSpec TreeProofs.

(** A part with this content type and nothing else in its headers *)
Definition info (t : string) : mpart := Mpart (str t) PAbsent (Some []) FNone None.
Definition text_part (t : string) : part := Part (info "text/plain") [] (Leaf (PBytes (str t))).
Definition attachment (t : string) : part := Part (info "application/pdf") [] (Leaf (PBytes (str t))).
Definition letter_with (ps : list part) : part := Part (info "multipart/mixed") [] (Multi ps).
Definition two_parts : part := letter_with [text_part "alpha beta"; text_part "gamma delta"; attachment "%PDF"].

Definition no_a2b (_ : codes) : res codes := Err ValueError.

Lemma same_order : parts_order_ok (fun l => l). Proof. by intros l. Qed.
Lemma reverse_order : parts_order_ok (@rev part). Proof. intros l. symmetry. apply Permutation_rev. Qed.

(** What a classifier with bigrams stores after learning [two_parts] *)
Definition stored {A : num} (order : list part -> list part) (w : string) : option winfo :=
  o_store (learn_gen mem_backend remove_dups (tokenize_message ascii plain order default_opts no_a2b two_parts) true
             (c_new true ∅ : obj A (gmap pyword winfo))).1 !! WStr (str w).

Lemma stored_eq {A : num} order w : stored (A:=A) order w =
  o_store (learn_gen mem_backend remove_dups (tokenize_message ascii plain order default_opts no_a2b two_parts) true
             (c_new true ∅ : obj A (gmap pyword winfo))).1 !! WStr (str w).
Proof. reflexivity. Qed.

Lemma stored_spec {A : num} order ws w : tokenize_message ascii plain order default_opts no_a2b two_parts = (ws, None) ->
  stored (A:=A) order w = if bool_decide (WStr (str w) ∈ enhance (SIter ws)) then Some (WI 1 0) else None.
Proof.
  intros Ht. unfold stored. rewrite Ht, learn_gen_ok.
  destruct (learn_mem (A:=A) remove_dups dups_ok (SIter ws) true true (c_new true ∅) eq_refl) as (m&->&Hm).
  cbn [fst o_store]. rewrite Hm. cbn [c_new o_store]. by rewrite lookup_empty.
Qed.

Lemma two_parts_tokens order : (tokenize_message ascii plain order default_opts no_a2b two_parts).2 = None ->
  tokenize_message ascii plain order default_opts no_a2b two_parts = ((tokenize_message ascii plain order default_opts no_a2b two_parts).1, None).
Proof. by destruct (tokenize_message _ _ _ _ _ _) as [ws e]; cbn; intros ->. Qed.

Lemma bigrams_order {A : num} :
  stored (A:=A) (fun l => l) "bi:b'alpha' b'beta'" = Some (WI 1 0) /\ stored (A:=A) (@rev part) "bi:b'alpha' b'beta'" = None.
Proof.
  split; (erewrite stored_spec; [|apply two_parts_tokens; by vm_compute]).
  - rewrite bool_decide_eq_true_2; [done|]. apply (bool_decide_unpack _). by vm_compute.
  - rewrite bool_decide_eq_false_2; [done|]. apply (bool_decide_unpack _). by vm_compute.
Qed.

Lemma same_store {A : num} (r r' : obj A (gmap pyword winfo)) w : same_training r r' -> o_store r !! w = o_store r' !! w.
Proof. by intros (_&_&->&_). Qed.

Lemma order_matters_with_bigrams (A : num) : ~ forall U E o a2b it order order' m is_spam (ob : obj A (gmap pyword winfo)),
  parts_order_ok order -> parts_order_ok order' -> set_order_ok it ->
  same_training (learn_gen mem_backend it (tokenize_message U E order o a2b m) is_spam ob).1
                (learn_gen mem_backend it (tokenize_message U E order' o a2b m) is_spam ob).1.
Proof.
  intros H. specialize (H ascii plain default_opts no_a2b remove_dups (fun l => l) (@rev part) two_parts true
    (c_new true ∅) same_order reverse_order dups_ok).
  apply (same_store _ _ (WStr (str "bi:b'alpha' b'beta'"))) in H.
  destruct (@bigrams_order A) as [H1 H2]. rewrite stored_eq in H1, H2.
  revert H H1 H2. match goal with |- ?a = ?b -> _ => generalize a; generalize b end. intros b a H H1 H2. congruence.
Qed.

(** The same letter with another attachment, a header in a part, and its parts in another order, one twice *)
Definition two_parts' : part :=
  letter_with [attachment "%PS"; Part (info "text/plain") [(str "Subject", HText (str "x"))] (Leaf (PBytes (str "gamma delta")));
               text_part "alpha beta"; attachment "%PDF"].

Lemma text_is_text t : text_type (info t) -> exists s, str t = str "text" ++ s.
Proof. intros [H|[s H]]; cbn [info pt_type] in H; rewrite H; [exists []; by rewrite app_nil_r|by exists (str "/" ++ s)]. Qed.
Lemma two_parts_alike : alike two_parts two_parts'.
Proof.
  assert (forall t t', alike (attachment t) (attachment t')) as Ha.
  { intros t t'. constructor. intros [s Hs]%text_is_text. exfalso.
    assert (take 4 (str "application/pdf") = take 4 (str "text" ++ s)) as H by (by rewrite Hs). by vm_compute in H. }
  assert (forall h t, alike (text_part t) (Part (info "text/plain") h (Leaf (PBytes (str t))))) as Ht by (intros h t; by constructor).
  unfold two_parts, two_parts', letter_with. constructor.
  - intros p [->|[->|[->|H]%elem_of_cons]%elem_of_cons]%elem_of_cons; [..|by apply elem_of_nil in H].
    + eexists. split; [apply elem_of_list_In; right; right; left; reflexivity|apply Ht].
    + eexists. split; [apply elem_of_list_In; right; left; reflexivity|apply Ht].
    + eexists. split; [apply elem_of_list_In; left; reflexivity|apply Ha].
  - intros q [->|[->|[->|[->|H]%elem_of_cons]%elem_of_cons]%elem_of_cons]%elem_of_cons; [..|by apply elem_of_nil in H].
    + eexists. split; [apply elem_of_list_In; right; right; left; reflexivity|apply Ha].
    + eexists. split; [apply elem_of_list_In; right; left; reflexivity|apply Ht].
    + eexists. split; [apply elem_of_list_In; left; reflexivity|apply Ht].
    + eexists. split; [apply elem_of_list_In; right; right; left; reflexivity|apply Ha].
Qed.

(** A letter enclosing a letter that encloses a text *)
Definition deep : part := letter_with [attachment "%PDF"; letter_with [text_part "hidden words"]].
Lemma hidden_inside : inside (text_part "hidden words") deep.
Proof.
  apply (inside_sub _ (letter_with [text_part "hidden words"])); [by apply elem_of_list_In; right; left|].
  apply (inside_sub _ (text_part "hidden words")); [by apply elem_of_list_In; left|constructor].
Qed.
