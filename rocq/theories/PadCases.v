(** * Messages that are padded *)
From Coq Require Import String Lia.
From Verif Require Import Py NumModel ClassifierModel TrainSpec OnceSpec StripModel RaiseModel TokenModel MessageModel HeadModel HeadCases TreeModel TreeSpec TreeProofs TreeCases.

(** One spam and one ham have been learned. *)
Definition sw (s : string) : pyword := WStr (str s).
Definition two_sides : list call := [CLearn (SList [sw "the"; sw "pills"]) true; CLearn (SList [sw "the"; sw "lunch"]) false].
Definition two_msgs : list message := [([sw "the"; sw "lunch"], false); ([sw "the"; sw "pills"], true)].

Lemma two_matched : matched false two_sides two_msgs.
Proof. apply (matched_learn false [CLearn (SList [sw "the"; sw "pills"]) true]); [|done]. apply (matched_learn false []); [constructor|done]. Qed.

Definition short : list pyword := [sw "pills"].
Definition padded : list pyword := [sw "the"; sw "weather"; sw "pills"; sw "today"].

Lemma padded_even w : ~ (w ∈ elems (SList short) <-> w ∈ elems (SList padded)) -> even_word two_msgs w.
Proof.
  cbn [elems]. intros H.
  assert (w ∈ padded) as Hp.
  { destruct (decide (w ∈ padded)) as [|Hn]; [done|]. destruct H. split; [|done].
    intros [->|Hx%elem_of_nil]%elem_of_cons; [right; right; left|done]. }
  revert H. unfold padded in Hp. rewrite !elem_of_cons, elem_of_nil in Hp.
  destruct Hp as [->|[->|[->|[->|[]]]]]; intros H.
  - right. by vm_compute.
  - left. by vm_compute.
  - destruct H. split; intros _; [right; right|]; left.
  - left. by vm_compute.
Qed.

(** A message to which a part is added *)
Definition known : list (part * bool) := [(text_part "cheap pills", true); (text_part "lunch today", false)].
Definition offer : list part := [text_part "cheap pills now"].
Definition filler : list part := [text_part "quixotic weather pills"].

Lemma filler_case :
  (forall mb, mb ∈ known -> (tokenize_message ascii plain (fun l => l) default_opts no_a2b mb.1).2 = None) /\
  (forall q, q ∈ offer ++ filler <-> q ∈ offer \/ q ∈ filler) /\
  (tokenize_message ascii plain (fun l => l) default_opts no_a2b (letter_with (offer ++ filler))).2 = None /\
  (forall p q w, q ∈ filler -> inside p q -> w ∈ (tokenize_message ascii plain (fun l => l) default_opts no_a2b (alone [] p)).1 ->
     w ∈ (tokenize_message ascii plain (fun l => l) default_opts no_a2b (letter_with offer)).1 \/
     forall mb, mb ∈ known -> w ∉ (tokenize_message ascii plain (fun l => l) default_opts no_a2b mb.1).1) /\
  WBytes (str "quixotic") ∈ (tokenize_message ascii plain (fun l => l) default_opts no_a2b (letter_with (offer ++ filler))).1 /\
  WBytes (str "quixotic") ∉ (tokenize_message ascii plain (fun l => l) default_opts no_a2b (letter_with offer)).1.
Proof.
  split_and!.
  - intros mb [->|[->|H]%elem_of_cons]%elem_of_cons; [by vm_compute..|by apply elem_of_nil in H].
  - intros q. by rewrite elem_of_app.
  - by vm_compute.
  - intros p q w [->|H%elem_of_nil]%elem_of_cons Hi Hw; [|done].
    inversion Hi; subst.
    assert (Forall (fun w => w ∈ (tokenize_message ascii plain (fun l => l) default_opts no_a2b (letter_with offer)).1 \/
      Forall (fun mb : part * bool => w ∉ (tokenize_message ascii plain (fun l => l) default_opts no_a2b mb.1).1) known)
      (tokenize_message ascii plain (fun l => l) default_opts no_a2b (alone [] (text_part "quixotic weather pills"))).1) as HF.
    { apply (bool_decide_unpack _). by vm_compute. }
    destruct (proj1 (Forall_forall _ _) HF w Hw) as [H|H]; [by left|right]. by apply Forall_forall.
  - apply (bool_decide_unpack _). by vm_compute.
  - apply (bool_decide_unpack _). by vm_compute.
Qed.
