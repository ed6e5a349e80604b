(** * A message with invisible sections *)
From Coq Require Import String.
From Verif Require Import Py Regex RegexSpec RegexProofs StripModel StripSpec StripProofs TokenModel TokenSpec TokenProofs TokenCases MessageModel HeadModel TreeModel TreeSpec
  TreeCases LayoutSpec LayoutCases InkSpec InkProofs.
Local Open Scope N_scope.

Lemma simple_computes t ts kept : tokenize_payload t = (ts, None) -> blower t = t ->
  analyze URLStripper t = Ok (kept, []) -> findall virus_re t = [] -> simple t.
Proof.
  intros E EL EU EV. destruct (computes_tokenizable t ts E) as (t0&?&?&?&Hl&_&_&Hn&Hu&_).
  apply lower_unique in Hl. rewrite EL in Hl. subst t0. split_and!; [done|done| |].
  - destruct (url_strip t) as (kept' & ws & tss & EA & HS & HF). rewrite EU in EA. injection EA as _ Em.
    destruct HF as [|w ts' ws tss (p & g & ch & _ & _ & ->) _]; [|done]. inversion HS; subst. by apply nowhere_occurs.
  - pose proof (findall_found _ _ t virus_spec virus_nonempty) as HF. rewrite EV in HF. inversion HF; subst. by apply nowhere_occurs.
Qed.

(** Please CALL me today, with a comment inside of a word, a style sheet and a noframes section *)
Definition inky : codes := str "Please CA<!-- a > b -->LL me<Style media>p { color: red } <b></STYLE>
today<noframes>no frames</noframes>".
Definition sight : codes := str "please call me
today".

Lemma style_section : hidden_style (str "<style media>p { color: red } <b></style>").
Proof.
  exists (str "<style media>"), (str "p { color: red } <b>"). split_and!; [done| |].
  - exists [], (str " media"). split_and!; [done|constructor|unfold gt_free; in_literal|].
    intros c rest [= <- _] H. unfold word_char in H. lia.
  - intros (a & b & E). assert (47 ∈ str "p { color: red } <b>") as H; [|revert H; in_literal].
    rewrite E. rewrite !elem_of_app. right; left. in_literal.
Qed.
Lemma comment_section : hidden_comment (str "<!-- a > b -->").
Proof.
  exists (str "!--"), (str " a > b "), (str "-->"). split_and!; [done|by left|in_literal|in_literal| |by left].
  intros (a & b & E). assert (45 ∈ str " a > b ") as H; [|revert H; in_literal].
  rewrite E. rewrite !elem_of_app. right; left. in_literal.
Qed.
Lemma noframes_section : hidden_noframes (str "<noframes>no frames</noframes>").
Proof.
  exists (str "<noframes>"), (str "no frames"), (str "</noframes>"). split_and!; [done| |in_literal|].
  - exists [], []. by split_and!.
  - exists []. by split_and!.
Qed.

Lemma inked_app a t v : 60 ∉ a -> inked t v -> inked (a ++ t) (a ++ v).
Proof. induction a as [|c a IH]; intros H HI; [done|]. cbn. constructor; [set_solver|apply IH; [set_solver|done]]. Qed.

Lemma inky_shows : shows inky sight.
Proof.
  exists (blower inky). split_and!.
  - apply blower_spec.
  - assert (blower inky = str "please ca" ++ str "<!-- a > b -->" ++ str "ll me" ++ str "<style media>p { color: red } <b></style>" ++
      str "
today" ++ str "<noframes>no frames</noframes>" ++ []) as -> by by vm_compute.
    assert (sight = str "please ca" ++ str "ll me" ++ str "
today" ++ []) as -> by by vm_compute.
    apply inked_app; [in_literal|]. apply ink_section; [by right; left; apply comment_section|].
    apply inked_app; [in_literal|]. apply ink_section; [left; apply style_section|].
    apply inked_app; [in_literal|]. apply ink_section; [right; right; apply noframes_section|]. constructor.
  - eapply simple_computes; by vm_compute.
  - eapply plain_computes; [in_literal|by vm_compute].
Qed.

Lemma plain_shows : shows (str "Today PLEASE call me") (str "today please call me").
Proof.
  exists (blower (str "Today PLEASE call me")). split_and!.
  - apply blower_spec.
  - assert (blower (str "Today PLEASE call me") = str "today please call me") as -> by by vm_compute. apply inked_self. in_literal.
  - eapply simple_computes; by vm_compute.
  - eapply plain_computes; [in_literal|by vm_compute].
Qed.

Lemma notes_alike : look_alike (note_of inky) (note_of (str "Today PLEASE call me")).
Proof.
  assert (look_alike (Part (info "text/plain") [] (Leaf (PBytes inky))) (Part (info "text/plain") [] (Leaf (PBytes (str "Today PLEASE call me"))))) as H.
  { constructor. intros _. right. exists inky, (str "Today PLEASE call me"), sight, (str "today please call me").
    split_and!; [done|done|apply inky_shows|apply plain_shows|].
    exists sight, (str "today please call me"), (words_of sight), (words_of (str "today please call me")).
    assert (blower sight = sight) as E1 by by vm_compute.
    assert (blower (str "today please call me") = str "today please call me") as E2 by by vm_compute.
    split_and!; [rewrite <- E1 at 2; apply blower_spec|rewrite <- E2 at 2; apply blower_spec|apply words_of_spec|apply words_of_spec|].
    assert (Forall (fun w => w ∈ words_of (str "today please call me")) (words_of sight) /\
            Forall (fun w => w ∈ words_of sight) (words_of (str "today please call me"))) as [H1 H2].
    { split; in_literal. }
    intros w. split; intros Hw; [by apply (proj1 (Forall_forall _ _) H1)|by apply (proj1 (Forall_forall _ _) H2)]. }
  assert (look_alike (attachment "%PDF") (attachment "%PDF")) as H' by (constructor; intros _; by left).
  constructor; intros p [->|[->|Hp%elem_of_nil]%elem_of_cons]%elem_of_cons; try done; eexists; (split; [|eassumption]); [left|right; left|left|right; left].
Qed.

(** A comment with a URL: the URL reaches to the end of the comment, and what is left is a tag. *)
Lemma url_comment : hidden_comment (str "<!--http://a.org-->").
Proof.
  exists (str "!--"), (str "http://a.org"), (str "-->"). split_and!; [done|by left|in_literal|in_literal| |by left].
  intros (a & b & E). assert (45 ∈ str "http://a.org") as H; [|revert H; in_literal].
  rewrite E. rewrite !elem_of_app. right; left. in_literal.
Qed.
Lemma every_comment_invisible : ~ forall t v, inked t v -> plain_body v ->
  ((tokenize_payload t).2 = None <-> (tokenize_payload v).2 = None).
Proof.
  intros H. specialize (H (str "hello" ++ str "<!--http://a.org-->" ++ []) (str "hello" ++ [])).
  destruct H as [_ H].
  - apply inked_app; [in_literal|]. apply ink_section; [right; left; apply url_comment|constructor].
  - eapply plain_computes; [in_literal|by vm_compute].
  - specialize (H ltac:(by vm_compute)). by vm_compute in H.
Qed.
