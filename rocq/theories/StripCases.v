(** * Concrete cases for the properties of the strippers *)
From Coq Require Import String Lia.
From Verif Require Import Py Regex RegexSpec RegexProofs StripModel StripSpec StripProofs.

Lemma strippers_determined :
  forall Sb Se, (Sb, Se) ∈ [(style_start, style_end); (comment_start, comment_end);
                            (noframes_start, noframes_end); (url_here, at_once)] ->
  (forall x s kept starts kept' starts', stripped Sb Se x s kept starts -> stripped Sb Se x s kept' starts' ->
     kept = kept' /\ starts = starts') /\
  (forall text kept starts, stripped Sb Se [] text kept starts ->
     kept `sublist_of` text /\ (~ occurs Sb text -> kept = text /\ starts = [])).
Proof.
  intros Sb Se H.
  assert (functional Sb /\ functional Se) as [HS HE].
  { rewrite !elem_of_cons, elem_of_nil in H.
    destruct H as [[= -> ->]|[[= -> ->]|[[= -> ->]|[[= -> ->]|[]]]]].
    - split; [apply style_start_functional|apply style_end_functional].
    - split; [apply comment_start_functional|apply comment_end_functional].
    - split; [apply noframes_start_functional|apply noframes_end_functional].
    - split; [apply url_functional|apply at_once_functional]. }
  split.
  - by apply stripped_det.
  - intros text kept ws HR. split; [by eapply stripped_sublist|]. intros HN. exact (no_start_unchanged _ _ _ _ _ HS HE HN HR).
Qed.

(** A comment inside a broken comment opener. *)
Definition nested : codes := str "<!<!-- -->-- hidden -->".
Lemma comment_survives : ~ forall text kept tokens, analyze CommentStripper text = Ok (kept, tokens) ->
  analyze CommentStripper kept = Ok (kept, []).
Proof.
  intros H. specialize (H nested (str "<!-- hidden -->") []).
  assert (E : analyze CommentStripper nested = Ok (str "<!-- hidden -->", [])) by by vm_compute.
  specialize (H E). by vm_compute in H.
Qed.

Definition plain_guts : codes := str "mystuff.org/here".
Example plain_url : is_url (str "http://mystuff.org/here") (str "http") plain_guts.
Proof.
  split_and!; [done| |done|].
  - left.
  - apply (forallb_Forall _ _ url_char_spec). by vm_compute.
Qed.

Lemma punctuation_kept :
  ~ forall proto guts c, is_url (proto ++ str "://" ++ guts) proto guts -> c ∈ str ".:?!/" ->
    analyze URLStripper (proto ++ str "://" ++ guts ++ [c]) = analyze URLStripper (proto ++ str "://" ++ guts).
Proof.
  intros H. specialize (H (str "http") plain_guts 63%N plain_url).
  assert (Hc : 63%N ∈ str ".:?!/") by (apply (bool_decide_unpack _); by vm_compute).
  specialize (H Hc). by vm_compute in H.
Qed.

(** What the strippers return on some texts. *)
Example style_case : analyze StyleStripper (str "a< style x>b</style>c<styles>d<style>e") =
  Ok (str "ac<styles>d<style>e", []).
Proof. by vm_compute. Qed.
Example comment_case : analyze CommentStripper (str "FR<!--slkdflskjf-->EE! <comment >x-->y<!-- z") =
  Ok (str "FREE! y<!-- z", []).
Proof. by vm_compute. Qed.
Example noframes_case : analyze NoframesStripper (str "a<noframes >b</noframes >c") = Ok (str "ac", []).
Proof. by vm_compute. Qed.
Example url_case : analyze URLStripper (str "see http://a.b/c? or https://x/!") =
  Ok (str "see  or ", [WBytes (str "proto:http"); WBytes (str "url:a"); WBytes (str "url:b"); WBytes (str "url:c");
    WBytes (str "url:"); WBytes (str "proto:https"); WBytes (str "url:x"); WBytes (str "url:!")]).
Proof. by vm_compute. Qed.

(** "begin" on a line of its own, followed by two words on two further lines, is
    the beginning of a uuencoded section. *)
Definition begin_text : codes := str "Hello," ++ [10%N] ++ str "begin now," ++ [10%N] ++ str "friend" ++ [10%N].
Example begin_case : occurs uu_begin begin_text.
Proof.
  exists (str "Hello," ++ [10%N]), (str "begin now," ++ [10%N] ++ str "friend"), [10%N]. split; [done|].
  exists (str " "), (str "now,"), [10%N], (str "friend"), []. split_and!; try done.
  - apply spaces_spec. by vm_compute.
  - apply nonspaces_spec. by vm_compute.
  - right. by exists (str "Hello,").
  - right. by exists [].
Qed.
Example begin_case_raises : analyze UUencodeStripper begin_text = Err TypeError.
Proof. by vm_compute. Qed.
Example no_begin_case : analyze UUencodeStripper (str "begin the work now") = Ok (str "begin the work now", []).
Proof. by vm_compute. Qed.
