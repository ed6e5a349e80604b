(** * Properties C56, C57 and C59: the strippers *)
From Coq Require Import String.
From Verif Require Import Py Regex RegexSpec RegexProofs StripModel StripSpec StripProofs StripCases.

(** ** C56 *)
Theorem C56_style_sections : forall text, exists kept starts,
  analyze StyleStripper text = Ok (kept, []) /\ stripped style_start style_end [] text kept starts.
Proof. exact style_strip. Qed.
Print Assumptions C56_style_sections.

Theorem C56_comments : forall text, exists kept starts,
  analyze CommentStripper text = Ok (kept, []) /\ stripped comment_start comment_end [] text kept starts.
Proof. exact comment_strip. Qed.
Print Assumptions C56_comments.

Theorem C56_noframes_sections : forall text, exists kept starts,
  analyze NoframesStripper text = Ok (kept, []) /\ stripped noframes_start noframes_end [] text kept starts.
Proof. exact noframes_strip. Qed.
Print Assumptions C56_noframes_sections.

Theorem C56_urls : forall text, exists kept urls (tokens : list (list pyword)),
  analyze URLStripper text = Ok (kept, mjoin tokens) /\ stripped url_here at_once [] text kept urls /\
  Forall2 url_token_list urls tokens.
Proof. exact url_strip. Qed.
Print Assumptions C56_urls.

(** What is kept is determined by the text; a text in which no section begins is
    kept; nothing is added or moved. *)
Theorem C56_what_is_kept_is_determined :
  forall Sb Se, (Sb, Se) ∈ [(style_start, style_end); (comment_start, comment_end);
                            (noframes_start, noframes_end); (url_here, at_once)] ->
  (forall x s kept starts kept' starts', stripped Sb Se x s kept starts -> stripped Sb Se x s kept' starts' ->
     kept = kept' /\ starts = starts') /\
  (forall text kept starts, stripped Sb Se [] text kept starts ->
     kept `sublist_of` text /\ (~ occurs Sb text -> kept = text /\ starts = [])).
Proof. exact strippers_determined. Qed.
Print Assumptions C56_what_is_kept_is_determined.

(** Stripping does not leave a text without comments. *)
Theorem C56_no_comment_survives_refuted :
  ~ forall text kept tokens, analyze CommentStripper text = Ok (kept, tokens) ->
      analyze CommentStripper kept = Ok (kept, []).
Proof. exact comment_survives. Qed.
Print Assumptions C56_no_comment_survives_refuted.

(** Cases *)
Example C56_case_1 : analyze StyleStripper (str "a< style x>b</style>c<styles>d<style>e") =
  Ok (str "ac<styles>d<style>e", []).
Proof. exact style_case. Qed.

Example C56_case_2 : analyze CommentStripper (str "FR<!--slkdflskjf-->EE! <comment >x-->y<!-- z") =
  Ok (str "FREE! y<!-- z", []).
Proof. exact comment_case. Qed.

Example C56_case_3 : analyze NoframesStripper (str "a<noframes >b</noframes >c") = Ok (str "ac", []).
Proof. exact noframes_case. Qed.

Example C56_case_4 : analyze URLStripper (str "see http://a.b/c? or https://x/!") =
  Ok (str "see  or ", [WBytes (str "proto:http"); WBytes (str "url:a"); WBytes (str "url:b"); WBytes (str "url:c");
    WBytes (str "url:"); WBytes (str "proto:https"); WBytes (str "url:x"); WBytes (str "url:!")]).
Proof. exact url_case. Qed.

(** ** C57 *)
Theorem C57_tokens_of_a_url : forall proto guts, is_url (proto ++ str "://" ++ guts) proto guts ->
  exists chunks, chunked guts chunks /\ analyze URLStripper (proto ++ str "://" ++ guts) =
    Ok ([], WBytes (str "proto:" ++ proto) :: ((fun c => WBytes (str "url:" ++ c)) <$> chunks)).
Proof. exact url_alone_tokens. Qed.
Print Assumptions C57_tokens_of_a_url.

Theorem C57_chunks_are_determined : forall guts chunks chunks',
  chunked guts chunks -> chunked guts chunks' -> chunks = chunks'.
Proof. exact chunked_unique. Qed.
Print Assumptions C57_chunks_are_determined.

Theorem C57_trailing_punctuation_adds_an_empty_token : forall proto guts c kept tokens,
  is_url (proto ++ str "://" ++ guts) proto guts -> c ∈ str ".:?/" ->
  analyze URLStripper (proto ++ str "://" ++ guts) = Ok (kept, tokens) ->
  analyze URLStripper (proto ++ str "://" ++ guts ++ [c]) = Ok (kept, tokens ++ [WBytes (str "url:")]).
Proof. exact trailing_separator. Qed.
Print Assumptions C57_trailing_punctuation_adds_an_empty_token.

Theorem C57_trailing_punctuation_is_lost_refuted :
  ~ forall proto guts c, is_url (proto ++ str "://" ++ guts) proto guts -> c ∈ str ".:?!/" ->
    analyze URLStripper (proto ++ str "://" ++ guts ++ [c]) = analyze URLStripper (proto ++ str "://" ++ guts).
Proof. exact punctuation_kept. Qed.
Print Assumptions C57_trailing_punctuation_is_lost_refuted.

Theorem C57_slurping_changes_nothing : forall text,
  analyze SlurpingURLStripper text = analyze URLStripper text.
Proof. exact slurp_strip. Qed.
Print Assumptions C57_slurping_changes_nothing.

(** Cases *)
Example C57_case : is_url (str "http://mystuff.org/here") (str "http") plain_guts.
Proof. exact plain_url. Qed.

(** ** C59 *)
Theorem C59_begin_line_raises : forall text,
  (~ occurs uu_begin text -> analyze UUencodeStripper text = Ok (text, [])) /\
  (occurs uu_begin text -> analyze UUencodeStripper text = Err TypeError).
Proof. exact uu_strip. Qed.
Print Assumptions C59_begin_line_raises.

(** Cases *)
Example C59_case_1 : occurs uu_begin begin_text.
Proof. exact begin_case. Qed.

Example C59_case_2 : analyze UUencodeStripper begin_text = Err TypeError.
Proof. exact begin_case_raises. Qed.

Example C59_case_3 : analyze UUencodeStripper (str "begin the work now") = Ok (str "begin the work now", []).
Proof. exact no_begin_case. Qed.
