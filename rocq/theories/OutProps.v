(** * Property theorems C128 (the text form of a message) *)
From Coq Require Import String.
From Verif Require Import Py MessageModel MessageSpec OutModel OutSpec OutProofs OutCases.

(** ** C128 *)
Theorem C128_text_form_ends_every_line_with_crlf :
  forall (H : Type) (G : generator H) (unixfrom mangle : bool) (n : node H) (t : codes),
  own n = true -> as_string G unixfrom mangle n = Ok t -> crlf_only t.
Proof. exact @only_crlf. Qed.
Print Assumptions C128_text_form_ends_every_line_with_crlf.

Theorem C128_text_form_has_the_lines_the_email_package_writes :
  forall (H : Type) (G : generator H) (unixfrom mangle : bool) (n : node H) (t : codes) (ls : list codes),
  own n = true -> g_flatten G mangle unixfrom n = Ok t -> has_lines t ls ->
  exists t', as_string G unixfrom mangle n = Ok t' /\ crlf_only t' /\ has_lines t' ls.
Proof. exact @flat_lines. Qed.
Print Assumptions C128_text_form_has_the_lines_the_email_package_writes.

Theorem C128_refused_message_is_written_as_the_lines_of_its_parts :
  forall (H : Type) (G : generator H) (unixfrom mangle : bool) (o : bool) (h : H) (l : list (node H))
    (ts : list codes) (lss : list (list codes)),
  o = true -> g_flatten G mangle unixfrom (Node o h (LParts l)) = Err TypeError -> l <> [] ->
  Forall (fun q => own q = true) l ->
  Forall2 (fun q s => as_string G unixfrom true q = Ok s) l ts -> Forall2 has_lines ts lss ->
  exists t', as_string G unixfrom mangle (Node o h (LParts l)) = Ok t' /\ crlf_only t' /\ has_lines t' (concat lss).
Proof. exact @refused_parts. Qed.
Print Assumptions C128_refused_message_is_written_as_the_lines_of_its_parts.

Theorem C128_own_headers_and_mangling_do_not_matter_for_a_refused_message :
  forall (H : Type) (G : generator H) (unixfrom mangle mangle' : bool) (h h' : H) (l : list (node H)),
  g_flatten G mangle unixfrom (Node true h (LParts l)) = Err TypeError ->
  g_flatten G mangle' unixfrom (Node true h' (LParts l)) = Err TypeError ->
  as_string G unixfrom mangle (Node true h (LParts l)) = as_string G unixfrom mangle' (Node true h' (LParts l)).
Proof. exact @refused_same. Qed.
Print Assumptions C128_own_headers_and_mangling_do_not_matter_for_a_refused_message.

Theorem C128_text_form_raises_only_for_a_reason :
  forall (H : Type) (G : generator H) (unixfrom mangle : bool) (n : node H) (e : exn),
  as_string G unixfrom mangle n = Err e -> exists q, within q n /\ reason G unixfrom q e.
Proof. exact @raises_because. Qed.
Print Assumptions C128_text_form_raises_only_for_a_reason.

Theorem C128_text_form_keeps_the_headers_refuted :
  ~ forall (G : generator codes),
    (forall u m h p x, g_flatten G m u (Node true h p) = Ok x -> occurs_in h x) ->
    forall u m h p t, 13%N ∉ h -> 10%N ∉ h -> as_string G u m (Node true h p) = Ok t -> occurs_in h t.
Proof. exact headers_kept_refuted. Qed.
Print Assumptions C128_text_form_keeps_the_headers_refuted.

Theorem C128_text_form_without_mangling_adds_no_mark_refuted :
  ~ forall (H : Type) (G : generator H) (n : node H) (t : codes),
    all_own n -> (forall q x, within q n -> g_flatten G false false q = Ok x -> ~ occurs_in (str ">") x) ->
    as_string G false false n = Ok t -> ~ occurs_in (str ">") t.
Proof. exact mangle_refuted. Qed.
Print Assumptions C128_text_form_without_mangling_adds_no_mark_refuted.

Example C128_case_written : own simple = true /\ exists t ls, g_flatten tiny true false simple = Ok t /\ has_lines t ls /\
  ls = [str "Subject: hello"; []; str "one"; str "two"; str "three"] /\ ~ crlf_only t.
Proof. exact simple_case. Qed.

Example C128_case_refused :
  g_flatten tiny true false refused = Err TypeError /\ g_flatten tiny false false refused = Err TypeError /\
  g_flatten tiny false false (Node true (str "X") (LParts [from_part; bytes_part])) = Err TypeError /\
  Forall (fun q => own q = true) [from_part; bytes_part] /\
  Forall2 (fun q s => as_string tiny false true q = Ok s) [from_part; bytes_part]
    [str "A: 1" ++ [13; 10; 13; 10]%N ++ str ">From me"; []] /\
  Forall2 has_lines [str "A: 1" ++ [13; 10; 13; 10]%N ++ str ">From me"; []] [[str "A: 1"; []; str ">From me"]; [[]]].
Proof. exact refused_case. Qed.

Example C128_case_raises : as_string tiny false true bad = Err AttributeError.
Proof. exact bad_case. Qed.
