(** * C143: what is retrieved for a URL and what is answered *)
From Coq Require Import String.
From Verif Require Import Py NumModel ClassifierModel StripModel FetchModel FetchCases RetrieveSpec RetrieveProofs.
Local Open Scope N_scope.

Theorem C143_nothing_is_asked_for_these : forall is_digit is_word prefix tokenize net proto c,
  (forall only_base, slurp is_digit is_word prefix only_base tokenize net proto [] c = (c, Ok (TList [str "url:non_resolving"]), [])) /\
  (forall url : codes, url <> [] -> slurp is_digit is_word prefix true tokenize net proto url c = (c, Err TypeError, [])) /\
  (forall url x r, unknown_url c url -> url = x :: r -> ends_host x ->
     slurp is_digit is_word prefix false tokenize net proto url c = (c, Err AttributeError, [])).
Proof.
  intros. split_and!; [intros; exact (slurp_empty _ _ _ _ _ _ _ _)|exact (fun u => slurp_base _ _ _ _ _ _ u _)|
    exact (fun u x r => slurp_no_host _ _ _ _ _ _ u _ x r)].
Qed.
Print Assumptions C143_nothing_is_asked_for_these.

Theorem C143_hosts_are_resolved_first : forall is_digit is_word prefix tokenize net proto url c d port,
  unknown_url c url -> names_host is_digit url d port ->
  (forall e, n_resolves net d port = Err e -> slurp is_digit is_word prefix false tokenize net proto url c = (c, Err e, [Resolve d port])) /\
  (n_resolves net d port = Ok false -> slurp is_digit is_word prefix false tokenize net proto url c =
     (Caches (c_non_resolving c ++ [url]) (c_non_html c) (c_unknown c) (c_http c), Ok (TList [str "url:non_resolving"]), [Resolve d port])).
Proof. exact slurp_resolve. Qed.
Print Assumptions C143_hosts_are_resolved_first.

Theorem C143_pictures_styles_and_scripts : forall is_digit is_word prefix tokenize net proto url c d port e,
  unknown_url c url -> names_host is_digit url d port -> n_resolves net d port = Ok true ->
  n_stored net (url_key is_word url) = Ok None -> last_piece url e -> e ∈ not_html_pieces ->
  slurp is_digit is_word prefix false tokenize net proto url c =
    (Caches (c_non_resolving c) (c_non_html c ++ [url]) (c_unknown c) (c_http c), Ok (TList [str "url:non_html"]), [Resolve d port]).
Proof. exact slurp_piece. Qed.
Print Assumptions C143_pictures_styles_and_scripts.

Theorem C143_everything_else_is_asked_for_once : forall is_digit is_word prefix tokenize net proto url c d port e,
  unknown_url c url -> names_host is_digit url d port -> n_resolves net d port = Ok true ->
  n_stored net (url_key is_word url) = Ok None -> last_piece url e -> e ∉ not_html_pieces ->
  let u := proto ++ str "://" ++ url in let l := [Resolve d port; Get u] in
  match n_get net u with
  | Raised x => slurp is_digit is_word prefix false tokenize net proto url c = (c, Err x, l)
  | Failed text =>
      (forall n, has_status is_digit text n -> slurp is_digit is_word prefix false tokenize net proto url c =
         (Caches (c_non_resolving c) (c_non_html c) (c_unknown c) (<[url := str "url:http_" ++ n]> (c_http c)), Ok (TList [str "url:http_" ++ n]), l)) /\
      ((forall n, ~ has_status is_digit text n) -> slurp is_digit is_word prefix false tokenize net proto url c =
         (Caches (c_non_resolving c) (c_non_html c) (c_unknown c ++ [url]) (c_http c), Ok (TList [str "url:unknown_error"]), l))
  | Page ct text =>
      (is_html ct -> slurp is_digit is_word prefix false tokenize net proto url c = (c, Err AttributeError, l)) /\
      (~ is_html ct -> slurp is_digit is_word prefix false tokenize net proto url c =
         (Caches (c_non_resolving c) (c_non_html c ++ [url]) (c_unknown c) (c_http c), Ok (TList [str "url:non_html"]), l))
  end.
Proof. exact slurp_get. Qed.
Print Assumptions C143_everything_else_is_asked_for_once.

Theorem C143_every_url_has_a_last_piece_and_one_host : forall is_digit url,
  (exists e, last_piece url e) /\ (forall e e', last_piece url e -> last_piece url e' -> e = e') /\
  (url = [] \/ (exists x r, url = x :: r /\ ends_host x) \/ exists d port, names_host is_digit url d port) /\
  (forall d port d' port', names_host is_digit url d port -> names_host is_digit url d' port' -> d = d' /\ port = port').
Proof. exact url_parts. Qed.
Print Assumptions C143_every_url_has_a_last_piece_and_one_host.

(** A host with a port, a picture, a status. *)
Example C143_case :
  unknown_url no_caches (str "x.example:80/pic.jpg") /\ names_host ascii_digit (str "x.example:80/pic.jpg") (str "x.example") (Some (str "80")) /\
  last_piece (str "x.example:80/pic.jpg") (str "jpg") /\ str "jpg" ∈ not_html_pieces /\
  last_piece (str "x.example/gone") (str "example/gone") /\ str "example/gone" ∉ not_html_pieces /\
  has_status ascii_digit (str "HTTP Error 404: Not Found") (str "404") /\
  slurp ascii_digit ascii_word (str "web:") false whole web (str "http") (str "x.example/gone") no_caches =
    (Caches [] [] [] {[str "x.example/gone" := str "url:http_404"]}, Ok (TList [str "url:http_404"]),
     [Resolve (str "x.example") None; Get (str "http://x.example/gone")]).
Proof. exact retrieve_cases. Qed.
