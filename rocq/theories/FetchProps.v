(** * Properties C98 - C100: retrieving the page of a URL *)
From Coq Require Import String.
From Verif Require Import Py NumModel ClassifierModel StripModel FetchModel FetchProofs FetchCases.

(** ** C98 *)
Theorem C98_failed_url_is_not_tried_again :
  forall is_digit is_word prefix only_base tokenize,
  (forall text w, w ∈ (tokenize text).1 -> exists b, w = WBytes b) ->
  forall xs c i j net proto net' proto' u err l,
  err ∈ [str "url:non_resolving"; str "url:non_html"; str "url:unknown_error"] -> i < j ->
  xs !! i = Some (net, proto, u) -> xs !! j = Some (net', proto', u) ->
  (slurps is_digit is_word prefix only_base tokenize xs c).2 !! i = Some (Ok (TList [err]), l) ->
  (slurps is_digit is_word prefix only_base tokenize xs c).2 !! j = Some (Ok (TList [err]), []).
Proof. exact failure_remembered. Qed.
Print Assumptions C98_failed_url_is_not_tried_again.

Example C98_case : (forall text w, w ∈ (whole text).1 -> exists b, w = WBytes b) /\
  (slurps ascii_digit ascii_word (str "web:") false whole surf no_caches).2 !! 0 =
    Some (Ok (TList [str "url:non_resolving"]), [Resolve (str "dead.example") None]) /\
  (slurps ascii_digit ascii_word (str "web:") false whole surf no_caches).2 !! 9 = Some (Ok (TList [str "url:non_resolving"]), []).
Proof. split; [exact whole_bytes|]. vm_compute. split; reflexivity. Qed.

(** ** C99 *)
Theorem C99_http_error_is_answered_with_a_text :
  forall is_digit is_word prefix only_base tokenize,
  (forall text w, w ∈ (tokenize text).1 -> exists b, w = WBytes b) ->
  forall xs c i j net proto net' proto' u n l,
  is_digit 39%N = false -> is_digit 34%N = false -> forallb is_digit n = true -> i < j ->
  xs !! i = Some (net, proto, u) -> xs !! j = Some (net', proto', u) ->
  (slurps is_digit is_word prefix only_base tokenize xs c).2 !! i = Some (Ok (TList [str "url:http_" ++ n]), l) ->
  (slurps is_digit is_word prefix only_base tokenize xs c).2 !! j = Some (Ok (TText (str "url:http_" ++ n)), []).
Proof. exact http_error_remembered. Qed.
Print Assumptions C99_http_error_is_answered_with_a_text.

Theorem C99_same_answer_for_the_same_url_refuted :
  ~ forall is_digit is_word prefix only_base tokenize xs c i j net proto u,
  (forall text w, w ∈ (tokenize text).1 -> exists b, w = WBytes b) ->
  xs !! i = Some (net, proto, u) -> xs !! j = Some (net, proto, u) ->
  fst <$> (slurps is_digit is_word prefix only_base tokenize xs c).2 !! i =
  fst <$> (slurps is_digit is_word prefix only_base tokenize xs c).2 !! j.
Proof. exact answers_differ. Qed.
Print Assumptions C99_same_answer_for_the_same_url_refuted.

Example C99_case : forallb ascii_digit (str "404") = true /\
  fst <$> (slurps ascii_digit ascii_word (str "web:") false whole surf no_caches).2 !! 1 = Some (Ok (TList [str "url:http_" ++ str "404"])) /\
  (slurps ascii_digit ascii_word (str "web:") false whole surf no_caches).2 !! 10 = Some (Ok (TText (str "url:http_404")), []).
Proof. vm_compute. repeat split; reflexivity. Qed.

(** ** C100 *)
Theorem C100_tokens_of_stored_pages_only :
  forall is_digit is_word prefix only_base tokenize net proto url c ts,
  (slurp is_digit is_word prefix only_base tokenize net proto url c).1.2 = Ok (TList ts) ->
  (exists err, ts = [err] /\ (err ∈ [str "url:non_resolving"; str "url:non_html"; str "url:unknown_error"] \/ exists n, err = str "url:http_" ++ n)) \/
  exists text ws, n_stored net (url_key is_word url) = Ok (Some text) /\ tokenize text = (ws, None) /\
                  ts = (fun w => prefix ++ pystr w) <$> ws.
Proof. exact tokens_come_from_stored_pages. Qed.
Print Assumptions C100_tokens_of_stored_pages_only.

Theorem C100_retrieved_page_raises_and_is_not_stored :
  forall is_digit is_word prefix only_base tokenize net proto (url : codes) c d port ct text,
  url <> [] -> only_base = false -> known_bad c url = None -> c_http c !! url = None ->
  domain_and_port is_digit url = Some (d, port) -> n_resolves net d port = Ok true ->
  n_stored net (url_key is_word url) = Ok None -> List.last (split_on (N.eqb 46) url) [] ∉ skipped ->
  n_get net (proto ++ str "://" ++ url) = Page (Some (str "text/html" ++ ct)) text ->
  slurp is_digit is_word prefix only_base tokenize net proto url c =
    (c, Err AttributeError, [Resolve d port; Get (proto ++ str "://" ++ url)]).
Proof. exact html_is_not_stored. Qed.
Print Assumptions C100_retrieved_page_raises_and_is_not_stored.

Theorem C100_urls_with_one_key_share_a_page :
  forall is_digit is_word prefix only_base tokenize net proto proto' (url url' : codes) c c' d port d' port' text,
  url_key is_word url = url_key is_word url' -> n_stored net (url_key is_word url) = Ok (Some text) -> only_base = false ->
  url <> [] -> known_bad c url = None -> c_http c !! url = None ->
  domain_and_port is_digit url = Some (d, port) -> n_resolves net d port = Ok true ->
  url' <> [] -> known_bad c' url' = None -> c_http c' !! url' = None ->
  domain_and_port is_digit url' = Some (d', port') -> n_resolves net d' port' = Ok true ->
  (slurp is_digit is_word prefix only_base tokenize net proto url c).1.2 = page_tokens prefix tokenize text /\
  (slurp is_digit is_word prefix only_base tokenize net proto' url' c').1.2 = page_tokens prefix tokenize text.
Proof. exact same_key_same_tokens. Qed.
Print Assumptions C100_urls_with_one_key_share_a_page.

(** Which URLs have one key: those that differ only in characters that are no word characters (or _) *)
Theorem C100_which_urls_have_one_key : forall is_word (url url' : codes),
  url_key is_word url = url_key is_word url' <->
  Forall2 (fun a b => a = b \/ (is_word a = false \/ a = 95%N) /\ (is_word b = false \/ b = 95%N)) url url'.
Proof. exact one_key. Qed.
Print Assumptions C100_which_urls_have_one_key.

Example C100_case : url_key ascii_word (str "a.b.example") = url_key ascii_word (str "a-b.example") /\
  n_stored web (url_key ascii_word (str "a.b.example")) = Ok (Some (str "stored")) /\
  domain_and_port ascii_digit (str "x.example/page") = Some (str "x.example", None) /\
  n_get web (str "http" ++ str "://" ++ str "x.example/page") = Page (Some (str "text/html" ++ str "; charset=ascii")) (str "hi") /\
  fst <$> (slurps ascii_digit ascii_word (str "web:") false whole surf no_caches).2 !! 5 = Some (Err AttributeError) /\
  fst <$> (slurps ascii_digit ascii_word (str "web:") false whole surf no_caches).2 !! 7 = Some (Ok (TList [str "web:b'stored'"])).
Proof. vm_compute. repeat split; reflexivity. Qed.
