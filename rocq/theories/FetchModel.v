(** * Retrieving the page of a URL: slurping.py:266-360
    C64 shows that learning and scoring never get here; the method can be called
    directly.  The network and the corpus of stored pages are arbitrary functions,
    others for every call; tokenizing the text of a page is a parameter, as are the
    digits and word characters of Unicode. *)
From Coq Require Import String.
From Verif Require Import Py NumModel ClassifierModel StripModel.

(** What requests.get gives: a RequestException, by its text, another
    exception, or a page: the content-type header and the text of headers and
    body, slurping.py:328-345 *)
Inductive response := Failed (text : codes) | Raised (e : exn) | Page (content_type : option codes) (text : codes).

(** The surroundings during one call: whether a name resolves (false is an
    OSError; other exceptions, such as UnicodeError, are not caught), the page
    stored under a key (get of urlCorpus and as_string), requests.get;
    slurping.py:303, 311 and 353, 328 *)
Record network := Network {
  n_resolves : codes -> option codes -> res bool;
  n_stored : codes -> res (option codes);
  n_get : codes -> response
}.

(** What a call asks of the network, slurping.py:303, 328 *)
Inductive access := Resolve (domain : codes) (port : option codes) | Get (url : codes).

(** What a call returns: a list of tokens, or a text, slurping.py:283, 293 *)
Inductive tokens := TList (ts : list codes) | TText (t : codes).

(** The attributes bad_urls, a dictionary with these three keys in this order
    (slurping.py:243-245), and http_error_urls (slurping.py:255). *)
Record caches := Caches {
  c_non_resolving : list codes;
  c_non_html : list codes;
  c_unknown : list codes;
  c_http : gmap codes codes
}.

(** slurping.py:243-245, 255 *)
Definition no_caches : caches := Caches [] [] [] ∅.

(** The keys of bad_urls, slurping.py:243-245 *)
Definition url_non_resolving : codes := str "url:non_resolving".
(** slurping.py:244 *)
Definition url_non_html : codes := str "url:non_html".
(** slurping.py:245 *)
Definition url_unknown_error : codes := str "url:unknown_error".
(** slurping.py:333 *)
Definition url_http : codes := str "url:http_".

(** slurping.py:289-291, the loop over bad_urls *)
Definition known_bad (c : caches) (url : codes) : option codes :=
  if decide (url ∈ c_non_resolving c) then Some url_non_resolving
  else if decide (url ∈ c_non_html c) then Some url_non_html
  else if decide (url ∈ c_unknown c) then Some url_unknown_error
  else None.

Section fetch.
  Context (is_digit is_word : N -> bool).
  (** X_WEB_PREFIX (slurping.py:98) and X_ONLY_SLURP_BASE (slurping.py:92) *)
  Context (prefix : codes) (only_base : bool).
  (** The tokens of a page, slurping.py:355-358 *)
  Context (tokenize : codes -> gen).

  (** The longest prefix of characters with a property; the repetitions of
      slurping.py:28-29 *)
  Fixpoint span (f : N -> bool) (s : codes) : codes * codes :=
    match s with
    | [] => ([], [])
    | x :: s => if f x then let '(a, b) := span f s in (x :: a, b) else ([], x :: s)
    end.

  (** slurping.py:28, DOMAIN_AND_PORT_RE.match: the groups 1 and 3 *)
  Definition domain_and_port (url : codes) : option (codes * option codes) :=
    match span (fun x => negb ((x =? 58)%N || (x =? 47)%N || (x =? 92)%N)) url with
    | ([], _) => None
    | (d, 58%N :: rest) => match span is_digit rest with
                           | ([], _) => Some (d, None)
                           | (port, _) => Some (d, Some port)
                           end
    | (d, _) => Some (d, None)
    end.

  (** slurping.py:29, HTTP_ERROR_RE.match: group 1 *)
  Definition http_error (text : codes) : option codes :=
    let p := str "HTTP Error " in
    if decide (take (length p) text = p)
    then match (span is_digit (drop (length p) text)).1 with [] => None | n => Some n end
    else None.

  (** slurping.py:30 and 310 *)
  Definition url_key (url : codes) : codes := (fun x => if is_word x then x else 95%N) <$> url.

  (** slurping.py:318, the extensions of what is not retrieved *)
  Definition skipped : list codes := [str "jpg"; str "gif"; str "png"; str "css"; str "js"].

  (** slurping.py:355-360: the tokens are bytes and are formatted by their repr *)
  Definition page_tokens (text : codes) : res tokens :=
    match tokenize text with
    | (_, Some e) => Err e
    | (ws, None) => Ok (TList ((fun w => prefix ++ pystr w) <$> ws))
    end.

  (** slurping.py:314-351, a page that is not stored *)
  Definition retrieve (net : network) (proto url : codes) (c : caches) : caches * res tokens * list access :=
    if decide (List.last (split_on (N.eqb 46) url) [] ∈ skipped)
    then (Caches (c_non_resolving c) (c_non_html c ++ [url]) (c_unknown c) (c_http c), Ok (TList [url_non_html]), [])
    else
      let u := proto ++ str "://" ++ url in
      match n_get net u with
      | Failed text =>
          match http_error text with
          | Some n => (Caches (c_non_resolving c) (c_non_html c) (c_unknown c) (<[url := url_http ++ n]> (c_http c)),
                       Ok (TList [url_http ++ n]), [Get u])
          | None => (Caches (c_non_resolving c) (c_non_html c) (c_unknown c ++ [url]) (c_http c),
                     Ok (TList [url_unknown_error]), [Get u])
          end
      | Raised e => (c, Err e, [Get u])
      | Page ct text =>
          let html := str "text/html" in
          if match ct with None => true | Some t => negb (bool_decide (take (length html) t = html)) end
          then (Caches (c_non_resolving c) (c_non_html c ++ [url]) (c_unknown c) (c_http c), Ok (TList [url_non_html]), [Get u])
          else (c, Err AttributeError, [Get u])  (* line 349: no corpus has the method makeMessage *)
      end.

  (** slurping.py:266-360, slurp *)
  Definition slurp (net : network) (proto url : codes) (c : caches) : caches * res tokens * list access :=
    if decide (url = []) then (c, Ok (TList [url_non_resolving]), [])
    else if only_base then (c, Err TypeError, [])  (* line 286: base_url takes two arguments *)
    else match known_bad c url with
    | Some err => (c, Ok (TList [err]), [])
    | None =>
      match c_http c !! url with
      | Some t => (c, Ok (TText t), [])
      | None =>
        match domain_and_port url with
        | None => (c, Err AttributeError, [])  (* line 297: None has no group *)
        | Some (d, port) =>
          match n_resolves net d port with
          | Err e => (c, Err e, [Resolve d port])
          | Ok false => (Caches (c_non_resolving c ++ [url]) (c_non_html c) (c_unknown c) (c_http c),
                         Ok (TList [url_non_resolving]), [Resolve d port])
          | Ok true =>
            match n_stored net (url_key url) with
            | Err e => (c, Err e, [Resolve d port])
            | Ok (Some text) => (c, page_tokens text, [Resolve d port])
            | Ok None => let '(c, r, l) := retrieve net proto url c in (c, r, Resolve d port :: l)
            end
          end
        end
      end
    end.

  (** Several calls, each with the network of its time, slurping.py:266 *)
  Fixpoint slurps (xs : list (network * codes * codes)) (c : caches) : caches * list (res tokens * list access) :=
    match xs with
    | [] => (c, [])
    | (net, proto, url) :: xs =>
        let '(c, r, l) := slurp net proto url c in
        let '(c, ys) := slurps xs c in (c, (r, l) :: ys)
    end.
End fetch.
