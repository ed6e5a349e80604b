(** * Concrete calls of slurp *)
From Coq Require Import String.
From Verif Require Import Py NumModel ClassifierModel StripModel TokenModel FetchModel FetchProofs.

Definition ascii_digit (x : N) : bool := (48 <=? x)%N && (x <=? 57)%N.
Definition ascii_word (x : N) : bool :=
  ascii_digit x || ((65 <=? x)%N && (x <=? 90)%N) || ((97 <=? x)%N && (x <=? 122)%N) || (x =? 95)%N.
Definition whole (text : codes) : gen := ([WBytes text], None).

(** Everything resolves but dead.example; the page of one key is stored. *)
Definition web : network := Network
  (fun d _ => Ok (negb (bool_decide (d = str "dead.example"))))
  (fun k => Ok (if decide (k = str "a_b_example") then Some (str "stored") else None))
  (fun u => if decide (u = str "http://x.example/gone") then Failed (str "HTTP Error 404: Not Found")
            else if decide (u = str "http://x.example/page") then Page (Some (str "text/html; charset=ascii")) (str "hi")
            else if decide (u = str "http://x.example/doc") then Page (Some (str "text/plain")) (str "hi")
            else Failed (str "refused")).
(** Later nothing answers. *)
Definition dark : network := Network (fun _ _ => Ok false) (fun _ => Ok None) (fun _ => Raised AttributeError).

Definition visit (net : network) (u : string) : network * codes * codes := (net, str "http", str u).
Definition surf : list (network * codes * codes) :=
  [visit web "dead.example"; visit web "x.example/gone"; visit web "x.example/doc"; visit web "x.example/pic.jpg";
   visit web "y.example:80"; visit web "x.example/page"; visit web "a.b.example"; visit web "a-b.example"; visit web ":1";
   visit dark "dead.example"; visit dark "x.example/gone"; visit dark "x.example/doc"; visit dark "x.example/pic.jpg";
   visit dark "y.example:80"; visit dark "a-b.example"].

Lemma surf_results : fst <$> (slurps ascii_digit ascii_word (str "web:") false whole surf no_caches).2 =
  [Ok (TList [str "url:non_resolving"]); Ok (TList [str "url:http_404"]); Ok (TList [str "url:non_html"]); Ok (TList [str "url:non_html"]);
   Ok (TList [str "url:unknown_error"]); Err AttributeError; Ok (TList [str "web:b'stored'"]); Ok (TList [str "web:b'stored'"]); Err AttributeError;
   Ok (TList [str "url:non_resolving"]); Ok (TText (str "url:http_404")); Ok (TList [str "url:non_html"]); Ok (TList [str "url:non_html"]);
   Ok (TList [str "url:unknown_error"]); Ok (TList [str "url:non_resolving"])].
Proof. vm_compute. reflexivity. Qed.

Lemma surf_accesses : snd <$> drop 9 (slurps ascii_digit ascii_word (str "web:") false whole surf no_caches).2 =
  [[]; []; []; []; []; [Resolve (str "a-b.example") None]].
Proof. vm_compute. reflexivity. Qed.

Lemma whole_bytes text w : w ∈ (whole text).1 -> exists b, w = WBytes b.
Proof. simpl. rewrite elem_of_list_singleton. intros ->. by exists text. Qed.

Lemma answers_differ : ~ forall is_digit is_word prefix only_base tokenize xs c i j net proto u,
  (forall text w, w ∈ (tokenize text).1 -> exists b, w = WBytes b) ->
  xs !! i = Some (net, proto, u) -> xs !! j = Some (net, proto, u) ->
  fst <$> (slurps is_digit is_word prefix only_base tokenize xs c).2 !! i = fst <$> (slurps is_digit is_word prefix only_base tokenize xs c).2 !! j.
Proof.
  intros H. specialize (H ascii_digit ascii_word [] false whole [visit web "x.example/gone"; visit web "x.example/gone"] no_caches 0 1
    web (str "http") (str "x.example/gone") whole_bytes eq_refl eq_refl). by vm_compute in H.
Qed.
