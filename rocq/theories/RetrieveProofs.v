(** * Lemmas for C143 *)
From Coq Require Import String.
From Verif Require Import Py NumModel ClassifierModel StripModel StripProofs FetchModel FetchProofs HeadSpec HeadFieldProofs RetrieveSpec.
Local Open Scope N_scope.

Lemma span_spec f s : s = (span f s).1 ++ (span f s).2 /\ Forall (fun c => f c = true) (span f s).1 /\
  forall c r, (span f s).2 = c :: r -> f c = false.
Proof.
  induction s as [|x s IH]; [split_and!; [done|constructor|done]|]. cbn [span]. destruct (f x) eqn:E.
  - destruct (span f s) as [a b]. cbn [fst snd] in *. destruct IH as (-> & H & H'). split_and!; [done|by constructor|done].
  - cbn. split_and!; [done|constructor|]. by intros c r [= <- <-].
Qed.
Lemma span_is f a b : Forall (fun c => f c = true) a -> (forall c r, b = c :: r -> f c = false) -> span f (a ++ b) = (a, b).
Proof.
  intros H Hb. induction H as [|x a Hx _ IH].
  - destruct b as [|c r]; [done|]. cbn. by rewrite (Hb c r eq_refl).
  - cbn. by rewrite Hx, IH.
Qed.

Section retrieve.
  Context (is_digit : N -> bool).

  Lemma host_char c : negb ((c =? 58) || (c =? 47) || (c =? 92)) = true <-> ~ ends_host c.
  Proof.
    unfold ends_host. rewrite negb_true_iff, !orb_false_iff, !N.eqb_neq. tauto.
  Qed.
  Lemma domain_spec url d port : domain_and_port is_digit url = Some (d, port) <-> names_host is_digit url d port.
  Proof.
    unfold domain_and_port. set (f := fun x => negb ((x =? 58) || (x =? 47) || (x =? 92))).
    assert (forall c, f c = false <-> ends_host c) as Hf.
    { intros c. unfold f, ends_host. rewrite negb_false_iff, !orb_true_iff, !N.eqb_eq. tauto. }
    split.
    - destruct (span_spec f url) as (E & Ha & Hb). destruct (span f url) as [a b]. cbn [fst snd] in *.
      assert (Forall (fun c => ~ ends_host c) a) as Ha'. { eapply Forall_impl; [exact Ha|]. intros c Hc. by apply host_char. }
      assert (b = [] \/ exists c r, b = c :: r /\ ends_host c) as Hb'.
      { destruct b as [|c r]; [by left|]. right. exists c, r. split; [done|]. apply Hf. by apply (Hb c r). }
      destruct a as [|x a]; [done|]. 
      assert (match b with 58 :: rest => match span is_digit rest with ([], _) => Some (x :: a, None) | (p, _) => Some (x :: a, Some p) end
              | _ => Some (x :: a, None) end = Some (d, port) -> names_host is_digit url d port) as Hgo; [|exact Hgo].
      intros H.
      assert ((exists s, b = 58 :: s) \/ ((forall s, b <> 58 :: s) /\ Some (x :: a, None) = Some (d, port))) as [[s ->]|[Hn H']].
      { destruct b as [|c r]; [right; by split|]. destruct (decide (c = 58)) as [->|Hc]; [left; by exists r|].
        right. split; [by intros s [= -> ->]|]. rewrite <- H. clear -Hc. destruct c as [|p]; [done|]. repeat (destruct p as [p|p|]; try done). }
      + cbn in H. destruct (span_spec is_digit s) as (Es & Hs & Hr). destruct (span is_digit s) as [n r]. cbn [fst snd] in *.
        destruct n as [|y n]; injection H as <- <-; exists (58 :: s); split_and!; try done.
        * intros s' [= <-]. intros c r' E'. cbn in Es. apply (Hr c r'). congruence.
        * exists s, r. split; [done|]. by split_and!.
      + injection H' as <- <-. exists b. split_and!; try done. intros s E'. by destruct (Hn s).
    - intros (rest & -> & Hd & Ha & Hb & Hp).
      rewrite (span_is f d rest).
      2: { eapply Forall_impl; [exact Ha|]. intros c Hc. by apply host_char. }
      2: { intros c r ->. apply Hf. destruct Hb as [?|(c' & r' & [= <- <-] & H)]; [done|exact H]. }
      destruct d as [|x d]; [done|].
      destruct port as [n|].
      + destruct Hp as (s & r & -> & -> & Hn & Hdig & Hr). rewrite (span_is is_digit n r); [by destruct n|done|done].
      + destruct Hb as [->|(c & r & -> & Hc)]; [done|]. destruct (decide (c = 58)) as [->|Hne].
        * pose proof (span_is is_digit [] r) as Hsp. cbn [app] in Hsp. rewrite Hsp; [done|constructor|]. exact (Hp r eq_refl).
        * destruct Hc as [->|[->| ->]]; done.
  Qed.
  Lemma no_domain url c r : url = c :: r -> ends_host c -> domain_and_port is_digit url = None.
  Proof. intros -> [->|[->| ->]]; done. Qed.

End retrieve.

Lemma last_unique a a' (e e' : codes) : 46 ∉ e -> 46 ∉ e' -> a ++ 46 :: e = a' ++ 46 :: e' -> e = e'.
Proof.
  intros H H'. revert a'. induction a as [|x a IH]; intros [|x' a'] E; cbn in E; simplify_eq.
  - done.
  - destruct H. apply elem_of_app. right. left.
  - destruct H'. apply elem_of_app. right. left.
  - by apply (IH a').
Qed.
Lemma last_piece_unique url e e' : last_piece url e -> last_piece url e' -> e = e'.
Proof.
  intros [H [->|[a ->]]] [H' [E|[a' E]]].
  - done.
  - destruct H. rewrite E. apply elem_of_app. right. left.
  - destruct H'. rewrite <- E. apply elem_of_app. right. left.
  - by eapply last_unique.
Qed.
Lemma joined_last ws : ws <> [] -> Forall (fun w => 46 ∉ w) ws -> last_piece (joined 46 ws) (List.last ws []).
Proof.
  intros Hne H. induction H as [|w ws Hw Hws IH]; [done|]. destruct ws as [|w' ws].
  - cbn. split; [done|by left].
  - destruct IH as [H1 H2]; [done|]. change (List.last (w :: w' :: ws) []) with (List.last (w' :: ws) []).
    change (joined 46 (w :: w' :: ws)) with (w ++ 46 :: joined 46 (w' :: ws)). split; [done|right].
    destruct H2 as [->|[a ->]]; [by exists w|]. exists (w ++ 46 :: a). by rewrite <- app_assoc.
Qed.
Lemma last_piece_spec url e : List.last (split_on (N.eqb 46) url) [] = e <-> last_piece url e.
Proof.
  assert (last_piece url (List.last (split_on (N.eqb 46) url) [])) as H1.
  { destruct (split_on_cut 46 url) as (Hne & Hw & E). rewrite <- E at 1. by apply joined_last. }
  split; [by intros <-|]. intros H. by eapply last_piece_unique.
Qed.

Lemma known_bad_none c url : url ∉ c_non_resolving c -> url ∉ c_non_html c -> url ∉ c_unknown c -> known_bad c url = None.
Proof. intros. unfold known_bad. by rewrite !decide_False. Qed.

Section retrieve.
  Context (is_digit is_word : N -> bool) (prefix : codes) (tokenize : codes -> gen).
  Notation slurp := (slurp is_digit is_word prefix false tokenize).

  Lemma http_error_spec text n : http_error is_digit text = Some n <-> has_status is_digit text n.
  Proof.
    unfold http_error. cbv zeta. set (p := str "HTTP Error "). split.
    - destruct (decide _) as [E|]; [|done]. intros H.
      pose proof (take_drop (length p) text) as Et. rewrite E in Et. set (s := drop (length p) text) in *.
      destruct (span_spec is_digit s) as (Es & Hs & Hr). destruct (span is_digit s) as [m r]. cbn [fst snd] in *.
      destruct m as [|y m]; [done|]. injection H as <-. exists s, r. split; [done|]. by split_and!.
    - intros (s & r & -> & -> & Hn & Hs & Hr). fold p. rewrite take_app, drop_app, decide_True by done.
      rewrite (span_is is_digit n r) by done. cbn. by destruct n.
  Qed.

  Lemma slurp_no_host net proto url c x r : unknown_url c url -> url = x :: r -> ends_host x -> slurp net proto url c = (c, Err AttributeError, []).
  Proof.
    intros (H1 & H2 & H3 & H4 & H5) E Hx. unfold FetchModel.slurp. rewrite decide_False, known_bad_none, H5 by done.
    by rewrite (no_domain _ url x r).
  Qed.
  Lemma slurp_resolve net proto url c d port : unknown_url c url -> names_host is_digit url d port ->
    (forall e, n_resolves net d port = Err e -> slurp net proto url c = (c, Err e, [Resolve d port])) /\
    (n_resolves net d port = Ok false -> slurp net proto url c =
       (Caches (c_non_resolving c ++ [url]) (c_non_html c) (c_unknown c) (c_http c), Ok (TList [str "url:non_resolving"]), [Resolve d port])).
  Proof.
    intros (H1 & H2 & H3 & H4 & H5) Hd%domain_spec. unfold FetchModel.slurp. rewrite decide_False, known_bad_none, H5, Hd by done.
    split; [intros e ->|intros ->]; done.
  Qed.
  Lemma slurp_piece net proto url c d port e : unknown_url c url -> names_host is_digit url d port -> n_resolves net d port = Ok true ->
    n_stored net (url_key is_word url) = Ok None -> last_piece url e -> e ∈ not_html_pieces ->
    slurp net proto url c = (Caches (c_non_resolving c) (c_non_html c ++ [url]) (c_unknown c) (c_http c), Ok (TList [str "url:non_html"]), [Resolve d port]).
  Proof.
    intros (H1 & H2 & H3 & H4 & H5) Hd%domain_spec Hr Hs He%last_piece_spec Hin. unfold FetchModel.slurp. rewrite decide_False, known_bad_none, H5, Hd, Hr, Hs by done.
    unfold retrieve. rewrite decide_True; [done|]. rewrite He. exact Hin.
  Qed.
  Lemma slurp_get net proto url c d port e : unknown_url c url -> names_host is_digit url d port -> n_resolves net d port = Ok true ->
    n_stored net (url_key is_word url) = Ok None -> last_piece url e -> e ∉ not_html_pieces ->
    let u := proto ++ str "://" ++ url in let l := [Resolve d port; Get u] in
    match n_get net u with
    | Raised x => slurp net proto url c = (c, Err x, l)
    | Failed text =>
        (forall n, has_status is_digit text n -> slurp net proto url c =
           (Caches (c_non_resolving c) (c_non_html c) (c_unknown c) (<[url := str "url:http_" ++ n]> (c_http c)), Ok (TList [str "url:http_" ++ n]), l)) /\
        ((forall n, ~ has_status is_digit text n) -> slurp net proto url c =
           (Caches (c_non_resolving c) (c_non_html c) (c_unknown c ++ [url]) (c_http c), Ok (TList [str "url:unknown_error"]), l))
    | Page ct text =>
        (is_html ct -> slurp net proto url c = (c, Err AttributeError, l)) /\
        (~ is_html ct -> slurp net proto url c =
           (Caches (c_non_resolving c) (c_non_html c ++ [url]) (c_unknown c) (c_http c), Ok (TList [str "url:non_html"]), l))
    end.
  Proof.
    intros (H1 & H2 & H3 & H4 & H5) Hd%domain_spec Hr Hs He%last_piece_spec Hin u l. unfold FetchModel.slurp. rewrite decide_False, known_bad_none, H5, Hd, Hr, Hs by done.
    unfold retrieve. rewrite decide_False by (by rewrite He). cbv zeta. fold u.
    destruct (n_get net u) as [text|x|ct text]; [split| |split].
    - intros n Hn%http_error_spec. by rewrite Hn.
    - intros Hn. destruct (http_error is_digit text) as [n|] eqn:E; [|done]. apply http_error_spec in E. by destruct (Hn n).
    - done.
    - intros [r ->]. rewrite take_app, bool_decide_eq_true_2 by done. done.
    - intros Hh. destruct ct as [t|]; [|done]. rewrite bool_decide_eq_false_2; [done|]. intros E. apply Hh.
      exists (drop (length (str "text/html")) t). f_equal. rewrite <- E at 1. by rewrite take_drop.
  Qed.
End retrieve.

Lemma slurp_empty is_digit is_word prefix only_base tokenize net proto c :
  slurp is_digit is_word prefix only_base tokenize net proto [] c = (c, Ok (TList [str "url:non_resolving"]), []).
Proof. done. Qed.
Lemma slurp_base is_digit is_word prefix tokenize net proto (url : codes) c : url <> [] ->
  slurp is_digit is_word prefix true tokenize net proto url c = (c, Err TypeError, []).
Proof. intros H. unfold slurp. by rewrite decide_False. Qed.

Lemma url_parts is_digit url :
  (exists e, last_piece url e) /\ (forall e e', last_piece url e -> last_piece url e' -> e = e') /\
  (url = [] \/ (exists x r, url = x :: r /\ ends_host x) \/ exists d port, names_host is_digit url d port) /\
  (forall d port d' port', names_host is_digit url d port -> names_host is_digit url d' port' -> d = d' /\ port = port').
Proof.
  split_and!.
  - eexists. by apply last_piece_spec.
  - apply last_piece_unique.
  - destruct url as [|x r]; [by left|]. right. destruct (domain_and_port is_digit (x :: r)) as [[d port]|] eqn:E.
    + right. exists d, port. by apply domain_spec.
    + left. exists x, r. split; [done|]. unfold domain_and_port in E. cbn [span] in E.
      destruct (negb _) eqn:Ef.
      * destruct (span _ r) as [a b]. exfalso.
        destruct b as [|y b]; [done|]. destruct (decide (y = 58)) as [->|Hy].
        -- by destruct (span is_digit b) as [[|? ?] ?].
        -- clear -E Hy. destruct y as [|p]; [done|]. repeat (destruct p as [p|p|]; try done).
      * unfold ends_host. rewrite negb_false_iff, !orb_true_iff, !N.eqb_eq in Ef. tauto.
  - intros d port d' port' H%domain_spec H'%domain_spec. rewrite H in H'. by injection H' as -> ->.
Qed.

From Verif Require Import FetchCases.
Lemma retrieve_cases :
  unknown_url no_caches (str "x.example:80/pic.jpg") /\ names_host ascii_digit (str "x.example:80/pic.jpg") (str "x.example") (Some (str "80")) /\
  last_piece (str "x.example:80/pic.jpg") (str "jpg") /\ str "jpg" ∈ not_html_pieces /\
  last_piece (str "x.example/gone") (str "example/gone") /\ str "example/gone" ∉ not_html_pieces /\
  has_status ascii_digit (str "HTTP Error 404: Not Found") (str "404") /\
  slurp ascii_digit ascii_word (str "web:") false whole web (str "http") (str "x.example/gone") no_caches =
    (Caches [] [] [] {[str "x.example/gone" := str "url:http_404"]}, Ok (TList [str "url:http_404"]),
     [Resolve (str "x.example") None; Get (str "http://x.example/gone")]).
Proof.
  split_and!.
  - split_and!; [done|by apply not_elem_of_nil..|done].
  - apply domain_spec. by vm_compute.
  - apply last_piece_spec. by vm_compute.
  - apply (bool_decide_unpack _). by vm_compute.
  - apply last_piece_spec. by vm_compute.
  - apply (bool_decide_unpack _). by vm_compute.
  - apply http_error_spec. by vm_compute.
  - by vm_compute.
Qed.
