(** * Proofs about retrieving pages *)
From Coq Require Import String Lia.
From Verif Require Import Py NumModel ClassifierModel StripModel FetchModel.

Section fetch.
  Context (is_digit is_word : N -> bool) (prefix : codes) (only_base : bool) (tokenize : codes -> gen).
  Notation slurp := (slurp is_digit is_word prefix only_base tokenize).
  Notation slurps := (slurps is_digit is_word prefix only_base tokenize).
  Notation retrieve := (retrieve is_digit).

  (** ** What a call does to the caches *)

  Inductive step (url : codes) (c : caches) : res tokens -> caches -> Prop :=
    | step_same r : step url c r c
    | step_non_resolving : step url c (Ok (TList [url_non_resolving]))
        (Caches (c_non_resolving c ++ [url]) (c_non_html c) (c_unknown c) (c_http c))
    | step_non_html : step url c (Ok (TList [url_non_html]))
        (Caches (c_non_resolving c) (c_non_html c ++ [url]) (c_unknown c) (c_http c))
    | step_unknown : step url c (Ok (TList [url_unknown_error]))
        (Caches (c_non_resolving c) (c_non_html c) (c_unknown c ++ [url]) (c_http c))
    | step_http n : step url c (Ok (TList [url_http ++ n]))
        (Caches (c_non_resolving c) (c_non_html c) (c_unknown c) (<[url := url_http ++ n]> (c_http c))).

  Lemma retrieve_step net proto url c : let '(c', r, _) := retrieve net proto url c in step url c r c'.
  Proof.
    unfold FetchModel.retrieve. destruct (decide _) as [|Hsk]; [constructor|]. destruct (n_get net _) as [text|e|ct text]; [|constructor|].
    - destruct (http_error is_digit text); constructor.
    - destruct (match ct with None => true | _ => _ end); constructor.
  Qed.

  (** What a call returns and leaves, when the URL is not known yet *)
  Inductive fresh_outcome (net : network) (url : codes) (c : caches) : res tokens -> caches -> Prop :=
    | fresh_exn e : fresh_outcome net url c (Err e) c
    | fresh_page text : n_stored net (url_key is_word url) = Ok (Some text) ->
        fresh_outcome net url c (page_tokens prefix tokenize text) c
    | fresh_step r c' : step url c r c' -> c' <> c -> fresh_outcome net url c r c'.

  Lemma app_ne (l : list codes) x : l ++ [x] <> l.
  Proof. intros E. apply (f_equal length) in E. rewrite app_length in E. simpl in E. lia. Qed.

  Lemma retrieve_fresh net proto url c : c_http c !! url = None -> let '(c', r, _) := retrieve net proto url c in fresh_outcome net url c r c'.
  Proof.
    intros Hh. unfold FetchModel.retrieve. destruct c as [l1 l2 l3 h]; simpl in *.
    assert (forall t, <[url := t]> h <> h) as Hne by (intros t E; rewrite <- E, lookup_insert in Hh; done).
    assert (fresh_outcome net url (Caches l1 l2 l3 h) (Ok (TList [url_non_html])) (Caches l1 (l2 ++ [url]) l3 h)) as Hnh.
    { apply fresh_step; [exact (step_non_html url (Caches l1 l2 l3 h))|]. intros [= E]. by apply app_ne in E. }
    destruct (decide _) as [|Hsk]; [done|]. destruct (n_get net _) as [text|e|ct text]; [|constructor|].
    - destruct (http_error is_digit text) as [n|].
      + apply fresh_step; [exact (step_http url (Caches l1 l2 l3 h) n)|]. intros [= E]. by apply Hne in E.
      + apply fresh_step; [exact (step_unknown url (Caches l1 l2 l3 h))|]. intros [= E]. by apply app_ne in E.
    - destruct (match ct with None => true | _ => _ end); [done|constructor].
  Qed.

  Inductive outcome (net : network) (url : codes) (c : caches) : res tokens -> caches -> Prop :=
    | out_empty : url = [] -> outcome net url c (Ok (TList [url_non_resolving])) c
    | out_base : url <> [] -> only_base = true -> outcome net url c (Err TypeError) c
    | out_bad err : url <> [] -> only_base = false -> known_bad c url = Some err -> outcome net url c (Ok (TList [err])) c
    | out_http t : url <> [] -> only_base = false -> known_bad c url = None -> c_http c !! url = Some t -> outcome net url c (Ok (TText t)) c
    | out_fresh r c' : url <> [] -> only_base = false -> known_bad c url = None -> c_http c !! url = None ->
        fresh_outcome net url c r c' -> outcome net url c r c'.

  Lemma slurp_outcome net proto url c : let '(c', r, _) := slurp net proto url c in outcome net url c r c'.
  Proof.
    unfold FetchModel.slurp. destruct (decide (url = [])) as [|Hne]; [by apply out_empty|].
    destruct only_base eqn:E; [by apply out_base|].
    destruct (known_bad c url) as [err|] eqn:Hb; [by apply out_bad|].
    destruct (c_http c !! url) as [t|] eqn:Hh; [by apply out_http|].
    destruct (domain_and_port is_digit url) as [[d port]|]; [|by apply out_fresh; [..|constructor]].
    destruct (n_resolves net d port) as [[]|e]; [| |by apply out_fresh; [..|constructor]].
    - destruct (n_stored net (url_key is_word url)) as [[text|]|e] eqn:Hst; [|..|by apply out_fresh; [..|constructor]].
      + apply out_fresh; try done. by apply fresh_page.
      + pose proof (retrieve_fresh net proto url c Hh) as HF. destruct (retrieve net proto url c) as [[c' r] l].
        by apply out_fresh.
    - apply out_fresh; try done. apply fresh_step; [constructor|]. destruct c. intros [= H]. by apply app_ne in H.
  Qed.

  (** ** Known URLs stay known *)

  Lemma known_bad_other url u c r c' : u <> url -> step url c r c' -> known_bad c' u = known_bad c u.
  Proof.
    intros Hne Hs. destruct c as [l1 l2 l3 h].
    assert (forall l : list codes, u ∈ l ++ [url] <-> u ∈ l) as Hl by (intros l; rewrite elem_of_app, elem_of_list_singleton; naive_solver).
    unfold known_bad. destruct Hs; simpl; try done; repeat destruct (decide _); try done; exfalso; set_solver.
  Qed.

  Lemma http_other url u c r c' : u <> url -> step url c r c' -> c_http c' !! u = c_http c !! u.
  Proof. intros Hne Hs. destruct Hs; simpl; try done. by rewrite lookup_insert_ne. Qed.

  Lemma outcome_step net url c r c' : outcome net url c r c' -> step url c r c'.
  Proof. destruct 1 as [| | | |? ? ? ? ? ? H]; try constructor. destruct H; try constructor. done. Qed.

  Definition bad (u err : codes) (c : caches) : Prop := known_bad c u = Some err.
  Definition http (u t : codes) (c : caches) : Prop := known_bad c u = None /\ c_http c !! u = Some t.

  Lemma bad_kept u err net proto url c : bad u err c -> bad u err (slurp net proto url c).1.1.
  Proof.
    intros H. pose proof (slurp_outcome net proto url c) as HO. destruct (slurp net proto url c) as [[c' r] l]. simpl.
    destruct (decide (u = url)) as [->|Hne].
    - unfold bad in *. destruct HO; congruence.
    - unfold bad. rewrite (known_bad_other url u c r c'); [done..|by eapply outcome_step].
  Qed.

  Lemma http_kept u t net proto url c : http u t c -> http u t (slurp net proto url c).1.1.
  Proof.
    intros H. pose proof (slurp_outcome net proto url c) as HO. destruct (slurp net proto url c) as [[c' r] l]. simpl.
    destruct (decide (u = url)) as [->|Hne].
    - destruct H as [H1 H2]. destruct HO; try done; congruence.
    - unfold http. rewrite (known_bad_other url u c r c'), (http_other url u c r c'); [done..|by eapply outcome_step|done|by eapply outcome_step].
  Qed.

  Lemma later (Q : caches -> Prop) u out :
    (forall net proto url c, Q c -> Q (slurp net proto url c).1.1) ->
    (forall net proto c, Q c -> (slurp net proto u c).1.2 = out /\ (slurp net proto u c).2 = []) ->
    forall xs c j net proto, Q c -> xs !! j = Some (net, proto, u) -> (slurps xs c).2 !! j = Some (out, []).
  Proof.
    intros HQ HO. induction xs as [|[[net1 proto1] url1] xs IH]; intros c j net proto Hc Hj; [done|]. cbn [FetchModel.slurps].
    pose proof (HQ net1 proto1 url1 c Hc) as Hc'.
    destruct j as [|j]; simpl in Hj.
    - injection Hj as -> -> ->. destruct (HO net proto c Hc) as [H1 H2].
      destruct (slurp net proto u c) as [[c' r] l]. simpl in H1, H2. subst. by destruct (slurps xs c').
    - destruct (slurp net1 proto1 url1 c) as [[c' r] l]. simpl in Hc'. specialize (IH c' j net proto Hc' Hj).
      by destruct (slurps xs c').
  Qed.

  Lemma split_history xs : forall c i net proto u r l, xs !! i = Some (net, proto, u) -> (slurps xs c).2 !! i = Some (r, l) ->
    exists c1, (slurp net proto u c1).1.2 = r /\
      forall j, i < j -> (slurps xs c).2 !! j = (slurps (drop (S i) xs) (slurp net proto u c1).1.1).2 !! (j - S i) .
  Proof.
    induction xs as [|[[net1 proto1] url1] xs IH]; intros c i net proto u r l Hi Hr; [done|]. cbn [FetchModel.slurps] in *.
    destruct i as [|i]; simpl in Hi.
    - injection Hi as -> -> ->. exists c. destruct (slurp net proto u c) as [[c' r'] l'] eqn:E.
      destruct (slurps xs c') as [c2 ys] eqn:E2. simpl in Hr. injection Hr as -> ->. simpl. rewrite drop_0.
      split; [done|]. intros [|j] Hj; [lia|]. rewrite E2. simpl. by rewrite Nat.sub_0_r.
    - destruct (slurp net1 proto1 url1 c) as [[c' r'] l']. destruct (slurps xs c') as [c2 ys] eqn:E2. simpl in Hr.
      destruct (IH c' i net proto u r l Hi) as (c1 & H1 & H2); [by rewrite E2|]. exists c1. split; [done|].
      intros [|j] Hj; [lia|]. rewrite E2 in H2. simpl. apply H2. lia.
  Qed.

  (** ** Tokens of pages contain a quotation mark *)

  Context (Hbytes : forall text w, w ∈ (tokenize text).1 -> exists b, w = WBytes b).

  Definition quoted (t : codes) : Prop := 39%N ∈ t \/ 34%N ∈ t.

  Lemma page_quoted text ts t : page_tokens prefix tokenize text = Ok (TList ts) -> t ∈ ts -> quoted t.
  Proof.
    unfold page_tokens. pose proof (Hbytes text) as HB. destruct (tokenize text) as [ws [e|]]; [done|]. intros [= <-].
    intros (w & -> & Hw)%elem_of_list_fmap. destruct (HB w Hw) as [b ->]. simpl. unfold repr_bytes, quoted.
    destruct (_ && _); [right|left]; rewrite elem_of_app; right; set_solver.
  Qed.

  Lemma not_quoted (t : codes) : bool_decide (39%N ∉ t /\ 34%N ∉ t) = true -> ~ quoted t.
  Proof. intros H%bool_decide_eq_true. unfold quoted. tauto. Qed.

  Lemma bad_names err : err ∈ [url_non_resolving; url_non_html; url_unknown_error] -> ~ quoted err.
  Proof. rewrite !elem_of_cons, elem_of_nil. intros [-> | [-> | [-> | []]]]; apply not_quoted; by vm_compute. Qed.

  Lemma becomes_bad net proto url c err : err ∈ [url_non_resolving; url_non_html; url_unknown_error] ->
    (slurp net proto url c).1.2 = Ok (TList [err]) ->
    url = [] /\ err = url_non_resolving \/ (url <> [] /\ only_base = false /\ bad url err (slurp net proto url c).1.1).
  Proof.
    intros Herr. pose proof (slurp_outcome net proto url c) as HO. destruct (slurp net proto url c) as [[c' r] l]. simpl. intros ->.
    inversion HO as [E|E1 E2|err' E1 E2 E3|t E1 E2 E3 E4|r' c2 E1 E2 E3 E4 HF]; subst.
    - by left.
    - right. by split_and!.
    - right. split_and!; try done. inversion HF as [e|text Hst Hp|r c2 Hs Hn]; subst.
      + exfalso. apply (bad_names err Herr). eapply page_quoted; [eassumption|]. by apply elem_of_list_singleton.
      + unfold bad, known_bad in *. destruct c as [l1 l2 l3 h]. simpl in *.
        repeat destruct (decide (url ∈ _)) in E3; try done.
        inversion Hs; subst; simpl; try done; repeat destruct (decide _); try done; try (exfalso; set_solver).
  Qed.

  Lemma becomes_http net proto url c n : is_digit 39%N = false -> is_digit 34%N = false -> forallb is_digit n = true ->
    (slurp net proto url c).1.2 = Ok (TList [url_http ++ n]) -> url <> [] /\ only_base = false /\ http url (url_http ++ n) (slurp net proto url c).1.1.
  Proof.
    intros Hd1 Hd2 Hn.
    assert (~ quoted (url_http ++ n)) as HQ.
    { rewrite forallb_forall in Hn. intros [H|H]; apply elem_of_app in H as [H|H].
      - assert (quoted url_http) as K by (by left). revert K. apply not_quoted; by vm_compute.
      - apply elem_of_list_In, Hn in H. congruence.
      - assert (quoted url_http) as K by (by right). revert K. apply not_quoted; by vm_compute.
      - apply elem_of_list_In, Hn in H. congruence. }
    assert (url_http ++ n ∉ [url_non_resolving; url_non_html; url_unknown_error]) as HB.
    { rewrite !elem_of_cons, elem_of_nil. intros [E | [E | [E | []]]]; by vm_compute in E. }
    pose proof (slurp_outcome net proto url c) as HO. destruct (slurp net proto url c) as [[c' r] l]. cbn [fst snd]. intros ->.
    remember (url_http ++ n) as t eqn:Et. clear Et Hn.
    inversion HO as [E H1|E1 E2|err' E1 E2 E3 H1|t' E1 E2 E3 E4|r' c2 E1 E2 E3 E4 HF]; subst.
    - exfalso. set_solver.
    - exfalso. apply HB. unfold known_bad in E3. repeat destruct (decide _); try done; injection E3 as <-; set_solver.
    - split_and!; try done. inversion HF as [e|text Hst Hp|r c2 Hs Hc]; subst.
      + exfalso. apply HQ. eapply page_quoted; [eassumption|]. by apply elem_of_list_singleton.
      + destruct c as [l1 l2 l3 h]. inversion Hs; subst; try (by destruct Hc); try (exfalso; apply HB; solve [left|right; left|right; right; left]).
        split; [exact E3|]. cbn [c_http]. by rewrite lookup_insert.
  Qed.

  (** ** The theorems *)

  Lemma failure_remembered xs c i j net proto net' proto' u err l :
    err ∈ [url_non_resolving; url_non_html; url_unknown_error] -> i < j ->
    xs !! i = Some (net, proto, u) -> xs !! j = Some (net', proto', u) ->
    (slurps xs c).2 !! i = Some (Ok (TList [err]), l) -> (slurps xs c).2 !! j = Some (Ok (TList [err]), []).
  Proof.
    intros Herr Hij Hi Hj Hr. destruct (split_history xs c i net proto u _ l Hi Hr) as (c1 & H1 & H2). rewrite H2 by done.
    assert (drop (S i) xs !! (j - S i) = Some (net', proto', u)) as Hj' by (rewrite lookup_drop; by replace (S i + (j - S i)) with j by lia).
    destruct (becomes_bad net proto u c1 err Herr H1) as [(E1 & E2)|(E1 & E2 & E3)].
    - subst. eapply (later (fun _ => True)); [done| |done|exact Hj']. intros. done.
    - eapply (later (bad u err)); [intros; by apply bad_kept| |exact E3|exact Hj'].
      intros net2 proto2 c2 Hc. unfold FetchModel.slurp. rewrite decide_False, E2, Hc by done. done.
  Qed.

  Lemma http_error_remembered xs c i j net proto net' proto' u n l :
    is_digit 39%N = false -> is_digit 34%N = false -> forallb is_digit n = true -> i < j ->
    xs !! i = Some (net, proto, u) -> xs !! j = Some (net', proto', u) ->
    (slurps xs c).2 !! i = Some (Ok (TList [url_http ++ n]), l) -> (slurps xs c).2 !! j = Some (Ok (TText (url_http ++ n)), []).
  Proof.
    intros Hd1 Hd2 Hn Hij Hi Hj Hr. destruct (split_history xs c i net proto u _ l Hi Hr) as (c1 & H1 & H2). rewrite H2 by done.
    assert (drop (S i) xs !! (j - S i) = Some (net', proto', u)) as Hj' by (rewrite lookup_drop; by replace (S i + (j - S i)) with j by lia).
    destruct (becomes_http net proto u c1 n Hd1 Hd2 Hn H1) as (E1 & E2 & E3).
    eapply (later (http u (url_http ++ n))); [intros; by apply http_kept| |exact E3|exact Hj'].
    intros net2 proto2 c2 [Hc1 Hc2]. unfold FetchModel.slurp. rewrite decide_False, E2, Hc1, Hc2 by done. done.
  Qed.

  Lemma tokens_come_from_stored_pages net proto url c ts : (slurp net proto url c).1.2 = Ok (TList ts) ->
    (exists err, ts = [err] /\ (err ∈ [url_non_resolving; url_non_html; url_unknown_error] \/ exists n, err = url_http ++ n)) \/
    exists text ws, n_stored net (url_key is_word url) = Ok (Some text) /\ tokenize text = (ws, None) /\
                    ts = (fun w => prefix ++ pystr w) <$> ws.
  Proof.
    clear Hbytes. pose proof (slurp_outcome net proto url c) as HO. destruct (slurp net proto url c) as [[c' r] l]. simpl. intros ->.
    inversion HO as [E H1|E1 E2|err' E1 E2 E3 H1|t E1 E2 E3 E4|r' c2 E1 E2 E3 E4 HF]; subst.
    - left. exists url_non_resolving. split; [done|]. left. set_solver.
    - left. exists err'. split; [done|]. left. unfold known_bad in E3. repeat destruct (decide _); try done; injection E3 as <-; set_solver.
    - inversion HF as [e|text Hst Hp|r c2 Hs Hc]; subst.
      + right. unfold page_tokens in Hp. destruct (tokenize text) as [ws [e|]] eqn:Et; [done|]. injection Hp as <-. by exists text, ws.
      + left. inversion Hs; subst; [done|eexists; split; [done|left; set_solver]..|]. eexists. split; [done|]. right. by eexists.
  Qed.

  Lemma html_is_not_stored net proto (url : codes) c d port ct text : url <> [] -> only_base = false ->
    known_bad c url = None -> c_http c !! url = None -> domain_and_port is_digit url = Some (d, port) ->
    n_resolves net d port = Ok true -> n_stored net (url_key is_word url) = Ok None ->
    List.last (split_on (N.eqb 46) url) [] ∉ skipped ->
    n_get net (proto ++ str "://" ++ url) = Page (Some (str "text/html" ++ ct)) text ->
    slurp net proto url c = (c, Err AttributeError, [Resolve d port; Get (proto ++ str "://" ++ url)]).
  Proof.
    clear Hbytes. intros H1 H2 H3 H4 H5 H6 H7 H8 H9. unfold FetchModel.slurp, FetchModel.retrieve.
    rewrite decide_False, H2, H3, H4, H5, H6, H7, decide_False, H9 by done. cbn zeta. rewrite take_app, bool_decide_eq_true_2 by done. done.
  Qed.

  Lemma stored_page net proto (url : codes) c d port text : url <> [] -> only_base = false ->
    known_bad c url = None -> c_http c !! url = None -> domain_and_port is_digit url = Some (d, port) ->
    n_resolves net d port = Ok true -> n_stored net (url_key is_word url) = Ok (Some text) ->
    slurp net proto url c = (c, page_tokens prefix tokenize text, [Resolve d port]).
  Proof.
    clear Hbytes. intros H1 H2 H3 H4 H5 H6 H7. unfold FetchModel.slurp. by rewrite decide_False, H2, H3, H4, H5, H6, H7 by done.
  Qed.

  Lemma same_key_same_tokens net proto proto' (url url' : codes) c c' d port d' port' text :
    url_key is_word url = url_key is_word url' -> n_stored net (url_key is_word url) = Ok (Some text) -> only_base = false ->
    url <> [] -> known_bad c url = None -> c_http c !! url = None ->
    domain_and_port is_digit url = Some (d, port) -> n_resolves net d port = Ok true ->
    url' <> [] -> known_bad c' url' = None -> c_http c' !! url' = None ->
    domain_and_port is_digit url' = Some (d', port') -> n_resolves net d' port' = Ok true ->
    (slurp net proto url c).1.2 = page_tokens prefix tokenize text /\
    (slurp net proto' url' c').1.2 = page_tokens prefix tokenize text.
  Proof.
    clear Hbytes. intros HK HS H2 A1 A3 A4 A5 A6 B1 B3 B4 B5 B6.
    pose proof HS as HS'. rewrite HK in HS'.
    rewrite (stored_page net proto url c d port text A1 H2 A3 A4 A5 A6 HS), (stored_page net proto' url' c' d' port' text B1 H2 B3 B4 B5 B6 HS'). done.
  Qed.
End fetch.

(** Which URLs have one key *)
Lemma one_key (is_word : N -> bool) (url url' : codes) : url_key is_word url = url_key is_word url' <->
  Forall2 (fun a b => a = b \/ (is_word a = false \/ a = 95%N) /\ (is_word b = false \/ b = 95%N)) url url'.
Proof.
  unfold url_key. revert url'. induction url as [|a url IH]; intros [|b url']; cbn.
  - split; [constructor|done].
  - split; [done|]. intros H. inversion H.
  - split; [done|]. intros H. inversion H.
  - rewrite Forall2_cons, <- IH. split.
    + intros [= Hab H]. split; [|exact H].
      destruct (is_word a) eqn:Ea, (is_word b) eqn:Eb; subst; auto.
    + intros [Hab ->]. f_equal. destruct Hab as [-> | [[Ha | ->] [Hb | ->]]]; [done| | | |done].
      * by rewrite Ha, Hb.
      * rewrite Ha. by destruct (is_word 95%N).
      * rewrite Hb. by destruct (is_word 95%N).
Qed.
