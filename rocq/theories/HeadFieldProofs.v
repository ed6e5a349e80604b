(** * Proofs about address headers, counts and message ids *)
From Coq Require Import String.
From Verif Require Import Py Regex RegexSpec RegexProofs StripModel StripSpec StripProofs MessageModel MessageSpec
  NetModel NetSpec NetProofs TokenModel TokenSpec TokenProofs HeadModel HeadSpec HeadProofs.

(** ** Cutting *)

Lemma joined_cons sep c (w : codes) (ws : list codes) :
  joined sep (((c :: w) : codes) :: ws) = c :: joined sep (w :: ws).
Proof. by destruct ws. Qed.

Lemma split_on_cut sep s : cut_at sep s (split_on (N.eqb sep) s).
Proof.
  unfold cut_at. induction s as [|c s (IH1 & IH2 & IH3)]; cbn [split_on].
  - split_and!; [done| |done]. repeat constructor. intros H. by apply elem_of_nil in H.
  - destruct (N.eqb_spec sep c) as [<-|Hc].
    + split_and!; [done| |].
      * constructor; [|done]. intros H. by apply elem_of_nil in H.
      * destruct (split_on (N.eqb sep) s) as [|w ws] eqn:Es; [done|].
        change (joined sep ([] :: w :: ws)) with (sep :: joined sep (w :: ws)). by rewrite IH3.
    + destruct (split_on (N.eqb sep) s) as [|w ws] eqn:Es; [done|]. split_and!; [done| |].
      * inversion IH2 as [|? ? Hw Hws]; subst. constructor; [|done]. intros H. apply elem_of_cons in H as [H|H]; done.
      * rewrite joined_cons. f_equal. exact IH3.
Qed.

Lemma cut_split sep s ws : cut_at sep s ws -> ws = split_on (N.eqb sep) s.
Proof.
  intros (H1 & H2 & <-). induction ws as [|w ws IH]; [done|]. clear H1.
  inversion H2 as [|? ? Hw Hws]; subst. clear H2.
  induction w as [|c w IHw].
  - destruct ws as [|w' ws]; [done|]. change (joined sep ([] :: w' :: ws)) with (sep :: joined sep (w' :: ws)).
    cbn [split_on]. rewrite N.eqb_refl. f_equal. by apply IH.
  - rewrite joined_cons. cbn [split_on]. destruct (N.eqb_spec sep c) as [<-|Hc].
    + exfalso. apply Hw. left.
    + assert (sep ∉ w) as Hw' by (intros H; apply Hw; by right).
      specialize (IHw Hw'). unfold codes in *. rewrite <- IHw. done.
Qed.

Definition howmany (sep : N) (s : codes) : nat := length (filter (fun c => c = sep) s).
Lemma howmany_cons sep c s : howmany sep (c :: s) = (if decide (c = sep) then 1 else 0) + howmany sep s.
Proof. unfold howmany. change (codes) with (list N) in *. rewrite (filter_cons (fun c => c = sep) c s). by destruct (decide (c = sep)). Qed.
Lemma howmany_app sep a b : howmany sep (a ++ b) = howmany sep a + howmany sep b.
Proof. induction a as [|c a IH]; [done|]. rewrite <- app_comm_cons, !howmany_cons, IH. lia. Qed.

Lemma split_on_length sep s : length (split_on (N.eqb sep) s) = S (howmany sep s).
Proof.
  induction s as [|c s IH]; [done|]. cbn [split_on]. rewrite howmany_cons. destruct (N.eqb_spec sep c) as [<-|Hc].
  - rewrite decide_True by done. simpl. by rewrite IH.
  - rewrite decide_False by done. destruct (split_on (N.eqb sep) s); [done|]. simpl in *. done.
Qed.

(** ** Address headers *)

Lemma blower_lower b : Forall2 lower_of b (blower b).
Proof.
  unfold blower. induction b as [|c b IH]; csimpl; constructor; [|done]. unfold lower_of.
  destruct (N.leb_spec 65 c), (N.leb_spec c 90); simpl; [by left|right..]; (split; [lia|done]).
Qed.

Lemma name_chunk_ok U field nc : nc.1 <> WNone -> exists ts, name_chunk U field nc = (ts, None) /\ name_tokens U field nc ts.
Proof.
  destruct nc as [n c]. intros H. unfold name_chunk.
  assert (forall t, gapp (gok [WStr t]) (match c with None => gok [] | Some c => gok [WStr (field ++ str ":charset:" ++ c)] end) =
    (WStr t :: optional (fun c => field ++ str ":charset:" ++ c) c, None)) as HC by (intros t; by destruct c).
  destruct n as [s|b|]; [| |done]; rewrite HC; eexists; (split; [done|]); eexists; (split; [done|]); [done|].
  simpl. exists (blower b). split; [apply blower_lower|done].
Qed.

Lemma decoded_pieces E na ps : name_pieces E na ps -> na.1 <> [] -> decoded E (FText na.1) = Ok ps.
Proof. unfold decoded. intros [[H _]|[_ [->|[-> ->]]]] Hn; done. Qed.

Lemma address_ok U E field na ps : name_pieces E na ps -> Forall (fun nc => nc.1 <> WNone) ps ->
  exists ts, address_tokens U E field na = (ts, None) /\ one_address U field ps na.2 ts.
Proof.
  intros Hp Hn. destruct na as [name addr]. unfold address_tokens.
  assert (exists nts, Forall2 (name_tokens U field) ps nts /\ forall g,
    gapp (match name with [] => gok [] | _ => match decoded E (FText name) with
            | Err e => gerr e | Ok chunks => gfor (name_chunk U field) chunks end end) g = (mjoin nts ++ g.1, g.2)) as (nts & HN & ->).
  { destruct name as [|c name].
    - destruct Hp as [[_ ->]|[Hp _]]; [|done]. exists []. split; [constructor|]. intros [? ?]. done.
    - pose proof (decoded_pieces E (c :: name, addr) ps Hp ltac:(done)) as ED. cbn [fst] in ED. rewrite ED.
      destruct (gfor_ok (name_chunk U field) (name_tokens U field) ps) as (nts & E1 & E2).
      { eapply Forall_impl; [exact Hn|]. intros nc. apply name_chunk_ok. }
      exists nts. split; [done|]. intros [? ?]. by rewrite E1. }
  destruct addr as [|c addr].
  - eexists. split; [reflexivity|]. exists nts. eexists. split; [done|]. split; [done|]. by left.
  - eexists. split; [reflexivity|]. exists nts. eexists. split; [done|]. split; [done|]. right. split; [done|].
    eexists. split; [apply split_on_cut|done].
Qed.

Lemma field_absent U E h field : lower field = field -> values field h [] ->
  field_tokens U E h field = ([WStr (field ++ str ":none")], None).
Proof. intros Hl Hv. unfold field_tokens. by rewrite (hget_all_values h field [] Hl Hv). Qed.

Lemma field_raises U E h field vs e : lower field = field -> values field h vs -> vs <> [] ->
  getaddresses E (fetch <$> vs) = Err e -> field_tokens U E h field = ([], Some e).
Proof.
  intros Hl Hv Hne Hg. unfold field_tokens. rewrite (hget_all_values h field vs Hl Hv).
  destruct vs as [|v vs]; [done|]. csimpl in *. by rewrite Hg.
Qed.

Lemma field_ok U E h field vs addrs pss : lower field = field -> values field h vs -> vs <> [] ->
  getaddresses E (fetch <$> vs) = Ok addrs -> Forall2 (name_pieces E) addrs pss ->
  Forall (Forall (fun nc => nc.1 <> WNone)) pss ->
  exists tss nts, field_tokens U E h field = (mjoin tss ++ nts, None) /\
    Forall2 (fun aps ts => one_address U field aps.2 aps.1.2 ts) (zip addrs pss) tss /\
    (nameless addrs = 0 -> nts = []) /\
    (0 < nameless addrs -> exists k, nearest_log2 (nameless addrs) k /\
       nts = [WStr (field ++ str ":no real name:2**" ++ digits k)]).
Proof.
  intros Hl Hv Hne Hg Hp Hn. unfold field_tokens. rewrite (hget_all_values h field vs Hl Hv).
  assert (exists tss, gfor (address_tokens U E field) addrs = (mjoin tss, None) /\
    Forall2 (fun aps ts => one_address U field aps.2 aps.1.2 ts) (zip addrs pss) tss) as (tss & E1 & E2).
  { clear Hg. induction Hp as [|na ps addrs pss Hp _ IH]; [exists []; split; [done|constructor]|].
    inversion Hn as [|? ? Hn1 Hn2]; subst. destruct (IH Hn2) as (tss & E1 & E2).
    destruct (address_ok U E field na ps Hp Hn1) as (ts & E3 & E4). exists (ts :: tss). cbn [gfor]. rewrite E1, E3.
    split; [done|by constructor]. }
  exists tss.
  exists (match nameless addrs with O => [] | n => [WStr (field ++ str ":no real name:2**" ++ digits (round_log2 n))] end).
  split_and!.
  - destruct vs as [|v vs]; [done|]. csimpl in *. rewrite Hg, E1. change (nonames addrs) with (nameless addrs). by destruct (nameless addrs).
  - done.
  - by intros ->.
  - intros H. exists (round_log2 (nameless addrs)). split; [by apply round_log2_spec|]. by destruct (nameless addrs); [lia|].
Qed.

(** ** Recipients *)

Lemma count_addresses_ok l ss : Forall2 (fun x s => x = FText s) l ss ->
  count_addresses l = Ok (foldr (fun s n => S (commas s) + n) 0 ss).
Proof.
  induction 1 as [|x s l ss -> _ IH]; [done|]. cbn [count_addresses]. rewrite IH. change (commas s) with (howmany 44 s). by rewrite split_on_length.
Qed.
Lemma count_addresses_err l : Exists (fun x => forall s, x <> FText s) l -> count_addresses l = Err AttributeError.
Proof.
  induction l as [|x l IH]; intros H; [by apply Exists_nil in H|]. apply Exists_cons in H as [H|H]; destruct x as [|s|s]; try done.
  - by destruct (H s).
  - cbn [count_addresses]. by rewrite IH.
Qed.

Lemma recipient_ok h field vs ss : lower field = field -> values field h vs -> Forall2 text_value vs ss ->
  (ss = [] -> recipient_tokens h field = ([], None)) /\
  (ss <> [] -> exists k, nearest_log2 (length ss + commas (mjoin ss)) k /\
     recipient_tokens h field = ([WStr (field ++ str ":2**" ++ digits k)], None)).
Proof.
  intros Hl Hv Ht. unfold recipient_tokens. rewrite (hget_all_values h field vs Hl Hv).
  assert (Forall2 (fun x s => x = FText s) (fetch <$> vs) ss) as HF.
  { clear -Ht. induction Ht; csimpl; constructor; [by apply fetch_text|done]. }
  rewrite (count_addresses_ok _ ss HF).
  assert (foldr (fun s n => S (commas s) + n) 0 ss = length ss + commas (mjoin ss)) as ->.
  { clear. induction ss as [|s ss IH]; [done|]. cbn [foldr]. rewrite IH. change (commas (mjoin (s :: ss))) with (howmany 44 (s ++ mjoin ss)).
    rewrite howmany_app. change (howmany 44) with commas. simpl. lia. }
  split; [by intros ->|]. intros Hne. assert (0 < length ss + commas (mjoin ss)) as HP by (destruct ss; simpl; [done|lia]).
  exists (round_log2 (length ss + commas (mjoin ss))). split; [by apply round_log2_spec|].
  by destruct (length ss + commas (mjoin ss)); [lia|].
Qed.
Lemma recipient_err h field vs : lower field = field -> values field h vs ->
  Exists (fun v => forall s, ~ text_value v s) vs -> recipient_tokens h field = ([], Some AttributeError).
Proof.
  intros Hl Hv He. unfold recipient_tokens. rewrite (hget_all_values h field vs Hl Hv), count_addresses_err; [done|].
  apply Exists_exists in He as (v & Hv' & Hn). apply Exists_exists. exists (fetch v). split; [by apply elem_of_list_fmap_1|].
  intros s Hs. by apply (Hn s), fetch_text_inv.
Qed.

(** ** X-Mailer *)

Lemma join_blank_joined ws : join_blank ws = joined 32%N ws.
Proof. induction ws as [|w [|w' ws] IH]; [done|done|]. cbn [join_blank joined] in *. by rewrite IH. Qed.
Lemma normalized_spec U s : exists ws, runs (fun c => u_space U c <> true) s ws /\ normalized U s = joined 32%N ws.
Proof.
  exists (runs_from (fun c => negb (u_space U c)) [] s). split.
  - eapply runs_ext; [|apply (runs_from_spec _ s []); constructor]. intros c. simpl. by destruct (u_space U c).
  - unfold normalized. apply join_blank_joined.
Qed.
Lemma mailer_ok U h s : header_or h (str "x-mailer") (FText (str "none")) (FText s) ->
  exists t, mailer_text U s t /\ mailer_tokens U h = ([WStr (str "x-mailer:" ++ t)], None).
Proof.
  intros H. apply (hget_default_or _ (str "x-mailer")) in H; [|done]. unfold mailer_tokens. rewrite H.
  destruct (normalized_spec U (u_lower U s)) as (ws & H1 & H2). exists (joined 32%N ws). split; [by exists ws|]. by rewrite H2.
Qed.
Lemma mailer_err U h x : header_or h (str "x-mailer") (FText (str "none")) x -> (forall s, x <> FText s) ->
  mailer_tokens U h = ([], Some AttributeError).
Proof.
  intros H Hx. apply (hget_default_or _ (str "x-mailer")) in H; [|done]. unfold mailer_tokens. rewrite H.
  destruct x as [|s|s]; [done|by destruct (Hx s)|done].
Qed.

(** ** Prefixes and suffixes *)

Lemma common_prefix a b : common a b `prefix_of` a /\ common a b `prefix_of` b /\
  forall q, q `prefix_of` a -> q `prefix_of` b -> q `prefix_of` common a b.
Proof.
  revert b. induction a as [|x a IH]; intros [|y b]; simpl.
  - split_and!; [by exists []|by exists []|]. by intros.
  - split_and!; [by exists []|by eexists|]. by intros.
  - split_and!; [by eexists|by exists []|]. by intros.
  - destruct (N.eqb_spec x y) as [<-|Hne].
    + destruct (IH b) as (H1 & H2 & H3). split_and!; [by apply prefix_cons|by apply prefix_cons|].
      intros [|z q] Ha Hb; [apply prefix_nil|]. apply prefix_cons_inv_1 in Ha as Ez. subst.
      apply prefix_cons. apply H3; by eapply prefix_cons_inv_2.
    + split_and!; [apply prefix_nil|apply prefix_nil|]. intros [|z q] Ha Hb; [apply prefix_nil|].
      apply prefix_cons_inv_1 in Ha, Hb. congruence.
Qed.

Lemma foldl_common l a : foldl common a l `prefix_of` a /\ Forall (fun b => foldl common a l `prefix_of` b) l /\
  forall q, q `prefix_of` a -> Forall (fun b => q `prefix_of` b) l -> q `prefix_of` foldl common a l.
Proof.
  revert a. induction l as [|b l IH]; intros a; simpl.
  - split_and!; [done|constructor|done].
  - destruct (common_prefix a b) as (C1 & C2 & C3), (IH (common a b)) as (H1 & H2 & H3). split_and!.
    + by etrans.
    + constructor; [by etrans|done].
    + intros q Ha Hl. inversion Hl; subst. apply H3; [by apply C3|done].
Qed.
Lemma commonprefix_longest l : l <> [] -> longest_common l (commonprefix l).
Proof.
  destruct l as [|a l]; [done|]. intros _. unfold longest_common. simpl. destruct (foldl_common l a) as (H1 & H2 & H3). split.
  - by constructor.
  - intros q Hq. inversion Hq; subst. by apply H3.
Qed.
Lemma longest_unique l p q : longest_common l p -> longest_common l q -> p = q.
Proof.
  intros [H1 H2] [H3 H4]. destruct (H2 q H3) as [k ->], (H4 _ H1) as [k' E].
  apply (f_equal length) in E. rewrite !app_length in E. destruct k; [by rewrite app_nil_r|simpl in E; lia].
Qed.

Lemma affix_spec tag limit l : affix_summary tag limit l (affix_tokens tag limit l).
Proof.
  unfold affix_tokens, affix_summary. destruct (Nat.ltb_spec 1 (length l)) as [H|H]; [|left; split; [lia|done]].
  right. split; [lia|]. exists (commonprefix l). split; [apply commonprefix_longest; by destruct l; [simpl in H; lia|]|].
  destruct (commonprefix l) as [|c p]; [by left|]. right. split; [done|].
  set (m := length (c :: p) * length l). exists (m / 10).
  pose proof (Nat.div_mod m 10 ltac:(done)). pose proof (Nat.mod_upper_bound m 10 ltac:(done)). split; [lia|].
  destruct (Nat.ltb_spec limit (m / 10)) as [HL|HL]; [by right|by left].
Qed.
Lemma affix_det tag limit l l' ts ts' : l ≡ₚ l' -> affix_summary tag limit l ts -> affix_summary tag limit l' ts' -> ts = ts'.
Proof.
  intros HP. assert (forall p, longest_common l' p -> longest_common l p) as HL.
  { intros p [H1 H2]. split; [by rewrite HP|]. intros q Hq. apply H2. by rewrite <- HP. }
  pose proof (Permutation_length HP) as EL. unfold affix_summary. rewrite <- EL.
  intros [[H1 ->]|(H1 & p & Hp & H)] [[H1' ->]|(H1' & p' & Hp' & H')]; [done|lia|lia|].
  assert (p' = p) as -> by (eapply longest_unique; [by apply HL|done]).
  destruct H as [[H ->]|(H & q & Hq & H2)], H' as [[H' ->]|(H' & q' & Hq' & H2')]; [done|done|done|].
  assert (q' = q) as -> by lia. destruct H2 as [[? ->]|[? ->]], H2' as [[? ->]|[? ->]]; [done|lia|lia|done].
Qed.
