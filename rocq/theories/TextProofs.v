(** * Proofs about line endings, evidence wrapping and the exception header *)
From Coq Require Import String.
From Verif Require Import Py NumModel MessageModel MessageSpec.

(** ** force_crlf *)

(** Induction following the three cases of the pattern. *)
Lemma crlf_ind (P : codes -> Prop) :
  P [] ->
  (forall s, P s -> P (13%N :: 10%N :: s)) ->
  (forall s, head s <> Some 10%N -> P s -> P (13%N :: s)) ->
  (forall s, P s -> P (10%N :: s)) ->
  (forall c s, c <> 13%N -> c <> 10%N -> P s -> P (c :: s)) ->
  forall s, P s.
Proof.
  intros H0 H1 H2 H3 H4 s.
  enough (forall n s, length s <= n -> P s) by eauto.
  clear s. induction n as [|n IH]; intros s Hn; destruct s as [|c s]; simpl in Hn; [done|lia|done|].
  destruct (decide (c = 13%N)) as [->|Hc].
  - destruct s as [|d s]; [by apply H2|]. destruct (decide (d = 10%N)) as [->|Hd].
    + apply H1, IH. simpl in Hn. lia.
    + apply H2; [simpl; congruence|]. apply IH. simpl in *. lia.
  - destruct (decide (c = 10%N)) as [->|Hc'].
    + apply H3, IH. lia.
    + apply H4; [done|done|]. apply IH. lia.
Qed.

Lemma force_pair s : force_crlf (13%N :: 10%N :: s) = 13%N :: 10%N :: force_crlf s.
Proof. done. Qed.
Lemma force_cr s : head s <> Some 10%N -> force_crlf (13%N :: s) = 13%N :: 10%N :: force_crlf s.
Proof.
  intros H. destruct s as [|d s]; [done|]. simpl.
  destruct (N.eqb_spec d 10) as [->|]; [done|]. done.
Qed.
Lemma force_lf s : force_crlf (10%N :: s) = 13%N :: 10%N :: force_crlf s.
Proof. done. Qed.
Lemma force_other c s : c <> 13%N -> c <> 10%N -> force_crlf (c :: s) = c :: force_crlf s.
Proof.
  intros H1 H2. simpl. destruct (N.eqb_spec c 13); [done|]. by destruct (N.eqb_spec c 10).
Qed.

Lemma force_crlf_only s : crlf_only (force_crlf s).
Proof.
  induction s as [|s IH|s Hs IH|s IH|c s H1 H2 IH] using crlf_ind.
  - constructor.
  - rewrite force_pair. by constructor.
  - rewrite force_cr by done. by constructor.
  - rewrite force_lf. by constructor.
  - rewrite force_other by done. by constructor.
Qed.

Lemma crlf_only_fixed s : crlf_only s -> force_crlf s = s.
Proof.
  induction 1; [done| |].
  - rewrite force_other by done. by f_equal.
  - rewrite force_pair. by do 2 f_equal.
Qed.

Lemma force_app_line l s : 13%N ∉ l -> 10%N ∉ l -> force_crlf (l ++ s) = l ++ force_crlf s.
Proof.
  intros H1 H2. induction l as [|c l IH]; [done|].
  apply not_elem_of_cons in H1 as [? ?]. apply not_elem_of_cons in H2 as [? ?]. simpl app.
  rewrite force_other by congruence. f_equal. auto.
Qed.

Lemma force_lines s ls : has_lines s ls -> has_lines (force_crlf s) ls.
Proof.
  induction 1 as [l H1 H2|l s ls H1 H2 H IH|l s ls H1 H2 H IH|l s ls H1 H2 Hh H IH].
  - rewrite <- (app_nil_r l) at 1. rewrite force_app_line by done. simpl. rewrite app_nil_r. by constructor.
  - rewrite force_app_line by done. rewrite force_pair. by constructor.
  - rewrite force_app_line by done. rewrite force_lf. by constructor.
  - rewrite force_app_line by done. rewrite force_cr by done. by constructor.
Qed.

Lemma has_lines_cons c s l ls : c <> 13%N -> c <> 10%N -> has_lines s (l :: ls) -> has_lines (c :: s) ((c :: l) :: ls).
Proof.
  intros H1 H2 H.
  assert (Hn : forall d, d <> c -> d ∉ l -> d ∉ c :: l) by (intros; by apply not_elem_of_cons).
  inversion H; subst.
  - apply lines_last; auto.
  - apply (lines_crlf (c :: l)); auto.
  - apply (lines_lf (c :: l)); auto.
  - apply (lines_cr (c :: l)); auto.
Qed.

Lemma has_lines_total s : exists l ls, has_lines s (l :: ls).
Proof.
  assert (Hnil : forall d : N, d ∉ []) by (intros d; apply not_elem_of_nil).
  induction s as [|s IH|s Hs IH|s IH|c s H1 H2 IH] using crlf_ind.
  - exists [], []. by apply lines_last.
  - destruct IH as (l & ls & IH). exists [], (l :: ls). by apply (lines_crlf []).
  - destruct IH as (l & ls & IH). exists [], (l :: ls). by apply (lines_cr []).
  - destruct IH as (l & ls & IH). exists [], (l :: ls). by apply (lines_lf []).
  - destruct IH as (l & ls & IH). exists (c :: l), ls. by apply has_lines_cons.
Qed.

(** ** Evidence *)

(** The lines as lists of clues, for a given width at the start of the first one. *)
Inductive wrapped_lines : nat -> list codes -> list (list codes) -> Prop :=
  | wl_nil w : wrapped_lines w [] []
  | wl_one w c : wrapped_lines w [c] [[c]]
  | wl_same w c d evd g gs : w + length c + 2 + length d < 78 ->
      wrapped_lines (w + length c) (d :: evd) (g :: gs) ->
      wrapped_lines w (c :: d :: evd) ((c :: g) :: gs)
  | wl_next w c d evd gs : 78 <= w + length c + 2 + length d ->
      wrapped_lines 8 (d :: evd) gs ->
      wrapped_lines w (c :: d :: evd) ([c] :: gs).

Notation nl_sep := [59; 10; 9]%N.

Lemma wrapped_nonempty w c evd gs : wrapped_lines w (c :: evd) gs -> exists g gs', gs = (c :: g) :: gs'.
Proof. inversion 1; subst; eauto. Qed.

Lemma join_cons sep l ls : ls <> [] -> join sep (l :: ls) = l ++ sep ++ join sep ls.
Proof. by destruct ls. Qed.

Lemma wrap_lines w evd : exists gs, wrapped_lines w evd gs /\ wrap_from w evd = join nl_sep (line_text <$> gs).
Proof.
  revert w. induction evd as [|c evd IH]; intros w.
  - exists []. split; [constructor|done].
  - destruct evd as [|d evd].
    + exists [[c]]. split; [constructor|done].
    + change (wrap_from w (c :: d :: evd)) with
        (if (w + length c + 2 + length d <? 78)%nat
         then c ++ str "; " ++ wrap_from (w + length c) (d :: evd)
         else c ++ nl_sep ++ wrap_from 8 (d :: evd)).
      destruct (Nat.ltb_spec (w + length c + 2 + length d) 78).
      * destruct (IH (w + length c)) as (gs & Hw & E).
        destruct (wrapped_nonempty _ _ _ _ Hw) as (g & gs' & ->).
        exists ((c :: d :: g) :: gs'). split; [by apply wl_same|]. rewrite E.
        rewrite !fmap_cons. destruct gs' as [|g' gs']; [done|].
        rewrite !fmap_cons. rewrite (join_cons nl_sep (line_text (d :: g))) by done.
        rewrite (join_cons nl_sep (line_text (c :: d :: g))) by done.
        change (line_text (c :: d :: g)) with (c ++ str "; " ++ line_text (d :: g)).
        by rewrite <- !app_assoc.
      * destruct (IH 8) as (gs & Hw & E).
        destruct (wrapped_nonempty _ _ _ _ Hw) as (g & gs' & ->).
        exists ([c] :: (d :: g) :: gs'). split; [by apply wl_next|]. rewrite E.
        by rewrite (fmap_cons _ [c]), join_cons.
Qed.

Lemma wrapped_concat w evd gs : wrapped_lines w evd gs -> mjoin gs = evd.
Proof.
  induction 1; simpl; [done|done| |].
  - simpl in IHwrapped_lines. by rewrite IHwrapped_lines.
  - by rewrite IHwrapped_lines.
Qed.

Lemma wrapped_nonempty_lines w evd gs : wrapped_lines w evd gs -> Forall (fun g => g <> []) gs.
Proof.
  induction 1; [constructor|by repeat constructor| |by constructor].
  apply Forall_cons in IHwrapped_lines as [_ ?]. by constructor.
Qed.

Lemma total_length_cons c g : total_length (c :: g) = length c + total_length g.
Proof. done. Qed.

(** Every line with two or more clues fits if the separators are not counted. *)
Lemma wrapped_widths w evd gs : wrapped_lines w evd gs ->
  forall i g, gs !! i = Some g -> 2 <= length g ->
    (if decide (i = 0) then w else 8) + total_length g + 2 < 78.
Proof.
  induction 1 as [w|w c|w c d evd g gs Hlt H IH|w c d evd gs Hge H IH]; intros i g0 Hi Hl.
  - done.
  - destruct i as [|i]; [|done]. injection Hi as <-. simpl in Hl. lia.
  - destruct i as [|i].
    + injection Hi as <-. simpl. rewrite total_length_cons.
      destruct (decide (2 <= length g)) as [H2|H2].
      * specialize (IH 0 g eq_refl H2). simpl in IH. lia.
      * destruct (wrapped_nonempty _ _ _ _ H) as (g' & gs' & [= -> ->]).
        destruct g' as [|? ?]; [|simpl in H2; lia]. rewrite total_length_cons. simpl. unfold total_length. simpl. lia.
    + simpl in Hi. specialize (IH (S i) g0 Hi Hl). by rewrite decide_False in IH |- * by lia.
  - destruct i as [|i].
    + injection Hi as <-. simpl in Hl. lia.
    + simpl in Hi. specialize (IH i g0 Hi Hl). rewrite decide_False by lia. by destruct (decide (i = 0)).
Qed.

Lemma line_text_length g : g <> [] -> length (line_text g) = total_length g + 2 * (length g - 1).
Proof.
  unfold line_text. induction g as [|c g IH]; intros Hg; [done|].
  destruct g as [|d g]; [unfold total_length; simpl; lia|].
  rewrite join_cons by done. rewrite !app_length, IH by done.
  rewrite !total_length_cons. simpl length. lia.
Qed.

(** *** Splitting *)
Lemma split_semi_plain c : 59%N ∉ c -> split_semi c = [c].
Proof.
  induction c as [|x c IH]; intros H; [done|]. apply not_elem_of_cons in H as [Hx H]. simpl.
  destruct (N.eqb_spec x 59); [congruence|]. by rewrite IH.
Qed.

Lemma split_semi_app c s : 59%N ∉ c -> split_semi (c ++ 59%N :: s) = c :: split_semi s.
Proof.
  induction c as [|x c IH]; intros H; [done|]. apply not_elem_of_cons in H as [Hx H]. simpl.
  destruct (N.eqb_spec x 59); [congruence|]. by rewrite IH.
Qed.

Lemma drop_space_plain c : plain_clue c -> drop_space c = c.
Proof.
  intros (_ & Hne & Hh). destruct c as [|x c]; [done|]. simpl.
  destruct (Hh x eq_refl) as (H1 & H2 & H3).
  destruct (N.eqb_spec x 32); [congruence|]. destruct (N.eqb_spec x 10); [congruence|].
  by destruct (N.eqb_spec x 9).
Qed.

Lemma split_semi_nonempty s : exists l ls, split_semi s = l :: ls.
Proof.
  destruct s as [|c s]; simpl; [by eauto|]. destruct (c =? 59)%N; [by eauto|].
  destruct (split_semi s); eauto.
Qed.

Lemma split_semi_space x s : (x = 32 \/ x = 10 \/ x = 9)%N ->
  forall l ls, split_semi s = l :: ls -> split_semi (x :: s) = (x :: l) :: ls.
Proof. intros Hx l ls E. simpl. destruct (N.eqb_spec x 59); [lia|]. by rewrite E. Qed.

Lemma fields_space x s : (x = 32 \/ x = 10 \/ x = 9)%N -> fields (x :: s) = fields s.
Proof.
  intros Hx. unfold fields. destruct (split_semi_nonempty s) as (l & ls & E).
  rewrite (split_semi_space x s Hx _ _ E), E, !fmap_cons. f_equal. simpl.
  destruct (N.eqb_spec x 32); [done|]. destruct (N.eqb_spec x 10); [done|].
  destruct (N.eqb_spec x 9); [done|]. lia.
Qed.

Lemma wrap_fields w evd : evd <> [] -> Forall plain_clue evd -> fields (wrap_from w evd) = evd.
Proof.
  revert w. induction evd as [|c evd IH]; intros w Hne Hp; [done|].
  apply Forall_cons in Hp as [Hc Hp]. destruct evd as [|d evd].
  - simpl. unfold fields. rewrite split_semi_plain by apply Hc. simpl. by rewrite drop_space_plain.
  - change (wrap_from w (c :: d :: evd)) with
      (if (w + length c + 2 + length d <? 78)%nat
       then c ++ str "; " ++ wrap_from (w + length c) (d :: evd)
       else c ++ nl_sep ++ wrap_from 8 (d :: evd)).
    assert (Hstep : forall t, fields (c ++ 59%N :: t) = c :: fields t).
    { intros t. unfold fields. rewrite split_semi_app by apply Hc. rewrite fmap_cons.
      by rewrite drop_space_plain. }
    destruct (_ <? _)%nat.
    + change (str "; " ++ ?t) with (59%N :: 32%N :: t). rewrite Hstep, fields_space by lia. f_equal. by apply IH.
    + change (nl_sep ++ ?t) with (59%N :: 10%N :: 9%N :: t). rewrite Hstep, !fields_space by lia. f_equal. by apply IH.
Qed.

(** *** The limit is exceeded *)
Lemma wrapped_ten evd gs : Forall (fun c => length c = 10) evd -> 6 <= length evd ->
  wrapped_lines 22 evd gs -> exists g gs', gs = g :: gs' /\ length g = 5.
Proof.
  intros Hl Hn Hw.
  destruct evd as [|c1 [|c2 [|c3 [|c4 [|c5 [|c6 evd]]]]]]; simpl in Hn; try lia.
  rewrite !Forall_cons in Hl. destruct Hl as (H1 & H2 & H3 & H4 & H5 & H6 & _).
  inversion Hw; subst; [|lia].
  match goal with H : wrapped_lines _ (c2 :: _) _ |- _ => inversion H; subst; [|lia] end.
  match goal with H : wrapped_lines _ (c3 :: _) _ |- _ => inversion H; subst; [|lia] end.
  match goal with H : wrapped_lines _ (c4 :: _) _ |- _ => inversion H; subst; [|lia] end.
  match goal with H : wrapped_lines _ (c5 :: _) _ |- _ => inversion H; subst; [lia|] end.
  by eexists _, _.
Qed.

Lemma total_length_const n g : Forall (fun c => length c = n) g -> total_length g = n * length g.
Proof.
  induction 1 as [|c g Hc H IH]; [done|]. rewrite total_length_cons, IH, Hc. simpl. lia.
Qed.

(** ** The exception header *)

Lemma blank_here_spec s b :
  blank_here s = Some b <-> s = [10; 10]%N ++ b \/ s = [10; 13; 10]%N ++ b.
Proof.
  destruct s as [|x [|y s]]; simpl.
  - split; [done|]. by intros [|].
  - split; [done|]. by intros [|].
  - destruct (N.eqb_spec x 10) as [->|Hx]; [|split; [done|intros [[=]|[=]]; congruence]].
    destruct (N.eqb_spec y 10) as [->|Hy].
    + split; [intros [= ->]; by left|intros [[= ->]|[=]]; done].
    + destruct s as [|z s]; [split; [done|intros [[=]|[=]]; congruence]|].
      destruct (N.eqb_spec y 13) as [->|Hy'], (N.eqb_spec z 10) as [->|Hz]; simpl.
      * split; [intros [= ->]; by right|intros [[=]|[= ->]]; done].
      * split; [done|]. intros [[=]|[=]]; done.
      * split; [done|]. intros [[=]|[=]]; done.
      * split; [done|]. intros [[=]|[=]]; done.
Qed.

Lemma split_blank_some s h b :
  split_blank s = Some (h, b) <-> blank_line_at s h b.
Proof.
  unfold blank_line_at. revert h. induction s as [|c s IH]; intros h.
  - simpl. split; [done|]. intros [[H|H] _]; by destruct h.
  - change (split_blank (c :: s)) with
      (match blank_here (c :: s) with
       | Some b => Some ([], b)
       | None => (fun hb => (c :: hb.1, hb.2)) <$> split_blank s
       end).
    destruct (blank_here (c :: s)) as [b'|] eqn:Eb.
    + pose proof (proj1 (blank_here_spec _ _) Eb) as Hb. split.
      * intros [= <- <-]. split; [done|]. simpl. lia.
      * intros [Hs Hmin]. specialize (Hmin [] b' Hb). destruct h; [|simpl in Hmin; lia].
        pose proof (proj2 (blank_here_spec (c :: s) b) Hs) as Hs'. rewrite Eb in Hs'. by injection Hs' as ->.
    + split.
      * intros H. destruct (split_blank s) as [[h' b']|] eqn:Es; [|done]. injection H as <- <-.
        destruct (proj1 (IH h')) as [Hs Hmin]; [done|]. split.
        -- destruct Hs as [-> | ->]; [by left|by right].
        -- intros h2 b2 H2. destruct h2 as [|c2 h2].
           ++ apply blank_here_spec in H2. by rewrite Eb in H2.
           ++ simpl in H2. simpl. apply le_n_S, (Hmin h2 b2).
              destruct H2 as [[= -> ->]|[= -> ->]]; [by left|by right].
      * intros [Hs Hmin]. destruct h as [|c2 h].
        -- apply blank_here_spec in Hs. by rewrite Eb in Hs.
        -- assert (c2 = c) as -> by (destruct Hs as [[=]|[=]]; congruence).
           rewrite (proj2 (IH h)); [done|]. split.
           ++ destruct Hs as [[= ->]|[= ->]]; [by left|by right].
           ++ intros h2 b2 H2. specialize (Hmin (c :: h2) b2). simpl in Hmin.
              apply le_S_n, Hmin. destruct H2 as [-> | ->]; [by left|by right].
Qed.

Lemma split_blank_none s : split_blank s = None <-> no_blank_line s.
Proof.
  unfold no_blank_line. split.
  - intros H h b.
    assert (Hx : forall t, t = [10; 10]%N ++ b \/ t = [10; 13; 10]%N ++ b -> split_blank (h ++ t) <> None).
    { intros t Ht. induction h as [|c h IH].
      - apply blank_here_spec in Ht. simpl app. destruct t as [|y t]; [done|].
        change (split_blank (y :: t)) with
          (match blank_here (y :: t) with
           | Some b => Some ([], b)
           | None => (fun hb => (y :: hb.1, hb.2)) <$> split_blank t
           end). by rewrite Ht.
      - simpl app. change (split_blank (c :: h ++ t)) with
          (match blank_here (c :: h ++ t) with
           | Some b => Some ([], b)
           | None => (fun hb => (c :: hb.1, hb.2)) <$> split_blank (h ++ t)
           end).
        destruct (blank_here _); [done|]. clear H. intros E. apply fmap_None in E. done. }
    split; intros ->; (eapply Hx; [|exact H]); [by left|by right].
  - intros H. destruct (split_blank s) as [[h b]|] eqn:E; [|done].
    apply split_blank_some in E as [[E|E] _]; by destruct (H h b).
Qed.

(** a followed by a newline contains no blank line that begins inside a. *)
Definition quiet (a : codes) : Prop :=
  forall a1 a2, a = a1 ++ a2 -> a2 <> [] -> blank_here (a2 ++ [10%N]) = None.

Lemma blank_here_tail a u v : a <> [] ->
  blank_here (a ++ 10%N :: u) = None -> blank_here (a ++ 10%N :: v) = None.
Proof.
  intros Ha H. destruct a as [|x [|y [|z a]]]; [done| | |].
  - simpl in *. destruct (x =? 10)%N; [|done]. done.
  - simpl in *. destruct (x =? 10)%N; [|done]. destruct (y =? 10)%N; [done|].
    by destruct (y =? 13)%N.
  - simpl in *. destruct (x =? 10)%N; [|done]. destruct (y =? 10)%N; [done|].
    by destruct ((y =? 13) && (z =? 10))%N.
Qed.

Lemma split_blank_quiet a u :
  quiet a -> split_blank (a ++ 10%N :: u) = (fun hb => (a ++ hb.1, hb.2)) <$> split_blank (10%N :: u).
Proof.
  intros Hq. induction a as [|c a IH].
  - simpl app. by destruct (split_blank (10%N :: u)) as [[? ?]|].
  - simpl app. change (split_blank (c :: a ++ 10%N :: u)) with
      (match blank_here (c :: a ++ 10%N :: u) with
       | Some b => Some ([], b)
       | None => (fun hb => (c :: hb.1, hb.2)) <$> split_blank (a ++ 10%N :: u)
       end).
    assert (Hc : blank_here (c :: a ++ 10%N :: u) = None).
    { apply (blank_here_tail (c :: a) [] u); [done|by apply (Hq [] (c :: a))]. }
    rewrite Hc.
    rewrite IH.
    + by destruct (split_blank (10%N :: u)) as [[? ?]|].
    + intros a1 a2 -> Ha2. by apply (Hq (c :: a1) a2).
Qed.

Lemma quiet_no_lf a : 10%N ∉ a -> quiet a.
Proof.
  intros H a1 a2 -> Ha. destruct a2 as [|x a2]; [done|].
  assert (x <> 10%N) by (intros ->; apply H; rewrite elem_of_app; right; left).
  simpl. destruct (a2 ++ [10%N]); [done|]. by destruct (N.eqb_spec x 10).
Qed.

Lemma app_middle_split (a b a1 a2 : codes) x : a ++ x :: b = a1 ++ a2 ->
  (exists r, a = a1 ++ r /\ a2 = r ++ x :: b) \/ (exists r, a1 = a ++ x :: r /\ b = r ++ a2).
Proof.
  intros E. destruct (decide (length a1 <= length a)) as [Hle|Hgt].
  - left. exists (drop (length a1) a).
    assert (E1 : take (length a1) a = a1).
    { apply (f_equal (take (length a1))) in E. rewrite take_app in E. by rewrite take_app_le in E. }
    split.
    + rewrite <- E1 at 1. by rewrite take_drop.
    + apply (f_equal (drop (length a1))) in E. rewrite drop_app in E. by rewrite drop_app_le in E.
  - right. exists (drop (S (length a)) a1).
    assert (E1 : take (S (length a)) a1 = a ++ [x]).
    { apply (f_equal (take (S (length a)))) in E.
      rewrite (take_app_le a1) in E by lia. rewrite <- E.
      rewrite cons_middle, app_assoc. rewrite take_app_alt; [done|]. rewrite app_length. simpl. lia. }
    split.
    + rewrite <- (take_drop (S (length a)) a1) at 1. rewrite E1. by rewrite <- app_assoc.
    + apply (f_equal (drop (S (length a)))) in E. rewrite (drop_app_le a1) in E by lia. rewrite <- E.
      rewrite cons_middle, app_assoc. rewrite drop_app_alt; [done|]. rewrite app_length. simpl. lia.
Qed.

Lemma quiet_app a x b : quiet a -> quiet (x :: b) -> x <> 10%N -> x <> 13%N -> quiet (a ++ 10%N :: x :: b).
Proof.
  intros Ha Hb H1 H2 a1 a2 E Hne. apply app_middle_split in E as [(r & -> & ->)|(r & -> & E)].
  - destruct r as [|y r].
    + simpl. destruct (N.eqb_spec x 10); [done|]. destruct (b ++ [10%N]); [done|].
      by destruct (N.eqb_spec x 13).
    + rewrite <- app_assoc. apply (blank_here_tail (y :: r) [] _); [done|]. by apply (Ha a1).
  - by apply (Hb r).
Qed.

Lemma quiet_header s h b : blank_line_at s h b -> quiet h.
Proof.
  intros [Hs Hmin] a1 a2 -> Hne.
  assert (Hx : forall u, s = (a1 ++ a2) ++ 10%N :: u -> blank_here (a2 ++ [10%N]) = None).
  { intros u Eu. apply (blank_here_tail a2 u []); [done|].
    destruct (blank_here (a2 ++ 10%N :: u)) as [b'|] eqn:E; [|done].
    apply blank_here_spec in E. rewrite <- app_assoc in Eu. specialize (Hmin a1 b').
    rewrite app_length in Hmin. destruct a2; [done|]. simpl length in Hmin.
    assert (length a1 + S (length a2) <= length a1); [|lia].
    apply Hmin. rewrite Eu. destruct E as [-> | ->]; [by left|by right]. }
  destruct Hs as [Hs|Hs]; eapply Hx; exact Hs.
Qed.

Lemma quiet_of_no_blank s0 : no_blank_line (s0 ++ [10%N]) -> quiet s0.
Proof.
  intros H a1 a2 -> Hne. destruct (blank_here (a2 ++ [10%N])) as [b|] eqn:E; [|done].
  apply blank_here_spec in E. exfalso. destruct (H a1 b) as [H1 H2]. rewrite <- app_assoc in H1, H2.
  destruct E as [E|E]; rewrite E in H1, H2; done.
Qed.

(** The text of the header. *)
Lemma crlf_sub_plain l s : 10%N ∉ l -> 13%N ∉ l ->
  crlf_sub (l ++ 10%N :: 32%N :: s) = l ++ [13; 10; 32]%N ++ crlf_sub s.
Proof.
  intros H1 H2. induction l as [|x l IH].
  - simpl. by destruct s.
  - apply not_elem_of_cons in H1 as [? H1]. apply not_elem_of_cons in H2 as [? H2].
    destruct (l ++ 10%N :: 32%N :: s) as [|d t] eqn:E; [by destruct l|].
    assert (Ex : crlf_sub (x :: d :: t) = x :: crlf_sub (d :: t)).
    { change (crlf_sub (x :: d :: t)) with
        (if ((x =? 13) && (d =? 10))%N then 13%N :: 10%N :: crlf_sub t
         else if (x =? 10)%N then 13%N :: 10%N :: crlf_sub (d :: t) else x :: crlf_sub (d :: t)).
      destruct (N.eqb_spec x 13); [congruence|]. by destruct (N.eqb_spec x 10). }
    change ((x :: l) ++ 10%N :: 32%N :: s) with (x :: l ++ 10%N :: 32%N :: s).
    rewrite E, Ex. rewrite IH by done. done.
Qed.

Lemma crlf_sub_line l : 10%N ∉ l -> 13%N ∉ l -> crlf_sub l = l.
Proof.
  intros H1 H2. induction l as [|x l IH]; [done|].
  apply not_elem_of_cons in H1 as [? H1]. apply not_elem_of_cons in H2 as [? H2].
  destruct l as [|d l].
  - simpl. by destruct (N.eqb_spec x 10).
  - change (crlf_sub (x :: d :: l)) with
        (if ((x =? 13) && (d =? 10))%N then 13%N :: 10%N :: crlf_sub l
         else if (x =? 10)%N then 13%N :: 10%N :: crlf_sub (d :: l) else x :: crlf_sub (d :: l)).
    destruct (N.eqb_spec x 13); [congruence|]. destruct (N.eqb_spec x 10); [congruence|].
    simpl andb. f_equal. auto.
Qed.

Lemma crlf_sub_details ls : Forall one_line ls -> crlf_sub (join_details ls) = join [13; 10; 32]%N ls.
Proof.
  induction ls as [|l ls IH]; intros H; [done|]. apply Forall_cons in H as [[H1 H2] H].
  destruct ls as [|l' ls].
  - simpl. by apply crlf_sub_line.
  - change (join_details (l :: l' :: ls)) with (l ++ 10%N :: 32%N :: join_details (l' :: ls)).
    rewrite crlf_sub_plain by done. rewrite IH by done. done.
Qed.

Lemma quiet_details p ls : 10%N ∉ p -> Forall one_line ls -> quiet (p ++ join [13; 10; 32]%N ls ++ [13%N]).
Proof.
  revert p. induction ls as [|l ls IH]; intros p Hp H.
  - simpl. apply quiet_no_lf. rewrite elem_of_app, elem_of_list_singleton. naive_solver.
  - apply Forall_cons in H as [[H1 H2] H]. destruct ls as [|l' ls].
    + simpl. apply quiet_no_lf. rewrite !elem_of_app, elem_of_list_singleton. naive_solver.
    + rewrite join_cons by done.
      replace (p ++ (l ++ [13; 10; 32]%N ++ join [13; 10; 32]%N (l' :: ls)) ++ [13%N])
        with ((p ++ l ++ [13%N]) ++ 10%N :: 32%N :: join [13; 10; 32]%N (l' :: ls) ++ [13%N]).
      2: { rewrite <- !app_assoc. done. }
      apply quiet_app; [| |done|done].
      * apply quiet_no_lf. rewrite !elem_of_app, elem_of_list_singleton. naive_solver.
      * apply (IH [32%N]); [|done]. rewrite elem_of_list_singleton. done.
Qed.

Lemma insert_exception_eq hdr s ls id h b :
  blank_line_at s h b ->
  insert_exception_header hdr s ls id
    = h ++ [10%N] ++ exception_fields (crlf_sub (hdr (join_details ls))) id ++ [13; 10]%N ++ b.
Proof.
  intros H. apply split_blank_some in H. unfold insert_exception_header. rewrite H. cbv zeta. simpl fst. simpl snd.
  unfold exception_fields. destruct id as [[|c i]|]; simpl decide.
  - rewrite decide_True by done. by rewrite <- !app_assoc.
  - rewrite decide_False by done. by rewrite <- !app_assoc.
  - by rewrite <- !app_assoc.
Qed.

Lemma insert_exception_no_blank hdr s ls id :
  no_blank_line s ->
  insert_exception_header hdr s ls id
    = s ++ [10%N] ++ exception_fields (crlf_sub (hdr (join_details ls))) id ++ [13; 10]%N.
Proof.
  intros H. apply split_blank_none in H. unfold insert_exception_header. rewrite H. cbv zeta. simpl fst. simpl snd.
  unfold exception_fields. destruct id as [[|c i]|].
  - rewrite decide_True by done. by rewrite <- !app_assoc.
  - rewrite decide_False by done. by rewrite <- !app_assoc.
  - by rewrite <- !app_assoc.
Qed.

Lemma split_quiet_blank a b : quiet a -> blank_line_at (a ++ [10; 13; 10]%N ++ b) a b.
Proof.
  intros H. apply split_blank_some. change ([10; 13; 10]%N ++ b) with (10%N :: 13%N :: 10%N :: b).
  rewrite split_blank_quiet by done. simpl. by rewrite app_nil_r.
Qed.

Lemma insert_exception_header_section hdr s ls id h b :
  blank_line_at s h b -> Forall one_line ls ->
  hdr (join_details ls) = join_details ls ->
  (forall i, id = Some i -> 10%N ∉ i) ->
  let out := insert_exception_header hdr s ls id in
  out = h ++ [10%N] ++ exception_fields (join [13; 10; 32]%N ls) id ++ [13; 10]%N ++ b
  /\ exists h', blank_line_at out h' b /\ h' ++ [10%N] = h ++ [10%N] ++ exception_fields (join [13; 10; 32]%N ls) id.
Proof.
  intros Hb Hls Hh Hid. cbv zeta. rewrite (insert_exception_eq _ _ _ _ h b) by done.
  rewrite Hh, crlf_sub_details by done. split; [done|].
  set (p := str "X-Spambayes-Exception: ").
  set (t := join [13; 10; 32]%N ls).
  assert (Hp : quiet (p ++ t ++ [13%N])).
  { apply quiet_details; [|done]. apply (bool_decide_unpack _). by vm_compute. }
  assert (Hq1 : quiet (h ++ 10%N :: p ++ t ++ [13%N])).
  { apply (quiet_app h 88%N); [by eapply quiet_header|exact Hp|done|done]. }
  destruct id as [[|c i]|].
  - exists (h ++ 10%N :: p ++ t ++ [13%N]). unfold exception_fields.
    rewrite decide_True by done. rewrite app_nil_r. fold p t. split.
    + replace (h ++ [10%N] ++ (p ++ t ++ [13; 10]%N) ++ [13; 10]%N ++ b)
        with ((h ++ 10%N :: p ++ t ++ [13%N]) ++ [10; 13; 10]%N ++ b).
      * by apply split_quiet_blank.
      * simpl. rewrite <- !app_assoc. simpl. by rewrite <- !app_assoc.
    + simpl. rewrite <- !app_assoc. simpl. by rewrite <- !app_assoc.
  - set (p2 := str "X-Spambayes-MailId: ").
    exists ((h ++ 10%N :: p ++ t ++ [13%N]) ++ 10%N :: p2 ++ (c :: i) ++ [13%N]). unfold exception_fields.
    rewrite decide_False by done. fold p t p2.
    assert (Hq2 : quiet ((h ++ 10%N :: p ++ t ++ [13%N]) ++ 10%N :: p2 ++ (c :: i) ++ [13%N])).
    { apply (quiet_app _ 88%N); [done| |done|done].
      apply (quiet_no_lf (p2 ++ (c :: i) ++ [13%N])). rewrite !elem_of_app, elem_of_list_singleton.
      intros [H|[H|H]]; [|by apply (Hid (c :: i))|done].
      revert H. apply (bool_decide_unpack _). by vm_compute. }
    split.
    + replace (h ++ [10%N] ++ (p ++ t ++ [13; 10]%N ++ p2 ++ (c :: i) ++ [13; 10]%N) ++ [13; 10]%N ++ b)
        with (((h ++ 10%N :: p ++ t ++ [13%N]) ++ 10%N :: p2 ++ (c :: i) ++ [13%N]) ++ [10; 13; 10]%N ++ b).
      * by apply split_quiet_blank.
      * rewrite <- !app_assoc. simpl app at 3. repeat (rewrite <- ?app_assoc; cbn [app]). done.
    + repeat (rewrite <- ?app_assoc; cbn [app]). done.
  - exists (h ++ 10%N :: p ++ t ++ [13%N]). unfold exception_fields.
    rewrite app_nil_r. fold p t. split.
    + replace (h ++ [10%N] ++ (p ++ t ++ [13; 10]%N) ++ [13; 10]%N ++ b)
        with ((h ++ 10%N :: p ++ t ++ [13%N]) ++ [10; 13; 10]%N ++ b).
      * by apply split_quiet_blank.
      * simpl. rewrite <- !app_assoc. simpl. by rewrite <- !app_assoc.
    + simpl. rewrite <- !app_assoc. simpl. by rewrite <- !app_assoc.
Qed.

Lemma insert_exception_in_body hdr s0 ls id :
  no_blank_line (s0 ++ [10%N]) ->
  exists rest, blank_line_at (insert_exception_header hdr (s0 ++ [10%N]) ls id) s0
                 (str "X-Spambayes-Exception: " ++ rest).
Proof.
  intros H. rewrite insert_exception_no_blank by done. unfold exception_fields.
  set (p := str "X-Spambayes-Exception: "). set (t := crlf_sub _).
  eexists. apply split_blank_some. rewrite <- !app_assoc.
  change (s0 ++ [10%N] ++ [10%N] ++ ?u) with (s0 ++ 10%N :: 10%N :: u).
  rewrite split_blank_quiet by by apply quiet_of_no_blank. simpl. rewrite app_nil_r. reflexivity.
Qed.
