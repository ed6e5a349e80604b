(** * Lemmas about the text form of a message *)
From Coq Require Import String.
From Verif Require Import Py MessageModel MessageSpec TextProofs OutModel OutSpec.

Section out.
  Context {H : Type} (G : generator H).

  Fixpoint parts_of (u : bool) (l : list (node H)) : res (list codes) :=
    match l with
    | [] => Ok []
    | q :: l => rbind (as_string G u true q) (fun s => rbind (parts_of u l) (fun ss => Ok (s :: ss)))
    end.

  Lemma as_string_eq (u m : bool) (n : node H) : as_string G u m n =
    if negb (own n) then g_base G u n
    else match g_flatten G m u n with
         | Ok t => Ok (force_crlf t)
         | Err TypeError =>
             rbind (match payload n with
                    | LNone => Err TypeError
                    | LText [] | LBytes [] => Ok []
                    | LText _ | LBytes _ => Err AttributeError
                    | LParts l => parts_of u l
                    end) (fun ss => Ok (force_crlf (join_lf ss)))
         | Err e => Err e
         end.
  Proof.
    destruct n as [o h p]. cbn [own payload as_string]. destruct o; [|done]. cbn [negb].
    destruct (g_flatten G m u _) as [t|e]; [done|]. destruct e; try done.
    destruct p as [|t'|b|l]; try done. f_equal. induction l as [|q l IH]; [done|].
    cbn [parts_of]. by rewrite <- IH.
  Qed.

  Lemma only_crlf (u m : bool) (n : node H) t : own n = true -> as_string G u m n = Ok t -> crlf_only t.
  Proof.
    intros Ho. rewrite as_string_eq, Ho. cbn [negb]. destruct (g_flatten G m u n) as [t'|e].
    - intros [= <-]. apply force_crlf_only.
    - destruct e; try done. destruct (match payload n with LNone => _ | _ => _ end) as [ss|]; [|done].
      intros [= <-]. apply force_crlf_only.
  Qed.

  Lemma flat_lines (u m : bool) (n : node H) t ls : own n = true -> g_flatten G m u n = Ok t -> has_lines t ls ->
    exists t', as_string G u m n = Ok t' /\ crlf_only t' /\ has_lines t' ls.
  Proof.
    intros Ho E Hl. exists (force_crlf t). rewrite as_string_eq, Ho, E. cbn [negb].
    split; [done|]. split; [apply force_crlf_only|by apply force_lines].
  Qed.

  Lemma crlf_only_last l : ~ crlf_only (l ++ [13%N]).
  Proof.
    remember (l ++ [13%N]) as s eqn:E. intros Hs. revert l E. induction Hs as [|c s H1 H2 Hs IH|s Hs IH]; intros l E.
    - by destruct l.
    - destruct l as [|c' l]; [by injection E as -> _|]. injection E as <- E. by apply (IH l).
    - destruct l as [|c' [|c'' l]]; [done|done|]. injection E as <- <- E. by apply (IH l).
  Qed.

  Lemma has_lines_app a la b lb : crlf_only a -> has_lines a la -> has_lines b lb ->
    has_lines (a ++ 10%N :: b) (la ++ lb).
  Proof.
    intros Ha Hla Hb. induction Hla as [l H1 H2|l s ls H1 H2 Hl IH|l s ls H1 H2 Hl IH|l s ls H1 H2 Hh Hl IH].
    - simpl. by apply lines_lf.
    - rewrite <- app_assoc. simpl. apply lines_crlf; [done|done|]. apply IH.
      clear -Ha H1 H2. induction l as [|c l IHl]; simpl in Ha.
      + inversion Ha; subst; done.
      + apply not_elem_of_cons in H1 as [??]. apply not_elem_of_cons in H2 as [??].
        apply IHl; [|done|done]. inversion Ha; subst; congruence.
    - exfalso. clear -Ha H1 H2. induction l as [|c l IHl]; simpl in Ha.
      + inversion Ha; subst; done.
      + apply not_elem_of_cons in H1 as [??]. apply not_elem_of_cons in H2 as [??].
        apply IHl; [|done|done]. inversion Ha; subst; congruence.
    - exfalso. clear -Ha H1 H2 Hh. induction l as [|c l IHl]; simpl in Ha.
      + inversion Ha; subst; [done|]. by apply Hh.
      + apply not_elem_of_cons in H1 as [??]. apply not_elem_of_cons in H2 as [??].
        apply IHl; [|done|done]. inversion Ha; subst; congruence.
  Qed.

  Lemma parts_spec (u : bool) (l : list (node H)) ss : Forall (fun q => own q = true) l ->
    parts_of u l = Ok ss <-> Forall2 (fun q s => as_string G u true q = Ok s) l ss.
  Proof.
    intros _. revert ss. induction l as [|q l IH]; intros ss; simpl.
    - split; [intros [= <-]; constructor|]. by inversion 1.
    - destruct (as_string G u true q) as [s|e] eqn:E; simpl.
      + destruct (parts_of u l) as [ss'|e] eqn:E'; simpl.
        * split; [intros [= <-]; constructor; [done|by apply IH]|].
          inversion 1 as [|? s1 ? ss1 Hs1 Hs2]; subst. apply IH in Hs2. congruence.
        * split; [done|]. inversion 1 as [|? s1 ? ss1 Hs1 Hs2]; subst. apply IH in Hs2. congruence.
      + split; [done|]. inversion 1 as [|? s1 ? ss1 Hs1 Hs2]; subst. congruence.
  Qed.

  Lemma join_lines l : forall ss lss, Forall2 (fun q s => own q = true -> crlf_only s) l ss ->
    Forall (fun q : node H => own q = true) l -> Forall2 has_lines ss lss -> ss <> [] -> has_lines (join_lf ss) (concat lss).
  Proof.
    induction l as [|q l IH]; intros ss lss Hc Ho Hl Hne; inversion Hc as [|? s ? ss' Hs Hss]; subst; [done|].
    inversion Hl as [|? ls ? lss' Hls Hlss]; subst. apply Forall_cons in Ho as [Hq Ho].
    destruct ss' as [|s' ss'].
    - inversion Hlss; subst. simpl. by rewrite app_nil_r.
    - change (join_lf (s :: s' :: ss')) with (s ++ 10%N :: join_lf (s' :: ss')). simpl concat.
      apply has_lines_app; [by apply Hs|done|]. by apply IH.
  Qed.

  (** A message the generator refuses with TypeError is written part by part. *)
  Lemma refused_parts (u m : bool) o h l (ts : list codes) lss : o = true ->
    g_flatten G m u (Node o h (LParts l)) = Err TypeError -> l <> [] ->
    Forall (fun q => own q = true) l ->
    Forall2 (fun q s => as_string G u true q = Ok s) l ts -> Forall2 has_lines ts lss ->
    exists t', as_string G u m (Node o h (LParts l)) = Ok t' /\ crlf_only t' /\ has_lines t' (concat lss).
  Proof.
    intros -> E Hne Ho Hts Hls. rewrite as_string_eq. cbn [own negb payload]. rewrite E.
    pose proof (proj2 (parts_spec u l ts Ho) Hts) as ->. cbn [rbind]. eexists. split; [done|].
    split; [apply force_crlf_only|]. apply force_lines. apply (join_lines l); try done.
    - eapply Forall2_impl; [exact Hts|]. cbv beta. intros q s Hs Hq. by eapply only_crlf.
    - destruct ts; [|done]. by inversion Hts.
  Qed.

  (** Neither the headers nor [mangle_from_] matter then. *)
  Lemma refused_same (u m m' : bool) h h' l :
    g_flatten G m u (Node true h (LParts l)) = Err TypeError ->
    g_flatten G m' u (Node true h' (LParts l)) = Err TypeError ->
    as_string G u m (Node true h (LParts l)) = as_string G u m' (Node true h' (LParts l)).
  Proof. intros E E'. rewrite !as_string_eq. cbn [own negb payload]. by rewrite E, E'. Qed.

  Fixpoint size (n : node H) : nat :=
    match n with
    | Node _ _ (LParts l) => S (fold_right (fun q k => size q + k)%nat 0%nat l)
    | _ => 1%nat
    end.

  Lemma size_part o h l (q : node H) : q ∈ l -> (size q < size (Node o h (LParts l)))%nat.
  Proof.
    simpl. induction 1 as [q l|q q' l Hq IH]; simpl; lia.
  Qed.

  Lemma raises_because (u m : bool) (n : node H) e : as_string G u m n = Err e ->
    exists q, within q n /\ reason G u q e.
  Proof.
    remember (size n) as k eqn:Ek. revert m n e Ek.
    induction (lt_wf k) as [k _ IH]. intros m n e -> E.
    rewrite as_string_eq in E. destruct (own n) eqn:Ho; cbn [negb] in E.
    2:{ exists n. split; [constructor|]. unfold reason. by rewrite Ho. }
    destruct (g_flatten G m u n) as [t|e'] eqn:Ef; [done|].
    destruct (decide (e' = TypeError)) as [->|Hne].
    2:{ exists n. split; [constructor|]. unfold reason. rewrite Ho. exists m, e'. split; [done|].
        destruct e'; try done; by injection E as <-. }
    destruct n as [o h p]. cbn [payload own] in *. subst o.
    destruct p as [|t|b|l].
    - injection E as <-. eexists. split; [constructor|]. unfold reason. cbn. by exists m, TypeError.
    - destruct t as [|c t]; [done|]. injection E as <-. eexists. split; [constructor|].
      unfold reason. cbn. by exists m, TypeError.
    - destruct b as [|c b]; [done|]. injection E as <-. eexists. split; [constructor|].
      unfold reason. cbn. by exists m, TypeError.
    - assert (forall l', (forall q, q ∈ l' -> q ∈ l) ->
        parts_of u l' = Err e -> exists q, within q (Node true h (LParts l)) /\ reason G u q e) as Hp.
      { induction l' as [|q l' IHl]; intros Hsub Ep; [done|]. simpl in Ep.
        destruct (as_string G u true q) as [s|e1] eqn:Eq; cbn [rbind] in Ep.
        - destruct (parts_of u l') as [ss|e2] eqn:E2; cbn [rbind] in Ep; [done|].
          injection Ep as ->. apply IHl; [|done]. intros q' Hq'. apply Hsub. by right.
        - injection Ep as ->. assert (q ∈ l) as Hq by (apply Hsub; left).
          destruct (IH (size q) (size_part true h l q Hq) true q e eq_refl Eq) as (q'&Hw&Hr).
          exists q'. split; [|done]. by eapply within_part. }
      destruct (parts_of u l) as [ss|e2] eqn:E2; cbn [rbind] in E; [done|].
      injection E as ->. by apply (Hp l).
  Qed.
End out.
