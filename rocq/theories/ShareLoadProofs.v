(** * load() on an object while the database was changed by others *)
From Coq Require Import String Lia Reals Lra.
From Verif Require Import Py NumModel ClassifierModel TrainSpec TrainProofs ScoreProofs RealModel RealSpec
  RealProofs ExactProofs ShelveModel ShelveSpec ShelveProofs ShelveRunProofs ShareModel ShareSpec ShareProofs
  ShareWorldProofs ShelveApiProofs.
Local Open Scope nat_scope.

Global Instance WStr_inj : Inj (=) (=) WStr.
Proof. by intros x y [= ->]. Qed.

Definition word_of (v : dbval) : option winfo := match v with DWord r => Some r | _ => None end.
Definition mem_of (d : database) : gmap pyword winfo := kmap WStr (omap word_of d).

Lemma mem_of_lookup (d : database) (w : pyword) : mem_of d !! w = look_db d w.
Proof.
  unfold mem_of, look_db. destruct w as [s|b|].
  - rewrite (lookup_kmap WStr), lookup_omap. destruct (d !! s) as [[]|]; done.
  - apply (lookup_kmap_None WStr). by intros i [=].
  - apply (lookup_kmap_None WStr). by intros i [=].
Qed.

Lemma outcomes_match_fun {A : num} (xs : list sop) : forall (rs rs' cs : list (outcome A)),
  outcomes_match xs rs cs -> outcomes_match xs rs' cs -> rs = rs'.
Proof.
  induction xs as [|x xs IH]; intros rs rs' cs H1 H2.
  - destruct rs, rs', cs; done.
  - destruct x as [c| | |]; destruct rs as [|r rs], rs' as [|r' rs'], cs as [|c' cs]; simpl in *; try done;
      destruct H1 as [-> H1], H2 as [-> H2]; f_equal; by eapply IH.
Qed.

Section load.
  Context {A : num} (it : set_order) (Hit : set_order_ok it).
  Notation sobj := (obj A sstore).

  Definition mem_obj (d : database) : obj A mstore :=
    Obj (Some false) (db_totals d).1 (db_totals d).2 ∅ (mem_of d).

  Lemma fresh_sim (d : database) (c : gmap Z (gmap Z (F A))) log : wf_db d ->
    let o := Obj (Some false) (db_totals d).1 (db_totals d).2 c (SStore d ∅ ∅ ∅ log) : sobj in
    cache_ok o -> sim o (mem_obj d).
  Proof.
    intros Hd o Hc. constructor; try done.
    - constructor; cbn [o o_store o_bigrams o_nspam o_nham s_db]; [by apply fresh_sinv|done|done| |by apply wf_db_totals].
      by destruct (db_totals d).
    - intros w. cbn [o o_store mem_obj]. by rewrite look_fresh, mem_of_lookup.
  Qed.

  Lemma train_cache (x : sop) (o : sobj) : trains x -> o_bigrams o = Some false ->
    run_sop it x o = run_sop it x (with_cache o ∅).
  Proof.
    intros Hx Hb. destruct x as [[s b|s b|]| | |]; try done; cbn [run_sop run_call]; unfold learn, unlearn;
      cbn [with_cache o_bigrams]; by rewrite Hb.
  Qed.

  Lemma load_like_fresh (d d' : database) (xs ys : list sop) :
    well_kept d -> well_kept d' -> Forall plain_op xs -> Forall plain_op ys -> tidy false ys ->
    let o := fst (run_sops it xs (fst (shelve_open (A:=A) d))) in
    let o' := fst (shelve_open (A:=A) d') in
    (o_nspam o' = o_nspam o /\ o_nham o' = o_nham o) \/ (exists x zs, ys = x :: zs /\ trains x) ->
    snd (shelve_load d' o) = Ok tt /\
    snd (run_sops it ys (fst (shelve_load d' o))) = snd (run_sops it ys o').
  Proof.
    intros Hd Hd' Hxs Hys Ht o o' Hcase. apply well_kept_wf in Hd, Hd'.
    destruct (open_spec (A:=A) d Hd) as [_ I0].
    destruct (run_sops_inv it Hit xs _ I0 Hxs) as (_&I&_). fold o in I.
    destruct (open_spec (A:=A) d' Hd') as [E' I']. fold o' in I'.
    assert (o' = Obj (Some false) (db_totals d').1 (db_totals d').2 ∅ (SStore d' ∅ ∅ ∅ [])) as Eo'.
    { unfold o'. by rewrite E'. }
    rewrite load_spec by done. cbn [fst snd]. split; [done|]. rewrite (o_bg o I).
    assert (sim o' (mem_obj d')) as S'.
    { rewrite Eo'. apply fresh_sim; [done|]. by apply cache_ok_empty. }
    destruct (sim_sops it Hit ys o' (mem_obj d') false S') as [_ M']; [by rewrite Eo'|done|done|].
    assert (forall c log, cache_ok (Obj (Some false) (db_totals d').1 (db_totals d').2 c (SStore d' ∅ ∅ ∅ log) : sobj) ->
      snd (run_sops it ys (Obj (Some false) (db_totals d').1 (db_totals d').2 c (SStore d' ∅ ∅ ∅ log))) =
      snd (run_sops it ys o')) as Hok.
    { intros c log Hc. pose proof (fresh_sim d' c log Hd' Hc) as S0.
      destruct (sim_sops it Hit ys _ _ false S0) as [_ M0]; [done|done|done|].
      by eapply outcomes_match_fun. }
    destruct Hcase as [[E1 E2]|(x&zs&->&Hx)].
    - apply Hok. rewrite Eo' in E1, E2. cbn in E1, E2. intros sc hc row p. cbn. rewrite E1, E2. apply (o_cok o I).
    - rewrite <- (Hok ∅ (s_log (o_store o))) by (by apply cache_ok_empty).
      cbn [run_sops]. by rewrite (train_cache x) by done.
  Qed.
End load.
