(** * Lemmas about pickled classifiers *)
From Coq Require Import String Lia.
From Verif Require Import Py NumModel ClassifierModel TrainSpec TrainProofs ScoreProofs PickleModel PickleSpec.
Local Open Scope nat_scope.

(** ** Round trip *)
Section round_trip.
  Context {A : num} (c : codec) (Hc : codec_ok c).
  Notation mstore := (gmap pyword winfo).
  Notation mobj := (obj A mstore).

  Lemma unpickle_pickle (o : mobj) :
    unpickle (A:=A) c (pickle c o) = Ok (Obj None (o_nspam o) (o_nham o) ∅ (o_store o)).
  Proof. unfold unpickle, pickle. by rewrite (proj1 Hc). Qed.

  Lemma load_stored (o o' : mobj) :
    pickle_load c None (pickle_store c o) o' =
      (Obj (o_bigrams o') (o_nspam o) (o_nham o) ∅ (o_store o), Ok tt).
  Proof.
    unfold pickle_load, pickle_read, pickle_store. by rewrite unpickle_pickle.
  Qed.

  Lemma run_same it (Hit : set_order_ok it) h : forall (o1 o2 : mobj), mgood o1 -> mgood o2 ->
    same_training o1 o2 -> snd (run mem_backend it h o1) = snd (run mem_backend it h o2).
  Proof.
    induction h as [|x h IH]; intros o1 o2 G1 G2 T; simpl; [done|].
    destruct (run_call_same it Hit x o1 o2 G1 G2 T) as [E T'].
    pose proof (run_call_good it Hit x o1 G1) as G1'. pose proof (run_call_good it Hit x o2 G2) as G2'.
    destruct (run_call mem_backend it x o1) as [o1' r1], (run_call mem_backend it x o2) as [o2' r2].
    simpl in *. specialize (IH o1' o2' G1' G2' T').
    destruct (run mem_backend it h o1'), (run mem_backend it h o2'). simpl in *. by f_equal.
  Qed.

  Lemma round_trip it h o' : set_order_ok it -> o_bigrams o' = Some false ->
    let o := fst (run mem_backend it h (c_new false ∅ : mobj)) in
    exists o2, pickle_load c None (pickle_store c o) o' = (o2, Ok tt) /\
      o_nspam o2 = o_nspam o /\ o_nham o2 = o_nham o /\ o_store o2 = o_store o /\ o_cache o2 = ∅ /\
      forall h', snd (run mem_backend it h' o2) = snd (run mem_backend it h' o).
  Proof.
    intros Hit Hb o. rewrite load_stored. eexists. split; [done|]. split_and!; try done.
    intros h'. apply run_same; [done|by apply empty_cache_good|by apply reachable_good|].
    split_and!; try done. simpl. rewrite Hb. unfold o. by rewrite run_bigrams.
  Qed.

  (** ** Histories with store, load and re-open *)
  Record psim (f : option bytes) (o m : mobj) (dirty : bool) : Prop := {
    ps_good : mgood o; ps_mgood : mgood m; ps_same : same_training o m;
    ps_bg : o_bigrams m = Some false;
    ps_file : dirty = false ->
      f = Some (pickle c o) \/ (f = None /\ o_store o = ∅ /\ o_nspam o = 0%Z /\ o_nham o = 0%Z)
  }.

  Lemma psim_reload f (o m o0 : mobj) : psim f o m false ->
    (o0 = o \/ o0 = c_new false ∅) -> exists o1,
    pickle_load c None f o0 = (o1, Ok tt) /\ psim f o1 m false.
  Proof.
    intros [G1 G2 T B F] H0. pose proof T as (T1&T2&T3&T4).
    assert (o_bigrams o0 = Some false) as Hb by (destruct H0; subst; [congruence|done]).
    destruct (F eq_refl) as [-> |(->&S1&S2&S3)].
    - change (Some (pickle c o)) with (pickle_store c o). rewrite (load_stored o o0).
      eexists. split; [done|]. constructor.
      + by apply empty_cache_good.
      + done.
      + split_and!; simpl; congruence.
      + done.
      + intros _. left. done.
    - unfold pickle_load, pickle_read. eexists. split; [done|]. constructor; [|done| |done|].
      + intros sc hc row p E1 E2. simpl in *. destruct H0; subst o0.
        * pose proof (G1 sc hc row p E1 E2) as G. by rewrite S2, S3 in G.
        * simpl in E1. by rewrite lookup_empty in E1.
      + split_and!; simpl; congruence.
      + intros _. by right.
  Qed.

  Lemma psim_pops it (Hit : set_order_ok it) xs : forall f (o m : mobj) dirty, psim f o m dirty ->
    ptidy dirty xs ->
    let '((f', o'), rs) := run_pops c it xs (f, o) in
    let '(m', qs) := run mem_backend it (pcalls xs) m in
    pmatch xs rs qs /\ same_training o' m'.
  Proof.
    induction xs as [|x xs IH]; intros f o m dirty S Ht; [split; [done|apply S]|].
    destruct x as [x| | |]; cbn [run_pops run_pop pcalls run].
    - destruct (run_call_same it Hit x o m (ps_good _ _ _ _ S) (ps_mgood _ _ _ _ S) (ps_same _ _ _ _ S)) as [E T'].
      pose proof (run_call_good it Hit x o (ps_good _ _ _ _ S)) as G1'.
      pose proof (run_call_good it Hit x m (ps_mgood _ _ _ _ S)) as G2'.
      pose proof (run_call_bigrams it Hit x m) as B'. rewrite (ps_bg _ _ _ _ S) in B'.
      assert (exists d', ptidy d' xs /\ psim f (fst (run_call mem_backend it x o)) (fst (run_call mem_backend it x m)) d')
        as (d'&Ht'&S').
      { destruct x as [s b|s b|s].
        - exists true. by split.
        - exists true. by split.
        - exists dirty. split; [done|]. constructor; try done.
          intros Hd. destruct (mem_score it s o (ps_good _ _ _ _ S)) as (o'&Eo&_&T1).
          simpl. rewrite Eo. simpl. destruct T1 as (U1&U2&U3&U4).
          unfold pickle, getstate. rewrite U1, U2, U3. apply (ps_file _ _ _ _ S Hd). }
      destruct (run_call mem_backend it x o) as [o1 r1], (run_call mem_backend it x m) as [m1 q1].
      simpl in E, S'. specialize (IH f o1 m1 d' S' Ht').
      destruct (run_pops c it xs (f, o1)) as [[f2 o2] rs]. destruct (run mem_backend it (pcalls xs) m1) as [m2 qs].
      destruct IH as [M T2]. by split; [split|].
    - assert (psim (pickle_store c o) o m false) as S'.
      { destruct S. constructor; try done. intros _. by left. }
      specialize (IH _ _ _ _ S' Ht).
      destruct (run_pops c it xs (pickle_store c o, o)) as [[f2 o2] rs].
      destruct (run mem_backend it (pcalls xs) m) as [m2 qs].
      destruct IH as [M T2]. by split; [split|].
    - destruct Ht as [-> Ht]. destruct (psim_reload f o m o S (or_introl eq_refl)) as (o1&E&S').
      rewrite E. specialize (IH _ _ _ _ S' Ht).
      destruct (run_pops c it xs (f, o1)) as [[f2 o2] rs]. destruct (run mem_backend it (pcalls xs) m) as [m2 qs].
      destruct IH as [M T2]. by split; [split|].
    - destruct Ht as [-> Ht]. destruct (psim_reload f o m _ S (or_intror eq_refl)) as (o1&E&S').
      unfold pickle_open. rewrite E. specialize (IH _ _ _ _ S' Ht).
      destruct (run_pops c it xs (f, o1)) as [[f2 o2] rs]. destruct (run mem_backend it (pcalls xs) m) as [m2 qs].
      destruct IH as [M T2]. by split; [split|].
  Qed.

  Lemma pickle_refines_memory it xs : set_order_ok it -> ptidy false xs ->
    let '((f, o), rs) := run_pops c it xs (None, fst (pickle_open c None None)) in
    let '(m, qs) := run mem_backend it (pcalls xs) (c_new false ∅ : mobj) in
    pmatch xs rs qs /\ same_training o m.
  Proof.
    intros Hit Ht. apply (psim_pops it Hit xs None _ _ false); [|done].
    constructor; try done; try (by apply empty_cache_good). intros _. by right.
  Qed.

  (** ** Failing reads *)
  Lemma load_failed fault f (o : mobj) e : pickle_read (A:=A) c fault f = Err e ->
    pickle_load c fault f o = (Obj (o_bigrams o) 0 0 (o_cache o) ∅, Ok tt).
  Proof. unfold pickle_load. by intros ->. Qed.

  Lemma read_fails fault f :
    (exists e, pickle_read (A:=A) c fault f = Err e) <->
    is_Some fault \/ f = None \/ (exists b, f = Some b /\ loads c b = None) \/
    (exists b t, f = Some b /\ loads c b = Some t /\ p_version t <> PICKLE_VERSION).
  Proof.
    unfold pickle_read. destruct fault as [e|].
    { split; [by left; eexists|by eexists]. }
    destruct f as [b|]; [|by split; [auto|eexists]].
    unfold unpickle. destruct (loads c b) as [t|] eqn:E.
    - unfold setstate. destruct (Z.eqb_spec (p_version t) PICKLE_VERSION) as [Ev|Ev].
      + split; [by intros [? ?]|].
        intros [[? ?]|[?|[(b'&[= <-]&?)|(b'&t'&[= <-]&?&?)]]]; congruence.
      + split; [|by eexists]. intros _. right; right; right. by exists b, t.
    - split; [|by eexists]. intros _. right; right; left. by exists b.
  Qed.

  Lemma failed_load_wipes fault f (o : mobj) :
    (is_Some fault \/ f = None \/ (exists b, f = Some b /\ loads c b = None) \/
     (exists b t, f = Some b /\ loads c b = Some t /\ p_version t <> PICKLE_VERSION)) ->
    exists o1, pickle_load c fault f o = (o1, Ok tt) /\
      o_nspam o1 = 0%Z /\ o_nham o1 = 0%Z /\ o_store o1 = ∅ /\
      forall o' : mobj, exists o2 : mobj, pickle_load c None (pickle_store c o1) o' = (o2, Ok tt) /\
        o_store o2 = ∅ /\ o_nspam o2 = 0%Z /\ o_nham o2 = 0%Z.
  Proof.
    intros H. apply read_fails in H as [e H]. rewrite (load_failed _ _ _ _ H).
    eexists. split; [done|]. split_and!; try done. intros o'. rewrite load_stored. by eexists.
  Qed.

  Lemma read_corrupt b : loads c b = None -> pickle_read (A:=A) c None (Some b) = Err UnpicklingError.
  Proof. unfold pickle_read, unpickle. by intros ->. Qed.

  (** ** Plain pickling (C33) *)
  Lemma unpickled_useless it (o : mobj) : exists o2,
    unpickle (A:=A) c (pickle c o) = Ok o2 /\
    o_store o2 = o_store o /\ o_nspam o2 = o_nspam o /\ o_nham o2 = o_nham o /\
    forall s b, learn mem_backend it s b o2 = (o2, Err AttributeError) /\
      unlearn mem_backend it s b o2 = (o2, Err AttributeError) /\
      spamprob mem_backend it s o2 = (o2, Err AttributeError) /\
      spamprob_evidence mem_backend it s o2 = (o2, Err AttributeError).
  Proof.
    rewrite unpickle_pickle. eexists. split; [done|]. split_and!; try done.
  Qed.

  Lemma unknown_version b t : loads c b = Some t -> p_version t <> PICKLE_VERSION ->
    unpickle (A:=A) c b = Err ValueError.
  Proof.
    intros E Hv. unfold unpickle, setstate. rewrite E. by destruct (Z.eqb_spec (p_version t) PICKLE_VERSION).
  Qed.
End round_trip.

(** ** Crash points of pickle_write *)
Lemma tmp_appends chunks : forall s t, f_tmp s = Some t ->
  foldl fs_apply s (TmpAppend <$> chunks) = FS (f_db s) (Some (t ++ concat chunks)).
Proof.
  induction chunks as [|b l IH]; intros s t E; simpl.
  - rewrite app_nil_r. destruct s. simpl in *. by subst.
  - rewrite (IH _ (t ++ b)); simpl; [by rewrite app_assoc|by rewrite E].
Qed.

Lemma db_appends copied : forall s t, f_db s = Some t ->
  foldl fs_apply s (DbAppend <$> copied) = FS (Some (t ++ concat copied)) (f_tmp s).
Proof.
  induction copied as [|b l IH]; intros s t E; simpl.
  - rewrite app_nil_r. destruct s. simpl in *. by subst.
  - rewrite (IH _ (t ++ b)); simpl; [by rewrite app_assoc|by rewrite E].
Qed.

Lemma take_appends_db s chunks n : f_db (foldl fs_apply s (take n (TmpAppend <$> chunks))) = f_db s.
Proof.
  rewrite <- fmap_take. generalize (take n chunks) as l. intros l. revert s.
  induction l as [|b l IH]; intros s; simpl; [done|]. by rewrite IH.
Qed.

Lemma write_all same chunks copied b old tmp :
  concat chunks = b -> concat copied = b ->
  f_db (foldl fs_apply (FS old tmp) (write_steps same chunks copied)) = Some b.
Proof.
  intros E1 E2. unfold write_steps. cbn [foldl fs_apply]. rewrite foldl_app.
  rewrite (tmp_appends chunks _ []) by done. simpl. destruct same; simpl; [by rewrite E1|].
  rewrite foldl_app. rewrite (db_appends copied _ []) by done. simpl. by rewrite E2.
Qed.

Lemma rename_atomic chunks copied b old tmp n : concat chunks = b ->
  let s := foldl fs_apply (FS old tmp) (take n (write_steps true chunks copied)) in
  f_db s = old \/ f_db s = Some b.
Proof.
  intros E. unfold write_steps. destruct n as [|n]; [by left|]. cbn [take foldl fs_apply f_db].
  destruct (decide (n <= length (TmpAppend <$> chunks))) as [Hle|Hgt].
  - rewrite take_app_le by done. left. by rewrite take_appends_db.
  - rewrite take_ge by (rewrite app_length; simpl; lia). rewrite foldl_app.
    rewrite (tmp_appends chunks _ []) by done. simpl. right. by rewrite E.
Qed.

(** The copy across file systems: after the truncation the database holds the
    blocks copied so far. *)
Lemma copy_partial chunks copied old tmp k : k <= length copied ->
  f_db (foldl fs_apply (FS old tmp) (take (2 + length chunks + k) (write_steps false chunks copied)))
    = Some (concat (take k copied)).
Proof.
  intros Hk. unfold write_steps. change (2 + length chunks + k) with (S (S (length chunks + k))).
  cbn [take foldl fs_apply].
  rewrite take_app_ge by (rewrite fmap_length; lia). rewrite foldl_app, (tmp_appends chunks _ []) by done.
  rewrite fmap_length. replace (S (length chunks + k) - length chunks) with (S k) by lia.
  cbn [take foldl fs_apply f_db f_tmp]. rewrite take_app_le by (rewrite fmap_length; lia).
  rewrite <- fmap_take. by rewrite (db_appends _ _ []).
Qed.

Lemma copy_not_atomic (b : bytes) old tmp : b <> [] -> old <> Some [] -> exists chunks copied n,
  concat chunks = b /\ concat copied = b /\
  let s := foldl fs_apply (FS old tmp) (take n (write_steps false chunks copied)) in
  f_db s <> old /\ f_db s <> Some b.
Proof.
  intros Hb Ho. exists [b], [b], 3. simpl. rewrite app_nil_r. split_and!; [done|done|congruence|congruence].
Qed.

Lemma concat_prefix (l : list bytes) k : exists rest, concat l = concat (take k l) ++ rest.
Proof. exists (concat (drop k l)). by rewrite <- concat_app, take_drop. Qed.

(** When such a file is loaded, the classifier starts empty. *)
Lemma copy_crash_empty {A : num} c (o : obj A (gmap pyword winfo)) chunks copied t old tmp k : codec_ok c ->
  concat chunks = dumps c t -> concat copied = dumps c t -> k <= length copied ->
  concat (take k copied) <> dumps c t ->
  let s := foldl fs_apply (FS old tmp) (take (2 + length chunks + k) (write_steps false chunks copied)) in
  exists o1, pickle_load c None (f_db s) o = (o1, Ok tt) /\ o_store o1 = ∅ /\
    o_nspam o1 = 0%Z /\ o_nham o1 = 0%Z.
Proof.
  intros [_ Hp] E1 E2 Hk Hne s. unfold s. rewrite copy_partial by done.
  destruct (concat_prefix copied k) as [rest Hr]. rewrite E2 in Hr.
  assert (loads c (concat (take k copied)) = None) as Hl.
  { apply (Hp t _ rest Hr). intros ->. apply Hne. by rewrite app_nil_r in Hr. }
  rewrite (load_failed c None _ o UnpicklingError); [eexists; by split|].
  by apply read_corrupt.
Qed.
