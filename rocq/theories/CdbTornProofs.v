(** * Lemmas about damaged constant databases (C137) *)
From Coq Require Import String Lia.
From Verif Require Import Py CdbModel CdbSpec CdbProofs CdbTornSpec.
Local Open Scope N_scope.

(** ** Any file *)
Lemma unpack_u32 file pos : uint32_unpack (slice file pos 4) = match u32_at file pos with Some n => Ok n | None => Err StructError end.
Proof.
  unfold uint32_unpack, u32_at, slice. change (N.to_nat 4) with 4%nat.
  destruct (take 4 (drop (N.to_nat pos) file)) as [|a [|b [|c [|d [|? ?]]]]]; try done. f_equal.
  change (2 ^ 8) with 256. change (2 ^ 16) with 65536. change (2 ^ 24) with 16777216. lia.
Qed.

Lemma slice_first file pos : slice (slice file pos 8) 0 4 = slice file pos 4.
Proof. unfold slice. change (N.to_nat 0) with 0%nat. rewrite drop_0, take_take. done. Qed.
Lemma slice_second file pos : slice (slice file pos 8) 4 4 = slice file (pos + 4) 4.
Proof.
  unfold slice. change (N.to_nat 4) with 4%nat. change (N.to_nat 8) with 8%nat.
  rewrite skipn_firstn_comm, take_take, drop_drop. by replace (N.to_nat (pos + 4)) with (N.to_nat pos + 4)%nat by lia.
Qed.

Lemma iter_step fuel file eod pos : cdb_iter (S fuel) file eod pos =
  if pos <? eod then
    match u32_at file pos, u32_at file (pos + 4) with
    | Some k, Some v => rbind (cdb_iter fuel file eod (pos + 8 + k + v)) (fun l => Ok ((clip file (pos + 8) k, clip file (pos + 8 + k) v) :: l))
    | _, _ => Err StructError
    end
  else Ok [].
Proof.
  cbn [cdb_iter]. rewrite slice_first, slice_second, !unpack_u32. destruct (pos <? eod); [|done].
  destruct (u32_at file pos); [|done]. by destruct (u32_at file (pos + 4)).
Qed.

Lemma iter_reads file eod : forall fuel pos, (N.to_nat eod < N.to_nat pos + fuel)%nat ->
  match cdb_iter fuel file eod pos with
  | Ok l => reads file eod pos l
  | Err e => e = StructError /\ ~ exists l, reads file eod pos l
  end.
Proof.
  induction fuel as [|fuel IH]; intros pos Hf.
  - cbn. constructor. lia.
  - rewrite iter_step. destruct (N.ltb_spec pos eod) as [Hlt|Hge]; [|by constructor].
    destruct (u32_at file pos) as [k|] eqn:Ek.
    2:{ split; [done|]. intros (l & H). inversion H; subst; [lia|congruence]. }
    destruct (u32_at file (pos + 4)) as [v|] eqn:Ev.
    2:{ split; [done|]. intros (l & H). inversion H; subst; [lia|congruence]. }
    specialize (IH (pos + 8 + k + v) ltac:(lia)). destruct (cdb_iter fuel file eod (pos + 8 + k + v)) as [l|e]; cbn [rbind].
    + by constructor.
    + destruct IH as [-> HN]. split; [done|]. intros (l & H). inversion H; subst; [lia|]. apply HN.
      assert (k0 = k) as -> by congruence. assert (v0 = v) as -> by congruence. eauto.
Qed.

Lemma u32_inside file pos n : u32_at file pos = Some n -> pos + 4 <= N.of_nat (length file).
Proof.
  unfold u32_at. intros H.
  assert (length (take 4 (drop (N.to_nat pos) file)) = 4)%nat as E.
  { destruct (take 4 (drop (N.to_nat pos) file)) as [|a [|b [|c [|d [|? ?]]]]]; try done. }
  rewrite take_length, drop_length in E. lia.
Qed.

Lemma reads_bound file eod pos l : reads file eod pos l ->
  l = [] \/ pos + 8 * N.of_nat (length l) <= N.of_nat (length file).
Proof.
  induction 1 as [|pos k v l Hlt Hk Hv _ IH]; [by left|]. right. apply u32_inside in Hv.
  destruct IH as [->|IH]; cbn [length]; lia.
Qed.

Lemma clip_part file pos len : exists a b, file = a ++ clip file pos len ++ b.
Proof.
  exists (take (N.to_nat pos) file), (drop (N.to_nat len) (drop (N.to_nat pos) file)). unfold clip.
  by rewrite !take_drop.
Qed.
Lemma reads_parts file eod pos l : reads file eod pos l -> forall k v, (k, v) ∈ l ->
  (exists a b, file = a ++ k ++ b) /\ exists a b, file = a ++ v ++ b.
Proof.
  induction 1 as [|pos k v l Hlt Hk Hv _ IH]; intros k1 v1 Hin; [by apply elem_of_nil in Hin|].
  apply elem_of_cons in Hin as [[= -> ->]|Hin]; [|by apply IH]. split; apply clip_part.
Qed.

Lemma any_items file : file <> [] ->
  match cdb_items file with
  | Ok l => (exists eod, u32_at file 0 = Some eod /\ reads file eod 2048 l) /\
      (l = [] \/ 2048 + 8 * N.of_nat (length l) <= N.of_nat (length file)) /\
      forall k v, (k, v) ∈ l -> (exists a b, file = a ++ k ++ b) /\ exists a b, file = a ++ v ++ b
  | Err e => e = StructError /\ ~ exists eod l, u32_at file 0 = Some eod /\ reads file eod 2048 l
  end.
Proof.
  intros Hne. unfold cdb_items, cdb_eod. rewrite decide_False by done. rewrite unpack_u32.
  destruct (u32_at file 0) as [eod|] eqn:E0; cbn [rbind].
  - pose proof (iter_reads file eod (N.to_nat eod) 2048 ltac:(lia)) as H.
    destruct (cdb_iter (N.to_nat eod) file eod 2048) as [l|e].
    + split_and!; [by exists eod|by eapply reads_bound|by eapply reads_parts].
    + destruct H as [-> HN]. split; [done|]. intros (eod1 & l & [= <-] & HR). eauto.
  - split; [done|]. by intros (eod' & l & ? & _).
Qed.

(** ** A file cut short *)
Lemma u32_none file pos : (length file < N.to_nat pos + 4)%nat -> u32_at file pos = None.
Proof.
  intros H. destruct (u32_at file pos) eqn:E; [|done]. apply u32_inside in E. lia.
Qed.

Lemma iter_prefix init : forall fuel pre post pos eod, N.of_nat (length pre) = pos -> pos + recs_len init <= eod -> eod < 2 ^ 32 ->
  cdb_iter (length init + fuel) (pre ++ recs_bytes init ++ post) eod pos =
  rbind (cdb_iter fuel (pre ++ recs_bytes init ++ post) eod (pos + recs_len init)) (fun l => Ok (init ++ l)).
Proof.
  induction init as [|[k v] init IH]; intros fuel pre post pos eod Hp He Hs.
  - cbn [length recs_len foldr Nat.add]. rewrite N.add_0_r. by destruct (cdb_iter fuel _ eod pos).
  - cbn [recs_len foldr length Nat.add] in *. fold (recs_len init) in *.
    assert (rec_len (k, v) = 8 + N.of_nat (length k) + N.of_nat (length v)) as El by done.
    rewrite iter_step. rewrite (proj2 (N.ltb_lt pos eod)) by lia.
    unfold recs_bytes. rewrite fmap_cons. cbn [concat]. fold (recs_bytes init).
    set (rest := recs_bytes init) in *.
    unfold rec_bytes. cbn [fst snd].
    set (a := le32 (N.of_nat (length k))). set (b := le32 (N.of_nat (length v))).
    assert (length a = 4%nat /\ length b = 4%nat) as [La Lb] by done.
    set (F := pre ++ ((a ++ b ++ k ++ v) ++ rest) ++ post).
    assert (F = pre ++ a ++ (b ++ k ++ v ++ rest ++ post)) as E1 by (unfold F; by rewrite <- !app_assoc).
    assert (F = (pre ++ a) ++ b ++ (k ++ v ++ rest ++ post)) as E2 by (unfold F; by rewrite <- !app_assoc).
    assert (F = (pre ++ a ++ b) ++ k ++ (v ++ rest ++ post)) as E3 by (unfold F; by rewrite <- !app_assoc).
    assert (F = (pre ++ a ++ b ++ k) ++ v ++ (rest ++ post)) as E4 by (unfold F; by rewrite <- !app_assoc).
    assert (F = (pre ++ a ++ b ++ k ++ v) ++ rest ++ post) as E5 by (unfold F; by rewrite <- !app_assoc).
    assert (u32_at F pos = Some (N.of_nat (length k))) as ->.
    { rewrite E1. apply u32_at_le32; [lia|done]. }
    assert (u32_at F (pos + 4) = Some (N.of_nat (length v))) as ->.
    { rewrite E2. apply u32_at_le32; [lia|]. rewrite app_length. lia. }
    assert (clip F (pos + 8) (N.of_nat (length k)) = k) as ->.
    { rewrite E3. apply slice_mid; [rewrite !app_length; lia|done]. }
    assert (clip F (pos + 8 + N.of_nat (length k)) (N.of_nat (length v)) = v) as ->.
    { rewrite E4. apply slice_mid; [rewrite !app_length; lia|done]. }
    rewrite E5. rewrite (IH fuel (pre ++ a ++ b ++ k ++ v) post); [|rewrite !app_length; lia|lia|done].
    replace (pos + (rec_len (k, v) + recs_len init)) with (pos + 8 + N.of_nat (length k) + N.of_nat (length v) + recs_len init) by lia.
    by destruct (cdb_iter fuel _ eod _).
Qed.

Lemma records_end_len items : N.of_nat (records_end items) = 2048 + recs_len items.
Proof.
  unfold records_end. induction items as [|kv items IH]; [done|].
  rewrite fmap_cons. cbn [sum_list_with recs_len foldr]. fold (recs_len items). unfold rec_len.
  unfold id. set (n := sum_list_with _ _) in *. destruct kv as [k v]. cbn [fst snd].
  generalize dependent n. intros n IH. lia.
Qed.

Lemma recs_len_app a b : recs_len (a ++ b) = recs_len a + recs_len b.
Proof. induction a as [|kv a IH]; [done|]. cbn [app recs_len foldr]. fold (recs_len (a ++ b)) (recs_len a). lia. Qed.
Lemma recs_bytes_app a b : recs_bytes (a ++ b) = recs_bytes a ++ recs_bytes b.
Proof. unfold recs_bytes. by rewrite fmap_app, concat_app. Qed.

(** Which record the cut is in *)
Lemma cut_where items : forall n, n < recs_len items -> exists init kv rest, items = init ++ kv :: rest /\
  recs_len init <= n < recs_len init + rec_len kv.
Proof.
  induction items as [|kv items IH]; intros n Hn; [cbn in Hn; lia|]. cbn [recs_len foldr] in Hn. fold (recs_len items) in Hn.
  destruct (decide (n < rec_len kv)) as [H|H].
  - exists [], kv, items. split; [done|]. cbn. lia.
  - destruct (IH (n - rec_len kv) ltac:(lia)) as (init & kv' & rest & -> & Hr). exists (kv :: init), kv', rest. split; [done|].
    cbn [recs_len foldr]. fold (recs_len init). lia.
Qed.

Section cut.
  Context (items : list (codes * codes)) (final outs rest0 : codes).
  Context (Hs : 2048 + recs_len items < 2 ^ 32) (Hf : N.of_nat (length final) = 2048)
    (Er : final = le32 (2048 + recs_len items) ++ rest0).
  Let file := final ++ recs_bytes items ++ outs.
  Let eod := 2048 + recs_len items.

  Lemma cut_eod n : (4 <= n)%nat -> u32_at (take n file) 0 = Some eod.
  Proof.
    intros Hn. unfold file. rewrite Er, <- app_assoc, take_app_ge by (rewrite le32_length; lia).
    apply (u32_at_le32 []); [done|done].
  Qed.
  Lemma cut_items n : (4 <= n)%nat -> cdb_items (take n file) = cdb_iter (N.to_nat eod) (take n file) eod 2048.
  Proof.
    intros Hn. unfold cdb_items, cdb_eod. rewrite decide_False.
    - by rewrite unpack_u32, cut_eod.
    - intros E. pose proof (cut_eod n Hn) as H. rewrite E in H. done.
  Qed.

  Lemma cut_early n : (n < 4)%nat -> n <> 0%nat -> cdb_items (take n file) = Err StructError.
  Proof.
    intros Hn H0. unfold cdb_items, cdb_eod. rewrite decide_False.
    - rewrite unpack_u32, u32_none; [done|]. rewrite take_length. lia.
    - intros E. apply (f_equal length) in E. rewrite take_length in E. unfold file in E. rewrite app_length in E. cbn in E. lia.
  Qed.

  (** From the position of a record that begins beyond the cut *)
  Lemma beyond fuel f pos : pos < eod -> (length f < N.to_nat pos + 8)%nat -> cdb_iter (S fuel) f eod pos = Err StructError.
  Proof.
    intros H Hl. rewrite iter_step, (proj2 (N.ltb_lt _ _)) by done.
    destruct (u32_at f pos) as [k|]; [|done]. rewrite (u32_none f (pos + 4)); [done|lia].
  Qed.

  Lemma cut_header n : items <> [] -> (4 <= n < 2048)%nat -> cdb_items (take n file) = Err StructError.
  Proof.
    intros Hi Hn. rewrite cut_items by lia.
    assert (0 < recs_len items) as Hp by (destruct items as [|kv its]; [done|]; cbn [recs_len foldr]; unfold rec_len; lia).
    replace (N.to_nat eod) with (S (N.to_nat eod - 1)) by (unfold eod; lia).
    apply beyond; [unfold eod; lia|]. rewrite take_length. lia.
  Qed.

  Lemma cut_after n : (N.to_nat eod <= n)%nat -> cdb_items (take n file) = Ok items.
  Proof.
    intros Hn. rewrite cut_items by (unfold eod in *; lia). unfold file.
    assert (length (final ++ recs_bytes items) = N.to_nat eod) as El.
    { rewrite app_length. pose proof (recs_bytes_length items). unfold eod. lia. }
    rewrite app_assoc, take_app_ge, El, <- app_assoc by lia.
    apply iter_recs; [|done|done|done]. pose proof (recs_len_ge items). unfold eod. lia.
  Qed.

  Lemma cut_inside n init kv rest : items = init ++ kv :: rest ->
    2048 + recs_len init <= N.of_nat n < 2048 + recs_len init + rec_len kv ->
    cdb_items (take n file) =
      if decide (N.of_nat n < 2048 + recs_len init + 8) then Err StructError
      else if decide (rest = []) then Ok (init ++ [cut_record (n - N.to_nat (2048 + recs_len init)) kv]) else Err StructError.
  Proof.
    intros Ei Hn. rewrite cut_items by lia.
    assert (recs_len items = recs_len init + (rec_len kv + recs_len rest)) as El by (rewrite Ei, recs_len_app; done).
    set (m := (n - N.to_nat (2048 + recs_len init))%nat).
    assert (exists post, take n file = final ++ recs_bytes init ++ take m (rec_bytes kv) ++ post /\ post = []) as (post & Et & ->).
    { exists []. split; [|done]. unfold file. rewrite Ei, recs_bytes_app. unfold recs_bytes at 2. rewrite fmap_cons. cbn [concat].
      rewrite app_nil_r. pose proof (recs_bytes_length init). pose proof (rec_bytes_length kv).
      replace (final ++ (recs_bytes init ++ rec_bytes kv ++ concat (rec_bytes <$> rest)) ++ outs)
        with ((final ++ recs_bytes init) ++ rec_bytes kv ++ (concat (rec_bytes <$> rest) ++ outs)) by by rewrite <- !app_assoc.
      rewrite take_app_ge by (rewrite app_length; lia). rewrite <- app_assoc. do 2 f_equal.
      rewrite app_length. replace (n - (length final + length (recs_bytes init)))%nat with m by lia.
      apply take_app_le. lia. }
    rewrite app_nil_r in Et.
    set (T := take n file) in *.
    assert (N.of_nat (length T) = N.of_nat n) as LT.
    { rewrite Et, !app_length, take_length. pose proof (recs_bytes_length init). pose proof (rec_bytes_length kv). lia. }
    assert (exists fuel, N.to_nat eod = length init + S (S fuel))%nat as (fuel & ->).
    { pose proof (recs_len_ge init). exists (N.to_nat eod - length init - 2)%nat. unfold eod. lia. }
    assert (2048 + recs_len init < eod) as Hlt by (unfold eod; unfold rec_len in *; lia).
    rewrite Et at 1. rewrite (iter_prefix init (S (S fuel)) final (take m (rec_bytes kv)) 2048 eod Hf ltac:(lia) Hs). rewrite <- Et.
    destruct (decide (N.of_nat n < 2048 + recs_len init + 8)) as [H8|H8].
    { rewrite (beyond (S fuel) T); [done|done|lia]. }
    rewrite iter_step, (proj2 (N.ltb_lt _ _)) by done.
    destruct kv as [k v]. unfold rec_len in *. cbn [fst snd] in *. unfold rec_bytes in Et. cbn [fst snd] in Et.
    set (a := le32 (N.of_nat (length k))) in *. set (b := le32 (N.of_nat (length v))) in *.
    assert (length a = 4%nat /\ length b = 4%nat) as [La Lb] by done.
    assert (T = (final ++ recs_bytes init) ++ a ++ b ++ take (m - 8) (k ++ v)) as E1.
    { rewrite Et, <- app_assoc. do 2 f_equal. rewrite take_app_ge by lia. rewrite La. f_equal.
      rewrite take_app_ge by lia. rewrite Lb. do 2 f_equal. lia. }
    assert (N.of_nat (length (final ++ recs_bytes init)) = 2048 + recs_len init) as Lp.
    { rewrite app_length. pose proof (recs_bytes_length init). lia. }
    assert (u32_at T (2048 + recs_len init) = Some (N.of_nat (length k))) as ->.
    { rewrite E1. apply u32_at_le32; [unfold eod in *; lia|done]. }
    assert (u32_at T (2048 + recs_len init + 4) = Some (N.of_nat (length v))) as ->.
    { rewrite E1. replace ((final ++ recs_bytes init) ++ a ++ b ++ take (m - 8) (k ++ v))
        with (((final ++ recs_bytes init) ++ a) ++ b ++ take (m - 8) (k ++ v)) by by rewrite <- !app_assoc.
      apply u32_at_le32; [unfold eod in *; lia|]. rewrite app_length. lia. }
    destruct (decide (rest = [])) as [->|Hr].
    - cbn [recs_len foldr] in El. rewrite iter_step. rewrite (proj2 (N.ltb_ge _ _)) by (unfold eod; lia). cbn [rbind].
      do 3 f_equal. unfold cut_record. cbn [fst snd].
      assert (forall l, drop (N.to_nat (2048 + recs_len init + 8)) (((final ++ recs_bytes init) ++ a ++ b) ++ l) = l) as Hd.
      { intros l. apply drop_pre. rewrite !app_length in *. lia. }
      assert (T = ((final ++ recs_bytes init) ++ a ++ b) ++ take (m - 8) (k ++ v)) as E2 by (rewrite E1, <- !app_assoc; done).
      fold m. f_equal.
      + unfold clip. rewrite E2, Hd, Nat2N.id. rewrite take_take, take_app_le by lia. rewrite Nat.min_comm.
        rewrite <- (take_take k). by rewrite (take_ge k (length k)) by lia.
      + unfold clip. rewrite N2Nat.inj_add, <- drop_drop, E2, Hd, !Nat2N.id.
        rewrite skipn_firstn_comm, drop_app. rewrite take_take, Nat.min_comm. rewrite <- (take_take v).
        by rewrite (take_ge v (length v)) by lia.
    - rewrite (beyond fuel T); [done| |].
      + destruct rest as [|[k' v'] rest]; [done|]. unfold eod. rewrite El. cbn [recs_len foldr]. unfold rec_len. cbn [fst snd]. lia.
      + unfold eod in *. lia.
  Qed.
End cut.

Lemma make_cut items : Forall ascii_pair items -> cdb_size items < 2 ^ 32 ->
  exists file, cdb_make items = Ok file /\ forall n,
  ((records_end items <= n)%nat -> cdb_items (take n file) = Ok items) /\
  (forall init kv, items = init ++ [kv] -> (records_end init + 8 <= n < records_end items)%nat ->
     cdb_items (take n file) = Ok (init ++ [cut_record (n - records_end init) kv])) /\
  (forall init kv, items = init ++ [kv] -> (0 < n < records_end init + 8)%nat -> cdb_items (take n file) = Err StructError) /\
  (items = [] -> (4 <= n)%nat -> cdb_items (take n file) = Ok []).
Proof.
  intros Ha Hs. destruct (make_layout items Ha Hs) as (file&E&L). exists file. split; [done|]. intros n.
  destruct L as (final&outs&->&Hf&[rest Er]&_). rewrite cdb_size_recs in Hs.
  assert (2048 + recs_len items < 2 ^ 32) as Hs' by lia.
  assert (N.of_nat (length final) = 2048) as Hf' by lia. clear Hf. rename Hf' into Hf.
  pose proof (records_end_len items) as Re. split_and!.
  - intros Hn. apply (cut_after items final outs rest); [done..|]. lia.
  - intros init kv Ei Hn. pose proof (records_end_len init) as Ri.
    assert (recs_len items = recs_len init + rec_len kv) as El by (rewrite Ei, recs_len_app; cbn; lia).
    rewrite (cut_inside items final outs rest Hs' Hf Er n init kv []); [|done|lia].
    rewrite decide_False by lia. rewrite decide_True by done. do 4 f_equal. lia.
  - intros init kv Ei Hn. pose proof (records_end_len init) as Ri.
    assert (recs_len items = recs_len init + rec_len kv) as El by (rewrite Ei, recs_len_app; cbn; lia).
    assert (8 <= rec_len kv) as H8 by (unfold rec_len; lia).
    destruct (decide (n < 4)%nat) as [H4|H4]; [apply (cut_early items final outs); [done|done|lia|lia]|].
    destruct (decide (n < 2048)%nat) as [H2|H2].
    { apply (cut_header items final outs rest); [done..| |lia]. rewrite Ei. by destruct init. }
    destruct (cut_where items (N.of_nat n - 2048)) as (init' & kv' & rest' & Ei' & Hr); [lia|].
    rewrite (cut_inside items final outs rest Hs' Hf Er n init' kv' rest'); [|done|lia].
    destruct (decide (N.of_nat n < 2048 + recs_len init' + 8)) as [|Hge]; [done|]. rewrite decide_False; [done|].
    intros ->. assert (init' = init /\ kv' = kv) as [-> ->].
    { rewrite Ei in Ei'. apply app_inj_tail in Ei' as [-> ->]. done. }
    lia.
  - intros -> Hn. rewrite (cut_items [] final outs rest Hs' Hf Er n Hn). rewrite N.add_0_r.
    replace (N.to_nat 2048) with (S (N.to_nat 2047)) by lia. rewrite iter_step. by rewrite N.ltb_irrefl.
Qed.

(** ** A file whose header was not written *)
Lemma zeros_u32 out pos : pos + 4 <= 2048 -> u32_at (replicate 2048 0 ++ out) pos = Some 0.
Proof.
  intros H. unfold u32_at. rewrite drop_app_le by (rewrite replicate_length; lia).
  rewrite drop_replicate, take_app_le by (rewrite replicate_length; lia). rewrite take_replicate.
  replace (Nat.min 4 (2048 - N.to_nat pos)) with 4%nat by lia. done.
Qed.

Lemma no_header out : cdb_items (replicate 2048 0 ++ out) = Ok [] /\
  forall s (D : Type) (d : D), cdb_getitem (replicate 2048 0 ++ out) (KStr s) = Err KeyError /\ cdb_get (replicate 2048 0 ++ out) (KStr s) d = Ok (inr d).
Proof.
  split.
  - unfold cdb_items, cdb_eod. rewrite decide_False by done. by rewrite unpack_u32, zeros_u32.
  - intros s D d.
    assert (cdb_getitem (replicate 2048 0 ++ out) (KStr s) = Err KeyError) as E.
    { unfold cdb_getitem. cbn [key_hash rbind].
      set (p := N.land (N.shiftl (cdb_hash s) 3) 2047).
      assert (p + 8 <= 2048) as Hp.
      { unfold p. change 2047 with (N.ones 11). rewrite N.land_ones, N.shiftl_mul_pow2.
        change (2 ^ 11) with (256 * 2 ^ 3). rewrite N.mul_mod_distr_r by done.
        pose proof (N.mod_lt (cdb_hash s) 256 ltac:(done)). change (2 ^ 3) with 8. lia. }
      assert (drop 4 (slice (replicate 2048 0 ++ out) p 8) = slice (replicate 2048 0 ++ out) (p + 4) 4) as ->.
      { rewrite <- slice_second. unfold slice at 2. change (N.to_nat 4) with 4%nat. rewrite take_ge; [done|].
        rewrite drop_length. unfold slice. rewrite take_length. change (N.to_nat 8) with 8%nat. lia. }
      rewrite unpack_u32, zeros_u32 by lia. done. }
    split; [done|]. unfold cdb_get. by rewrite E.
Qed.

(** ** Cutting is not always noticed *)
Lemma cut_unnoticed : ~ forall items file n l, cdb_make items = Ok file -> (n < length file)%nat ->
  cdb_items (take n file) = Ok l -> l = items.
Proof.
  intros H. pose (items := [(str "one", str "Hello")]).
  destruct (make_cut items) as (file & E & C).
  { repeat constructor. }
  { done. }
  destruct (C 2060%nat) as (_ & C2 & _). specialize (C2 [] (str "one", str "Hello") eq_refl).
  assert (Hr : (records_end [] + 8 <= 2060 < records_end items)%nat) by (apply (bool_decide_unpack _); by vm_compute).
  specialize (C2 Hr).
  enough ([cut_record (2060 - records_end []) (str "one", str "Hello")] = items) as D by by vm_compute in D.
  apply (H items file 2060%nat); [exact E| |exact C2]. destruct (make_layout items) as (file' & E' & L); [repeat constructor|done|].
  rewrite E in E'. injection E' as <-. destruct L as (final&outs&->&Hf&_). rewrite !app_length.
  pose proof (recs_bytes_length items) as Hl. change (recs_len items) with 16 in Hl. lia.
Qed.
