(** * Lemmas about cdb_make, write by write (C147) *)
From Coq Require Import String Lia.
From Verif Require Import Py CdbModel CdbSpec CdbProofs CdbTornSpec CdbTornProofs CdbWriteModel CdbWriteSpec.
Local Open Scope N_scope.

Lemma over_app data pos d d' : over (over data pos d) (pos + length d) d' = over data pos (d ++ d').
Proof.
  destruct d as [|x d]; [cbn [over length app]; by rewrite Nat.add_0_r|].
  destruct d' as [|y d']; [by rewrite app_nil_r|].
  set (a := x :: d). set (b := y :: d').
  assert (E : forall c, c <> [] -> over data pos c = take pos (data ++ replicate (pos - length data) 0) ++ c ++ drop (pos + length c) data)
    by (intros [|]; done).
  rewrite !E by (subst a b; done). set (t := take pos _).
  assert (length t = pos) as Ht.
  { unfold t. rewrite take_length, app_length, replicate_length. lia. }
  change (over (t ++ a ++ drop (pos + length a) data) (pos + length a) b) with
    (take (pos + length a) ((t ++ a ++ drop (pos + length a) data) ++ replicate (pos + length a - length (t ++ a ++ drop (pos + length a) data)) 0)
      ++ b ++ drop (pos + length a + length b) (t ++ a ++ drop (pos + length a) data)).
  rewrite (app_assoc t a), <- (app_assoc (t ++ a)).
  rewrite take_app_alt by (rewrite app_length; lia).
  rewrite <- !app_assoc. do 3 f_equal.
  rewrite (app_assoc t a). rewrite drop_app_ge by (rewrite app_length; lia).
  rewrite drop_drop. rewrite !app_length. f_equal. lia.
Qed.

(** What a piece of the program writes, from the current position on *)
Definition grows {A} (m : M outfile A) (s : res (codes * A)) : Prop := forall f, exists d f' r,
  m f = (f', r) /\ of_data f' = over (of_data f) (of_pos f) d /\ of_pos f' = (of_pos f + length d)%nat /\
  (of_left f = None -> of_left f' = None) /\
  (forall a, r = Ok a -> s = Ok (d, a)) /\
  (of_left f = None -> match s with Ok (_, a) => r = Ok a | Err e => r = Err e end).

Definition both {A B} (s : res (codes * A)) (t : A -> res (codes * B)) : res (codes * B) :=
  rbind s (fun '(d, a) => rbind (t a) (fun '(d', b) => Ok (d ++ d', b))).

Lemma grows_bind {A B} (m : M outfile A) (k : A -> M outfile B) s t : grows m s -> (forall a, grows (k a) (t a)) ->
  grows (mbind m k) (both s t).
Proof.
  intros Hm Hk f. destruct (Hm f) as (d & f1 & r & E & Ed & Ep & El & Ho & Hn).
  unfold mbind. rewrite E. destruct r as [a|e].
  - destruct (Hk a f1) as (d' & f2 & r & E' & Ed' & Ep' & El' & Ho' & Hn'). specialize (Ho a eq_refl). subst s.
    exists (d ++ d'), f2, r. split; [done|]. split; [by rewrite Ed', Ed, Ep, over_app|].
    split; [rewrite Ep', Ep, app_length; lia|]. split; [tauto|]. unfold both. cbn [rbind]. split.
    + intros b ->. by rewrite (Ho' b eq_refl).
    + intros Hl. specialize (Hn' (El Hl)). by destruct (t a) as [[? b]|].
  - exists d, f1, (Err e). do 4 (split; [done|]). split; [done|].
    intros Hl. specialize (Hn Hl). unfold both. destruct s as [[? b]|e']; [done|]. injection Hn as ->. done.
Qed.

Lemma grows_pure {A} (r : res A) : grows (pure r) (rbind r (fun a => Ok ([], a))).
Proof.
  intros f. exists [], f, r. split; [done|]. split; [done|]. split; [cbn; lia|]. split; [done|]. split; [by intros a ->|].
  intros _. by destruct r.
Qed.

Lemma grows_ret {A} (a : A) : grows (mret a) (Ok ([], a)).
Proof. exact (grows_pure (Ok a)). Qed.

Lemma grows_err {A} (e : exn) : grows (merr e : M outfile A) (Err e).
Proof. exact (grows_pure (Err e)). Qed.

Lemma grows_write d : grows (fwrite d) (Ok (d, tt)).
Proof.
  intros f. unfold fwrite. destruct (of_left f) as [[|n]|] eqn:El.
  - exists [], f, (Err Stopped). rewrite El. cbn [length]. split; [done|]. split; [done|]. split; [lia|]. done.
  - exists d. eexists _, _. split; [done|]. cbn. do 2 (split; [done|]). split; [done|]. split; [|done]. by intros [] _.
  - exists d. eexists _, _. split; [done|]. cbn. do 2 (split; [done|]). split; [done|]. split; [|done]. by intros [] _.
Qed.

Lemma grows_eq {A} (m : M outfile A) s s' : grows m s -> s = s' -> grows m s'.
Proof. by intros H <-. Qed.

Definition items_spec (items : list (codes * codes)) (stop : option exn) (pos : N) : res (codes * (N * list (N * N))) :=
  rbind (put_items items pos) (fun '(out, pos', es) =>
  match stop with None => Ok (out, (pos', es)) | Some e => Err e end).

Lemma write_items_grows stop items : forall pos, grows (write_items items stop pos) (items_spec items stop pos).
Proof.
  induction items as [|[k v] items IH]; intros pos; cbn [write_items].
  - destruct stop; [apply grows_err|apply grows_ret].
  - eapply grows_eq.
    + apply grows_bind; [apply grows_pure|intros klen].
      apply grows_bind; [apply grows_pure|intros vlen].
      apply grows_bind; [apply grows_write|intros ?].
      apply grows_bind; [apply grows_pure|intros k'].
      apply grows_bind; [apply grows_write|intros ?].
      apply grows_bind; [apply grows_pure|intros v'].
      apply grows_bind; [apply grows_write|intros ?].
      eapply (grows_bind _ _ _ (fun '(p, es) => Ok ([], (p, (cdb_hash k, pos) :: es)))); [apply IH|].
      intros [p es]. apply grows_ret.
    + unfold items_spec. cbn [put_items].
      destruct (uint32_pack (N.of_nat (length k))) as [klen|]; [|done].
      destruct (uint32_pack (N.of_nat (length v))) as [vlen|]; [|done].
      destruct (utf8 k) as [k'|]; [|done]. destruct (utf8 v) as [v'|]; [|done].
      cbn [rbind both]. destruct (put_items items _) as [[[out p] es]|]; [|done].
      destruct stop; [done|]. cbn [rbind both app]. rewrite !app_nil_r, <- !app_assoc. done.
Qed.

Lemma write_table_grows table : grows (write_table table) (rbind (put_table table) (fun out => Ok (out, tt))).
Proof.
  unfold write_table. induction table as [|s table IH]; [apply grows_ret|]. cbn [mfor put_table].
  destruct (default (0, 0) s) as [h p]. eapply grows_eq.
  - apply grows_bind; [|intros ?; exact IH]. apply grows_bind; [apply grows_pure|intros h'].
    apply grows_bind; [apply grows_pure|intros p']. apply grows_write.
  - destruct (uint32_pack h) as [h'|]; [|done]. destruct (uint32_pack p) as [p'|]; [|done].
    cbn [rbind both]. destruct (put_table table) as [out|]; [|done]. cbn. by rewrite <- app_assoc.
Qed.

Lemma write_tables_grows es is : forall pos,
  grows (write_tables is es pos) (rbind (put_tables is es pos) (fun '(final, outs) => Ok (outs, final))).
Proof.
  induction is as [|i is IH]; intros pos; [apply grows_ret|]. cbn [write_tables put_tables]. eapply grows_eq.
  - apply grows_bind; [apply grows_pure|intros p]. apply grows_bind; [apply grows_pure|intros n].
    apply grows_bind; [apply grows_pure|intros table]. apply grows_bind; [apply write_table_grows|intros ?].
    apply grows_bind; [apply IH|intros final]. apply grows_ret.
  - destruct (uint32_pack pos) as [p|]; [|done]. destruct (uint32_pack (N.of_nat _)) as [n|]; [|done].
    destruct (place_all _ _) as [table|]; [|done]. cbn [rbind both].
    destruct (put_table table) as [out|]; [|done]. cbn [rbind both].
    destruct (put_tables is es _) as [[final outs]|]; [|done]. cbn. by rewrite app_nil_r.
Qed.

Lemma put_tables_final es is : forall pos final outs, put_tables is es pos = Ok (final, outs) -> length final = (8 * length is)%nat.
Proof.
  induction is as [|i is IH]; intros pos final outs; cbn [put_tables]; [by intros [= <- <-]|].
  destruct (uint32_pack pos) as [p|] eqn:Ep; [|done]. destruct (uint32_pack (N.of_nat _)) as [n|] eqn:En; [|done].
  destruct (place_all _ _) as [table|]; [|done]. cbn [rbind].
  destruct (put_table table) as [out|]; [|done]. cbn [rbind].
  destruct (put_tables is es _) as [[final' outs']|] eqn:E; [|done]. cbn [rbind]. intros [= <- <-].
  rewrite !app_length, (IH _ _ _ E).
  assert (forall n b, uint32_pack n = Ok b -> length b = 4%nat) as L.
  { intros m b. unfold uint32_pack. destruct (_ <? _); [|done]. by intros [= <-]. }
  rewrite (L _ _ Ep), (L _ _ En). cbn [length]. lia.
Qed.

(** ** The whole run *)
Definition body (items : list (codes * codes)) (stop : option exn) : M outfile codes :=
  mbind (write_items items stop 2048) (fun '(pos, es) => write_tables (N.of_nat <$> seq 0 256) es pos).

Definition body_spec (items : list (codes * codes)) (stop : option exn) : res (codes * codes) :=
  both (items_spec items stop 2048) (fun '(pos, es) =>
    rbind (put_tables (N.of_nat <$> seq 0 256) es pos) (fun '(final, outs) => Ok (outs, final))).

Lemma body_grows items stop : grows (body items stop) (body_spec items stop).
Proof. apply grows_bind; [apply write_items_grows|]. intros [pos es]. apply write_tables_grows. Qed.

Lemma body_make items stop : match body_spec items stop with
  | Ok (d, final) => stop = None /\ length final = N.to_nat 2048 /\ cdb_make items = Ok (final ++ d)
  | Err e => match stop with None => cdb_make items = Err e | Some e' => e = e' \/ cdb_make items = Err e end
  end.
Proof.
  unfold body_spec, items_spec, cdb_make. destruct (put_items items 2048) as [[[out pos] es]|e]; [|unfold both; cbn [rbind]; destruct stop; [by right|reflexivity]].
  cbn [rbind]. destruct stop as [e|]; [unfold both; cbn [rbind]; left; reflexivity|]. unfold both. cbn [rbind].
  destruct (put_tables _ _ _) as [[final outs]|e] eqn:E; [|reflexivity]. cbn [rbind]. split; [reflexivity|]. split.
  - rewrite (put_tables_final _ _ _ _ _ E). rewrite fmap_length, seq_length. lia.
  - done.
Qed.

Lemma make_on items stop f : cdb_make_on items stop f =
  mbind (body items stop) (fun final => mbind (fseek 0) (fun _ => fwrite final))
    {| of_data := of_data f; of_pos := N.to_nat 2048; of_left := of_left f |}.
Proof.
  unfold cdb_make_on, body, mbind at 1, fseek at 1. unfold mbind.
  destruct (write_items _ _ _ _) as [f' [[pos es]|e]]; [|done].
  destruct (write_tables _ _ _ _) as [f'' [final|e]]; done.
Qed.

Lemma over_written data d : written_at_2048 data d (over data (N.to_nat 2048) d).
Proof.
  destruct d as [|x d]; [by left|right]. split; [done|]. unfold over.
  change (N.to_nat 2048) with 2048%nat. f_equal.
  destruct (decide (length data <= 2048)%nat) as [L|L].
  - rewrite !take_app_ge by lia. f_equal. rewrite !take_replicate. f_equal. lia.
  - rewrite !take_app_le by lia. done.
Qed.

Lemma header_over data d final : length final = N.to_nat 2048 ->
  over (over data (N.to_nat 2048) d) 0 final = (final ++ d) ++ drop (length (final ++ d)) data.
Proof.
  intros Hf. assert (over (over data (N.to_nat 2048) d) 0 final = final ++ drop (N.to_nat 2048) (over data (N.to_nat 2048) d)) as ->.
  { assert (E : forall a c, c <> [] -> over a 0 c = c ++ drop (length c) a) by by intros a [|].
    rewrite E; [by rewrite Hf|]. by intros ->. }
  rewrite <- app_assoc. f_equal. rewrite app_length, Hf. destruct d as [|x d].
  - cbn [over length app]. by rewrite Nat.add_0_r.
  - unfold over. rewrite drop_app_alt; [done|]. rewrite take_length, app_length, replicate_length. lia.
Qed.

(** How a run ends *)
Lemma run_ends data left items stop f r : cdb_make_over data left items stop = (f, r) ->
  match r with
  | Ok _ => stop = None /\ exists file, cdb_make items = Ok file /\ f = file ++ drop (length file) data
  | Err e => exists d, written_at_2048 data d f
  end.
Proof.
  unfold cdb_make_over. rewrite make_on. cbn [of_data of_left]. unfold mbind.
  destruct (body_grows items stop {| of_data := data; of_pos := N.to_nat 2048; of_left := left |})
    as (d & f' & b & E & Ed & _ & _ & Ho & _). rewrite E. cbn [of_data of_pos] in Ed.
  pose proof (body_make items stop) as Hm. pose proof (over_written data d) as Hw. rewrite <- Ed in Hw.
  destruct b as [final|e].
  - rewrite (Ho final eq_refl) in Hm. destruct Hm as (-> & Hf & Hm). unfold fseek, fwrite.
    destruct (of_left f') as [[|n]|]; cbn; intros [= <- <-].
    + by exists d.
    + split; [done|]. eexists. split; [done|]. rewrite Ed. by apply header_over.
    + split; [done|]. eexists. split; [done|]. rewrite Ed. by apply header_over.
  - intros [= <- <-]. by exists d.
Qed.

Lemma run_undisturbed data items : match cdb_make items with
  | Ok file => cdb_make_over data None items None = (file ++ drop (length file) data, Ok tt)
  | Err e => (cdb_make_over data None items None).2 = Err e
  end.
Proof.
  unfold cdb_make_over. rewrite make_on. cbn [of_data of_left]. unfold mbind.
  destruct (body_grows items None {| of_data := data; of_pos := N.to_nat 2048; of_left := None |})
    as (d & f' & b & E & Ed & _ & El & Ho & Hn). rewrite E. cbn [of_data of_pos of_left] in *.
  specialize (El eq_refl). specialize (Hn eq_refl).
  pose proof (body_make items None) as Hm.
  destruct b as [final|e].
  - rewrite (Ho final eq_refl) in Hm. destruct Hm as (_ & Hf & ->). unfold fseek, fwrite. cbn [of_left of_data of_pos].
    rewrite El. cbn [of_data]. rewrite Ed. by rewrite header_over.
  - destruct (body_spec items None) as [[? ?]|e']; [done|]. injection Hn as ->. by rewrite Hm.
Qed.

Lemma layout_more items file more : layout items file -> layout items (file ++ more).
Proof.
  intros (final & outs & -> & Hf & Hr & H). exists final, (outs ++ more). split; [by rewrite <- !app_assoc|].
  do 2 (split; [done|]). intros i Hi.
  destruct (H i Hi) as (tpos & T & fpre & fpost & opre & opost & H1 & H2 & H3 & H4 & H5 & H6).
  exists tpos, T, fpre, fpost, opre, (opost ++ more). do 4 (split; [done|]). split; [|done].
  rewrite H5. by rewrite <- !app_assoc.
Qed.

Lemma run_database data items : Forall ascii_pair items -> cdb_size items < 2 ^ 32 ->
  exists f, cdb_make_over data None items None = (f, Ok tt) /\ cdb_items f = Ok items /\
  forall key, djb_find f key = first_value items key.
Proof.
  intros Ha Hs. destruct (make_layout items Ha Hs) as (file & E & L).
  pose proof (run_undisturbed data items) as R. rewrite E in R. eexists. split; [exact R|].
  pose proof (layout_more _ _ (drop (length file) data) L) as L'. split; [by apply layout_items|].
  intros key. by apply layout_find.
Qed.

Lemma run_fails_empty left items stop f e : cdb_make_over [] left items stop = (f, Err e) ->
  f = [] \/ cdb_items f = Ok [] /\ forall s (D : Type) (d : D), cdb_getitem f (KStr s) = Err KeyError /\ cdb_get f (KStr s) d = Ok (inr d).
Proof.
  intros E. destruct (run_ends _ _ _ _ _ _ E) as (d & [[_ ->]|[_ ->]]); [by left|right].
  rewrite app_nil_l, drop_nil, app_nil_r.
  rewrite take_ge by (by rewrite replicate_length). apply no_header.
Qed.

(** ** A text that cannot be encoded *)
Definition adv (f : outfile) (d : codes) : outfile :=
  {| of_data := over (of_data f) (of_pos f) d; of_pos := of_pos f + length d; of_left := None |}.

Lemma adv_app f d d' : adv (adv f d) d' = adv f (d ++ d').
Proof. unfold adv. cbn. rewrite over_app, app_length. f_equal. lia. Qed.

Lemma fwrite_adv f d : of_left f = None -> fwrite d f = (adv f d, Ok tt).
Proof. intros H. unfold fwrite. by rewrite H. Qed.

Lemma bad_value stop k v rest e : Forall (fun c => c < 128) k -> N.of_nat (length k) < 2 ^ 32 -> N.of_nat (length v) < 2 ^ 32 ->
  utf8 v = Err e -> forall init pos f, Forall ascii_pair init -> recs_len init < 2 ^ 32 -> of_left f = None ->
  write_items (init ++ (k, v) :: rest) stop pos f =
    (adv f (concat (stored_record <$> init) ++ four_bytes (N.of_nat (length k)) ++ four_bytes (N.of_nat (length v)) ++ k), Err e).
Proof.
  intros Hk Lk Lv Ev init. induction init as [|[k' v'] init IH]; intros pos f Ha Hs Hl.
  - cbn [app write_items fmap list_fmap concat]. unfold mbind, pure. rewrite !pack_le32 by done.
    rewrite fwrite_adv by done. rewrite ascii_utf8 by done. rewrite fwrite_adv by done. rewrite Ev, adv_app. change four_bytes with le32.
    by rewrite <- app_assoc.
  - apply Forall_cons in Ha as [[Hk' Hv'] Ha]. cbn [fst snd] in *. cbn [recs_len foldr] in Hs. fold (recs_len init) in Hs.
    assert (rec_len (k', v') = 8 + N.of_nat (length k') + N.of_nat (length v')) as El by done.
    cbn [app write_items fmap list_fmap concat]. unfold mbind at 1 2 3 4 5 6 7 8, pure. rewrite !pack_le32 by lia.
    rewrite fwrite_adv by done. rewrite ascii_utf8 by done. rewrite fwrite_adv by done. rewrite ascii_utf8 by done.
    rewrite fwrite_adv by done. rewrite IH by (done || lia). f_equal. rewrite !adv_app. f_equal.
    unfold stored_record. cbn [fst snd]. change four_bytes with le32. by rewrite <- !app_assoc.
Qed.

Lemma run_bad_value stop data init k v rest e : Forall ascii_pair init -> cdb_size init < 2 ^ 32 ->
  Forall (fun c => c < 128) k -> N.of_nat (length k) < 2 ^ 32 -> N.of_nat (length v) < 2 ^ 32 -> utf8 v = Err e ->
  exists f, cdb_make_over data None (init ++ (k, v) :: rest) stop = (f, Err e) /\
  written_at_2048 data
    (concat (stored_record <$> init) ++ four_bytes (N.of_nat (length k)) ++ four_bytes (N.of_nat (length v)) ++ k) f.
Proof.
  intros Ha Hs Hk Lk Lv Ev. rewrite cdb_size_recs in Hs. eexists. split; [|apply over_written].
  unfold cdb_make_over. rewrite make_on. unfold mbind, body. cbn [of_data of_left]. unfold mbind.
  rewrite (bad_value _ _ _ _ e) by (done || lia). done.
Qed.

(** ** The database that was there *)
Lemma old_lost : ~ forall old data items f e, cdb_make old = Ok data -> cdb_items data = Ok old ->
  cdb_make_over data None items None = (f, Err e) -> cdb_items f = Ok old.
Proof.
  intros H. pose (old := [(str "one", str "H")]). pose (items := [(str "two", [0xd800])]).
  pose (data := match cdb_make old with Ok data => data | Err _ => [] end).
  pose (f := (cdb_make_over data None items None).1).
  assert (cdb_make old = Ok data) as E.
  { unfold data. destruct (cdb_make old) eqn:E; [done|]. exfalso. revert E. by vm_compute. }
  assert (cdb_make_over data None items None = (f, Err UnicodeEncodeError)) as R.
  { unfold f. rewrite (surjective_pairing (cdb_make_over data None items None)) at 1. apply (f_equal (pair f)). by vm_compute. }
  assert (cdb_items f = Ok [(str "two", str "H")]) as F by by vm_compute.
  specialize (H old data items f UnicodeEncodeError E ltac:(by vm_compute) R). rewrite F in H.
  unfold old in H. clear -H. injection H as H. discriminate H.
Qed.
