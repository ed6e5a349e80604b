(** * Lemmas about constant databases *)
From Coq Require Import String Lia.
From Verif Require Import Py CdbModel CdbSpec.
Local Open Scope N_scope.

(** ** 32-bit numbers *)
Definition le32 (n : N) : codes := [n mod 256; n / 256 mod 256; n / 65536 mod 256; n / 16777216 mod 256].

Lemma pack_le32 n : n < 2 ^ 32 -> uint32_pack n = Ok (le32 n).
Proof. intros H. unfold uint32_pack. by rewrite (proj2 (N.ltb_lt n (2 ^ 32)) H). Qed.

Lemma le32_value n : n < 2 ^ 32 ->
  n mod 256 + 256 * (n / 256 mod 256 + 256 * (n / 65536 mod 256 + 256 * (n / 16777216 mod 256))) = n.
Proof.
  intros H.
  assert (n / 65536 = n / 256 / 256) as -> by by rewrite N.div_div.
  assert (n / 16777216 = n / 256 / 256 / 256) as -> by by rewrite !N.div_div.
  pose proof (N.div_mod' n 256). pose proof (N.div_mod' (n / 256) 256).
  pose proof (N.div_mod' (n / 256 / 256) 256).
  assert (n / 256 / 256 / 256 < 256) as Hs.
  { rewrite !N.div_div by done. apply N.div_lt_upper_bound; [done|]. exact H. }
  rewrite (N.mod_small (n / 256 / 256 / 256)) by done. lia.
Qed.

Lemma unpack_le32 n : n < 2 ^ 32 -> uint32_unpack (le32 n) = Ok n.
Proof. intros H. unfold uint32_unpack, le32. by rewrite le32_value. Qed.

Lemma le32_length n : length (le32 n) = 4%nat.
Proof. done. Qed.

Lemma drop_pre {X} (pre l : list X) pos : N.of_nat (length pre) = pos -> drop (N.to_nat pos) (pre ++ l) = l.
Proof. intros <-. rewrite Nat2N.id. apply drop_app. Qed.

Lemma u32_at_le32 pre n post pos : n < 2 ^ 32 -> N.of_nat (length pre) = pos ->
  u32_at (pre ++ le32 n ++ post) pos = Some n.
Proof.
  intros H Hp. unfold u32_at. rewrite drop_pre by done. unfold le32.
  change (2 ^ 8) with 256. change (2 ^ 16) with 65536. change (2 ^ 24) with 16777216.
  cbn [app take]. f_equal. pose proof (le32_value n H). lia.
Qed.

Lemma bytes_at_mid pre b post pos len : N.of_nat (length pre) = pos -> N.of_nat (length b) = len ->
  bytes_at (pre ++ b ++ post) pos len = Some b.
Proof.
  intros Hp <-. unfold bytes_at. rewrite drop_pre by done. rewrite Nat2N.id, take_app.
  by rewrite N.eqb_refl.
Qed.

(** ** The hash function *)
Lemma hash_step_spec h c : hash_step h c = N.lxor ((32 * h + h) mod 2 ^ 32) c.
Proof.
  unfold hash_step. f_equal. change (2 ^ 32 - 1) with (N.ones 32). rewrite N.land_ones.
  f_equal. rewrite N.shiftl_mul_pow2. change (2 ^ 5) with 32. lia.
Qed.

Lemma cdb_hash_djb s : cdb_hash s = djb_hash s.
Proof.
  unfold cdb_hash, djb_hash, CDB_HASHSTART. generalize 5381.
  induction s as [|c s IH]; intros h; simpl; [done|]. rewrite <- IH. f_equal. apply hash_step_spec.
Qed.

Lemma lt_pow2_bits a n : a < 2 ^ n <-> forall m, n <= m -> N.testbit a m = false.
Proof.
  split.
  - intros H m Hm. destruct (N.eq_dec a 0) as [->|Hz]; [apply N.bits_0|].
    apply N.bits_above_log2. apply N.log2_lt_pow2 in H; [|lia]. lia.
  - intros H. destruct (N.eq_dec a 0) as [->|Hz]; [apply N.neq_0_lt_0, N.pow_nonzero; done|].
    apply N.log2_lt_pow2; [lia|]. destruct (N.lt_ge_cases (N.log2 a) n) as [|Hge]; [done|].
    apply H in Hge. by rewrite N.bit_log2 in Hge.
Qed.

Lemma lxor_lt a b n : a < 2 ^ n -> b < 2 ^ n -> N.lxor a b < 2 ^ n.
Proof.
  rewrite !lt_pow2_bits. intros Ha Hb m Hm. rewrite N.lxor_spec, Ha, Hb by done. done.
Qed.

Lemma djb_hash_lt s : Forall (fun c => c < 2 ^ 32) s -> djb_hash s < 2 ^ 32.
Proof.
  intros H. unfold djb_hash.
  assert (forall h, h < 2 ^ 32 -> foldl (fun h c => N.lxor ((32 * h + h) mod 2 ^ 32) c) h s < 2 ^ 32) as G.
  { induction H as [|c s Hc Hs IH]; intros h Hh; [done|]. cbn [foldl]. apply IH.
    apply lxor_lt; [|done]. by apply N.mod_lt. }
  by apply G.
Qed.

Lemma ascii_lt32 s : ascii_text s -> Forall (fun c => c < 2 ^ 32) s.
Proof. intros H. eapply Forall_impl; [exact H|]. intros c Hc. simpl in *. lia. Qed.

Lemma ascii_utf8 s : ascii_text s -> utf8 s = Ok s.
Proof.
  induction 1 as [|c s Hc _ IH]; simpl; [done|]. unfold utf8_char.
  rewrite (proj2 (N.ltb_lt c 128) Hc). simpl. by rewrite IH.
Qed.

(** ** Hash tables by linear probing *)
Section probing.
  Local Open Scope nat_scope.
  Notation entry := (N * N)%type.
  Implicit Types (T : list slot) (e : entry).

  Definition home (h : N) (m : nat) : nat := N.to_nat (N.shiftr h 8 mod N.of_nat m).

  (** The entries met when probing from slot n. *)
  Fixpoint scan T (fuel n : nat) : list entry :=
    match fuel with
    | O => []
    | S fuel => match T !! n with
                | Some (Some e) => e :: scan T fuel ((n + 1) mod length T)
                | _ => []
                end
    end.

  (** The slot reached from n after k rounds. *)
  Definition slot_at (m n k : nat) : nat := (n + k) mod m.

  Lemma slot_at_S m n k : slot_at m ((n + 1) mod m) k = slot_at m n (S k).
  Proof.
    unfold slot_at. destruct m as [|m]; [simpl; lia|]. rewrite Nat.add_mod_idemp_l by done. f_equal. lia.
  Qed.

  Lemma slot_at_lt m n k : 0 < m -> slot_at m n k < m.
  Proof. intros H. apply Nat.mod_upper_bound. lia. Qed.

  Lemma slot_at_0 m n : n < m -> slot_at m n 0 = n.
  Proof. intros H. unfold slot_at. rewrite Nat.add_0_r. by apply Nat.mod_small. Qed.

  Lemma slot_at_inj m n j k : n < m -> j < m -> k < m -> slot_at m n j = slot_at m n k -> j = k.
  Proof.
    intros Hn Hj Hk. unfold slot_at.
    assert (forall x, x < m -> (n + x) mod m = if decide (n + x < m) then n + x else n + x - m) as Hm.
    { intros x Hx. destruct (decide _); [by apply Nat.mod_small|].
      rewrite <- (Nat.mod_small (n + x - m) m) by lia.
      replace (n + x) with (n + x - m + 1 * m) at 1 by lia. by rewrite Nat.mod_add by lia. }
    rewrite !Hm by done. destruct (decide _), (decide _); lia.
  Qed.

  Lemma slot_at_surj m n j : n < m -> j < m -> exists k, k < m /\ slot_at m n k = j.
  Proof.
    intros Hn Hj. destruct (decide (n <= j)) as [H|H].
    - exists (j - n). split; [lia|]. unfold slot_at. rewrite Nat.mod_small; lia.
    - exists (j + m - n). split; [lia|]. unfold slot_at.
      replace (n + (j + m - n)) with (j + 1 * m) by lia. rewrite Nat.mod_add by lia. by apply Nat.mod_small.
  Qed.

  Lemma probe_Some T fuel : forall n z, n < length T -> probe fuel T n = Some z ->
    exists k, k < fuel /\ z = slot_at (length T) n k /\ T !! z = Some None /\
      forall k', k' < k -> exists e, T !! slot_at (length T) n k' = Some (Some e).
  Proof.
    induction fuel as [|fuel IH]; intros n z Hn H; simpl in H; [done|].
    destruct (lookup_lt_is_Some_2 T n Hn) as [s Es]. rewrite Es in H. destruct s as [e|].
    - apply IH in H as (k&Hk&->&Hz&Hall); [|apply Nat.mod_upper_bound; lia].
      exists (S k). rewrite slot_at_S in *. split_and!; [lia|done|done|].
      intros [|k'] Hk'.
      + rewrite slot_at_0 by done. eauto.
      + rewrite <- slot_at_S. apply Hall. lia.
    - injection H as <-. exists 0. rewrite slot_at_0 by done. split_and!; [lia|done|done|]. lia.
  Qed.

  Lemma probe_None T fuel : forall n, n < length T -> probe fuel T n = None ->
    forall k, k < fuel -> exists e, T !! slot_at (length T) n k = Some (Some e).
  Proof.
    induction fuel as [|fuel IH]; intros n Hn H k Hk; [lia|]. simpl in H.
    destruct (lookup_lt_is_Some_2 T n Hn) as [s Es]. rewrite Es in H. destruct s as [e|]; [|done].
    destruct k as [|k].
    - rewrite slot_at_0 by done. eauto.
    - rewrite <- slot_at_S. apply IH; [apply Nat.mod_upper_bound; lia|done|lia].
  Qed.

  (** The number of occupied slots. *)
  Definition occupied T : nat := length (omap id T).

  Lemma occupied_le T : occupied T <= length T.
  Proof. unfold occupied. induction T as [|[e|] T IH]; [done|..]; cbn; lia. Qed.

  Lemma occupied_full T : (forall n, n < length T -> exists e, T !! n = Some (Some e)) -> occupied T = length T.
  Proof.
    unfold occupied. induction T as [|s T IH]; intros H; [done|].
    destruct (H 0) as [e [= ->]]; [simpl; lia|]. simpl. f_equal. apply IH.
    intros n Hn. apply (H (S n)). simpl. lia.
  Qed.

  Lemma occupied_insert T n e : T !! n = Some None -> occupied (<[n := Some e]> T) = S (occupied T).
  Proof.
    unfold occupied. revert n. induction T as [|s T IH]; intros n H; [done|].
    destruct n as [|n]; simpl in *.
    - by injection H as ->.
    - specialize (IH n H). destruct s as [e0|]; [|exact IH]. change (S (length (omap id (<[n:=Some e]> T))) = S (S (length (omap id T)))). by rewrite IH.
  Qed.

  Lemma home_lt h m : 0 < m -> home h m < m.
  Proof.
    intros H. unfold home. assert (N.shiftr h 8 mod N.of_nat m < N.of_nat m)%N by (apply N.mod_lt; lia). lia.
  Qed.

  Lemma place_total T e : occupied T < length T -> exists n, n < length T /\ T !! n = Some None /\
    place T e = Ok (<[n := Some e]> T) /\
    exists k, k < length T /\ n = slot_at (length T) (home e.1 (length T)) k /\
      forall k', k' < k -> exists e', T !! slot_at (length T) (home e.1 (length T)) k' = Some (Some e').
  Proof.
    intros Ho. assert (0 < length T) as Hpos by lia. pose proof (home_lt e.1 _ Hpos) as Hh.
    unfold place. fold (home e.1 (length T)).
    destruct (probe (length T) T (home e.1 (length T))) as [n|] eqn:Ep.
    - apply probe_Some in Ep as (k&Hk&En&Hz&Hall); [|done]. exists n. split_and!; try done.
      + apply lookup_lt_Some in Hz. done.
      + by exists k.
    - exfalso. assert (occupied T = length T); [|lia]. apply occupied_full. intros n Hn.
      destruct (slot_at_surj (length T) (home e.1 (length T)) n Hh Hn) as (k&Hk&<-).
      by eapply probe_None.
  Qed.

  (** An occupied slot has no free slot between its home and itself. *)
  Definition no_gap T : Prop := forall k h p, k < length T ->
    T !! slot_at (length T) (home h (length T)) k = Some (Some (h, p)) ->
    forall k', k' <= k -> exists e, T !! slot_at (length T) (home h (length T)) k' = Some (Some e).

  Lemma scan_insert T z e fuel : forall n, T !! z = Some None -> n < length T ->
    scan (<[z := Some e]> T) fuel n = scan T fuel n \/
    exists k, k < fuel /\ slot_at (length T) n k = z /\
      scan (<[z := Some e]> T) fuel n =
        scan T fuel n ++ e :: scan (<[z := Some e]> T) (fuel - S k) (slot_at (length T) n (S k)).
  Proof.
    induction fuel as [|fuel IH]; intros n Hz Hn; [by left|].
    pose proof (lookup_lt_Some _ _ _ Hz) as Hzl.
    destruct (decide (n = z)) as [->|Hne].
    - right. exists 0. split_and!; [lia|by apply slot_at_0|].
      cbn [scan]. rewrite insert_length, list_lookup_insert, Hz by done. simpl.
      rewrite Nat.sub_0_r. unfold slot_at. done.
    - cbn [scan]. rewrite insert_length, list_lookup_insert_ne by done.
      destruct (T !! n) as [[e'|]|] eqn:En; [|by left|by left].
      destruct (IH ((n + 1) mod length T) Hz) as [->|(k&Hk&Es&Eq)]; [apply Nat.mod_upper_bound; lia|by left|].
      right. exists (S k). rewrite slot_at_S in Es. rewrite slot_at_S in Eq. split_and!; [lia|done|].
      rewrite Eq. simpl. done.
  Qed.

  Lemma scan_elem T fuel : forall n e, n < length T -> e ∈ scan T fuel n ->
    exists k, k < fuel /\ T !! slot_at (length T) n k = Some (Some e).
  Proof.
    induction fuel as [|fuel IH]; intros n e Hn He; simpl in He; [by apply elem_of_nil in He|].
    destruct (T !! n) as [[e'|]|] eqn:En; [|by apply elem_of_nil in He..].
    apply elem_of_cons in He as [->|He].
    - exists 0. rewrite slot_at_0 by done. split; [lia|done].
    - apply IH in He as (k&Hk&Ek); [|apply Nat.mod_upper_bound; lia]. exists (S k).
      rewrite slot_at_S in Ek. split; [lia|done].
  Qed.

  (** The entries with hash h met from the home of h. *)
  Definition bucket T (h : N) : list entry :=
    List.filter (fun e => (e.1 =? h)%N) (scan T (length T) (home h (length T))).

  Record tinv T (es : list entry) : Prop := {
    t_occ : occupied T = length es;
    t_gap : no_gap T;
    t_bucket : forall h, bucket T h = List.filter (fun e => (e.1 =? h)%N) es;
    t_slots : forall n e, T !! n = Some (Some e) -> e ∈ es
  }.

  Lemma filter_empty {X} (f : X -> bool) l : (forall x, x ∈ l -> f x = false) -> List.filter f l = [].
  Proof.
    induction l as [|x l IH]; intros H; simpl; [done|].
    rewrite (H x) by left. apply IH. intros y Hy. apply H. by right.
  Qed.

  Lemma slot_at_add m n j k : slot_at m (slot_at m n j) k = slot_at m n (j + k).
  Proof.
    unfold slot_at. destruct m as [|m]; [simpl; lia|]. rewrite Nat.add_mod_idemp_l by done. f_equal. lia.
  Qed.

  Lemma scan_reach T z e fuel : forall n k, T !! z = Some None -> n < length T -> k < fuel ->
    slot_at (length T) n k = z ->
    (forall k', k' < k -> exists e', T !! slot_at (length T) n k' = Some (Some e')) ->
    (forall k', k' < k -> slot_at (length T) n k' <> z) ->
    scan (<[z := Some e]> T) fuel n =
      scan T fuel n ++ e :: scan (<[z := Some e]> T) (fuel - S k) (slot_at (length T) n (S k)).
  Proof.
    induction fuel as [|fuel IH]; intros n k Hz Hn Hk Ek Hall Hne; [lia|].
    pose proof (lookup_lt_Some _ _ _ Hz) as Hzl. cbn [scan]. rewrite insert_length.
    destruct k as [|k].
    - rewrite slot_at_0 in Ek by done. subst z. rewrite list_lookup_insert, Hz by done. simpl.
      rewrite Nat.sub_0_r. done.
    - assert (n <> z) as Hnz. { rewrite <- (slot_at_0 (length T) n Hn). apply Hne. lia. }
      rewrite list_lookup_insert_ne by done.
      destruct (Hall 0) as [e' He']; [lia|]. rewrite slot_at_0 in He' by done. rewrite He'.
      rewrite (IH ((n + 1) mod length T) k).
      + rewrite slot_at_S. done.
      + done.
      + apply Nat.mod_upper_bound; lia.
      + lia.
      + by rewrite slot_at_S.
      + intros k' Hk'. rewrite slot_at_S. apply Hall. lia.
      + intros k' Hk'. rewrite slot_at_S. apply Hne. lia.
  Qed.

  Lemma no_more T z e h k : no_gap T -> 0 < length T -> T !! z = Some None ->
    slot_at (length T) (home h (length T)) k = z ->
    List.filter (fun e => (e.1 =? h)%N)
      (scan (<[z := Some e]> T) (length T - S k) (slot_at (length T) (home h (length T)) (S k))) = [].
  Proof.
    intros Hgap Hpos Hz Ek. apply filter_empty. intros [h' p] Hin.
    cbn [fst]. destruct (N.eqb_spec h' h) as [->|Hne]; [exfalso|done].
    apply scan_elem in Hin as (j&Hj&Ej); rewrite ?insert_length in *; [|by apply slot_at_lt].
    rewrite slot_at_add in Ej.
    assert (slot_at (length T) (home h (length T)) (S k + j) <> z) as Hnz.
    { intros E. rewrite <- Ek in E. apply slot_at_inj in E; [lia|by apply home_lt|lia|lia]. }
    rewrite list_lookup_insert_ne in Ej by done.
    destruct (Hgap (S k + j) h p) with (k' := k) as [e' He']; [lia|done|lia|]. congruence.
  Qed.

  Lemma tinv_place T es e : tinv T es -> occupied T < length T -> exists T',
    place T e = Ok T' /\ length T' = length T /\ tinv T' (es ++ [e]).
  Proof.
    intros [Hocc Hgap Hb Hs] Ho. assert (0 < length T) as Hpos by lia.
    destruct (place_total T e Ho) as (z&Hz&Ez&->&k&Hk&Hzk&Hall).
    eexists. split; [done|]. rewrite insert_length. split; [done|]. constructor.
    - rewrite occupied_insert by done. rewrite app_length. simpl. lia.
    - intros j h p. rewrite insert_length. intros Hj E j' Hj'.
      pose proof (home_lt h _ Hpos) as Hh.
      destruct (decide (slot_at (length T) (home h (length T)) j' = z)) as [->|Hne'].
      { rewrite list_lookup_insert by done. eauto. }
      rewrite list_lookup_insert_ne by done.
      destruct (decide (slot_at (length T) (home h (length T)) j = z)) as [Hjz|Hne].
      + rewrite Hjz, list_lookup_insert in E by done. injection E as ->. simpl in *.
        assert (j = k) as -> by (eapply slot_at_inj; [| | |by rewrite Hjz, <- Hzk]; done).
        apply Hall. assert (j' <> k) by (intros ->; congruence). lia.
      + rewrite list_lookup_insert_ne in E by done. exact (Hgap j h p Hj E j' Hj').
    - intros h. unfold bucket. rewrite insert_length, List.filter_app, <- Hb. unfold bucket.
      pose proof (home_lt h _ Hpos) as Hh.
      destruct (N.eqb_spec e.1 h) as [<-|Hne].
      + rewrite (scan_reach T z e (length T) (home e.1 (length T)) k Ez Hh Hk (eq_sym Hzk) Hall).
        * rewrite List.filter_app. cbn [List.filter]. rewrite N.eqb_refl. f_equal. f_equal. by apply no_more.
        * intros k' Hk' E. destruct (Hall k' Hk') as [e' He']. rewrite E in He'. congruence.
      + cbn [List.filter]. rewrite (proj2 (N.eqb_neq _ _) Hne), app_nil_r.
        destruct (scan_insert T z e (length T) (home h (length T)) Ez Hh) as [->|(j&Hj&Ej&Eq)]; [done|].
        rewrite Eq, List.filter_app. cbn [List.filter]. rewrite (proj2 (N.eqb_neq _ _) Hne).
        rewrite no_more by done. by rewrite app_nil_r.
    - intros n e' Hn. apply elem_of_app. destruct (decide (n = z)) as [->|Hne].
      + rewrite list_lookup_insert in Hn by done. injection Hn as ->. right. left.
      + rewrite list_lookup_insert_ne in Hn by done. left. by eapply Hs.
  Qed.

  Lemma tinv_nil m : tinv (replicate m None) [].
  Proof.
    constructor.
    - unfold occupied. induction m; [done|]. simpl in *. done.
    - intros k h p _ E. rewrite lookup_replicate in E. by destruct E.
    - intros h. unfold bucket. rewrite replicate_length. destruct m as [|m]; [done|]. cbn [scan].
      destruct ((replicate (S m) None : list slot) !! home h (S m)) as [s|] eqn:E; [|done].
      by apply lookup_replicate in E as [-> _].
    - intros n e E. by apply lookup_replicate in E as [E _].
  Qed.

  Lemma place_all_tinv es : forall T done_es, tinv T done_es -> length done_es + length es <= length T ->
    exists T', place_all T es = Ok T' /\ length T' = length T /\ tinv T' (done_es ++ es).
  Proof.
    induction es as [|e es IH]; intros T des Ht Hl; cbn [place_all].
    - exists T. by rewrite app_nil_r.
    - destruct (tinv_place T des e Ht) as (T'&->&HT'&Ht').
      { rewrite (t_occ _ _ Ht). simpl in Hl. lia. }
      cbn [rbind]. destruct (IH T' (des ++ [e]) Ht') as (T2&E2&HT2&Ht2).
      { rewrite app_length, HT'. simpl in *. lia. }
      exists T2. rewrite <- app_assoc in Ht2. split_and!; [done|congruence|done].
  Qed.
End probing.

(** ** What is written *)
Definition rec_bytes (kv : codes * codes) : codes :=
  le32 (N.of_nat (length kv.1)) ++ le32 (N.of_nat (length kv.2)) ++ kv.1 ++ kv.2.

Definition rec_len (kv : codes * codes) : N := 8 + N.of_nat (length kv.1) + N.of_nat (length kv.2).

Definition recs_len (items : list (codes * codes)) : N := foldr (fun kv n => rec_len kv + n) 0 items.

Definition recs_bytes (items : list (codes * codes)) : codes := concat (rec_bytes <$> items).

Fixpoint recs_pos (items : list (codes * codes)) (pos : N) : list (N * N) :=
  match items with
  | [] => []
  | kv :: items => (djb_hash kv.1, pos) :: recs_pos items (pos + rec_len kv)
  end.

Lemma rec_bytes_length kv : N.of_nat (length (rec_bytes kv)) = rec_len kv.
Proof. unfold rec_bytes, rec_len. rewrite !app_length, !le32_length. lia. Qed.

Lemma recs_bytes_length items : N.of_nat (length (recs_bytes items)) = recs_len items.
Proof.
  unfold recs_bytes. induction items as [|kv items IH]; [done|].
  rewrite fmap_cons. cbn [concat recs_len foldr]. fold (recs_len items).
  rewrite app_length, Nat2N.inj_add, IH, rec_bytes_length. done.
Qed.

Lemma put_items_spec items : forall pos, Forall ascii_pair items -> pos + recs_len items < 2 ^ 32 ->
  put_items items pos = Ok (recs_bytes items, pos + recs_len items, recs_pos items pos).
Proof.
  unfold recs_bytes. induction items as [|[key value] items IH]; intros pos Ha Hs.
  - cbn. by rewrite N.add_0_r.
  - apply Forall_cons in Ha as [[Hk Hv] Ha]. cbn [fst snd] in *. cbn [recs_len foldr] in *. fold (recs_len items) in *.
    assert (rec_len (key, value) = 8 + N.of_nat (length key) + N.of_nat (length value)) as El by done.
    cbn [put_items]. rewrite !pack_le32 by lia. cbn [rbind].
    rewrite !ascii_utf8 by done. cbn [rbind]. rewrite IH; [|done|lia]. cbn [rbind].
    rewrite fmap_cons. cbn [concat recs_pos fst]. unfold rec_bytes. cbn [fst snd].
    rewrite cdb_hash_djb. do 2 f_equal; [f_equal|].
    + by rewrite <- !app_assoc.
    + lia.
    + f_equal. f_equal. lia.
Qed.

Definition slot_bytes (s : slot) : codes := let '(h, p) := default (0, 0) s in le32 h ++ le32 p.

Definition slot_ok (s : slot) : Prop := match s with Some (h, p) => h < 2 ^ 32 /\ 0 < p < 2 ^ 32 | None => True end.

Definition table_bytes (T : list slot) : codes := concat (slot_bytes <$> T).

Lemma slot_bytes_length s : length (slot_bytes s) = 8%nat.
Proof. unfold slot_bytes. by destruct (default _ s). Qed.

Lemma table_bytes_length T : length (table_bytes T) = (8 * length T)%nat.
Proof.
  unfold table_bytes. induction T as [|s T IH]; [done|]. rewrite fmap_cons. cbn [concat length].
  rewrite app_length, slot_bytes_length, IH. lia.
Qed.

Lemma put_table_spec T : Forall slot_ok T -> put_table T = Ok (table_bytes T).
Proof.
  unfold table_bytes. induction 1 as [|s T Hs _ IH]; [done|]. cbn [put_table]. rewrite fmap_cons. cbn [concat].
  destruct s as [[h p]|]; cbn in Hs; cbn [default from_option id].
  - rewrite !pack_le32 by lia. cbn [rbind]. rewrite IH. cbn [rbind]. unfold slot_bytes. cbn [default from_option id].
    by rewrite <- app_assoc.
  - rewrite !pack_le32 by lia. cbn [rbind]. rewrite IH. done.
Qed.

Lemma table_split T i s : T !! i = Some s -> exists pre post,
  table_bytes T = pre ++ slot_bytes s ++ post /\ length pre = (8 * i)%nat.
Proof.
  intros H. exists (table_bytes (take i T)), (table_bytes (drop (S i) T)).
  rewrite <- (take_drop_middle T i s H) at 1. split.
  - unfold table_bytes. by rewrite fmap_app, concat_app, fmap_cons.
  - rewrite table_bytes_length, take_length. apply lookup_lt_Some in H. lia.
Qed.

Definition entry_ok (e : N * N) : Prop := e.1 < 2 ^ 32 /\ 0 < e.2 < 2 ^ 32.

Definition etotal (is : list N) (es : list (N * N)) : N :=
  foldr (fun i n => N.of_nat (length (entries_of es i)) + n) 0 is.

(** What the tables look like. *)
Lemma put_tables_spec es : Forall entry_ok es -> forall is pos, pos + 16 * etotal is es < 2 ^ 32 ->
  exists final outs, put_tables is es pos = Ok (final, outs) /\ length final = (8 * length is)%nat /\
  (is <> [] -> exists rest, final = le32 pos ++ rest) /\
  forall j i, is !! j = Some i -> exists tpos T fpre fpost opre opost,
    tpos < 2 ^ 32 /\ N.of_nat (length T) < 2 ^ 32 /\
    final = fpre ++ le32 tpos ++ le32 (N.of_nat (length T)) ++ fpost /\ length fpre = (8 * j)%nat /\
    outs = opre ++ table_bytes T ++ opost /\ tpos = pos + N.of_nat (length opre) /\
    length T = (2 * length (entries_of es i))%nat /\ tinv T (entries_of es i).
Proof.
  intros He is. induction is as [|i is IH]; intros pos Hs.
  - exists [], []. split_and!; [done|done|done|]. intros j i Hj. done.
  - cbn [etotal foldr] in Hs. fold (etotal is es) in Hs.
    assert (Forall entry_ok (entries_of es i)) as Hei.
    { apply Forall_forall. intros e Hin. apply elem_of_list_In, filter_In in Hin as [Hin _].
      rewrite Forall_forall in He. apply He. by apply elem_of_list_In. }
    destruct (place_all_tinv (entries_of es i) (replicate (2 * length (entries_of es i)) None) [])
      as (T&ET&HT&Ht); [apply tinv_nil|rewrite replicate_length; cbn [length]; lia|].
    rewrite replicate_length in HT. cbn [app] in Ht.
    destruct (IH (pos + 8 * N.of_nat (2 * length (entries_of es i)))) as (final&outs&Ep&Hf&_&Hall); [lia|].
    assert (Forall slot_ok T) as Hok.
    { apply Forall_lookup. intros n [[h p]|] Hn; [|done]. apply (t_slots _ _ Ht) in Hn.
      rewrite Forall_forall in Hei. apply Hei in Hn. exact Hn. }
    exists (le32 pos ++ le32 (N.of_nat (length T)) ++ final), (table_bytes T ++ outs). split_and!.
    + cbn [put_tables]. rewrite !pack_le32 by lia. cbn [rbind]. rewrite ET. cbn [rbind].
      rewrite put_table_spec by done. cbn [rbind]. rewrite Ep. cbn [rbind]. by rewrite HT.
    + rewrite !app_length, !le32_length, Hf. cbn [length]. lia.
    + intros _. by eexists.
    + intros [|j] i' Hj.
      * injection Hj as <-. exists pos, T, [], final, [], outs. cbn [app length].
        split_and!; try done; lia.
      * apply Hall in Hj as (tpos&T'&fpre&fpost&opre&opost&H1&H2&->&H3&->&->&H4&H5).
        exists (pos + 8 * N.of_nat (2 * length (entries_of es i)) + N.of_nat (length opre)), T',
          (le32 pos ++ le32 (N.of_nat (length T)) ++ fpre), fpost, (table_bytes T ++ opre), opost.
        split_and!; rewrite ?app_length, ?table_bytes_length, ?le32_length, ?H3, <- ?app_assoc; try done; lia.
Qed.

Lemma etotal_nil is : etotal is [] = 0.
Proof. induction is as [|i is IH]; [done|]. cbn [etotal foldr]. fold (etotal is []). by rewrite IH. Qed.

Lemma etotal_cons e es is : NoDup is ->
  etotal is (e :: es) = (if bool_decide (N.land e.1 255 ∈ is) then 1 else 0) + etotal is es.
Proof.
  induction 1 as [|i is Hi Hnd IH]; [done|].
  cbn [etotal foldr]. fold (etotal is (e :: es)) (etotal is es). rewrite IH.
  unfold entries_of at 1. cbn [List.filter]. fold (entries_of es i).
  destruct (N.eqb_spec (N.land e.1 255) i) as [->|Hne].
  - rewrite bool_decide_eq_false_2 by done. rewrite bool_decide_eq_true_2 by left. cbn [length]. lia.
  - destruct (decide (N.land e.1 255 ∈ is)) as [Hin|Hin].
    + rewrite !bool_decide_eq_true_2; [lia|by right|done].
    + rewrite !bool_decide_eq_false_2; [lia| |done]. intros [|]%elem_of_cons; done.
Qed.

Definition tables : list N := N.of_nat <$> seq 0 256.

Lemma tables_lookup i : i < 256 -> tables !! N.to_nat i = Some i.
Proof.
  intros H. unfold tables. rewrite list_lookup_fmap, lookup_seq_lt by lia. cbn. f_equal. lia.
Qed.

Lemma etotal_tables es : etotal tables es = N.of_nat (length es).
Proof.
  induction es as [|e es IH]; [apply etotal_nil|]. rewrite etotal_cons, IH.
  - rewrite bool_decide_eq_true_2; [cbn [length]; lia|].
    apply elem_of_list_lookup. exists (N.to_nat (N.land e.1 255)). apply tables_lookup.
    change 255 with (N.ones 8). rewrite N.land_ones. by apply N.mod_lt.
  - apply NoDup_fmap_2; [apply _|]. apply NoDup_seq.
Qed.

Lemma recs_pos_length items : forall pos, length (recs_pos items pos) = length items.
Proof. induction items; intros; cbn; [done|]. by f_equal. Qed.

Lemma cdb_size_recs items : cdb_size items = 2048 + recs_len items + 16 * N.of_nat (length items).
Proof.
  unfold cdb_size. rewrite <- N.add_assoc. f_equal. induction items as [|kv items IH]; [done|].
  cbn [foldr recs_len length]. rewrite IH. fold (recs_len items). destruct kv as [k v]. unfold rec_len. cbn [fst snd]. lia.
Qed.

Lemma recs_pos_ok items : forall pos, Forall ascii_pair items -> 0 < pos -> pos + recs_len items < 2 ^ 32 ->
  Forall entry_ok (recs_pos items pos).
Proof.
  induction items as [|kv items IH]; intros pos Ha H0 Hs; cbn [recs_pos]; [done|].
  apply Forall_cons in Ha as [[Hk Hv] Ha]. cbn [recs_len foldr] in Hs. fold (recs_len items) in Hs.
  constructor.
  - split; cbn [fst snd]; [by apply djb_hash_lt, ascii_lt32|lia].
  - apply IH; [done|lia|lia].
Qed.

Definition layout (items : list (codes * codes)) (file : codes) : Prop := exists final outs,
  file = final ++ recs_bytes items ++ outs /\ length final = N.to_nat 2048 /\
  (exists rest, final = le32 (2048 + recs_len items) ++ rest) /\
  forall i, i < 256 -> exists tpos T fpre fpost opre opost,
    tpos < 2 ^ 32 /\ N.of_nat (length T) < 2 ^ 32 /\
    final = fpre ++ le32 tpos ++ le32 (N.of_nat (length T)) ++ fpost /\ N.of_nat (length fpre) = 8 * i /\
    outs = opre ++ table_bytes T ++ opost /\ tpos = 2048 + recs_len items + N.of_nat (length opre) /\
    length T = (2 * length (entries_of (recs_pos items 2048) i))%nat /\
    tinv T (entries_of (recs_pos items 2048) i).

Lemma make_layout items : Forall ascii_pair items -> cdb_size items < 2 ^ 32 ->
  exists file, cdb_make items = Ok file /\ layout items file.
Proof.
  intros Ha Hs. rewrite cdb_size_recs in Hs. unfold cdb_make.
  rewrite put_items_spec by (done || lia). cbn [rbind]. fold tables.
  destruct (put_tables_spec (recs_pos items 2048)) with (is := tables) (pos := 2048 + recs_len items)
    as (final&outs&E&Hf&Hr&Hall).
  - apply recs_pos_ok; [done|done|lia].
  - rewrite etotal_tables, recs_pos_length. lia.
  - rewrite E. cbn [rbind]. eexists. split; [done|]. exists final, outs. split_and!; [done| |by apply Hr|].
    + rewrite Hf. unfold tables. rewrite fmap_length, seq_length. lia.
    + intros i Hi. destruct (Hall (N.to_nat i) i) as (tpos&T&fpre&fpost&opre&opost&H1&H2&H3&H4&H); [by apply tables_lookup|].
      exists tpos, T, fpre, fpost, opre, opost. split_and!; try done; [lia|apply H..].
Qed.

(** ** Iterating (C34) *)
Lemma slice_mid pre mid post pos n : N.of_nat (length pre) = pos -> N.of_nat (length mid) = n ->
  slice (pre ++ mid ++ post) pos n = mid.
Proof.
  intros Hp <-. unfold slice. rewrite drop_pre by done. rewrite Nat2N.id. apply take_app.
Qed.

Lemma iter_recs items : forall fuel pre post len eod, (length items <= fuel)%nat ->
  N.of_nat (length pre) = len -> eod = len + recs_len items -> eod < 2 ^ 32 ->
  cdb_iter fuel (pre ++ recs_bytes items ++ post) eod len = Ok items.
Proof.
  unfold recs_bytes. induction items as [|[k v] items IH]; intros fuel pre post len eod Hf Hp -> Hs.
  - cbn [recs_len foldr]. rewrite N.add_0_r. destruct fuel as [|fuel]; [done|]. cbn [cdb_iter].
    by rewrite N.ltb_irrefl.
  - cbn [recs_len foldr length] in *. fold (recs_len items) in *.
    assert (rec_len (k, v) = 8 + N.of_nat (length k) + N.of_nat (length v)) as El by done.
    destruct fuel as [|fuel]; [lia|]. cbn [cdb_iter].
    rewrite (proj2 (N.ltb_lt _ _)) by lia. rewrite fmap_cons. cbn [concat].
    set (rest := concat (rec_bytes <$> items)) in *.
    unfold rec_bytes. cbn [fst snd].
    set (a := le32 (N.of_nat (length k))). set (b := le32 (N.of_nat (length v))).
    assert (pre ++ ((a ++ b ++ k ++ v) ++ rest) ++ post = pre ++ (a ++ b) ++ (k ++ v ++ rest ++ post)) as E1
      by by rewrite <- !app_assoc.
    assert (pre ++ ((a ++ b ++ k ++ v) ++ rest) ++ post = (pre ++ a ++ b) ++ k ++ (v ++ rest ++ post)) as E2
      by by rewrite <- !app_assoc.
    assert (pre ++ ((a ++ b ++ k ++ v) ++ rest) ++ post = (pre ++ a ++ b ++ k) ++ v ++ (rest ++ post)) as E3
      by by rewrite <- !app_assoc.
    assert (pre ++ ((a ++ b ++ k ++ v) ++ rest) ++ post = (pre ++ a ++ b ++ k ++ v) ++ rest ++ post) as E4
      by by rewrite <- !app_assoc.
    rewrite E1, (slice_mid pre (a ++ b)) by (subst a b; rewrite ?app_length, ?le32_length; (done || lia)).
    change (slice (a ++ b) 0 4) with a. change (slice (a ++ b) 4 4) with b.
    subst a b. rewrite !unpack_le32 by lia. cbn [rbind].
    rewrite <- E1, E4. rewrite IH; [|lia|rewrite !app_length, !le32_length; lia|lia|lia]. cbn [rbind].
    rewrite <- E4. do 3 f_equal.
    + rewrite E2. apply slice_mid; [rewrite !app_length, !le32_length; lia|done].
    + rewrite E3. apply slice_mid; [rewrite !app_length, !le32_length; lia|done].
Qed.

Lemma recs_len_ge items : N.of_nat (length items) <= recs_len items.
Proof.
  induction items as [|[k v] items IH]; [done|]. cbn [recs_len foldr length]. fold (recs_len items).
  unfold rec_len. lia.
Qed.

Lemma layout_items items file : cdb_size items < 2 ^ 32 -> layout items file -> cdb_items file = Ok items.
Proof.
  intros Hs (final&outs&->&Hf&[rest Er]&_). rewrite cdb_size_recs in Hs.
  unfold cdb_items, cdb_eod. rewrite decide_False by (by rewrite Er).
  assert (slice (final ++ recs_bytes items ++ outs) 0 4 = le32 (2048 + recs_len items)) as ->.
  { rewrite Er, <- app_assoc. by apply (slice_mid [] (le32 (2048 + recs_len items))). }
  rewrite unpack_le32 by lia. cbn [rbind]. apply iter_recs; [|lia|done|lia].
  pose proof (recs_len_ge items). lia.
Qed.

(** ** Reading by the specification (C35) *)
Lemma app_inj_len {X} (a b c d : list X) : a ++ b = c ++ d -> length a = length c -> a = c /\ b = d.
Proof. intros E H. by apply app_inj_1. Qed.

Lemma record_at_rec pre kv post pos key : N.of_nat (length pre) = pos -> pos + rec_len kv < 2 ^ 32 ->
  record_at (pre ++ rec_bytes kv ++ post) pos key = if bool_decide (kv.1 = key) then Some kv.2 else None.
Proof.
  destruct kv as [k v]. intros Hp Hs. unfold rec_len in Hs. cbn [fst snd] in *. unfold record_at, rec_bytes. cbn [fst snd].
  set (a := le32 (N.of_nat (length k))). set (b := le32 (N.of_nat (length v))).
  assert (pre ++ (a ++ b ++ k ++ v) ++ post = pre ++ a ++ (b ++ k ++ v ++ post)) as E1 by by rewrite <- !app_assoc.
  assert (pre ++ (a ++ b ++ k ++ v) ++ post = (pre ++ a) ++ b ++ (k ++ v ++ post)) as E2 by by rewrite <- !app_assoc.
  assert (pre ++ (a ++ b ++ k ++ v) ++ post = (pre ++ a ++ b) ++ k ++ (v ++ post)) as E3 by by rewrite <- !app_assoc.
  assert (pre ++ (a ++ b ++ k ++ v) ++ post = (pre ++ a ++ b ++ k) ++ v ++ post) as E4 by by rewrite <- !app_assoc.
  assert (u32_at (pre ++ (a ++ b ++ k ++ v) ++ post) pos = Some (N.of_nat (length k))) as ->.
  { rewrite E1. apply u32_at_le32; [lia|done]. }
  assert (u32_at (pre ++ (a ++ b ++ k ++ v) ++ post) (pos + 4) = Some (N.of_nat (length v))) as ->.
  { rewrite E2. apply u32_at_le32; [lia|]. unfold a. rewrite app_length, le32_length. lia. }
  assert (bytes_at (pre ++ (a ++ b ++ k ++ v) ++ post) (pos + 8) (N.of_nat (length k)) = Some k) as Eb.
  { rewrite E3. apply bytes_at_mid; [|done]. unfold a, b. rewrite !app_length, !le32_length. lia. }
  destruct (decide (k = key)) as [->|Hne].
  - rewrite !bool_decide_eq_true_2 by done. rewrite E4.
    apply bytes_at_mid; [unfold a, b; rewrite !app_length, !le32_length; lia|done].
  - rewrite !bool_decide_eq_false_2; [done|done|congruence].
Qed.

Lemma first_recs items key : forall pre post pos, N.of_nat (length pre) = pos -> pos + recs_len items < 2 ^ 32 ->
  head (omap (fun e => record_at (pre ++ recs_bytes items ++ post) e.2 key)
    (List.filter (fun e => e.1 =? djb_hash key) (recs_pos items pos))) = first_value items key.
Proof.
  unfold recs_bytes. induction items as [|kv items IH]; intros pre post pos Hp Hs; [done|].
  cbn [recs_len foldr] in Hs. fold (recs_len items) in Hs. rewrite fmap_cons. cbn [concat recs_pos List.filter fst].
  assert (pre ++ (rec_bytes kv ++ concat (rec_bytes <$> items)) ++ post =
    (pre ++ rec_bytes kv) ++ concat (rec_bytes <$> items) ++ post) as E by by rewrite <- !app_assoc.
  assert (head (omap (fun e => record_at (pre ++ (rec_bytes kv ++ concat (rec_bytes <$> items)) ++ post) e.2 key)
    (List.filter (fun e => e.1 =? djb_hash key) (recs_pos items (pos + rec_len kv)))) = first_value items key) as Er.
  { rewrite E. apply IH; [rewrite app_length, Nat2N.inj_add, rec_bytes_length; lia|lia]. }
  destruct kv as [k v]. cbn [first_value fst] in *.
  destruct (N.eqb_spec (djb_hash k) (djb_hash key)) as [Hh|Hh].
  - cbn [omap list_omap]. cbn [snd]. rewrite <- app_assoc, (record_at_rec pre (k, v)); [|done|lia]. cbn [fst snd].
    destruct (decide (k = key)) as [->|Hne].
    + by rewrite !bool_decide_eq_true_2.
    + rewrite !bool_decide_eq_false_2 by done. rewrite <- Er, <- !app_assoc. done.
  - rewrite bool_decide_eq_false_2 by congruence. exact Er.
Qed.

Lemma probe_scan file pre T post tpos h key : file = pre ++ table_bytes T ++ post ->
  N.of_nat (length pre) = tpos -> Forall slot_ok T ->
  forall n i, (i < length T)%nat ->
  djb_probe n file tpos (N.of_nat (length T)) h (N.of_nat i) key =
    head (omap (fun e => record_at file e.2 key) (List.filter (fun e => e.1 =? h) (scan T n i))).
Proof.
  intros Ef Hp Hok n. induction n as [|n IH]; intros i Hi; [done|]. cbn [djb_probe scan].
  destruct (lookup_lt_is_Some_2 T i Hi) as [s Es].
  destruct (table_split T i s Es) as (tpre&tpost&Et&Hl).
  rewrite Forall_lookup in Hok. pose proof (Hok i s Es) as Hs.
  destruct (default (0, 0) s) as [h' p] eqn:Ed.
  assert (h' < 2 ^ 32 /\ p < 2 ^ 32) as [Hh Hpp].
  { destruct s as [[h1 p1]|]; cbn in Ed; injection Ed as <- <-; cbn in Hs; lia. }
  assert (slot_bytes s = le32 h' ++ le32 p) as Eb by (unfold slot_bytes; by rewrite Ed).
  assert (u32_at file (tpos + 8 * N.of_nat i) = Some h') as ->.
  { rewrite Ef, Et, Eb. replace (pre ++ (tpre ++ (le32 h' ++ le32 p) ++ tpost) ++ post)
      with ((pre ++ tpre) ++ le32 h' ++ (le32 p ++ tpost ++ post)) by by rewrite <- !app_assoc.
    apply u32_at_le32; [done|]. rewrite app_length, Hl. lia. }
  assert (u32_at file (tpos + 8 * N.of_nat i + 4) = Some p) as ->.
  { rewrite Ef, Et, Eb. replace (pre ++ (tpre ++ (le32 h' ++ le32 p) ++ tpost) ++ post)
      with ((pre ++ tpre ++ le32 h') ++ le32 p ++ (tpost ++ post)) by by rewrite <- !app_assoc.
    apply u32_at_le32; [done|]. rewrite !app_length, le32_length, Hl. lia. }
  rewrite Es. destruct s as [[h1 p1]|]; cbn in Ed; injection Ed as -> ->.
  - cbn in Hs. destruct (N.eqb_spec p 0) as [->|_]; [lia|]. cbn [List.filter fst].
    assert (djb_probe n file tpos (N.of_nat (length T)) h ((N.of_nat i + 1) mod N.of_nat (length T)) key =
      head (omap (fun e => record_at file e.2 key) (List.filter (fun e => e.1 =? h) (scan T n ((i + 1) mod length T)%nat)))) as Er.
    { rewrite <- IH by (apply Nat.mod_upper_bound; lia). f_equal. rewrite Nat2N.inj_mod. f_equal. lia. }
    destruct (N.eqb_spec h' h) as [->|Hne]; [|exact Er].
    cbn [omap list_omap snd]. destruct (record_at file p key); [done|exact Er].
  - by rewrite N.eqb_refl.
Qed.

Lemma filter_entries h es : List.filter (fun e => e.1 =? h) (entries_of es (h mod 256)) =
  List.filter (fun e => e.1 =? h) es.
Proof.
  unfold entries_of. induction es as [|e es IH]; [done|]. cbn [List.filter].
  destruct (N.eqb_spec e.1 h) as [<-|Hne].
  - change 255 with (N.ones 8) at 1. rewrite N.land_ones. change (2 ^ 8) with 256. rewrite N.eqb_refl.
    cbn [List.filter]. rewrite N.eqb_refl. by f_equal.
  - destruct (_ =? h mod 256); [|done]. cbn [List.filter]. by rewrite (proj2 (N.eqb_neq _ _) Hne).
Qed.

Lemma entries_ok es i : Forall entry_ok es -> Forall entry_ok (entries_of es i).
Proof.
  intros He. apply Forall_forall. intros e Hin. apply elem_of_list_In, filter_In in Hin as [Hin _].
  rewrite Forall_forall in He. apply He. by apply elem_of_list_In.
Qed.

Lemma tinv_slots_ok T es : tinv T es -> Forall entry_ok es -> Forall slot_ok T.
Proof.
  intros Ht He. apply Forall_lookup. intros n [[h p]|] Hn; [|done]. apply (t_slots _ _ Ht) in Hn.
  rewrite Forall_forall in He. apply He in Hn. exact Hn.
Qed.

Lemma layout_find items file key : Forall ascii_pair items -> cdb_size items < 2 ^ 32 -> layout items file ->
  djb_find file key = first_value items key.
Proof.
  intros Ha Hs (final&outs&Ef&Hf&_&Hall). rewrite cdb_size_recs in Hs.
  assert (djb_hash key mod 256 < 256) as Hi by by apply N.mod_lt.
  destruct (Hall _ Hi) as (tpos&T&fpre&fpost&opre&opost&Htp&HTl&Efin&Hfp&Eo&Et&HT&Hinv).
  unfold djb_find.
  assert (u32_at file (8 * (djb_hash key mod 256)) = Some tpos) as ->.
  { rewrite Ef, Efin. rewrite <- !app_assoc. by apply u32_at_le32. }
  assert (u32_at file (8 * (djb_hash key mod 256) + 4) = Some (N.of_nat (length T))) as ->.
  { rewrite Ef, Efin. rewrite <- !app_assoc. rewrite (app_assoc fpre).
    apply u32_at_le32; [done|]. rewrite app_length, le32_length. lia. }
  pose proof (first_recs items key final outs 2048) as Hfirst.
  rewrite <- Ef in Hfirst. rewrite <- Hfirst by lia. clear Hfirst.
  rewrite <- filter_entries.
  assert (Forall slot_ok T) as Hok.
  { eapply tinv_slots_ok; [done|]. apply entries_ok, recs_pos_ok; [done|done|lia]. }
  destruct (N.eqb_spec (N.of_nat (length T)) 0) as [Hz|Hnz].
  - destruct (entries_of (recs_pos items 2048) (djb_hash key mod 256)); [done|]. cbn [length] in HT. lia.
  - assert (djb_hash key / 256 mod N.of_nat (length T) = N.of_nat (home (djb_hash key) (length T))) as ->.
    { unfold home. rewrite N2Nat.id. f_equal. by rewrite N.shiftr_div_pow2. }
    rewrite (probe_scan file (final ++ recs_bytes items ++ opre) T opost).
    + rewrite Nat2N.id. fold (bucket T (djb_hash key)). by rewrite (t_bucket _ _ Hinv).
    + rewrite Ef, Eo. by rewrite <- !app_assoc.
    + pose proof (recs_bytes_length items). rewrite !app_length. lia.
    + done.
    + apply home_lt. lia.
Qed.

(** ** Reading by the class (C36) *)
Lemma unpack_err buf e : uint32_unpack buf = Err e -> e = StructError.
Proof. unfold uint32_unpack. destruct buf as [|? [|? [|? [|? [|]]]]]; congruence. Qed.

Lemma find_loop_str_err n map s h hpos hslots : forall kpos,
  find_loop n map (KStr s) h hpos hslots kpos = Err KeyError \/
  find_loop n map (KStr s) h hpos hslots kpos = Err StructError.
Proof.
  induction n as [|n IH]; intros kpos; [by left|]. cbn [find_loop]. cbv zeta.
  destruct (uint32_unpack (drop 4 _)) as [pos|e] eqn:E1; cbn [rbind]; [|apply unpack_err in E1 as ->; by right].
  destruct (pos =? 0); [by left|].
  destruct (uint32_unpack (take 4 _)) as [u|e] eqn:E2; cbn [rbind]; [|apply unpack_err in E2 as ->; by right].
  destruct (u =? h); [|apply IH].
  destruct (uint32_unpack (take 4 (slice map pos 8))) as [u'|e] eqn:E3; cbn [rbind]; [|apply unpack_err in E3 as ->; by right].
  destruct (u' =? key_len (KStr s)); [|apply IH]. cbn [cdb_match]. apply IH.
Qed.

Lemma getitem_str map s : cdb_getitem map (KStr s) = Err KeyError \/ cdb_getitem map (KStr s) = Err StructError.
Proof.
  unfold cdb_getitem. cbn [key_hash rbind]. cbv zeta.
  destruct (uint32_unpack (drop 4 _)) as [hs|e] eqn:E1; cbn [rbind]; [|apply unpack_err in E1 as ->; by right].
  destruct (hs =? 0); [by left|].
  destruct (uint32_unpack (take 4 _)) as [hp|e] eqn:E2; cbn [rbind]; [|apply unpack_err in E2 as ->; by right].
  apply find_loop_str_err.
Qed.

Lemma recs_pos_elem items pre post : forall pos h p, N.of_nat (length pre) = pos -> (h, p) ∈ recs_pos items pos ->
  exists rpre kv rpost, pre ++ recs_bytes items ++ post = rpre ++ rec_bytes kv ++ rpost /\
    N.of_nat (length rpre) = p /\ rec_len kv <= recs_len items.
Proof.
  unfold recs_bytes. revert pre. induction items as [|kv items IH]; intros pre pos h p Hp Hin.
  - by apply elem_of_nil in Hin.
  - cbn [recs_pos recs_len foldr] in *. fold (recs_len items). rewrite fmap_cons. cbn [concat].
    apply elem_of_cons in Hin as [[= -> ->]|Hin].
    + exists pre, kv, (concat (rec_bytes <$> items) ++ post). rewrite <- !app_assoc. split_and!; [done|done|lia].
    + destruct (IH (pre ++ rec_bytes kv) (pos + rec_len kv) h p) as (rpre&kv'&rpost&E&H1&H2);
        [rewrite app_length, Nat2N.inj_add, rec_bytes_length; lia|done|].
      exists rpre, kv', rpost. rewrite <- E, <- !app_assoc. split_and!; [done|done|lia].
Qed.

(** The slots of a table that has been read are followed by the class. *)
Lemma find_loop_made file pre T post hpos s h : file = pre ++ table_bytes T ++ post ->
  N.of_nat (length pre) = hpos -> Forall slot_ok T ->
  (forall n h p, T !! n = Some (Some (h, p)) -> exists rpre kv rpost,
    file = rpre ++ rec_bytes kv ++ rpost /\ N.of_nat (length rpre) = p /\ rec_len kv < 2 ^ 32) ->
  forall n i, (i < length T)%nat ->
  find_loop n file (KStr s) h hpos (N.of_nat (length T)) (hpos + 8 * N.of_nat i) = Err KeyError.
Proof.
  intros Ef Hp Hok Hrec n. induction n as [|n IH]; intros i Hi; [done|]. cbn [find_loop]. cbv zeta.
  destruct (lookup_lt_is_Some_2 T i Hi) as [sl Es].
  destruct (table_split T i sl Es) as (tpre&tpost&Et&Hl).
  rewrite Forall_lookup in Hok. pose proof (Hok i sl Es) as Hs.
  destruct (default (0, 0) sl) as [h' p] eqn:Ed.
  assert (h' < 2 ^ 32 /\ p < 2 ^ 32) as [Hh Hpp].
  { destruct sl as [[h1 p1]|]; cbn in Ed; injection Ed as <- <-; cbn in Hs; lia. }
  assert (slot_bytes sl = le32 h' ++ le32 p) as Eb by (unfold slot_bytes; by rewrite Ed).
  assert (slice file (hpos + 8 * N.of_nat i) 8 = le32 h' ++ le32 p) as ->.
  { rewrite Ef, Et, Eb. replace (pre ++ (tpre ++ (le32 h' ++ le32 p) ++ tpost) ++ post)
      with ((pre ++ tpre) ++ (le32 h' ++ le32 p) ++ (tpost ++ post)) by by rewrite <- !app_assoc.
    apply slice_mid; [rewrite app_length, Hl; lia|done]. }
  change (drop 4 (le32 h' ++ le32 p)) with (le32 p). change (take 4 (le32 h' ++ le32 p)) with (le32 h').
  rewrite !unpack_le32 by done. cbn [rbind].
  destruct (N.eqb_spec p 0) as [->|Hp0]; [done|].
  assert (find_loop n file (KStr s) h hpos (N.of_nat (length T))
    (if hpos + 8 * N.of_nat i + 8 =? hpos + N.shiftl (N.of_nat (length T)) 3 then hpos
     else hpos + 8 * N.of_nat i + 8) = Err KeyError) as Er.
  { rewrite N.shiftl_mul_pow2. change (2 ^ 3) with 8.
    destruct (N.eqb_spec (hpos + 8 * N.of_nat i + 8) (hpos + N.of_nat (length T) * 8)) as [E|E].
    - replace hpos with (hpos + 8 * N.of_nat 0) at 2 by lia. apply IH. lia.
    - replace (hpos + 8 * N.of_nat i + 8) with (hpos + 8 * N.of_nat (S i)) by lia. apply IH. lia. }
  destruct (h' =? h); [|exact Er].
  destruct sl as [[h1 p1]|]; cbn in Ed; [injection Ed as -> ->|by injection Ed as <- <-].
  destruct (Hrec i h' p Es) as (rpre&[k v]&rpost&Ef2&Hrp&Hrl). unfold rec_len in Hrl. cbn [fst snd] in Hrl.
  assert (slice file p 8 = le32 (N.of_nat (length k)) ++ le32 (N.of_nat (length v))) as ->.
  { rewrite Ef2. unfold rec_bytes. cbn [fst snd].
    replace (rpre ++ (le32 (N.of_nat (length k)) ++ le32 (N.of_nat (length v)) ++ k ++ v) ++ rpost) with
      (rpre ++ (le32 (N.of_nat (length k)) ++ le32 (N.of_nat (length v))) ++ (k ++ v ++ rpost)) by by rewrite <- !app_assoc.
    by apply slice_mid. }
  change (take 4 (le32 (N.of_nat (length k)) ++ le32 (N.of_nat (length v)))) with (le32 (N.of_nat (length k))).
  rewrite unpack_le32 by lia. cbn [rbind]. destruct (_ =? key_len (KStr s)); [|exact Er]. cbn [cdb_match]. exact Er.
Qed.

Lemma land_shift u : N.land (N.shiftl u 3) 2047 = 8 * (u mod 256).
Proof.
  change 2047 with (N.ones 11). rewrite N.land_ones, N.shiftl_mul_pow2.
  change (2 ^ 11) with (256 * 2 ^ 3). rewrite N.mul_mod_distr_r by done. change (2 ^ 3) with 8. lia.
Qed.

Lemma layout_getitem items file s : Forall ascii_pair items -> cdb_size items < 2 ^ 32 -> layout items file ->
  cdb_getitem file (KStr s) = Err KeyError.
Proof.
  intros Ha Hs (final&outs&Ef&Hf&_&Hall). rewrite cdb_size_recs in Hs.
  unfold cdb_getitem. cbn [key_hash rbind]. cbv zeta. rewrite land_shift.
  assert (cdb_hash s mod 256 < 256) as Hi by by apply N.mod_lt.
  destruct (Hall _ Hi) as (tpos&T&fpre&fpost&opre&opost&Htp&HTl&Efin&Hfp&Eo&Et&HT&Hinv).
  assert (slice file (8 * (cdb_hash s mod 256)) 8 = le32 tpos ++ le32 (N.of_nat (length T))) as ->.
  { rewrite Ef, Efin.
    replace ((fpre ++ le32 tpos ++ le32 (N.of_nat (length T)) ++ fpost) ++ recs_bytes items ++ outs)
      with (fpre ++ (le32 tpos ++ le32 (N.of_nat (length T))) ++ (fpost ++ recs_bytes items ++ outs))
      by by rewrite <- !app_assoc.
    by apply slice_mid. }
  change (drop 4 (le32 tpos ++ le32 (N.of_nat (length T)))) with (le32 (N.of_nat (length T))).
  change (take 4 (le32 tpos ++ le32 (N.of_nat (length T)))) with (le32 tpos).
  rewrite !unpack_le32 by done. cbn [rbind].
  destruct (N.eqb_spec (N.of_nat (length T)) 0) as [Hz|Hnz]; [done|].
  assert (N.shiftl (N.shiftr (cdb_hash s) 8 mod N.of_nat (length T)) 3 = 8 * N.of_nat (home (cdb_hash s) (length T))) as ->.
  { unfold home. rewrite N2Nat.id, N.shiftl_mul_pow2. change (2 ^ 3) with 8. lia. }
  assert (Forall entry_ok (recs_pos items 2048)) as Heo by (apply recs_pos_ok; [done|done|lia]).
  pose proof (recs_bytes_length items).
  apply (find_loop_made file (final ++ recs_bytes items ++ opre) T opost).
  - rewrite Ef, Eo. by rewrite <- !app_assoc.
  - rewrite !app_length. lia.
  - eapply tinv_slots_ok; [done|]. by apply entries_ok.
  - intros n h p Hn. apply (t_slots _ _ Hinv) in Hn. apply elem_of_list_In, filter_In in Hn as [Hn _].
    apply elem_of_list_In in Hn.
    destruct (recs_pos_elem items final outs 2048 h p) as (rpre&kv&rpost&E&H1&H2); [lia|done|].
    exists rpre, kv, rpost. rewrite Ef. split_and!; [done|done|lia].
  - apply home_lt. lia.
Qed.

(** ** The statements *)
Lemma make_items items : Forall ascii_pair items -> cdb_size items < 2 ^ 32 ->
  exists file, cdb_make items = Ok file /\ cdb_items file = Ok items /\
    cdb_keys file = Ok items.*1 /\ cdb_values file = Ok items.*2.
Proof.
  intros Ha Hs. destruct (make_layout items Ha Hs) as (file&E&L). exists file.
  pose proof (layout_items items file Hs L) as Ei. split_and!; [done|done|..].
  - unfold cdb_keys. by rewrite Ei.
  - unfold cdb_values. by rewrite Ei.
Qed.

Lemma make_find items : Forall ascii_pair items -> cdb_size items < 2 ^ 32 ->
  exists file, cdb_make items = Ok file /\ forall key, djb_find file key = first_value items key.
Proof.
  intros Ha Hs. destruct (make_layout items Ha Hs) as (file&E&L). exists file. split; [done|].
  intros key. by apply layout_find.
Qed.

Lemma make_get items : Forall ascii_pair items -> cdb_size items < 2 ^ 32 ->
  exists file, cdb_make items = Ok file /\
    forall s (D : Type) (d : D), cdb_getitem file (KStr s) = Err KeyError /\ cdb_get file (KStr s) d = Ok (inr d).
Proof.
  intros Ha Hs. destruct (make_layout items Ha Hs) as (file&E&L). exists file. split; [done|].
  intros s D d. unfold cdb_get. rewrite (layout_getitem items file s Ha Hs L). done.
Qed.

Lemma getitem_never map key : key <> KBytes [] ->
  cdb_getitem map key = Err match key with KStr _ => KeyError | KBytes _ => TypeError end \/
  (exists s, key = KStr s) /\ cdb_getitem map key = Err StructError.
Proof.
  intros Hne. destruct key as [s|[|b bs]]; [|done|].
  - destruct (getitem_str map s) as [E|E]; [by left|right; eauto].
  - by left.
Qed.

Lemma get_never {D : Type} map key (d : D) : key <> KBytes [] ->
  cdb_get map key d = Ok (inr d) /\ cdb_getitem map key = Err KeyError \/
  cdb_get map key d = Err TypeError /\ (exists b, key = KBytes b) \/
  cdb_get map key d = Err StructError /\ (exists s, key = KStr s) /\ cdb_getitem map key = Err StructError.
Proof.
  intros Hne. unfold cdb_get. destruct (getitem_never map key Hne) as [E|[Hs E]].
  - destruct key as [s|b]; rewrite E; [by left|right; left; eauto].
  - right; right. by rewrite E.
Qed.

Lemma non_ascii_lost : (match cdb_make [([233], [])] with Ok f => cdb_items f | Err e => Err e end) = Ok [([195], [])].
Proof. vm_compute. reflexivity. Qed.

Lemma non_ascii_refuted : ~ forall items file enc, cdb_make items = Ok file ->
  Forall2 (fun kv e => utf8 kv.1 = Ok e.1 /\ utf8 kv.2 = Ok e.2) items enc -> cdb_items file = Ok enc.
Proof.
  intros H. pose proof non_ascii_lost as E. specialize (H [([233], [])]).
  destruct (cdb_make [([233], [])]) as [file|e]; [|discriminate E].
  specialize (H file [([195; 169], [])] eq_refl). rewrite E in H.
  assert (Ok [([195], [])] = Ok [([195; 169], [])] :> res (list (codes * codes))) as E'; [|congruence].
  apply H. constructor; [|constructor]. split; reflexivity.
Qed.
