(** * Lemmas about the cdb-backed classifier *)
From Coq Require Import String Decimal DecimalZ DecimalPos DecimalN DecimalFacts Lia.
From Verif Require Import Py NumModel ClassifierModel ShelveModel CdbModel CdbSpec CdbClassModel CdbClassSpec.

Lemma codes_uint_codes u : codes_uint (uint_codes u) = Some u.
Proof. induction u; cbn [uint_codes codes_uint]; [done|..]; rewrite IHu; done. Qed.

Lemma uint_codes_digits u : Forall (fun c => 48 <= c <= 57)%N (uint_codes u).
Proof. induction u; cbn [uint_codes]; constructor; (done || lia). Qed.

Lemma to_int_nonnil z : match Z.to_int z with Pos u | Neg u => u <> Nil end.
Proof.
  destruct z as [|p|p]; cbn; [done|..]; apply DecimalPos.Unsigned.to_uint_nonnil.
Qed.

Lemma uint_codes_cons u : u <> Nil -> exists c r, uint_codes u = c :: r /\ (48 <= c <= 57)%N.
Proof. pose proof (uint_codes_digits u) as H. intros Hn. destruct u; [done|..]; cbn; (do 2 eexists; split; [done|lia]). Qed.

Lemma py_int_fmt z : py_int (fmt_d z) = Ok z.
Proof.
  unfold fmt_d, py_int. pose proof (to_int_nonnil z) as Hn. pose proof (DecimalZ.of_to z) as Hz.
  destruct (Z.to_int z) as [u|u]; destruct (uint_codes_cons u Hn) as (c&r&E&Hc).
  - rewrite E. destruct (N.eqb_spec c 45); [lia|]. rewrite <- E, codes_uint_codes, ?E. by rewrite <- Hz.
  - rewrite N.eqb_refl, E. rewrite <- E, codes_uint_codes, ?E. by rewrite <- Hz.
Qed.

Lemma split_comma_no s : Forall (fun c => c <> 44)%N s -> split_comma s = [s].
Proof.
  induction 1 as [|c s Hc _ IH]; cbn [split_comma]; [done|]. destruct (N.eqb_spec c 44); [done|]. by rewrite IH.
Qed.

Lemma split_comma_app s t : Forall (fun c => c <> 44)%N s -> split_comma (s ++ 44%N :: t) = s :: split_comma t.
Proof.
  induction 1 as [|c s Hc _ IH]; cbn [split_comma app]; [done|].
  destruct (N.eqb_spec c 44); [done|]. by rewrite IH.
Qed.

Lemma fmt_no_comma z : Forall (fun c => c <> 44)%N (fmt_d z).
Proof.
  unfold fmt_d. destruct (Z.to_int z) as [u|u]; [|constructor; [done|]];
    (eapply Forall_impl; [apply uint_codes_digits|]; cbn; lia).
Qed.

Lemma ints_fmt_pair a b : ints (split_comma (fmt_pair a b)) = Ok [a; b].
Proof.
  unfold fmt_pair. rewrite split_comma_app, split_comma_no by apply fmt_no_comma.
  cbn [ints]. by rewrite !py_int_fmt.
Qed.

Lemma from_string_fmt a b : from_string (fmt_pair a b) = Ok (WI a b).
Proof. unfold from_string. by rewrite ints_fmt_pair. Qed.

Section cdb.
  Context {A : num} {X : Type} (ord : gmap pyword winfo -> list (pyword * winfo)).
  Notation mobj := (obj A (gmap pyword winfo)).

  Lemma read_words_swap (l : list (pyword * winfo)) : forall acc, NoDup l.*1 ->
    exists m, read_words ((fun wr => (wr.1, fmt_pair (hamcount wr.2) (spamcount wr.2))) <$> l) acc = Ok m /\
    forall w, m !! w = if decide (w = WStr STATE_KEY) then acc !! w
                       else match (list_to_map l : gmap pyword winfo) !! w with
                            | Some r => Some (swapped r)
                            | None => acc !! w
                            end.
  Proof.
    induction l as [|[k r] l IH]; intros acc Hnd.
    - exists acc. split; [done|]. intros w. cbn [list_to_map foldr]. by destruct (decide _).
    - rewrite fmap_cons in Hnd. apply NoDup_cons in Hnd as [Hk Hnd]. rewrite fmap_cons. cbn [read_words fst snd].
      rewrite from_string_fmt. cbn [rbind]. cbn [list_to_map foldr fst snd].
      change (foldr (fun p => <[p.1:=p.2]>) ∅ l) with (list_to_map l : gmap pyword winfo).
      assert ((list_to_map l : gmap pyword winfo) !! k = None) as Hkl by by apply not_elem_of_list_to_map_1.
      destruct (decide (k = WStr STATE_KEY)) as [->|Hs].
      + destruct (IH acc Hnd) as (m&->&Hm). exists m. split; [done|]. intros w. rewrite Hm.
        destruct (decide (w = WStr STATE_KEY)); [done|]. by rewrite lookup_insert_ne.
      + destruct (IH (<[k:=WI (hamcount r) (spamcount r)]> acc) Hnd) as (m&->&Hm). exists m. split; [done|].
        intros w. rewrite Hm. destruct (decide (w = WStr STATE_KEY)) as [->|Hw].
        { by rewrite lookup_insert_ne. }
        destruct (decide (w = k)) as [->|Hwk].
        * rewrite Hkl, !lookup_insert. done.
        * by rewrite !lookup_insert_ne.
  Qed.

  Lemma cdb_would_swap (m : cdbmod X) (o : mobj) : cdbmod_ok m -> dict_order_ok ord -> exists x,
    cdb_store ord (Some m) o = Ok x /\
    forall o' : mobj, exists o2, cdb_load (Some m) (Some x) o' = (o2, Ok tt) /\
      o_nspam o2 = o_nspam o /\ o_nham o2 = o_nham o /\
      forall w, w <> WStr STATE_KEY -> o_store o2 !! w = swapped <$> o_store o !! w.
  Proof.
    intros Hm Ho. destruct (Hm (cdb_items_of ord o)) as (x&Ew&Er). exists x.
    unfold cdb_store. cbn [global rbind]. split; [done|]. intros o'.
    unfold cdb_load. cbn [global rbind]. rewrite Er. cbn [rbind]. unfold cdb_items_of at 1. cbn [pairs_get].
    rewrite decide_True by done. cbn [rbind]. rewrite ints_fmt_pair. cbn [rbind].
    unfold cdb_items_of. cbn [read_words]. rewrite decide_True by done.
    destruct (read_words_swap (ord (o_store o)) ∅) as (words&->&Hw).
    { rewrite (Ho (o_store o)). apply NoDup_fst_map_to_list. }
    eexists. split; [done|]. cbn. split_and!; [done|done|]. intros w Hne. rewrite Hw, decide_False by done.
    assert ((list_to_map (ord (o_store o)) : gmap pyword winfo) = o_store o) as ->.
    { rewrite <- (list_to_map_to_list (o_store o)) at 2. apply list_to_map_proper; [|apply Ho].
      rewrite (Ho (o_store o)). apply NoDup_fst_map_to_list. }
    by destruct (o_store o !! w).
  Qed.
End cdb.
