(** * Timeouts, DNS look-ups, NNTP mining and memoisation: lemmas *)
From Coq Require Import String Lia.
From Verif Require Import Py NetModel NetSpec NetProofs.

Section timed.
  Context {W V : Type}.

  Lemma timed_spec (empty : V) (f : M (W * timeout) V) w t :
    let '(s', r) := timed empty f (w, t) in
    let '(s1, r1) := f (w, Some 10%Z) in
    s' = (s1.1, t) /\
    (forall v, r = Ok v <-> r1 = Ok v \/ (r1 = Err SocketTimeout /\ v = empty)) /\
    (forall e, r = Err e <-> r1 = Err e /\ e <> SocketTimeout).
  Proof.
    unfold timed, DEFAULT_TIMEOUT. destruct (f (w, Some 10%Z)) as [[w1 t1] r1]; simpl.
    split; [done|]. destruct r1 as [v|e]; [naive_solver|].
    destruct e; naive_solver.
  Qed.
End timed.

Lemma reverse_dns_spec {W} (g : codes -> M (W * timeout) codes) a w t :
  let '(s', r) := reverse_dns_lookup g a (w, t) in
  let '(s1, r1) := g a (w, Some 10%Z) in
  s' = (s1.1, t) /\
  match r1 with
  | Ok name => r = Ok [name]
  | Err e => if decide (e = SocketTimeout \/ e = herror) then r = Ok [] else r = Err e
  end.
Proof.
  unfold reverse_dns_lookup, timed, DEFAULT_TIMEOUT. destruct (g a (w, Some 10%Z)) as [[w1 t1] [n|e]]; simpl; [done|].
  destruct (decide (e = herror)) as [->|Hne]; simpl; [done|].
  split; [done|]. destruct (decide (e = SocketTimeout \/ e = herror)) as [[->|?]|Hd]; [done|done|].
  destruct e; try done. destruct Hd. by left.
Qed.

Lemma dns_spec {W} (g : codes -> M (W * timeout) (list codes)) a w t :
  let '(s', r) := dns_lookup g a (w, t) in
  let '(s1, r1) := g a (w, Some 10%Z) in
  s' = (s1.1, t) /\
  match r1 with
  | Ok l => exists l', r = Ok l' /\ NoDup l' /\ forall x, x ∈ l' <-> x ∈ l
  | Err e => if decide (e = SocketTimeout) then r = Ok [] else r = Err e
  end.
Proof.
  unfold dns_lookup, timed, DEFAULT_TIMEOUT. destruct (g a (w, Some 10%Z)) as [[w1 t1] [l|e]]; simpl.
  - split; [done|]. eexists; split; [done|]. split; [apply NoDup_remove_dups|]. intros x. by rewrite elem_of_remove_dups.
  - split; [done|]. by destruct e.
Qed.

(** ** Threads *)

Lemma tstep_values t0 s i : (forall old, TRead old ∈ ts_threads s \/ TInside old ∈ ts_threads s -> old = t0 \/ old = Some 10%Z) ->
  (ts_timeout s = t0 \/ ts_timeout s = Some 10%Z) ->
  (forall old, TRead old ∈ ts_threads (tstep s i) \/ TInside old ∈ ts_threads (tstep s i) -> old = t0 \/ old = Some 10%Z) /\
  (ts_timeout (tstep s i) = t0 \/ ts_timeout (tstep s i) = Some 10%Z).
Proof.
  intros H1 H2. unfold tstep. destruct (ts_threads s !! i) as [[|old|old|]|] eqn:E; simpl; try done.
  - split; [|done]. intros o [H|H]; apply elem_of_list_lookup in H as [j Hj];
      destruct (decide (i = j)) as [<-|Hne];
      rewrite ?list_lookup_insert, ?list_lookup_insert_ne in Hj by (done || by eapply lookup_lt_Some).
    + by simplify_eq.
    + apply H1. left. by eapply elem_of_list_lookup_2.
    + done.
    + apply H1. right. by eapply elem_of_list_lookup_2.
  - split; [|by right]. assert (old = t0 \/ old = Some 10%Z) as Ho.
    { apply H1. left. by eapply elem_of_list_lookup_2. }
    intros o [H|H]; apply elem_of_list_lookup in H as [j Hj];
      destruct (decide (i = j)) as [<-|Hne];
      rewrite ?list_lookup_insert, ?list_lookup_insert_ne in Hj by (done || by eapply lookup_lt_Some).
    + done.
    + apply H1. left. by eapply elem_of_list_lookup_2.
    + by simplify_eq.
    + apply H1. right. by eapply elem_of_list_lookup_2.
  - assert (old = t0 \/ old = Some 10%Z) as Ho.
    { apply H1. right. by eapply elem_of_list_lookup_2. }
    split; [|done].
    intros o [H|H]; apply elem_of_list_lookup in H as [j Hj];
      destruct (decide (i = j)) as [<-|Hne];
      rewrite ?list_lookup_insert, ?list_lookup_insert_ne in Hj by (done || by eapply lookup_lt_Some).
    + done.
    + apply H1. left. by eapply elem_of_list_lookup_2.
    + done.
    + apply H1. right. by eapply elem_of_list_lookup_2.
Qed.

Lemma trun_values sched t0 n :
  let s := trun sched (TSys t0 (replicate n TBefore)) in
  ts_timeout s = t0 \/ ts_timeout s = Some 10%Z.
Proof.
  cbv zeta. unfold trun.
  assert (forall s, (forall old, TRead old ∈ ts_threads s \/ TInside old ∈ ts_threads s -> old = t0 \/ old = Some 10%Z) ->
    (ts_timeout s = t0 \/ ts_timeout s = Some 10%Z) ->
    ts_timeout (foldl tstep s sched) = t0 \/ ts_timeout (foldl tstep s sched) = Some 10%Z) as H.
  { induction sched as [|i sched IH]; intros s H1 H2; [done|]. simpl.
    destruct (tstep_values t0 s i H1 H2) as [H3 H4]. by apply IH. }
  apply H; [|by left]. simpl. intros old [H'|H']; apply elem_of_replicate in H' as [? ?]; done.
Qed.

Lemma trun_app a b s : trun (a ++ b) s = trun b (trun a s).
Proof. unfold trun. by rewrite foldl_app. Qed.

(** A nested schedule restores the timeout and completes its threads. *)
Lemma nested_run sched : nested sched -> forall s,
  (forall i, i ∈ sched -> ts_threads s !! i = Some TBefore) ->
  ts_timeout (trun sched s) = ts_timeout s /\
  (forall i, i ∈ sched -> ts_threads (trun sched s) !! i = Some TAfter) /\
  (forall i, i ∉ sched -> ts_threads (trun sched s) !! i = ts_threads s !! i).
Proof.
  induction 1 as [|i s0 s1 s2 N0 IH0 N1 IH1 N2 IH2 H0 H1 H2 D01 D02 D12]; intros s Hs.
  { split_and!; [done| |done]. intros i Hi. set_solver. }
  assert (ts_threads s !! i = Some TBefore) as Hi by (apply Hs; set_solver).
  assert (i < length (ts_threads s)) as Hlt by by eapply lookup_lt_Some.
  change (i :: s0 ++ i :: s1 ++ i :: s2) with ([i] ++ s0 ++ [i] ++ s1 ++ [i] ++ s2).
  rewrite !trun_app.
  set (a := trun [i] s).
  assert (a = TSys (ts_timeout s) (<[i := TRead (ts_timeout s)]> (ts_threads s))) as Ea.
  { subst a. unfold trun; simpl. unfold tstep. by rewrite Hi. }
  destruct (IH0 a) as (A1 & A2 & A3).
  { intros j Hj. rewrite Ea; simpl. rewrite list_lookup_insert_ne by set_solver. apply Hs. set_solver. }
  set (b := trun s0 a) in *.
  assert (ts_threads b !! i = Some (TRead (ts_timeout s))) as Hb.
  { rewrite A3 by done. rewrite Ea; simpl. by apply list_lookup_insert. }
  set (c := trun [i] b).
  assert (c = TSys (Some DEFAULT_TIMEOUT) (<[i := TInside (ts_timeout s)]> (ts_threads b))) as Ec.
  { subst c. unfold trun; simpl. unfold tstep. by rewrite Hb. }
  assert (forall j, j <> i -> j ∉ s0 -> ts_threads c !! j = ts_threads s !! j) as Hcs.
  { intros j Hj Hj0. rewrite Ec; simpl. rewrite list_lookup_insert_ne by done.
    rewrite A3 by done. rewrite Ea; simpl. by rewrite list_lookup_insert_ne. }
  destruct (IH1 c) as (B1 & B2 & B3).
  { intros j Hj. rewrite Hcs; [apply Hs; set_solver|set_solver|set_solver]. }
  set (d := trun s1 c) in *.
  assert (ts_threads d !! i = Some (TInside (ts_timeout s))) as Hd.
  { rewrite B3 by done. rewrite Ec; simpl. apply list_lookup_insert. by eapply lookup_lt_Some. }
  set (e := trun [i] d).
  assert (e = TSys (ts_timeout s) (<[i := TAfter]> (ts_threads d))) as Ee.
  { subst e. unfold trun; simpl. unfold tstep. by rewrite Hd. }
  destruct (IH2 e) as (C1 & C2 & C3).
  { intros j Hj. rewrite Ee; simpl. rewrite list_lookup_insert_ne by set_solver.
    rewrite B3 by set_solver. rewrite Hcs; [apply Hs; set_solver|set_solver|set_solver]. }
  split_and!.
  - rewrite C1, Ee. done.
  - intros j Hj. destruct (decide (j ∈ s2)) as [Hj2|Hj2]; [by apply C2|].
    rewrite C3 by done. rewrite Ee; simpl. destruct (decide (j = i)) as [->|Hji].
    + apply list_lookup_insert. by eapply lookup_lt_Some.
    + rewrite list_lookup_insert_ne by done. destruct (decide (j ∈ s1)) as [Hj1|Hj1]; [by apply B2|].
      rewrite B3 by done. rewrite Ec; simpl. rewrite list_lookup_insert_ne by done. apply A2. set_solver.
  - intros j Hj. rewrite C3 by set_solver. rewrite Ee; simpl. rewrite list_lookup_insert_ne by set_solver.
    rewrite B3 by set_solver. apply Hcs; set_solver.
Qed.

(** Two overlapping calls: the timeout of the first stays for ever. *)
Lemma crossing_run t0 n : let s := trun [0; 0; 1; 0; 1; 1] (TSys t0 (replicate (2 + n) TBefore)) in
  ts_timeout s = Some 10%Z /\ ts_threads s = TAfter :: TAfter :: replicate n TBefore.
Proof. done. Qed.

(** ** mine_nntp *)

Section nntp.
  Context {W : Type} (ipv6 : codes -> bool).
  Context (ghba : codes -> M (W * timeout) codes) (gai : codes -> M (W * timeout) (list codes)).
  Context (other : codes -> N -> res codes).

  Lemma remove_dups_nil {A} `{EqDecision A} (l : list A) : remove_dups l = [] <-> l = [].
  Proof.
    split; [|by intros ->]. intros E. destruct l as [|x l]; [done|].
    assert (x ∈ remove_dups (x :: l)) as H by (apply elem_of_remove_dups; left). rewrite E in H. set_solver.
  Qed.

  Lemma nntp_spec hs w t :
    let '(s', (l, e)) := nntp_tokens ipv6 ghba gai other hs (w, t) in
    s'.2 = t /\
    (e = None -> exists a hs', hs = a :: hs' /\ parse_ipv4 a = None /\ ipv6 a = false
        /\ ((gai a (w, Some 10%Z)).2 = Ok [] \/ (gai a (w, Some 10%Z)).2 = Err SocketTimeout)
        /\ l = [str "nntp-host-name:" ++ a; str "nntp-host-domain:" ++ top_two a]) /\
    (forall x, e = Some x -> l = [] /\
       (x = TypeError \/ exists a hs', hs = a :: hs' /\ (gai a (w, Some 10%Z)).2 = Err x)) /\
    (hs = [] -> e = Some TypeError) /\
    (forall a hs', hs = a :: hs' -> is_Some (parse_ipv4 a) \/ ipv6 a = true -> e = Some TypeError) /\
    (forall a hs' y ys, hs = a :: hs' -> parse_ipv4 a = None -> ipv6 a = false ->
       (gai a (w, Some 10%Z)).2 = Ok (y :: ys) -> e = Some TypeError) /\
    (forall a hs' x, hs = a :: hs' -> parse_ipv4 a = None -> ipv6 a = false ->
       (gai a (w, Some 10%Z)).2 = Err x -> e = if decide (x = SocketTimeout) then None else Some x) /\
    (forall a hs', hs = a :: hs' -> parse_ipv4 a = None -> ipv6 a = false ->
       (gai a (w, Some 10%Z)).2 = Ok [] -> e = None).
  Proof.
    destruct hs as [|a hs]; [cbn; split_and!; try done; naive_solver|].
    unfold nntp_tokens, mine_nntp.
    destruct (match parse_ipv4 a with Some _ => true | None => ipv6 a end) eqn:E.
    - cbn. split; [done|]. split; [done|]. split; [intros x [= <-]; split; [done|by left]|].
      split; [done|]. split; [done|]. split; [done|].
      split; [intros a' hs' x [= <- <-] E1 E2 _; by rewrite E1, E2 in E|].
      intros a' hs' [= <- <-] E1 E2 _; by rewrite E1, E2 in E.
    - assert (parse_ipv4 a = None /\ ipv6 a = false) as [E1 E2] by by destruct (parse_ipv4 a).
      unfold mbind, clues_from_domainname, mbind.
      pose proof (dns_spec gai a w t) as D. destruct (dns_lookup gai a (w, t)) as [[w' t'] r].
      destruct (gai a (w, Some 10%Z)) as [[w1 t1] r1] eqn:G. destruct D as [D0 D]. injection D0 as -> ->.
      destruct r1 as [l1|x].
      + destruct D as (l' & -> & _ & Hl). destruct l' as [|y l'].
        * assert (l1 = []) as ->. { destruct l1 as [|z l1]; [done|]. assert (z ∈ []) as Hz by (apply Hl; left). by apply elem_of_nil in Hz. }
          cbn [mret]. split; [done|].
          split; [intros _; exists a, hs; rewrite G; split_and!; try done; by left|].
          split; [done|]. split; [done|].
          split; [intros a' hs' [= <- <-] [H|H]; [rewrite E1 in H; by destruct H|congruence]|].
          split; [intros a' hs' y ys [= <- <-] _ _ H; by rewrite G in H|].
          split; [intros a' hs' x [= <- <-] _ _ H; by rewrite G in H|done].
        * assert (exists z l2, l1 = z :: l2) as (z & l2 & ->).
          { destruct l1 as [|z l1]; [|by eauto]. assert (y ∈ []) as Hz by (apply Hl; left). by apply elem_of_nil in Hz. }
          cbn. split; [done|]. split; [done|]. split; [intros x [= <-]; split; [done|by left]|].
          split; [done|]. split; [done|]. split; [done|].
          split; [intros a' hs' x [= <- <-] _ _ H; by rewrite G in H|].
          intros a' hs' [= <- <-] _ _ H; by rewrite G in H.
      + destruct (decide (x = SocketTimeout)) as [->|Hx]; rewrite D.
        * cbn [mret]. split; [done|].
          split; [intros _; exists a, hs; rewrite G; split_and!; try done; by right|].
          split; [done|]. split; [done|].
          split; [intros a' hs' [= <- <-] [H|H]; [rewrite E1 in H; by destruct H|congruence]|].
          split; [intros a' hs' y ys [= <- <-] _ _ H; by rewrite G in H|].
          split; [intros a' hs' x [= <- <-] _ _ H; rewrite G in H; cbn in H; by injection H as <-|done].
        * cbn. split; [done|]. split; [done|].
          split; [intros x' [= <-]; split; [done|]; right; exists a, hs; by rewrite G|].
          split; [done|].
          split; [intros a' hs' [= <- <-] [H|H]; [rewrite E1 in H; by destruct H|congruence]|].
          split; [intros a' hs' y ys [= <- <-] _ _ H; by rewrite G in H|].
          split; [intros a' hs' x' [= <- <-] _ _ H; rewrite G in H; cbn in H; injection H as <-; by rewrite decide_False|].
          intros a' hs' [= <- <-] _ _ H; by rewrite G in H.
  Qed.
End nntp.

(** ** memoize *)

Section memo.
  Context {K V : Type} `{Countable K}.

  Scheme memo_ind2 := Induction for memo Sort Prop
    with memo_body_ind2 := Induction for memo_body Sort Prop.
  Scheme plain_ind2 := Induction for plain Sort Prop
    with plain_body_ind2 := Induction for plain_body Sort Prop.

  Lemma plain_det {W} (f : K -> body K V W) w k w1 r1 : plain f w k w1 r1 ->
    forall w2 r2, plain f w k w2 r2 -> w1 = w2 /\ r1 = r2.
  Proof.
    intros P. induction P using plain_ind2 with
      (P0 := fun w b w1 r1 _ => forall w2 r2, plain_body f w b w2 r2 -> w1 = w2 /\ r1 = r2).
    - intros w2 r2 Q. inversion Q; subst. by apply IHP.
    - intros w2 r2 Q. by inversion Q.
    - intros w2 r2' Q. inversion Q; subst. by apply IHP.
    - intros w3 r3 Q. inversion Q; subst. edestruct IHP as [E1 E2]; [eassumption|]. subst. by apply IHP0.
  Qed.

  (** A function of its arguments alone: results with and without memo agree. *)
  Definition consistent (f : K -> body K V unit) (d : gmap K V) : Prop :=
    forall k v, d !! k = Some v -> plain f tt k tt (Ok v).

  Lemma memo_sound (f : K -> body K V unit) u d k u' d' r l : memo f u d k u' d' r l ->
    consistent f d -> plain f tt k tt r /\ consistent f d'.
  Proof.
    intros P. induction P using memo_ind2 with
      (P0 := fun u d b u' d' r l _ => consistent f d -> plain_body f tt b tt r /\ consistent f d').
    - intros Hc. split; [by apply Hc|done].
    - intros Hc. destruct (IHP Hc) as [Hb Hc']. split; [by constructor|].
      intros k' v' Hk'. destruct (decide (k' = k)) as [->|Hne].
      + rewrite lookup_insert in Hk'. injection Hk' as <-. by constructor.
      + rewrite lookup_insert_ne in Hk' by done. by apply Hc'.
    - intros Hc. destruct (IHP Hc) as [Hb Hc']. split; [by constructor|done].
    - intros Hc. split; [constructor|done].
    - intros Hc. destruct w. destruct (IHP Hc) as [Hb Hc']. split; [|done]. constructor.
      by destruct (g ()) as [[] b].
    - intros Hc. destruct (IHP Hc) as [Hb Hc']. destruct (IHP0 Hc') as [Hb' Hc'']. split; [|done].
      by econstructor.
  Qed.

  Lemma memo_complete (f : K -> body K V unit) u k u' r : plain f u k u' r ->
    forall d, consistent f d -> exists d' l, memo f tt d k tt d' r l.
  Proof.
    intros P. induction P using plain_ind2 with
      (P0 := fun u b u' r _ => forall d, consistent f d -> exists d' l, memo_body f tt d b tt d' r l).
    - intros d Hc. destruct w, w'. destruct (d !! k) as [v|] eqn:E.
      + assert (plain f tt k tt (Ok v)) as P1 by by apply Hc.
        assert (r = Ok v) as -> by (edestruct (plain_det f tt k tt r) as [_ ?]; [by constructor|exact P1|done]).
        exists d, []. by constructor.
      + destruct (IHP d Hc) as (d' & l & Hb). destruct r as [v|e].
        * exists (<[k := v]> d'), (k :: l). by apply memo_miss.
        * exists d', (k :: l). by apply memo_raise.
    - intros d Hc. destruct w. exists d, []. constructor.
    - intros d Hc. destruct w, (IHP d Hc) as (d' & l & Hb). exists d', l. constructor.
      by destruct (g ()) as [[] b].
    - intros d Hc. destruct w, w1, w2. destruct (IHP d Hc) as (d1 & l1 & Hm).
      destruct (memo_sound f _ _ _ _ _ _ _ Hm Hc) as [_ Hc1]. destruct (IHP0 d1 Hc1) as (d2 & l2 & Hb).
      exists d2, (l1 ++ l2). by econstructor.
  Qed.

  (** A function that does not call itself, acting on any world. *)
  Inductive flat {W} : body K V W -> Prop :=
    | flat_return r : flat (Return r)
    | flat_act g : (forall w, flat (g w).2) -> flat (Act g).

  Lemma flat_body {W} (f : K -> body K V W) w d b w' d' r l :
    memo_body f w d b w' d' r l -> flat b -> d' = d /\ l = [] /\ plain_body f w b w' r.
  Proof.
    intros P. induction P using memo_body_ind2 with (P := fun w d k w' d' r l _ => True); try done.
    - intros _. split_and!; [done|done|constructor].
    - intros F. inversion F; subst. destruct IHP as (-> & -> & Hb); [done|]. split_and!; [done..|]. by constructor.
    - intros F. inversion F.
  Qed.

  (** Every completed sequence of calls, seen from a dictionary d. *)
  Lemma memo_calls_spec {W} (f : K -> body K V W) : (forall k, flat (f k)) ->
    forall w d ks w' d' rs l, memo_calls f w d ks w' d' rs l ->
    length rs = length ks /\
    (forall k v, d !! k = Some v -> d' !! k = Some v) /\
    (forall i k, ks !! i = Some k -> forall v, d !! k = Some v -> rs !! i = Some (Ok v)) /\
    (forall i j k v, (i <= j)%nat -> returned ks rs i k v -> ks !! j = Some k -> rs !! j = Some (Ok v)) /\
    (forall k v, d' !! k = Some v <-> d !! k = Some v \/ (d !! k = None /\ exists i, returned ks rs i k v)) /\
    (forall done, (forall k, k ∈ done <-> is_Some (d !! k)) -> l = unanswered done ks rs).
  Proof.
    intros Hf w d ks w' d' rs l P.
    induction P as [w d|w d k w1 d1 r l1 ks w2 d2 rs l2 Hm Hc IH].
    { split; [done|]. split; [done|]. split; [done|]. split; [by intros i j k v _ [Hk _]|].
      split; [|done]. intros k v. split; [by left|]. intros [?|(_ & i & Hi & _)]; done. }
    destruct IH as (IL & I0 & I1 & I2 & I3 & I4).
    (* what the first call did *)
    assert ((d1 = d /\ exists v, r = Ok v /\ d !! k = Some v /\ l1 = []) \/
            (d !! k = None /\ l1 = [k] /\ exists v, r = Ok v /\ d1 = <[k := v]> d) \/
            (d !! k = None /\ l1 = [k] /\ d1 = d /\ exists e, r = Err e)) as Hcase.
    { inversion Hm as [? ? ? v Hv|? ? ? ? d'' v l' Hn Hb|? ? ? ? d'' e l' Hn Hb]; subst.
      - left. eauto.
      - right; left. destruct (flat_body _ _ _ _ _ _ _ _ Hb (Hf k)) as (-> & -> & _). eauto.
      - right; right. destruct (flat_body _ _ _ _ _ _ _ _ Hb (Hf k)) as (-> & -> & _). eauto. }
    assert (forall k' v, d !! k' = Some v -> d1 !! k' = Some v) as Hmono.
    { intros k' v Hk'. destruct Hcase as [[-> _]|[(Hn & _ & v' & _ & ->)|(_ & _ & -> & _)]]; [done| |done].
      rewrite lookup_insert_ne; [done|congruence]. }
    assert (forall v, r = Ok v -> d1 !! k = Some v) as Hset.
    { intros v ->. destruct Hcase as [[-> (v' & Hv & Hd & _)]|[(_ & _ & v' & Hv & ->)|(_ & _ & _ & e & ?)]]; [congruence| |done].
      rewrite lookup_insert. congruence. }
    split_and!.
    - by cbn [length]; rewrite IL.
    - intros k' v Hk'. by apply I0, Hmono.
    - intros [|i] k' Hk v Hv; simpl in Hk |- *.
      + injection Hk as ->. destruct Hcase as [[_ (v' & -> & Hd & _)]|[(Hn & _)|(Hn & _)]]; congruence.
      + eapply I1; [done|]. by apply Hmono.
    - intros [|i] [|j] k' v Hij [Hk Hr] Hj; simpl in *; try lia.
      + done.
      + injection Hk as ->. injection Hr as ->. eapply I1; [done|]. by apply Hset.
      + eapply (I2 i j); [lia|by split|done].
    - intros k' v. rewrite I3. split.
      + intros [Hd1|(Hd1 & i & Hk & Hr)].
        * destruct (d !! k') as [v0|] eqn:Ed.
          { left. apply Hmono in Ed. congruence. }
          right. split; [done|]. exists 0.
          destruct Hcase as [[-> _]|[(_ & _ & v' & -> & ->)|(_ & _ & -> & _)]]; [congruence| |congruence].
          destruct (decide (k' = k)) as [->|Hne].
          -- rewrite lookup_insert in Hd1. injection Hd1 as ->. done.
          -- rewrite lookup_insert_ne in Hd1 by done. congruence.
        * right. split; [|by exists (S i)]. destruct (d !! k') as [v0|] eqn:Ed; [|done].
          apply Hmono in Ed. congruence.
      + intros [Hd|(Hd & [|i] & Hk & Hr)]; simpl in *.
        * left. by apply Hmono.
        * injection Hk as ->. injection Hr as ->. left. by apply Hset.
        * destruct (d1 !! k') as [v0|] eqn:Ed1; [|right; split; [done|by exists i]].
          left. assert (rs !! i = Some (Ok v0)) by by eapply I1. congruence.
    - intros dn Hdn. cbn [unanswered].
      destruct Hcase as [[-> (v & -> & Hd & ->)]|[(Hn & -> & v & -> & ->)|(Hn & -> & -> & e & ->)]].
      + rewrite bool_decide_eq_true_2 by (apply Hdn; by eexists). simpl. apply I4.
        intros k'. rewrite elem_of_cons, Hdn. split; [intros [->|?]; [by eexists|done]|by right].
      + rewrite bool_decide_eq_false_2 by (rewrite Hdn, Hn; by intros [? ?]). simpl. f_equal. apply I4.
        intros k'. rewrite elem_of_cons, Hdn. destruct (decide (k' = k)) as [->|Hne].
        * rewrite lookup_insert. split; [by eexists|by left].
        * rewrite lookup_insert_ne by done. naive_solver.
      + rewrite bool_decide_eq_false_2 by (rewrite Hdn, Hn; by intros [? ?]). simpl. f_equal. by apply I4.
  Qed.
End memo.
