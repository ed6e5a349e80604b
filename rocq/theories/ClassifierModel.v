(** * Model of sbclassifier/classifiers/basic.py *)
From Coq Require Import String.
From Verif Require Import Py NumModel.

(** basic.py:133-163, class WordInfo: the number of trained spam and ham
    messages in which the word appears. *)
Record winfo := WI { spamcount : Z; hamcount : Z }.

Global Instance winfo_eq_dec : EqDecision winfo.
Proof. solve_decision. Defined.

(** basic.py:153, WordInfo() *)
Definition wi_new : winfo := WI 0 0.

(** basic.py:51 *)
Definition PICKLE_VERSION : Z := 5.
(** basic.py:106 *)
Definition MAX_DISCRIMINATORS : nat := 150.

(** basic.py:54, [BIGRAM_FORMAT.format(x, y)] with BIGRAM_FORMAT = 'bi:{} {}' *)
Definition bigram (x y : pyword) : pyword :=
  WStr (str "bi:" ++ pystr x ++ [32%N] ++ pystr y).

(** An iterable of words: a list can be iterated many times, an iterator
    (such as the generator returned by the tokenizer) only once.
    The argument wordstream of basic.py:212, 296, 310, 323 *)
Inductive stream := SList (l : list pyword) | SIter (l : list pyword).

(** What a single complete iteration over the iterable yields. (basic.py:447, 472, 569) *)
Definition elems (s : stream) : list pyword :=
  match s with SList l => l | SIter l => l end.

(** basic.py:345-350 when the wordstream is a list: the outer zip pairs each
    word with the bigram of it and its successor and stops when the bigrams
    run out. *)
Fixpoint enhance_list (l : list pyword) : list pyword :=
  match l with
  | x :: ((y :: _) as r) => x :: bigram x y :: enhance_list r
  | _ => []
  end.

(** basic.py:345-350 when the wordstream is an iterator: the outer zip, the
    inner zip and the islice all advance the same iterator.  One step of the
    outer zip takes a word x; the inner zip takes a word y; the islice takes a
    word z, on its first step after skipping one word.  [first] says whether
    the islice still has to skip.  When the iterator is exhausted inside the
    step, the words already taken are dropped. *)
Fixpoint enhance_iter (first : bool) (l : list pyword) : list pyword :=
  match l with
  | x :: y :: r =>
      if first
      then match r with
           | _ :: z :: r' => x :: bigram y z :: enhance_iter false r'
           | _ => []
           end
      else match r with
           | z :: r' => x :: bigram y z :: enhance_iter false r'
           | _ => []
           end
  | _ => []
  end.

(** basic.py:323-350, _enhance_wordstream *)
Definition enhance (s : stream) : list pyword :=
  match s with
  | SList l => enhance_list l
  | SIter l => enhance_iter true l
  end.

(** The storage hooks a subclass may override: basic.py:588-598
    (_wordinfoget, _wordinfoset, _wordinfodel) and 488-494 (_post_training,
    which gets nspam and nham because the override writes them). *)
Record backend (St : Type) := Backend {
  bk_get : pyword -> M St (option winfo);
  bk_set : pyword -> winfo -> M St unit;
  bk_del : pyword -> M St unit;
  bk_post : Z -> Z -> M St unit
}.
Global Arguments bk_get {St} b w : rename.
Global Arguments bk_set {St} b w r : rename.
Global Arguments bk_del {St} b w : rename.
Global Arguments bk_post {St} b s h : rename.

(** basic.py:488-494 and 588-598: the hooks of the plain in-memory class.
    [del self.wordinfo[word]] raises KeyError when the word is absent. *)
Definition mem_backend : backend (gmap pyword winfo) := {|
  bk_get w := fun m => (m, Ok (m !! w));
  bk_set w r := fun m => (<[w := r]> m, Ok tt);
  bk_del w := fun m => match m !! w with
                       | Some _ => (delete w m, Ok tt)
                       | None => (m, Err KeyError)
                       end;
  bk_post _ _ := mret tt
|}.

(** A classifier object, basic.py:180-188.  [o_bigrams = None] means that the
    attribute _use_bigrams does not exist (basic.py:193-197 does not set it). *)
Record obj (A : num) (St : Type) := Obj {
  o_bigrams : option bool;
  o_nspam : Z;
  o_nham : Z;
  o_cache : gmap Z (gmap Z (F A));
  o_store : St
}.
Global Arguments Obj {A St} _ _ _ _ _.
Global Arguments o_bigrams {A St} _.
Global Arguments o_nspam {A St} _.
Global Arguments o_nham {A St} _.
Global Arguments o_cache {A St} _.
Global Arguments o_store {A St} _.

(** A possible order in which Python enumerates [set(ws)]. (basic.py:447, 472, 569) *)
Definition set_order := list pyword -> list pyword.

(** Every set order lists each element exactly once.
    Needed for the set iterations basic.py:447, 472, 569 *)
Definition set_order_ok (it : set_order) : Prop :=
  forall l, NoDup (it l) /\ forall w, w ∈ it l <-> w ∈ l.

Section classifier.
  Context {A : num} {St : Type}.
  Context (bk : backend St) (it : set_order).
  Notation obj := (obj A St).
  Notation F := (F A).

  (** basic.py:180-188, __init__ with a given store *)
  Definition c_new (bigrams : bool) (st : St) : obj := Obj (Some bigrams) 0 0 ∅ st.

  (** Assignment to the attribute wordinfo, basic.py:182 *)
  Definition with_store (o : obj) (st : St) : obj :=
    Obj (o_bigrams o) (o_nspam o) (o_nham o) (o_cache o) st.

  (** Assignment to the attribute _probcache, basic.py:186 *)
  Definition with_cache (o : obj) (c : gmap Z (gmap Z F)) : obj :=
    Obj (o_bigrams o) (o_nspam o) (o_nham o) c (o_store o).

  (** Assignment to the attributes nspam and nham, basic.py:187-188 *)
  Definition with_counts (o : obj) (s h : Z) : obj :=
    Obj (o_bigrams o) s h (o_cache o) (o_store o).

  (** run a storage hook on the object (basic.py:588-598: a hook acts on the word store only) *)
  Definition on_store {B} (m : M St B) : M obj B :=
    fun o => match m (o_store o) with (st, r) => (with_store o st, r) end.

  (** basic.py:447-457, body of the loop of _add_msg *)
  Definition add_word (is_spam : bool) (w : pyword) : M St unit :=
    mbind (bk_get bk w) (fun record =>
      let r := match record with None => wi_new | Some r => r end in
      let r' := if is_spam then WI (spamcount r + 1) (hamcount r)
                else WI (spamcount r) (hamcount r + 1) in
      bk_set bk w r').

  (** basic.py:440-459, _add_msg *)
  Definition add_msg (ws : list pyword) (is_spam : bool) : M obj unit :=
    fun o =>
      let o := with_cache o ∅ in
      let o := if is_spam then with_counts o (o_nspam o + 1) (o_nham o)
               else with_counts o (o_nspam o) (o_nham o + 1) in
      on_store (mbind (mfor (it ws) (add_word is_spam))
                      (fun _ => bk_post bk (o_nspam o) (o_nham o))) o.

  (** basic.py:472-484, body of the loop of _remove_msg *)
  Definition remove_word (is_spam : bool) (w : pyword) : M St unit :=
    mbind (bk_get bk w) (fun record =>
      match record with
      | None => mret tt
      | Some r =>
          let r' := if is_spam
                    then (if (0 <? spamcount r)%Z then WI (spamcount r - 1) (hamcount r) else r)
                    else (if (0 <? hamcount r)%Z then WI (spamcount r) (hamcount r - 1) else r) in
          if (hamcount r' =? 0)%Z && (spamcount r' =? 0)%Z
          then bk_del bk w
          else bk_set bk w r'
      end).

  (** basic.py:461-486, _remove_msg *)
  Definition remove_msg (ws : list pyword) (is_spam : bool) : M obj unit :=
    fun o =>
      let o := with_cache o ∅ in
      if ((if is_spam then o_nspam o else o_nham o) <=? 0)%Z
      then (o, Err ValueError)
      else
        let o := if is_spam then with_counts o (o_nspam o - 1) (o_nham o)
                 else with_counts o (o_nspam o) (o_nham o - 1) in
        on_store (mbind (mfor (it ws) (remove_word is_spam))
                        (fun _ => bk_post bk (o_nspam o) (o_nham o))) o.

  (** basic.py:296-308, learn *)
  Definition learn (s : stream) (is_spam : bool) : M obj unit :=
    fun o => match o_bigrams o with
             | None => (o, Err AttributeError)
             | Some true => add_msg (enhance s) is_spam o
             | Some false => add_msg (elems s) is_spam o
             end.

  (** basic.py:310-321, unlearn *)
  Definition unlearn (s : stream) (is_spam : bool) : M obj unit :=
    fun o => match o_bigrams o with
             | None => (o, Err AttributeError)
             | Some true => remove_msg (enhance s) is_spam o
             | Some false => remove_msg (elems s) is_spam o
             end.

  (** basic.py:280-294, the four convenience methods *)
  Definition learn_spam (s : stream) : M obj unit := learn s true.
  (** basic.py:284-286 *)
  Definition learn_ham (s : stream) : M obj unit := learn s false.
  (** basic.py:288-290 *)
  Definition unlearn_spam (s : stream) : M obj unit := unlearn s true.
  (** basic.py:292-294 *)
  Definition unlearn_ham (s : stream) : M obj unit := unlearn s false.

  (** basic.py:86, 96, 101 *)
  Definition UNKNOWN_WORD_PROB : F := nQ A 1 2.
  (** basic.py:96 *)
  Definition UNKNOWN_WORD_STRENGTH : F := nQ A 45 100.
  (** basic.py:101 *)
  Definition MINIMUM_PROB_STRENGTH : F := nQ A 1 10.

  (** basic.py:375-407: the computation of [probability] without the cache *)
  Definition prob_formula (nspam nham : Z) (r : winfo) : res F :=
    let sc := spamcount r in
    let hc := hamcount r in
    let nham := if (nham =? 0)%Z then 1%Z else nham in
    let nspam := if (nspam =? 0)%Z then 1%Z else nspam in
    if (nham <? hc)%Z then Err Exception1
    else if (nspam <? sc)%Z then Err Exception2
    else
      let hamratio := ndivZ A hc nham in
      let spamratio := ndivZ A sc nspam in
      let den := nadd A hamratio spamratio in
      if neq A den (nZ A 0) then Err ZeroDivisionError
      else
        let prob := ndiv A spamratio den in
        let S := UNKNOWN_WORD_STRENGTH in
        let StimesX := nmul A S UNKNOWN_WORD_PROB in
        let n := (hc + sc)%Z in
        Ok (ndiv A (nadd A StimesX (nmul A (nZ A n) prob)) (nadd A S (nZ A n))).

  (** basic.py:352-415, probability: cache lookup, formula, cache update *)
  Definition probability (r : winfo) : M obj F :=
    fun o =>
      let sc := spamcount r in
      let hc := hamcount r in
      match o_cache o !! sc ≫= (fun row => row !! hc) with
      | Some p => (o, Ok p)
      | None =>
          match prob_formula (o_nspam o) (o_nham o) r with
          | Err e => (o, Err e)
          | Ok p =>
              let row := match o_cache o !! sc with
                         | Some row => <[hc := p]> row
                         | None => {[hc := p]}
                         end in
              (with_cache o (<[sc := row]> (o_cache o)), Ok p)
          end
      end.

  (** The tuple (distance, prob, word, record), basic.py:586 *)
  Record clue := Clue { c_dist : F; c_prob : F; c_word : pyword; c_rec : option winfo }.

  (** basic.py:579-586, _worddistanceget *)
  Definition worddistanceget (w : pyword) : M obj clue :=
    mbind (on_store (bk_get bk w)) (fun record =>
      mbind (match record with
             | None => mret UNKNOWN_WORD_PROB
             | Some r => probability r
             end) (fun prob =>
        mret (Clue (nabs A (nsub A prob (nQ A 1 2))) prob w record))).

  (** basic.py:539, 570: [tup[0] >= MINIMUM_PROB_STRENGTH] *)
  Definition significant (c : clue) : bool := nge A (c_dist c) MINIMUM_PROB_STRENGTH.

  (** Python's [<=] on the tuples (distance, prob, word, _): the words of a
      clue list are distinct, so the record is never compared. (basic.py:543, 567) *)
  Definition clue_leb (a b : clue) : bool :=
    if neq A (c_dist a) (c_dist b)
    then if neq A (c_prob a) (c_prob b)
         then match wcmp (c_word a) (c_word b) with Gt => false | _ => true end
         else nlt A (c_prob a) (c_prob b)
    else nlt A (c_dist a) (c_dist b).

  (** Comparing the two tuples reaches words of different types. (basic.py:543, 567) *)
  Definition kind_clash (a b : clue) : bool :=
    neq A (c_dist a) (c_dist b) && neq A (c_prob a) (c_prob b)
    && negb (N.eqb (wkind (c_word a)) (wkind (c_word b))).

  (** basic.py:543, 567 *)
  Fixpoint any_clash (l : list clue) : bool :=
    match l with
    | [] => false
    | c :: l => existsb (kind_clash c) l || any_clash l
    end.

  (** [sorted(...)] of clue tuples.  A sorting algorithm must compare any two
      elements that are adjacent in the result; hence it raises TypeError
      exactly when two elements tie in distance and probability and have words
      of different types. (basic.py:567) *)
  Definition sort_clues (l : list clue) : res (list clue) :=
    if any_clash l then Err TypeError else Ok (isort clue_leb l).

  (** basic.py:573-574 *)
  Definition strongest (l : list clue) : list clue :=
    if (MAX_DISCRIMINATORS <? length l)%nat
    then drop (length l - MAX_DISCRIMINATORS) l
    else l.

  (** basic.py:558-570, 573-577: the unigram branch of _getclues *)
  Definition getclues_uni (ws : list pyword) : M obj (list clue) :=
    mbind (mmap (it ws) worddistanceget) (fun tups =>
      fun o => (o, rbind (sort_clues (List.filter significant tups))
                         (fun l => Ok (strongest l)))).

  (** basic.py:535-540: the inner loop for one (clue, indices) candidate *)
  Definition consider (w : pyword) (idx : list Z)
      (acc : gset pyword * list (clue * list Z)) : M obj (gset pyword * list (clue * list Z)) :=
    let '(seen, raw) := acc in
    if decide (w ∈ seen) then mret (seen, raw)
    else mbind (worddistanceget w) (fun tup =>
      mret ({[w]} ∪ seen, if significant tup then raw ++ [(tup, idx)] else raw)).

  (** basic.py:529-540: enumerate(wordstream); [last] is last_token, [pair]
      the current value of the variable pair *)
  Fixpoint bigram_raw (i : Z) (last pair : pyword) (l : list pyword)
      (acc : gset pyword * list (clue * list Z)) : M obj (gset pyword * list (clue * list Z)) :=
    match l with
    | [] => mret acc
    | token :: l =>
        let pair := if (i =? 0)%Z then pair else bigram last token in
        mbind (consider token [i] acc) (fun acc =>
          mbind (consider pair [(i - 1)%Z; i] acc) (fun acc =>
            bigram_raw (i + 1) token pair l acc))
    end.

  (** basic.py:543 [raw.sort(reverse=True)]: the words in raw are distinct, so
      there are no equal elements and the result is the reversed sort.  As in
      [sort_clues], types of tied words must agree. *)
  Definition raw_leb (a b : clue * list Z) : bool := clue_leb a.1 b.1.

  (** basic.py:543 *)
  Definition sort_raw_reverse (raw : list (clue * list Z)) : res (list (clue * list Z)) :=
    if any_clash (fst <$> raw) then Err TypeError
    else Ok (reverse (isort raw_leb raw)).

  (** basic.py:550-554: greedy choice; [seen] are the indices already used.
      Returns the chosen clues in the order of choice. *)
  Fixpoint tile (seen : gset Z) (raw : list (clue * list Z)) : list (clue * list Z) :=
    match raw with
    | [] => []
    | (tup, idx) :: raw =>
        if existsb (fun i => bool_decide (i ∈ seen)) idx
        then tile seen raw
        else (tup, idx) :: tile (list_to_set idx ∪ seen) raw
    end.

  (** basic.py:510-556, 573-577: the bigram branch of _getclues *)
  Definition getclues_bi (ws : list pyword) : M obj (list clue) :=
    mbind (bigram_raw 0 WNone WNone ws (∅, [])) (fun acc =>
      fun o => (o, rbind (sort_raw_reverse acc.2)
                         (fun raw => Ok (strongest (reverse (fst <$> tile ∅ raw)))))).

  (** basic.py:496-577, _getclues *)
  Definition getclues (s : stream) : M obj (list clue) :=
    fun o => match o_bigrams o with
             | None => (o, Err AttributeError)
             | Some true => getclues_bi (elems s) o
             | Some false => getclues_uni (elems s) o
             end.
End classifier.

Global Arguments clue A : clear implicits.

Section combining.
  Context (A : num).
  Notation F := (F A).

  (** basic.py:49 *)
  Definition LN2 : F := nlog A (nZ A 2).

  (** basic.py:123-125: the loop [for i in range(1, v // 2)]; [k] iterations
      remain, the next index is [i]. *)
  Fixpoint chi_loop (k : nat) (i : Z) (m term result : F) : F :=
    match k with
    | O => result
    | S k =>
        let term := nmul A term (ndiv A m (nZ A i)) in
        chi_loop k (i + 1) m term (nadd A result term)
    end.

  (** basic.py:109-130, chi2Q; Python's [min(result, 1.0)] returns its second
      argument only if that is smaller. *)
  Definition chi2Q (x2 : F) (v : Z) : res F :=
    if negb (Z.land v 1 =? 0)%Z then Err ValueError
    else
      let m := ndiv A x2 (nZ A 2) in
      let e := nexp A (nneg A m) in
      let result := chi_loop (Z.to_nat (v / 2 - 1)) 1 m e e in
      Ok (if nlt A (nQ A 1 1) result then nQ A 1 1 else result).

  (** The state (H, Hexp, S, Sexp) of the loop basic.py:240-248 *)
  Record acc4 := Acc { aH : F; aHexp : Z; aS : F; aSexp : Z }.

  (** basic.py:243, the literal 1e-200 *)
  Definition TINY : F := nQ A 1 (10 ^ 200).

  (** basic.py:241-248, one round of the loop *)
  Definition score_step (a : acc4) (prob : F) : acc4 :=
    let S := nmul A (aS a) (nsub A (nZ A 1) prob) in
    let H := nmul A (aH a) prob in
    let sp := if nlt A S TINY
              then ((nfrexp A S).1, (aSexp a + (nfrexp A S).2)%Z)
              else (S, aSexp a) in
    let hp := if nlt A H TINY
              then ((nfrexp A H).1, (aHexp a + (nfrexp A H).2)%Z)
              else (H, aHexp a) in
    Acc hp.1 hp.2 sp.1 sp.2.

  (** [math.log(x)] raises ValueError unless x > 0 (basic.py:252-253) *)
  Definition pylog (x : F) : res F :=
    if nlt A (nZ A 0) x then Ok (nlog A x) else Err ValueError.

  (** basic.py:234-270: from the clue probabilities (in clue order) to
      (prob, S, H) *)
  Definition score_probs (ps : list F) : res (F * F * F) :=
    let a := foldl score_step (Acc (nZ A 1) 0 (nZ A 1) 0) ps in
    rbind (pylog (aS a)) (fun lS =>
    let S := nadd A lS (nmul A (nZ A (aSexp a)) LN2) in
    rbind (pylog (aH a)) (fun lH =>
    let H := nadd A lH (nmul A (nZ A (aHexp a)) LN2) in
    let n := Z.of_nat (length ps) in
    if (0 <? n)%Z
    then
      rbind (chi2Q (nmul A (nZ A (-2)) S) (2 * n)) (fun qS =>
      let S := nsub A (nZ A 1) qS in
      rbind (chi2Q (nmul A (nZ A (-2)) H) (2 * n)) (fun qH =>
      let H := nsub A (nZ A 1) qH in
      Ok (ndiv A (nadd A (nsub A S H) (nZ A 1)) (nZ A 2), S, H)))
    else Ok (nQ A 1 2, S, H))).

  (** basic.py:274, sort key x[1] *)
  Definition ev_leb (a b : pyword * F) : bool := negb (nlt A b.2 a.2).

  (** basic.py:272-277, the evidence list *)
  Definition evidence_of (cs : list (clue A)) (S H : F) : list (pyword * F) :=
    (WBytes (str "*H*"), H) :: (WBytes (str "*S*"), S)
      :: isort ev_leb ((fun c => (c_word c, c_prob c)) <$> cs).
End combining.

Section spamprob.
  Context {A : num} {St : Type} (bk : backend St) (it : set_order).

  (** basic.py:212-278, spamprob with evidence=True: (prob, clues) *)
  Definition spamprob_evidence (s : stream) : M (obj A St) (F A * list (pyword * F A)) :=
    mbind (getclues bk it s) (fun cs o =>
      (o, rbind (score_probs A (c_prob <$> cs)) (fun '(p, s, h) =>
            Ok (p, evidence_of A cs s h)))).

  (** basic.py:212-278, spamprob with evidence=False *)
  Definition spamprob (s : stream) : M (obj A St) (F A) :=
    mbind (getclues bk it s) (fun cs o =>
      (o, rbind (score_probs A (c_prob <$> cs)) (fun '(p, _, _) => Ok p))).
End spamprob.

(** A call on a classifier object. The public methods basic.py:212, 296, 310 *)
Inductive call :=
  | CLearn (s : stream) (is_spam : bool)
  | CUnlearn (s : stream) (is_spam : bool)
  | CScore (s : stream).

(** What the caller of a call sees. What the methods basic.py:212, 296, 310 return or raise *)
Inductive outcome (A : num) :=
  | ODone (r : res unit)
  | OScore (r : res (F A * list (pyword * F A))).
Global Arguments ODone {A} _.
Global Arguments OScore {A} _.

Section history.
  Context {A : num} {St : Type} (bk : backend St) (it : set_order).

  (** One call, basic.py:212, 296, 310 *)
  Definition run_call (c : call) (o : obj A St) : obj A St * outcome A :=
    match c with
    | CLearn s b => let '(o, r) := learn bk it s b o in (o, ODone r)
    | CUnlearn s b => let '(o, r) := unlearn bk it s b o in (o, ODone r)
    | CScore s => let '(o, r) := spamprob_evidence bk it s o in (o, OScore r)
    end.

  (** A history of calls: final object and the outcomes in order.
      A program that calls the methods basic.py:212, 296, 310 in order *)
  Fixpoint run (cs : list call) (o : obj A St) : obj A St * list (outcome A) :=
    match cs with
    | [] => (o, [])
    | c :: cs =>
        let '(o, r) := run_call c o in
        let '(o, rs) := run cs o in (o, r :: rs)
    end.
End history.
