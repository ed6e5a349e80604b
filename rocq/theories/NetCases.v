(** * Hosts, networks, timeouts, memoisation: combined lemmas and cases *)
From Coq Require Import String Lia.
From Verif Require Import Py NetModel NetSpec NetProofs IpProofs DnsProofs.

Lemma host_tokens host :
  (forall t, t ∈ breakdown_host host <-> dot_suffix t host) /\
  longer_and_longer (breakdown_host host) /\
  length (breakdown_host host) = S (dots host) /\
  last (breakdown_host host) = Some host.
Proof.
  split_and!; [intros t; apply breakdown_host_elem|apply breakdown_host_longer|
    apply breakdown_host_length|apply breakdown_host_last].
Qed.

Lemma address_tokens addr :
  length (breakdown_ipaddr addr) = 4 /\
  (forall i t, breakdown_ipaddr addr !! i = Some t ->
     dot_prefix t addr /\ dots t = min i (dots addr)) /\
  (forall t t', dot_prefix t addr -> dot_prefix t' addr -> dots t = dots t' -> t = t') /\
  (forall a b c d, octet a -> octet b -> octet c -> octet d -> addr = quad a b c d ->
     last (breakdown_ipaddr addr) = Some addr).
Proof.
  split; [apply breakdown_ipaddr_length|]. split; [|split].
  - intros i t Ht. assert (i < 4) as Hi by (apply lookup_lt_Some in Ht; by rewrite breakdown_ipaddr_length in Ht).
    destruct (breakdown_ipaddr_lookup addr i Hi) as (t' & Ht' & H1 & H2). by simplify_eq.
  - intros t t'. apply dot_prefix_unique.
  - intros a b c d Ha Hb Hc Hd ->. unfold breakdown_ipaddr. rewrite split_quad by done. done.
Qed.

Lemma nested_blocks addr len len' x : (addr < 2 ^ 32)%N -> (len <= len')%N -> (len' <= 32)%N ->
  (let n := make_net addr len in (n_addr n <= x < n_addr n + 2 ^ (32 - len))%N <-> in_block addr len x) /\
  in_block addr len addr /\
  (in_block addr len' x -> in_block addr len x).
Proof.
  intros Ha Hl Hl'. split; [apply net_is_block; [lia|done]|]. split; [by split|]. by apply block_nested.
Qed.

Lemma crossing t0 n : t0 <> Some 10%Z -> exists sched,
  let s := trun sched (TSys t0 (replicate (2 + n) TBefore)) in
  (forall i, i ∈ sched -> ts_threads s !! i = Some TAfter) /\ ts_timeout s <> t0.
Proof.
  intros Ht. exists [0; 0; 1; 0; 1; 1]. cbv zeta. destruct (crossing_run t0 n) as [E1 E2].
  rewrite E1, E2. split; [|congruence].
  intros i Hi. assert (i = 0 \/ i = 1) as [-> | ->] by set_solver; done.
Qed.

Lemma c62_case :
  nested [0; 1; 1; 1; 0; 2; 2; 2; 0] /\
  ts_timeout (trun [0; 1; 1; 1; 0; 2; 2; 2; 0] (TSys None (replicate 3 TBefore))) = None /\
  reverse_dns_lookup (fun a s => ((fst s, Some 3%Z), Err gaierror)) (str "x") (tt, None) = ((tt, None), Err gaierror).
Proof.
  assert (forall i, nested [i; i; i]) as H.
  { intros i. apply (nested_call i [] [] []); (constructor || set_solver). }
  split; [|done]. apply (nested_call 0 [1; 1; 1] [2; 2; 2] []); try done; try constructor; set_solver.
Qed.

Section memo.
  Context {K V : Type} `{Countable K}.

  Lemma memo_pure (f : K -> body K V unit) k r :
    plain f tt k tt r <-> exists d l, memo f tt ∅ k tt d r l.
  Proof.
    assert (consistent f ∅) as H0 by (intros ? ?; by rewrite lookup_empty).
    split.
    - intros P. by apply (memo_complete f tt k tt r P).
    - intros (d & l & P). by apply (memo_sound f _ _ _ _ _ _ _ P).
  Qed.

  Lemma memo_calls_pure (f : K -> body K V unit) ks d rs l :
    memo_calls f tt ∅ ks tt d rs l -> Forall2 (fun k r => plain f tt k tt r) ks rs.
  Proof.
    assert (forall w d0 w', consistent f d0 -> memo_calls f w d0 ks w' d rs l -> Forall2 (fun k r => plain f tt k tt r) ks rs) as G.
    { intros w d0 w' Hc P. induction P as [|w d0 k w1 d1 r l1 ks w2 d2 rs l2 Hm P IH]; constructor.
      - by apply (memo_sound f _ _ _ _ _ _ _ Hm).
      - apply IH. by apply (memo_sound f _ _ _ _ _ _ _ Hm). }
    apply G. intros ? ?; by rewrite lookup_empty.
  Qed.

  Lemma memo_first {W} (f : K -> body K V W) : (forall k, flat (f k)) ->
    forall w ks w' d rs entered, memo_calls f w ∅ ks w' d rs entered ->
    length rs = length ks /\
    (forall i j k v, i <= j -> returned ks rs i k v -> ks !! j = Some k -> rs !! j = Some (Ok v)) /\
    entered = unanswered [] ks rs /\
    (forall k v, d !! k = Some v <-> exists i, returned ks rs i k v).
  Proof.
    intros Hf w ks w' d rs l P. destruct (memo_calls_spec f Hf _ _ _ _ _ _ _ P) as (A & _ & _ & B & C & D).
    split; [done|]. split; [done|]. split.
    - apply D. intros k. rewrite lookup_empty. split; [set_solver|by intros [? ?]].
    - intros k v. rewrite C, lookup_empty. naive_solver.
  Qed.
End memo.

(** A function that counts its calls and fails on 0. *)
Definition counting (k : nat) : body nat nat nat :=
  Act (fun w => (S w, Return (if k =? 0 then Err ValueError else Ok (S w)))).

Lemma c63_case :
  (forall k, flat (counting k)) /\
  memo_calls counting 0 ∅ [5; 5; 0; 0; 5] 3 {[5 := 1]} [Ok 1; Ok 1; Err ValueError; Err ValueError; Ok 1] [5; 0; 0].
Proof.
  split; [intros k; constructor; intros w; constructor|].
  assert (forall w, memo_body counting w {[5 := 1]} (counting 0) (S w) {[5 := 1]} (Err ValueError) []) as H0
    by (intros w; apply memo_act, memo_return).
  apply (calls_cons counting 0 ∅ 5 1 {[5 := 1]} (Ok 1) [5] _ _ _ _ [0; 0]).
  { apply (memo_miss counting 0 ∅ 5 1 ∅ 1 []); [done|]. apply memo_act, memo_return. }
  apply (calls_cons counting 1 _ 5 1 {[5 := 1]} (Ok 1) [] _ _ _ _ [0; 0]); [by apply memo_hit|].
  apply (calls_cons counting 1 _ 0 2 {[5 := 1]} (Err ValueError) [0] _ _ _ _ [0]); [by apply memo_raise|].
  apply (calls_cons counting 2 _ 0 3 {[5 := 1]} (Err ValueError) [0] _ _ _ _ []); [by apply memo_raise|].
  apply (calls_cons counting 3 _ 5 3 {[5 := 1]} (Ok 1) [] _ _ _ _ []); [by apply memo_hit|].
  constructor.
Qed.

(** A function that calls itself. *)
Definition factorial (k : nat) : body nat nat unit :=
  match k with
  | 0 => Return (Ok 1)
  | S n => Recur n (fun r => Return (match r with Ok v => Ok (S n * v) | Err e => Err e end))
  end.

Lemma factorial_3 : plain factorial tt 3 tt (Ok 6).
Proof.
  assert (plain factorial tt 0 tt (Ok 1)) as P0 by (constructor; constructor).
  assert (forall n v, plain factorial tt n tt (Ok v) -> plain factorial tt (S n) tt (Ok (S n * v))) as Ps.
  { intros n v P. constructor. eapply plain_recur; [exact P|]. constructor. }
  exact (Ps 2 2 (Ps 1 1 (Ps 0 1 P0))).
Qed.

Lemma ipv4_texts s : is_Some (parse_ipv4 s) <->
  exists a b c d, octet a /\ octet b /\ octet c /\ octet d /\ s = quad a b c d.
Proof.
  split.
  - intros [x Hx]. by apply parse_ipv4_quad in Hx.
  - intros (a & b & c & d & Ha & Hb & Hc & Hd & ->). rewrite parse_quad by done. by eexists.
Qed.
