(** * IPv4 networks: lemmas *)
From Coq Require Import String Lia.
From Verif Require Import Py NetModel NetSpec NetProofs.
Local Open Scope N_scope.

(** ** Octets, by going through all 256 *)

Lemma octets_all (P : N -> bool) : forallb P (N.of_nat <$> seq 0 256) = true -> forall n, octet n -> P n = true.
Proof.
  intros H n Hn. rewrite forallb_forall in H. apply H. apply elem_of_list_In, elem_of_list_fmap.
  exists (N.to_nat n). split; [lia|]. apply elem_of_seq. unfold octet in Hn. lia.
Qed.

Lemma parse_digits n : octet n -> parse_octet (digits n) = Some n.
Proof.
  intros Hn. pose proof (octets_all (fun n => bool_decide (parse_octet (digits n) = Some n))
                           ltac:(by vm_compute) n Hn) as H. by apply bool_decide_eq_true in H.
Qed.

Lemma digits_no_dot n : octet n -> 46 ∉ digits n.
Proof.
  intros Hn. pose proof (octets_all (fun n => bool_decide (46 ∉ digits n))
                           ltac:(by vm_compute) n Hn) as H. by apply bool_decide_eq_true in H.
Qed.

Lemma digits_no_slash n : octet n -> 47 ∉ digits n.
Proof.
  intros Hn. pose proof (octets_all (fun n => bool_decide (47 ∉ digits n))
                           ltac:(by vm_compute) n Hn) as H. by apply bool_decide_eq_true in H.
Qed.

Lemma parse_octet_octet s n : parse_octet s = Some n -> octet n.
Proof.
  unfold parse_octet, octet. destruct s as [|c r]; [done|].
  destruct (octet_value (c :: r) <=? 255) eqn:E; [|by rewrite andb_false_r].
  rewrite andb_true_r. destruct (_ && _ && _); [|done]. intros [= <-]. apply N.leb_le in E. lia.
Qed.

(** ** Dotted quads *)

Definition num32 (a b c d : N) : N := a * 2 ^ 24 + b * 2 ^ 16 + c * 2 ^ 8 + d.

Lemma split_quad a b c d : octet a -> octet b -> octet c -> octet d ->
  split_dot (quad a b c d) = [digits a; digits b; digits c; digits d].
Proof.
  intros Ha Hb Hc Hd. change (quad a b c d) with (join_dot [digits a; digits b; digits c; digits d]).
  apply split_join; [done|]. repeat constructor; by apply digits_no_dot.
Qed.

Lemma parse_quad a b c d : octet a -> octet b -> octet c -> octet d ->
  parse_ipv4 (quad a b c d) = Some (num32 a b c d).
Proof.
  intros Ha Hb Hc Hd. unfold parse_ipv4. rewrite split_quad by done.
  by rewrite !parse_digits.
Qed.

Lemma num32_octets a b c d : octet a -> octet b -> octet c -> octet d ->
  num32 a b c d / 2 ^ 24 mod 256 = a /\ num32 a b c d / 2 ^ 16 mod 256 = b /\
  num32 a b c d / 2 ^ 8 mod 256 = c /\ num32 a b c d mod 256 = d /\
  num32 a b c d / 2 ^ 24 = a /\ num32 a b c d / 2 ^ 16 = a * 2 ^ 8 + b /\
  num32 a b c d / 2 ^ 8 = a * 2 ^ 16 + b * 2 ^ 8 + c /\ num32 a b c d < 2 ^ 32.
Proof.
  unfold octet, num32. intros Ha Hb Hc Hd.
  change (2 ^ 32) with 4294967296. change (2 ^ 24) with 16777216. change (2 ^ 16) with 65536. change (2 ^ 8) with 256.
  assert ((a * 16777216 + b * 65536 + c * 256 + d) / 16777216 = a) as E1.
  { symmetry. apply (N.div_unique _ _ _ (b * 65536 + c * 256 + d)); lia. }
  assert ((a * 16777216 + b * 65536 + c * 256 + d) / 65536 = a * 256 + b) as E2.
  { symmetry. apply (N.div_unique _ _ _ (c * 256 + d)); lia. }
  assert ((a * 16777216 + b * 65536 + c * 256 + d) / 256 = a * 65536 + b * 256 + c) as E3.
  { symmetry. apply (N.div_unique _ _ _ d); lia. }
  rewrite E1, E2, E3. split_and!; try done; try lia.
  - by apply N.mod_small.
  - symmetry. by apply (N.mod_unique _ _ a); lia.
  - symmetry. apply (N.mod_unique _ _ (a * 256 + b)); lia.
  - symmetry. apply (N.mod_unique _ _ (a * 65536 + b * 256 + c)); lia.
Qed.

Lemma show_num32 a b c d : octet a -> octet b -> octet c -> octet d ->
  show_ipv4 (num32 a b c d) = quad a b c d.
Proof.
  intros Ha Hb Hc Hd. destruct (num32_octets a b c d Ha Hb Hc Hd) as (E1 & E2 & E3 & E4 & _).
  unfold show_ipv4, quad. by rewrite E1, E2, E3, E4.
Qed.

(** ** Masks *)

Lemma land_mask x len : len <= 32 -> x < 2 ^ 32 -> N.land x (netmask len) = x / 2 ^ (32 - len) * 2 ^ (32 - len).
Proof.
  intros Hl Hx. unfold netmask. rewrite <- N.shiftr_div_pow2, <- N.shiftl_mul_pow2.
  apply N.bits_inj. intros i. rewrite N.land_spec.
  destruct (N.lt_ge_cases i (32 - len)) as [Hi|Hi].
  - rewrite !N.shiftl_spec_low by done. by rewrite andb_false_r.
  - rewrite !N.shiftl_spec_high' by done. rewrite N.shiftr_spec by lia.
    rewrite N.sub_add by done. destruct (N.lt_ge_cases (i - (32 - len)) len) as [Hk|Hk].
    + rewrite N.ones_spec_low by done. by rewrite andb_true_r.
    + rewrite N.ones_spec_high by done. rewrite andb_false_r. symmetry.
      destruct (decide (x = 0)) as [->|Hx0]; [apply N.bits_0|].
      apply N.bits_above_log2. apply N.log2_lt_pow2 in Hx; [|lia]. lia.
Qed.

Lemma net_addr x len : len <= 32 -> x < 2 ^ 32 -> n_addr (make_net x len) = x / 2 ^ (32 - len) * 2 ^ (32 - len).
Proof. apply land_mask. Qed.

Lemma quad_nets a b c d : octet a -> octet b -> octet c -> octet d ->
  make_net (num32 a b c d) 8 = Net4 (num32 a 0 0 0) 8 /\
  make_net (num32 a b c d) 16 = Net4 (num32 a b 0 0) 16 /\
  make_net (num32 a b c d) 24 = Net4 (num32 a b c 0) 24 /\
  make_net (num32 a b c d) 32 = Net4 (num32 a b c d) 32.
Proof.
  intros Ha Hb Hc Hd. destruct (num32_octets a b c d Ha Hb Hc Hd) as (_ & _ & _ & _ & E1 & E2 & E3 & Hlt).
  unfold make_net. rewrite !land_mask by done.
  change (32 - 8) with 24. change (32 - 16) with 16. change (32 - 24) with 8. change (32 - 32) with 0.
  rewrite E1, E2, E3. change (2 ^ 0) with 1. rewrite N.div_1_r, N.mul_1_r. unfold num32.
  split_and!; f_equal; change (2 ^ 24) with 16777216; change (2 ^ 16) with 65536; change (2 ^ 8) with 256; lia.
Qed.

Lemma quad_clues other prefix a b c d : octet a -> octet b -> octet c -> octet d ->
  gen_dotted_quad_clues other prefix (quad a b c d) =
    ([prefix ++ 58 :: quad a 0 0 0 ++ str "/8"; prefix ++ 58 :: quad a b 0 0 ++ str "/16";
      prefix ++ 58 :: quad a b c 0 ++ str "/24"; prefix ++ 58 :: quad a b c d ++ str "/32"], None).
Proof.
  intros Ha Hb Hc Hd. assert (octet 0) as H0 by done.
  unfold gen_dotted_quad_clues, subnets, gen_map, net_text. rewrite parse_quad by done.
  destruct (quad_nets a b c d Ha Hb Hc Hd) as (-> & -> & -> & ->).
  unfold show_net; simpl n_addr; simpl n_len. by rewrite !show_num32.
Qed.

Lemma quad_inj a b c d a' b' c' d' :
  octet a -> octet b -> octet c -> octet d -> octet a' -> octet b' -> octet c' -> octet d' ->
  quad a b c d = quad a' b' c' d' -> a = a' /\ b = b' /\ c = c' /\ d = d'.
Proof.
  intros Ha Hb Hc Hd Ha' Hb' Hc' Hd' E. apply (f_equal split_dot) in E.
  rewrite !split_quad in E by done.
  assert (forall x y, octet x -> octet y -> digits x = digits y -> x = y) as Hi.
  { intros x y Hx Hy Exy. pose proof (parse_digits x Hx) as P. rewrite Exy, parse_digits in P by done. congruence. }
  injection E as E1 E2 E3 E4. split_and!; by apply Hi.
Qed.

(** Equal clue texts mean equal quads. *)
Lemma clue_inj prefix a b c d a' b' c' d' (z : codes) :
  octet a -> octet b -> octet c -> octet d -> octet a' -> octet b' -> octet c' -> octet d' ->
  prefix ++ 58 :: quad a b c d ++ z = prefix ++ 58 :: quad a' b' c' d' ++ z ->
  a = a' /\ b = b' /\ c = c' /\ d = d'.
Proof.
  intros Ha Hb Hc Hd Ha' Hb' Hc' Hd' E. apply app_inv_head in E. injection E as E.
  apply app_inv_tail in E. by apply quad_inj.
Qed.

Lemma clues_agree other prefix a b c d a' b' c' d' :
  octet a -> octet b -> octet c -> octet d -> octet a' -> octet b' -> octet c' -> octet d' ->
  let l := fst (gen_dotted_quad_clues other prefix (quad a b c d)) in
  let l' := fst (gen_dotted_quad_clues other prefix (quad a' b' c' d')) in
  (l !! 0%nat = l' !! 0%nat <-> a = a') /\
  (l !! 1%nat = l' !! 1%nat <-> a = a' /\ b = b') /\
  (l !! 2%nat = l' !! 2%nat <-> a = a' /\ b = b' /\ c = c') /\
  (l !! 3%nat = l' !! 3%nat <-> a = a' /\ b = b' /\ c = c' /\ d = d').
Proof.
  intros Ha Hb Hc Hd Ha' Hb' Hc' Hd'. cbv zeta. assert (octet 0) as H0 by done.
  rewrite !quad_clues by done. cbn [fst].
  assert (forall a b c d a' b' c' d' z,
    octet a -> octet b -> octet c -> octet d -> octet a' -> octet b' -> octet c' -> octet d' ->
    Some (prefix ++ 58 :: quad a b c d ++ z) = Some (prefix ++ 58 :: quad a' b' c' d' ++ z) ->
    a = a' /\ b = b' /\ c = c' /\ d = d') as Hi.
  { intros ???????? z ???????? E. injection E as E. by eapply clue_inj. }
  split_and!; (split; [intros E; apply Hi in E; [naive_solver|done..] | intros; destruct_and?; subst; done]).
Qed.

(** ** Blocks *)

Lemma net_is_block addr len x : len <= 32 -> addr < 2 ^ 32 ->
  (n_addr (make_net addr len) <= x < n_addr (make_net addr len) + 2 ^ (32 - len) <-> in_block addr len x).
Proof.
  intros Hl Ha. rewrite net_addr by done. unfold in_block.
  assert (0 < 2 ^ (32 - len)) as Hp by (apply N.neq_0_lt_0, N.pow_nonzero; lia).
  set (m := 2 ^ (32 - len)) in *.
  pose proof (N.div_mod addr m ltac:(lia)) as Hdm. pose proof (N.mod_lt addr m ltac:(lia)) as Hm.
  split.
  - intros [H1 H2]. split.
    + assert (addr / m * m + m <= 2 ^ 32); [|lia].
      assert (2 ^ 32 = 2 ^ len * m) as E by (subst m; rewrite <- N.pow_add_r; f_equal; lia).
      rewrite E in *. assert (addr / m < 2 ^ len) as Hd.
      { apply N.div_lt_upper_bound; [lia|]. by rewrite N.mul_comm. }
      assert ((addr / m + 1) * m <= 2 ^ len * m); [|lia]. apply N.mul_le_mono_r. lia.
    + symmetry. apply (N.div_unique _ _ _ (x - addr / m * m)); [lia|].
      rewrite (N.mul_comm m). lia.
  - intros [H1 H2]. pose proof (N.div_mod x m ltac:(lia)) as Hx. pose proof (N.mod_lt x m ltac:(lia)).
    rewrite <- H2, (N.mul_comm _ m). set (q := m * (x / m)) in *. set (r := x mod m) in *.
    clearbody q r. clear Hdm Hm H1 H2 Ha. clearbody m. lia.
Qed.

Lemma same_net a b len : len <= 32 -> a < 2 ^ 32 -> b < 2 ^ 32 ->
  (make_net a len = make_net b len <-> a / 2 ^ (32 - len) = b / 2 ^ (32 - len)).
Proof.
  intros Hl Ha Hb.
  assert (0 < 2 ^ (32 - len)) as Hp by (apply N.neq_0_lt_0, N.pow_nonzero; lia).
  split.
  - intros E. apply (f_equal n_addr) in E. rewrite !net_addr in E by done.
    apply N.mul_cancel_r in E; [done|lia].
  - intros E. unfold make_net. rewrite !land_mask by done. by rewrite E.
Qed.

Lemma block_nested addr len len' x : len <= len' -> len' <= 32 -> in_block addr len' x -> in_block addr len x.
Proof.
  intros Hl Hl' [H1 H2]. split; [done|].
  replace (32 - len) with ((32 - len') + (len' - len)) by lia.
  rewrite N.pow_add_r. rewrite <- !N.div_div by (apply N.pow_nonzero; lia). by rewrite H2.
Qed.

(** The argument prefix_lengths plays no role. *)
Lemma subnets_same other s p q : subnets other s p = subnets other s q.
Proof. done. Qed.

(** Which texts are read as IPv4 addresses: those of four octets. *)
Fixpoint strings (n : nat) : list codes :=
  match n with
  | O => [[]]
  | S n => [] :: mjoin ((fun c => cons c <$> strings n) <$> [48; 49; 50; 51; 52; 53; 54; 55; 56; 57])
  end.

Lemma digit_in x : is_digit x = true -> x ∈ [48; 49; 50; 51; 52; 53; 54; 55; 56; 57].
Proof.
  intros Hx. unfold is_digit in Hx. apply andb_true_iff in Hx as [Hx1 Hx2].
  apply N.leb_le in Hx1, Hx2. assert (x = 48 \/ x = 49 \/ x = 50 \/ x = 51 \/ x = 52 \/ x = 53 \/ x = 54 \/ x = 55 \/ x = 56 \/ x = 57) by lia.
  set_solver.
Qed.

Lemma strings_complete n (s : codes) : forallb is_digit s = true -> (length s <= n)%nat -> s ∈ strings n.
Proof.
  revert s. induction n as [|n IH]; intros s Hs Hl.
  - destruct s; [set_solver|]. cbn [length] in Hl. lia.
  - destruct s as [|c s]; [set_solver|]. cbn [strings]. apply elem_of_cons. right.
    cbn [forallb] in Hs. apply andb_true_iff in Hs as [Hc Hs].
    apply elem_of_list_join. exists (cons c <$> strings n). split.
    + apply elem_of_list_fmap. exists s. split; [done|]. apply IH; [done|]. cbn [length] in Hl. lia.
    + apply elem_of_list_fmap. exists c. split; [done|]. by apply digit_in.
Qed.

Lemma parse_octet_digits s n : parse_octet s = Some n -> s = digits n.
Proof.
  intros H.
  assert (s ∈ strings 3) as Hs.
  { unfold parse_octet in H. destruct s as [|c r]; [done|].
    destruct (forallb is_digit (c :: r)) eqn:E1; [|done].
    destruct (length (c :: r) <=? 3)%nat eqn:E2; [|done].
    apply strings_complete; [done|]. by apply Nat.leb_le. }
  assert (forallb (fun s => match parse_octet s with Some n => bool_decide (s = digits n) | None => true end)
            (strings 3) = true) as Hall by by vm_compute.
  rewrite forallb_forall in Hall. specialize (Hall s ltac:(by apply elem_of_list_In)).
  rewrite H in Hall. by apply bool_decide_eq_true in Hall.
Qed.

Lemma parse_ipv4_quad s x : parse_ipv4 s = Some x ->
  exists a b c d, octet a /\ octet b /\ octet c /\ octet d /\ s = quad a b c d.
Proof.
  unfold parse_ipv4. intros H. pose proof (join_split s) as J.
  destruct (split_dot s) as [|p1 [|p2 [|p3 [|p4 [|]]]]]; try done.
  destruct (parse_octet p1) as [a|] eqn:Ea; [|done]. destruct (parse_octet p2) as [b|] eqn:Eb; [|done].
  destruct (parse_octet p3) as [c|] eqn:Ec; [|done]. destruct (parse_octet p4) as [d|] eqn:Ed; [|done].
  exists a, b, c, d. split_and!; try by eapply parse_octet_octet.
  rewrite <- J. by rewrite (parse_octet_digits _ _ Ea), (parse_octet_digits _ _ Eb), (parse_octet_digits _ _ Ec), (parse_octet_digits _ _ Ed).
Qed.

(** Anything else is handed to the other branch. *)
Lemma net_text_other other s n :
  (forall a b c d, octet a -> octet b -> octet c -> octet d -> s <> quad a b c d) ->
  net_text other s n = other s n.
Proof.
  intros H. unfold net_text. destruct (parse_ipv4 s) as [x|] eqn:E; [|done].
  apply parse_ipv4_quad in E as (a & b & c & d & Ha & Hb & Hc & Hd & ->). by destruct (H a b c d).
Qed.
