(** * How byte words are written in the name of a pair (C141) *)
From Coq Require Import String Lia.
From Verif Require Import Py ClassifierModel PairReprSpec.

Lemma hex_lookup n : (n < 16)%N -> str "0123456789abcdef" !! N.to_nat n = Some (hexdigit n).
Proof.
  intros Hn. assert (n ∈ [0; 1; 2; 3; 4; 5; 6; 7; 8; 9; 10; 11; 12; 13; 14; 15]%N) as H.
  { rewrite !elem_of_cons. lia. }
  rewrite !elem_of_cons in H.
  repeat (destruct H as [->|H]; [done|]). by apply elem_of_nil in H.
Qed.

Lemma repr_byte_shown q c : q = 34%N \/ q = 39%N -> (c < 256)%N -> shown_byte q c (repr_byte q c).
Proof.
  intros Hq Hc. unfold repr_byte.
  destruct (N.eqb_spec c q) as [->|N1]; [apply shown_quote|]. destruct (N.eqb_spec c 92) as [->|N2]; [apply shown_backslash|]. simpl.
  destruct (N.eqb_spec c 9) as [->|N3]; [apply shown_tab|]. destruct (N.eqb_spec c 10) as [->|N4]; [apply shown_newline|].
  destruct (N.eqb_spec c 13) as [->|N5]; [apply shown_return|].
  destruct (N.ltb_spec c 32) as [L1|L1]; simpl.
  2: destruct (N.ltb_spec 126 c) as [L2|L2].
  3: { apply shown_plain; [lia|done|done]. }
  all: apply (shown_other q c (N.to_nat (c / 16)) (N.to_nat (c mod 16)) (hexdigit (c / 16)) (hexdigit (c mod 16)));
    [lia|done|done|done|rewrite !N2Nat.id; apply N.div_mod; lia|apply hex_lookup; apply N.div_lt_upper_bound; lia|apply hex_lookup; apply N.mod_lt; lia].
Qed.

Lemma repr_shown b : Forall (fun c => (c < 256)%N) b -> shown b (repr_bytes b).
Proof.
  intros Hb. unfold repr_bytes. set (q := (if existsb (N.eqb 39) b && negb (existsb (N.eqb 34) b) then 34 else 39)%N).
  assert (quoted_with b q) as Hq.
  { assert (forall c, existsb (N.eqb c) b = true <-> c ∈ b) as He.
    { intros c. rewrite existsb_exists. split.
      - intros (x&Hx&->%N.eqb_eq). by apply elem_of_list_In.
      - intros Hx. exists c. split; [by apply elem_of_list_In|apply N.eqb_refl]. }
    unfold q. destruct (existsb (N.eqb 39) b) eqn:E1; destruct (existsb (N.eqb 34) b) eqn:E2; simpl;
    pose proof (He 39%N) as H39; pose proof (He 34%N) as H34; rewrite E1 in H39; rewrite E2 in H34;
    split; try done; intros HH; exfalso; destruct H39 as [A1 A2], H34 as [A3 A4];
    repeat match goal with A : true = true -> _ |- _ => specialize (A eq_refl) end;
    destruct HH as [HH|HH] || destruct HH as [HH HH']; 
    try (by apply HH); try (by apply HH'); try (by apply A2 in HH); try (by apply A4 in HH). }
  assert (q = 34%N \/ q = 39%N) as Hq2. { unfold q. destruct (_ && _); tauto. }
  clearbody q. exists q, (repr_byte q <$> b). split; [done|]. split; [|done].
  clear Hq. induction Hb as [|c b Hc _ IH]; [constructor|]. constructor; [by apply repr_byte_shown|done].
Qed.

Lemma pair_name_shown x y : Forall (fun c => (c < 256)%N) x -> Forall (fun c => (c < 256)%N) y ->
  exists tx ty, shown x tx /\ shown y ty /\ bigram (WBytes x) (WBytes y) = WStr (str "bi:" ++ tx ++ str " " ++ ty).
Proof.
  intros Hx Hy. exists (repr_bytes x), (repr_bytes y). split; [by apply repr_shown|]. split; [by apply repr_shown|].
  done.
Qed.

Lemma shown_byte_det q c t t' : shown_byte q c t -> shown_byte q c t' -> q = 34%N \/ q = 39%N -> t = t'.
Proof.
  intros H H' Hq.
  assert (forall (i : nat) z, str "0123456789abcdef" !! i = Some z -> (i < 16)%nat) as Hlt.
  { intros i z Hi. by apply (lookup_lt_Some (str "0123456789abcdef")) in Hi. }
  destruct H as [c H1 H2 H3| | | | | |c hi lo x y H1 H2 H3 H4 H5 H6 H7];
    inversion H' as [c0 G1 G2 G3| | | | | |c0 hi0 lo0 x0 y0 G1 G2 G3 G4 G5 G6 G7]; subst; try done; try lia; try (exfalso; destruct Hq; lia).
  pose proof (Hlt _ _ H6). pose proof (Hlt _ _ H7). pose proof (Hlt _ _ G6). pose proof (Hlt _ _ G7).
  assert (hi0 = hi) as E1 by lia. assert (lo0 = lo) as E2 by lia. rewrite E1 in G6. rewrite E2 in G7. congruence.
Qed.

Lemma shown_det b t t' : shown b t -> shown b t' -> t = t'.
Proof.
  intros (q&ts&[Q1 Q2]&H&->) (q'&ts'&[Q1' Q2']&H'&->).
  assert (q = q' /\ (q = 34%N \/ q = 39%N)) as [<- Hq].
  { destruct (decide (39%N ∈ b)); destruct (decide (34%N ∈ b)).
    - rewrite Q2, Q2' by tauto. tauto.
    - rewrite Q1, Q1' by tauto. tauto.
    - rewrite Q2, Q2' by tauto. tauto.
    - rewrite Q2, Q2' by tauto. tauto. }
  assert (ts = ts') as ->; [|done]. clear Q1 Q2 Q1' Q2'. revert ts' H'. induction H as [|c t b ts Hc _ IH]; intros ts' H'; inversion H'; subst; [done|].
  f_equal; [by eapply shown_byte_det|by apply IH].
Qed.

Lemma shown_case : shown (str "it's") ([98; 34]%N ++ str "it's" ++ [34]%N) /\ shown [7; 200]%N (str "b'\x07\xc8'").
Proof.
  split; [apply (repr_shown (str "it's"))|apply (repr_shown [7; 200]%N)];
    apply (bool_decide_unpack _); by vm_compute.
Qed.
