(** * Lemmas about edge cases (C54, C61) *)
From Coq Require Import String.
From Verif Require Import Py NumModel MessageModel MessageSpec TextProofs NetModel NetSpec IpProofs EdgeSpec.

(** ** Line breaks of the exception field *)
Lemma crlf_sub_ind (P : codes -> Prop) :
  P [] -> (forall s, P s -> P (13%N :: 10%N :: s)) -> (forall s, P s -> P (10%N :: s)) ->
  (forall c s, c <> 10%N -> (c = 13%N -> head s <> Some 10%N) -> P s -> P (c :: s)) -> forall s, P s.
Proof.
  intros H0 H1 H2 H3 s. remember (length s) as n eqn:Hn. revert s Hn. induction n as [n IH] using lt_wf_ind. intros [|c s] Hn; [done|].
  cbn in Hn. destruct (decide (c = 10%N)) as [->|Hc]; [apply H2; by eapply IH; [|reflexivity]; lia|].
  destruct s as [|d s]; [apply H3; [done|done|exact H0]|]. destruct (decide (c = 13%N /\ d = 10%N)) as [[-> ->]|Hd].
  - apply H1. cbn in Hn. eapply IH; [|reflexivity]. lia.
  - apply H3; [done| |eapply IH; [|reflexivity]; lia]. intros -> [= ->]. by apply Hd.
Qed.
Lemma crlf_sub_kept s : crlf_sub (13%N :: 10%N :: s) = 13%N :: 10%N :: crlf_sub s.
Proof. done. Qed.
Lemma crlf_sub_lf s : crlf_sub (10%N :: s) = 13%N :: 10%N :: crlf_sub s.
Proof. by destruct s. Qed.
Lemma crlf_sub_other c s : c <> 10%N -> (c = 13%N -> head s <> Some 10%N) -> crlf_sub (c :: s) = c :: crlf_sub s.
Proof.
  intros H1 H2. cbn [crlf_sub]. destruct s as [|d s]; [by destruct (N.eqb_spec c 10)|].
  destruct (N.eqb_spec c 10); [done|]. destruct (N.eqb_spec c 13), (N.eqb_spec d 10); cbn [andb]; try done. exfalso. subst. by apply H2.
Qed.
Lemma no_cr_crlf s : no_cr (13%N :: 10%N :: s) = 10%N :: no_cr s.
Proof. done. Qed.
Lemma no_cr_other c s : c <> 13%N \/ head s <> Some 10%N -> no_cr (c :: s) = c :: no_cr s.
Proof.
  intros H. destruct (decide (c = 13%N)) as [->|Hc].
  - destruct s as [|d s]; [done|]. destruct (decide (d = 10%N)) as [->|Hd]; [by destruct H|].
    cbn [no_cr]. destruct d as [|p]; [done|]. repeat (destruct p as [p|p|]; try done).
  - cbn [no_cr]. destruct c as [|p]; [done|]. repeat (destruct p as [p|p|]; try done).
Qed.
Lemma crlf_sub_head s : head (crlf_sub s) <> Some 10%N.
Proof.
  induction s as [|s _|s _|c s H1 H2 _] using crlf_sub_ind; [done|..].
  - by rewrite crlf_sub_kept.
  - by rewrite crlf_sub_lf.
  - rewrite crlf_sub_other by done. by intros [= ->].
Qed.

Lemma crlf_sub_text s : no_cr (crlf_sub s) = no_cr s.
Proof.
  induction s as [|s IH|s IH|c s H1 H2 IH] using crlf_sub_ind; [done|..].
  - by rewrite crlf_sub_kept, !no_cr_crlf, IH.
  - by rewrite crlf_sub_lf, no_cr_crlf, (no_cr_other 10), IH by (by left).
  - rewrite crlf_sub_other by done. rewrite !no_cr_other; [by rewrite IH| |right; apply crlf_sub_head].
    destruct (decide (c = 13%N)); [right; auto|by left].
Qed.
Lemma crlf_sub_bare s : no_bare_newline (crlf_sub s).
Proof.
  assert (forall s, no_bare_newline s -> no_bare_newline (13%N :: 10%N :: s)) as Hc.
  { intros t Ht [|a [|b l1]] l2 E; [done| |].
    - injection E as <- <-. by exists [].
    - injection E as <- <- E. destruct (Ht _ _ E) as [l0 ->]. by exists (13%N :: 10%N :: l0). }
  induction s as [|s IH|s IH|c s H1 H2 IH] using crlf_sub_ind.
  - by intros [|? ?] ? ?.
  - rewrite crlf_sub_kept. by apply Hc.
  - rewrite crlf_sub_lf. by apply Hc.
  - rewrite crlf_sub_other by done. intros [|a l1] l2 E.
    + by injection E as ->.
    + injection E as <- E. destruct (IH _ _ E) as [l0 ->]. by exists (c :: l0).
Qed.

Lemma exception_field hdr s ls id h b : blank_line_at s h b -> exists t,
  insert_exception_header hdr s ls id = h ++ [10%N] ++ exception_fields t id ++ [13; 10]%N ++ b /\
  no_bare_newline t /\ no_cr t = no_cr (hdr (join [10; 32]%N ls)).
Proof.
  intros H. eexists. split; [by apply insert_exception_eq|]. split; [apply crlf_sub_bare|]. rewrite crlf_sub_text. f_equal. f_equal.
  induction ls as [|l [|l' ls] IH]; [done|done|]. cbn [join_details join] in *. by rewrite IH.
Qed.

(** ** Texts that are no dotted quads *)
Lemma other_clues other prefix s : (forall a b c d, octet a -> octet b -> octet c -> octet d -> s <> quad a b c d) ->
  let '(l, e) := gen_dotted_quad_clues other prefix s in
  (forall i t, l !! i = Some t -> exists n u, [8; 16; 24; 32]%N !! i = Some n /\ other s n = Ok u /\ t = prefix ++ str ":" ++ u) /\
  (e = None -> length l = 4) /\
  (forall x, e = Some x -> exists n, [8; 16; 24; 32]%N !! length l = Some n /\ other s n = Err x).
Proof.
  intros H. unfold gen_dotted_quad_clues, subnets, gen_map. rewrite !(net_text_other other s _ H).
  destruct (other s 8%N) as [u1|e] eqn:E1; [destruct (other s 16%N) as [u2|e] eqn:E2; [destruct (other s 24%N) as [u3|e] eqn:E3; [destruct (other s 32%N) as [u4|e] eqn:E4|]|]|];
  (split; [intros [|[|[|[|i]]]] t Ht; cbn in Ht; try done; injection Ht as <-; by eexists _, _|split; [by intros|intros x Hx; simplify_eq; by eexists]]).
Qed.

(** ** Cases *)
Lemma line_breaks_case :
  blank_line_at (str "a" ++ [10; 10]%N ++ str "b") (str "a") (str "b") /\
  insert_exception_header (fun s => s ++ [10%N]) (str "a" ++ [10; 10]%N ++ str "b") [str "x"; str "y" ++ [13%N]] None =
    str "a" ++ [10%N] ++ exception_fields (str "x" ++ [13; 10; 32]%N ++ str "y" ++ [13; 10]%N) None ++ [13; 10]%N ++ str "b".
Proof.
  split; [|by vm_compute]. split; [by left|]. intros [|c h] b E; [by destruct E as [E|E]; cbn in E; simplify_eq|cbn; lia].
Qed.
Lemma no_address_case :
  (forall a b c d, octet a -> octet b -> octet c -> octet d -> str "1.2.3.04" <> quad a b c d) /\
  gen_dotted_quad_clues (fun _ _ => Err ValueError) (str "url-ip") (str "1.2.3.04") = ([], Some ValueError).
Proof.
  split; [|by vm_compute]. intros a b c d Ha Hb Hc Hd E. apply (f_equal parse_ipv4) in E. rewrite parse_quad in E by done.
  assert (parse_ipv4 (str "1.2.3.04") = None) as E' by (by vm_compute). congruence.
Qed.
