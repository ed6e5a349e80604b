(** * Tokens of Received headers, and examples *)
From Coq Require Import String.
From Verif Require Import Py NumModel ClassifierModel RegexSpec StripModel StripSpec StripProofs NetSpec TokenModel TokenSpec TokenProofs
  MessageModel MessageSpec HeadModel HeadSpec HeadProofs HeadFieldProofs HeadScanProofs HeadCallProofs HeadCases TrainSpec GrowSpec GrowProofs.
Local Open Scope nat_scope.

(** a.a. ... a *)
Fixpoint chain (n : nat) : codes :=
  match n with O => str "a" | S n => str "a." ++ chain n end.
Definition long_header (n : nat) : codes := str "from " ++ chain n ++ str ")".

Lemma chain_length n : length (chain n) = 2 * n + 1.
Proof. induction n as [|n IH]; [done|]. simpl. rewrite IH. lia. Qed.
Lemma chain_suffix n k : k <= n -> dot_suffix (chain k) (chain n).
Proof.
  induction n as [|n IH]; intros Hk.
  - left. by replace k with 0 by lia.
  - destruct (decide (k = S n)) as [->|Hne]; [by left|]. right.
    destruct IH as [->|[x E]]; [lia| |].
    + by exists (str "a").
    + exists (str "a." ++ x). simpl. rewrite E. done.
Qed.
Lemma chain_chars n : Forall (fun c => c = 97%N \/ c = 46%N) (chain n).
Proof.
  induction n as [|n IH]; [constructor; [by left|constructor]|].
  constructor; [by left|]. constructor; [by right|done].
Qed.

Lemma header_runs n : runs (fun c => u_space ascii c <> true) (long_header n) [str "from"; chain n ++ str ")"].
Proof.
  apply (runs_run _ (str "from")); [done| | |].
  - repeat constructor; by vm_compute.
  - intros c rest [= <- _]. by vm_compute.
  - apply runs_skip; [by vm_compute|].
    pose proof (runs_run (fun c => u_space ascii c <> true) (chain n ++ str ")") [] []) as HR.
    rewrite app_nil_r in HR. apply HR; [|..|constructor].
    + intros E. by apply app_eq_nil in E as [_ E].
    + apply Forall_app. split; [|repeat constructor; by vm_compute].
      eapply Forall_impl; [apply chain_chars|]. intros c [-> | ->]; by vm_compute.
    + done.
Qed.

Lemma header_lower n : u_lower ascii (joined 32 [str "from"; chain n ++ str ")"]) = long_header n.
Proof.
  change (lower (long_header n) = long_header n). unfold long_header. unfold lower.
  rewrite !fmap_app. f_equal. f_equal.
  induction n as [|n IH]; [done|]. cbn [chain]. rewrite fmap_app. by f_equal.
Qed.

Lemma header_host n : from_host ascii (long_header n) (chain n) \/ n = 0.
Proof.
  destruct n as [|n]; [by right|]. left.
  assert (exists l, chain (S n) = l ++ str "a" /\ l <> []) as (l&E&Hne).
  { exists (mjoin (replicate (S n) (str "a."))). split; [|done]. clear. induction (S n) as [|k IH]; [done|].
    cbn [chain replicate mjoin list_join]. rewrite <- app_assoc. f_equal. apply IH. }
  exists 97%N, l, 41%N. split; [done|]. split; [done|]. split; [done|].
  pose proof (chain_chars (S n)) as Hc. rewrite E in Hc. apply Forall_app in Hc as [Hc _].
  split; [|split; [unfold small_letter; lia|by left]].
  eapply Forall_impl; [exact Hc|]. intros c [-> | ->]; [by left; unfold small_letter; lia|]. right. right.
  vm_compute. left.
Qed.

Lemma host_whole n w y host : long_header n = w ++ y -> from_host ascii w host -> host = chain n.
Proof.
  intros E (c&l&end_&->&Hh&_&Hl&Hc&He). unfold long_header in E. rewrite <- !app_assoc in E.
  apply app_inv_head in E.
  assert (forall a b t, Forall (fun c => c = 97%N \/ c = 46%N) a -> Forall (fun c => host_char c) b ->
     a ++ [41%N] = b ++ end_ :: t -> b = a) as Hcut.
  { clear -He. induction a as [|x a IH]; intros b t Ha Hb E.
    - destruct b as [|z b]; [done|]. injection E as <- _. exfalso. apply Forall_cons in Hb as [Hb _].
      destruct Hb as [Hb|[Hb|Hb]]; [unfold small_letter in Hb; lia|lia|by vm_compute in Hb; set_solver].
    - apply Forall_cons in Ha as [Hx Ha]. destruct b as [|z b].
      + exfalso. injection E as <- _. destruct Hx as [-> | ->], He as [He|He]; done.
      + injection E as <- E. apply Forall_cons in Hb as [_ Hb]. f_equal. by eapply IH. }
  apply (Hcut _ _ y (chain_chars n)); [|exact E].
  rewrite Hh. apply Forall_app. split; [done|]. constructor; [by left|constructor].
Qed.

Lemma increasing_length (l : list codes) (i : nat) (a : codes) : longer_and_longer l -> l !! i = Some a -> i <= length a.
Proof.
  intros Hl. revert a. induction i as [|i IH]; intros a Ha; [lia|].
  destruct (lookup_lt_is_Some_2 l i) as [b Hb]; [apply lookup_lt_Some in Ha; lia|].
  specialize (IH b Hb). pose proof (Hl i b a Hb Ha). lia.
Qed.

Lemma increasing_sum (l : list codes) : longer_and_longer l -> length l * (length l - 1) <= 2 * sum_list_with length l.
Proof.
  induction l as [|a l IH] using rev_ind; intros Hl; [simpl; lia|].
  assert (longer_and_longer l) as Hl'.
  { intros i x y Hx Hy. apply (Hl i); by apply lookup_app_l_Some. }
  specialize (IH Hl').
  assert (length l <= length a) as Ha.
  { apply (increasing_length (l ++ [a])); [done|]. by rewrite lookup_app_r, Nat.sub_diag. }
  rewrite app_length, sum_list_with_app. cbn [length sum_list_with]. destruct (length l) as [|k]; [lia|]. nia.
Qed.

Lemma long_header_tokens n : 0 < n -> exists l, received_tokens ascii (fetch (HText (long_header n))) = ((fun t => WStr (str "received:" ++ t)) <$> l, None) /\
  n * n <= 2 * sum_list_with length l.
Proof.
  intros Hn. destruct (received_ok ascii (HText (long_header n)) (long_header n)) as (l&E&Hl).
  { split; [done|]. unfold no_raw, long_header. rewrite !Forall_app. split; [|split].
    - by apply (bool_decide_unpack _).
    - eapply Forall_impl; [apply chain_chars|]. intros c [-> | ->]; lia.
    - by apply (bool_decide_unpack _). }
  exists l. split; [exact E|]. clear E.
  destruct Hl as (t&cs&hs&ips&(ws&Hr&->)&_&->&Hh&_).
  rewrite (runs_det _ _ _ _ Hr (header_runs n)) in Hh. rewrite header_lower in Hh.
  destruct (header_host n) as [Hhost|Hz]; [|lia].
  destruct Hh as [[Hno _]|(k&w&y&host&(Ek&_&Hmin)&Hw&Hsuf&Hinc)].
  { exfalso. apply (Hno [] (long_header n) []); [by rewrite app_nil_r|]. by exists (chain n). }
  assert (k = []) as ->.
  { apply nil_length_inv. specialize (Hmin [] (long_header n) []). simpl in Hmin.
    enough (length k <= 0) by lia. apply Hmin; [by rewrite app_nil_r|]. by exists (chain n). }
  pose proof (host_whole n w y host Ek Hw) as ->.
  rewrite !sum_list_with_app. pose proof (increasing_sum hs Hinc) as Hsum.
  assert (S n <= length hs) as Hlen.
  { rewrite <- (seq_length (S n) 0), <- (fmap_length chain (seq 0 (S n))).
    apply submseteq_length, NoDup_submseteq.
    - apply NoDup_fmap_2_strong; [|apply NoDup_seq]. intros x y' _ _ Ex.
      pose proof (chain_length x) as H1. rewrite Ex, chain_length in H1. lia.
    - intros x (i&->&Hi)%elem_of_list_fmap. apply Hsuf, chain_suffix. apply list_numbers.elem_of_seq in Hi. lia. }
  assert (n * n <= length hs * (length hs - 1)) by nia. lia.
Qed.

Lemma labelled_size l : sum_list_with length l <= total_size ((fun t => WStr (str "received:" ++ t)) <$> l).
Proof.
  unfold total_size. induction l as [|t l IH]; [done|]. rewrite fmap_cons. cbn [sum_list_with token_size]. rewrite app_length. lia.
Qed.

Lemma received_linear_refuted : ~ exists c : nat, forall U s ts, sane U ->
  received_tokens U (fetch (HText s)) = (ts, None) -> total_size ts <= c * length s.
Proof.
  intros [c Hc]. destruct (long_header_tokens (4 * c + 10)) as (l&E&Hl); [lia|].
  specialize (Hc ascii _ _ ascii_sane E). pose proof (labelled_size l) as Hs.
  assert (length (long_header (4 * c + 10)) = 2 * (4 * c + 10) + 7) as HL.
  { unfold long_header. rewrite !app_length, chain_length. simpl. lia. }
  rewrite HL in Hc. nia.
Qed.

Definition sample : codes := str "Visit http://a.b/c?d=e now, SRC=cid:1 and aaaaaaaaaaaaaaaaaaaa".
Lemma sample_case : exists ts, tokenize_payload sample = (ts, None) /\ length sample = 62 /\ length ts = 12 /\ total_size ts = 82.
Proof. eexists. split; [vm_compute; reflexivity|]. vm_compute. split_and!; reflexivity. Qed.
