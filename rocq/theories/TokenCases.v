(** * Cases that meet the hypotheses of the theorems about words and bodies *)
From Coq Require Import String.
From Verif Require Import Py Regex RegexSpec StripModel StripSpec TokenModel TokenSpec TokenProofs.

Lemma computes_tokenizable b ts : tokenize_payload b = (ts, None) -> tokenizable b.
Proof. intros H. destruct (payload_cases b) as [(? & _ & _ & H')|[H' _]]; [done|]. by rewrite H in H'. Qed.
Lemma computes_untokenizable b : (tokenize_payload b).2 = Some TypeError -> ~ tokenizable b.
Proof. intros H. destruct (payload_cases b) as [(ts & H' & _)|[_ H']]; [|done]. by rewrite H' in H. Qed.

(** Words that raise, and a long one that does not *)
Example bad_word_case : bad_word (str "someone@example.com") /\ ~ bad_word (str "extraordinarily") /\
  bad_word (str "naturally-odd" ++ [233%N]).
Proof. split_and!; [apply (bool_decide_unpack _); by vm_compute..|]. apply (bool_decide_unpack _); by vm_compute. Qed.
Example skip_case : tokenize_word (WBytes (str "extraordinarily")) = ([WStr (str "skip:e 10")], None).
Proof. by vm_compute. Qed.

(** A text that can be tokenized, with upper case, a URL, a comment inside a word and a virus clue *)
Example tokenizable_case :
  tokenizable (str "Buy FR<!--x-->EE pills at http://a.org/b now height=0") /\
  tokenize_payload (str "Buy FR<!--x-->EE pills at http://a.org/b now height=0") =
    ([WStr (str "virus:b'height=0'"); WBytes (str "proto:http"); WBytes (str "url:a"); WBytes (str "url:org");
      WBytes (str "url:b"); WBytes (str "buy"); WBytes (str "free"); WBytes (str "pills"); WBytes (str "now");
      WBytes (str "height=0")], None).
Proof. split; [eapply computes_tokenizable; vm_compute; reflexivity|by vm_compute]. Qed.

(** Texts that cannot be *)
Example untokenizable_cases :
  ~ tokenizable (str "<html>hello</html>") /\ ~ tokenizable (str "fish &#38; chips") /\ ~ tokenizable (str "one&nbsp;two") /\
  ~ tokenizable (str "write to someone@example.com") /\ ~ tokenizable (str "begin 644 readme").
Proof. split_and!; apply computes_untokenizable; by vm_compute. Qed.

(** Plain text *)
Example plain_case : Forall (fun c => c ∉ str "<&=:") (str "Hello wonderful world") /\
  ~ occurs uu_begin (str "hello wonderful world") /\
  words (str "hello wonderful world") [str "hello"; str "wonderful"; str "world"] /\
  Forall (fun w => ~ bad_word w) [str "hello"; str "wonderful"; str "world"].
Proof.
  split_and!.
  - apply (bool_decide_unpack _); by vm_compute.
  - intros H. apply StripProofs.uu_strip in H. by vm_compute in H.
  - assert (E : [str "hello"; str "wonderful"; str "world"] = words_of (str "hello wonderful world")) by by vm_compute.
    rewrite E. apply words_of_spec.
  - apply (bool_decide_unpack _); by vm_compute.
Qed.

(** Base64 lines before other text *)
Example lead_case : b64_lead (str "QUJD" ++ [10%N] ++ str "RA==" ++ [10%N] ++ str "list footer")
  (str "QUJD" ++ [10%N] ++ str "RA==" ++ [10%N]) (str "list footer").
Proof.
  destruct (base64_end_spec 40 [] (str "QUJD" ++ [10%N] ++ str "RA==" ++ [10%N] ++ str "list footer")) as (l & r & H & Es & E).
  { by vm_compute; repeat constructor. }
  assert (E' : base64_end 40 (RegexProofs.at_ [] (str "QUJD" ++ [10%N] ++ str "RA==" ++ [10%N] ++ str "list footer")) =
    RegexProofs.at_ (str "QUJD" ++ [10%N] ++ str "RA==" ++ [10%N]) (str "list footer")) by by vm_compute.
  rewrite E' in E. apply RegexProofs.at_inj in E as [E1 E2]. change ([] ++ l) with l in E1. subst. exact H.
Qed.

(** Parts in two orders: both raise, though after different tokens; a set of
    parts that can be tokenized *)
Example order_case : [PBytes (str "hello world"); PNone] ≡ₚ [PNone; PBytes (str "hello world")] /\
  ~ Exists part_raises [PBytes (str "hello world"); PNone] /\
  Exists part_raises [PBytes (str "hello world"); PBytes (str "<b>bold</b>")].
Proof.
  split_and!.
  - apply Permutation_swap.
  - rewrite !Exists_cons, Exists_nil. simpl. intros [H|[[]|[]]]. apply H. eapply computes_tokenizable. vm_compute. reflexivity.
  - rewrite !Exists_cons. right; left. apply computes_untokenizable. by vm_compute.
Qed.

Lemma payload_lower_of b t : Forall2 lower_of b t -> tokenize_payload t = tokenize_payload b.
Proof. intros H. apply lower_unique in H as ->. apply payload_lower. Qed.

Lemma html_raises b t t' urls : Forall2 lower_of b t -> left_over t t' urls -> occurs html_tag t' ->
  (tokenize_payload b).2 = Some TypeError.
Proof.
  intros H1 H2 H3. apply payload_outcome. intros (s & s' & us & ws & K1 & K2 & _ & _ & _ & _ & K3 & _).
  apply lower_unique in H1 as ->. apply lower_unique in K1 as ->.
  destruct (left_over_det _ _ _ _ _ H2 K2) as [<- _]. done.
Qed.
(** A text with a tag, nothing stripped *)
Example html_case : left_over (str "a <b>bold</b> word") (str "a <b>bold</b> word") [] /\
  occurs html_tag (str "a <b>bold</b> word").
Proof.
  split.
  - destruct (StripProofs.url_strip (str "a <b>bold</b> word")) as (t1 & us & tss & E1 & H1 & _).
    assert (t1 = str "a <b>bold</b> word") as ->.
    { assert (E : analyze URLStripper (str "a <b>bold</b> word") = Ok (str "a <b>bold</b> word", [])) by by vm_compute.
      rewrite E in E1. by injection E1. }
    destruct (StripProofs.style_strip (str "a <b>bold</b> word")) as (t2 & s2 & E2 & H2).
    assert (t2 = str "a <b>bold</b> word") as ->.
    { assert (E : analyze StyleStripper (str "a <b>bold</b> word") = Ok (str "a <b>bold</b> word", [])) by by vm_compute.
      rewrite E in E2. by injection E2. }
    destruct (StripProofs.comment_strip (str "a <b>bold</b> word")) as (t3 & s3 & E3 & H3).
    assert (t3 = str "a <b>bold</b> word") as ->.
    { assert (E : analyze CommentStripper (str "a <b>bold</b> word") = Ok (str "a <b>bold</b> word", [])) by by vm_compute.
      rewrite E in E3. by injection E3. }
    destruct (StripProofs.noframes_strip (str "a <b>bold</b> word")) as (t4 & s4 & E4 & H4).
    assert (t4 = str "a <b>bold</b> word") as ->.
    { assert (E : analyze NoframesStripper (str "a <b>bold</b> word") = Ok (str "a <b>bold</b> word", [])) by by vm_compute.
      rewrite E in E4. by injection E4. }
    assert (us = []) as ->.
    { destruct us as [|u us]; [done|]. exfalso. clear E1. inversion H1 as [|? ? k w y HL _|? ? k w y ? ? ? ? ? HL]; subst;
        destruct HL as (Es & [(p & g & -> & _) _] & _);
        exact (not_in_absurd 58 (str ":") (str "a <b>bold</b> word") k (p ++ str "://" ++ g) y
          ltac:(apply (bool_decide_unpack _); by vm_compute) Es
          ltac:(rewrite !elem_of_app; right; left; apply (bool_decide_unpack _); by vm_compute)
          ltac:(apply (bool_decide_unpack _); by vm_compute)). }
    by eexists _, _, _, _, _, _.
  - exists (str "a "), (str "<b>"), (str "bold</b> word"). split; [done|]. exists 98%N, [].
    split_and!; [done|apply (bool_decide_unpack _); by vm_compute|done|apply (bool_decide_unpack _); by vm_compute|].
    simpl. apply Nat.leb_le. by vm_compute.
Qed.

Lemma not_every_body : ~ forall b, exists ts, tokenize_payload b = (ts, None).
Proof. intros H. destruct (H (str "<b>bold</b>")) as (ts & E). by vm_compute in E. Qed.

Lemma lead_determined text :
  (exists lead rest, b64_lead text lead rest /\ text = lead ++ rest) /\
  (forall l r l' r', b64_lead text l r -> b64_lead text l' r' -> l = l' /\ r = r').
Proof.
  split.
  - destruct (base64_end_spec (S (length text)) [] text) as (l & r & H & E & _); [apply Nat.lt_succ_diag_r|]. by exists l, r.
  - intros l r l' r'. apply b64_lead_det.
Qed.

Lemma undecodable_raises a2b raw : exists ts,
  tokenize_part a2b (PRaises (Some raw)) = (WStr (str "control: couldn't decode") :: ts, Some TypeError).
Proof.
  destruct (part_outcome a2b (PRaises (Some raw))) as [(ts & _ & _ & H)|[H _]]; [by destruct H|].
  cbn [tokenize_part] in *. destruct (match try_to_repair_damaged_base64 a2b raw with Ok _ => _ | Err e => _ end) as [ts e].
  simpl in *. subst e. by exists ts.
Qed.
