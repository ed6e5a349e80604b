(** * C142: text tokens become bytes without loss *)
From Coq Require Import String.
From Verif Require Import Py CdbModel TokenModel NetModel HeadModel Utf8Spec Utf8Proofs.
Local Open Scope N_scope.

Theorem C142_what_a_message_yields : forall U E basic only o a2b parts h texts ws e,
  gapp (tokenize_headers U E o parts h) (tokenize_body a2b texts) = (ws, e) -> Forall word_points ws ->
  (exists bs, Forall2 as_bytes ws bs /\ tokenizer_call U E basic only o a2b parts h texts = (WBytes <$> bs, e)) \/
  (exists pre w post bs x, ws = pre ++ w :: post /\ Forall2 as_bytes pre bs /\ not_bytes w x /\
     tokenizer_call U E basic only o a2b parts h texts = (WBytes <$> bs, Some x)).
Proof. exact call_cases. Qed.
Print Assumptions C142_what_a_message_yields.

Theorem C142_never_both : forall w b e, as_bytes w b -> ~ not_bytes w e.
Proof. exact not_both. Qed.
Print Assumptions C142_never_both.

Theorem C142_every_text_without_surrogates_has_bytes : forall s, Forall code_point s -> (forall c, c ∈ s -> ~ surrogate c) ->
  exists b, text_bytes s b /\ Forall (fun x => x < 256) b.
Proof. exact bytes_of_text. Qed.
Print Assumptions C142_every_text_without_surrogates_has_bytes.

Theorem C142_one_encoding : forall w b b', word_points w -> as_bytes w b -> as_bytes w b' -> b = b'.
Proof. exact as_bytes_fun. Qed.
Print Assumptions C142_one_encoding.

Theorem C142_nothing_is_lost : forall ws ws' bs, Forall is_text ws -> Forall is_text ws' ->
  Forall2 as_bytes ws bs -> Forall2 as_bytes ws' bs -> ws = ws'.
Proof. exact tokens_apart. Qed.
Print Assumptions C142_nothing_is_lost.

Theorem C142_databases_of_texts_with_surrogates : forall items kv c,
  Forall (fun kv : codes * codes => N.of_nat (length kv.1) < 2 ^ 32 /\ N.of_nat (length kv.2) < 2 ^ 32) items ->
  kv ∈ items -> c ∈ kv.1 \/ c ∈ kv.2 -> surrogate c -> cdb_make items = Err UnicodeEncodeError.
Proof. exact make_surrogate. Qed.
Print Assumptions C142_databases_of_texts_with_surrogates.

(** Characters of one, two, three and four bytes, and a surrogate that is left
    by decoding with surrogateescape. *)
Example C142_case :
  as_bytes (WStr [97; 233; 8364; 128512]) [97; 195; 169; 226; 130; 172; 240; 159; 152; 128] /\
  word_points (WStr [97; 233; 8364; 128512]) /\ not_bytes (WStr [97; 56553]) UnicodeEncodeError /\
  convert_to_bytes [WStr [97; 233]; WBytes [255]; WStr [97; 56553]; WStr [98]] None =
    ([WBytes [97; 195; 169]; WBytes [255]], Some UnicodeEncodeError).
Proof.
  split_and!; [|intros s [= <-]; repeat constructor; done| |done].
  - left. eexists. split; [done|].
    apply (text_cons 97 _ [97]); [by constructor|]. apply (text_cons 233 _ [195; 169]); [by apply (two_bytes 195 169)|].
    apply (text_cons 8364 _ [226; 130; 172]); [apply (three_bytes 226 130 172); try done; unfold surrogate; lia|].
    apply (text_cons 128512 _ [240; 159; 152; 128]); [by apply (four_bytes 240 159 152 128)|constructor].
  - left. exists [97; 56553], 56553. split_and!; [done|by right; left|done|done].
Qed.

(** A text token and a bytes token can be the same in the end. *)
Example C142_text_and_bytes : as_bytes (WStr [233]) [195; 169] /\ as_bytes (WBytes [195; 169]) [195; 169].
Proof. split; [|by right]. left. eexists. split; [done|]. apply (text_cons 233 _ [195; 169]); [by apply (two_bytes 195 169)|constructor]. Qed.

Example C142_database_case : cdb_make [(str "a", str "b"); ([97; 56553], str "c")] = Err UnicodeEncodeError.
Proof.
  apply (make_surrogate _ ([97; 56553], str "c") 56553); [by repeat constructor|by right; left|left; by right; left|done].
Qed.
