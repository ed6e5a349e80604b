(** * A small generator, and refutations and examples for the text form of a message *)
From Coq Require Import String.
From Verif Require Import Py MessageModel MessageSpec TextProofs OutModel OutSpec OutProofs.

(** A line that begins with [From ] gets a [>] in front (first line only). *)
Definition mangled (mangle : bool) (t : codes) : codes :=
  if mangle && bool_decide (take 5 t = str "From ") then str ">" ++ t else t.

(** Headers are one text; a payload that is neither a text nor a list of parts
    is refused as the email package does. *)
Fixpoint tiny_flatten (mangle unixfrom : bool) (n : node codes) : res codes :=
  match n with
  | Node _ h p =>
      rbind (match p with
             | LNone => Ok []
             | LText t => Ok (mangled mangle t)
             | LBytes _ => Err TypeError
             | LParts l =>
                 (fix parts (l : list (node codes)) : res codes :=
                    match l with
                    | [] => Ok []
                    | q :: l => rbind (tiny_flatten mangle false q) (fun s => rbind (parts l) (fun ss => Ok (s ++ 10%N :: ss)))
                    end) l
             end)
            (fun b => Ok ((if unixfrom then str "From nobody" ++ [10%N] else []) ++ h ++ [10%N; 10%N] ++ b))
  end.

Definition tiny : generator codes := {| g_flatten := tiny_flatten; g_base := tiny_flatten true |}.

Definition from_part : node codes := Node true (str "A: 1") (LText (str "From me")).
Definition bytes_part : node codes := Node true (str "B: 2") (LBytes []).
Definition refused : node codes := Node true (str "Subject: hello") (LParts [from_part; bytes_part]).

Definition simple : node codes := Node true (str "Subject: hello") (LText (str "one" ++ [10%N] ++ str "two" ++ [13%N; 10%N] ++ str "three")).

Lemma refused_text : as_string tiny false true refused =
  Ok (str "A: 1" ++ [13; 10; 13; 10]%N ++ str ">From me" ++ [13; 10]%N).
Proof. vm_compute; reflexivity. Qed.
Lemma refused_text' : as_string tiny false false refused =
  Ok (str "A: 1" ++ [13; 10; 13; 10]%N ++ str ">From me" ++ [13; 10]%N).
Proof. vm_compute; reflexivity. Qed.

Definition occurs_in (x t : codes) : Prop := exists a b, t = a ++ x ++ b.

Lemma no_S t x : hd_error x = Some 83%N -> 83%N ∉ t -> ~ occurs_in x t.
Proof.
  intros Hx Ht (a&b&->). destruct x as [|c x]; [done|]. injection Hx as ->. apply Ht.
  rewrite !elem_of_app. right. left. left.
Qed.

Lemma subject_lost : ~ occurs_in (str "Subject: hello") (str "A: 1" ++ [13; 10; 13; 10]%N ++ str ">From me" ++ [13; 10]%N).
Proof. apply no_S; [done|]. by apply (bool_decide_unpack _). Qed.

Lemma tiny_keeps (u m : bool) h p x : g_flatten tiny m u (Node true h p) = Ok x -> occurs_in h x.
Proof.
  cbn [tiny g_flatten tiny_flatten].
  destruct (match p with LNone => _ | _ => _ end) as [b|e]; [|done]. cbn [rbind]. intros [= <-].
  by eexists _, _.
Qed.

Lemma headers_kept_refuted : ~ forall (G : generator codes),
  (forall u m h p x, g_flatten G m u (Node true h p) = Ok x -> occurs_in h x) ->
  forall u m h p t, 13%N ∉ h -> 10%N ∉ h -> as_string G u m (Node true h p) = Ok t -> occurs_in h t.
Proof.
  intros Hall. apply subject_lost.
  refine (Hall tiny tiny_keeps false true _ _ _ _ _ refused_text); by apply (bool_decide_unpack _).
Qed.

Lemma mangle_refuted : ~ forall (H : Type) (G : generator H) (n : node H) (t : codes),
  all_own n -> (forall q x, within q n -> g_flatten G false false q = Ok x -> ~ occurs_in (str ">") x) ->
  as_string G false false n = Ok t -> ~ occurs_in (str ">") t.
Proof.
  intros Hall. refine (Hall codes tiny refused _ _ _ refused_text' _).
  - intros q Hq. inversion Hq as [|o h l q' n Hin Hw]; subst; [done|].
    apply elem_of_cons in Hin as [-> | Hin%elem_of_list_singleton]; [|subst q']; by inversion Hw.
  - intros q x Hq. inversion Hq as [|o h l q' n Hin Hw]; subst; [done|].
    apply elem_of_cons in Hin as [-> | Hin%elem_of_list_singleton]; [|subst q'; by inversion Hw; subst].
    inversion Hw; subst. intros [= <-] (a&b&E).
    assert (62%N ∈ str "A: 1" ++ [10; 10]%N ++ str "From me") as Hin.
    { change (str "A: 1" ++ [10; 10]%N ++ str "From me" = a ++ str ">" ++ b) in E. rewrite E.
      rewrite !elem_of_app. right. left. left. }
    revert Hin. by apply (bool_decide_unpack _).
  - exists (str "A: 1" ++ [13; 10; 13; 10]%N), (str "From me" ++ [13; 10]%N). vm_compute; reflexivity.
Qed.

Lemma simple_case : own simple = true /\ exists t ls, g_flatten tiny true false simple = Ok t /\ has_lines t ls /\
  ls = [str "Subject: hello"; []; str "one"; str "two"; str "three"] /\ ~ crlf_only t.
Proof.
  split; [done|]. eexists _, _. split; [reflexivity|]. split; [|split; [reflexivity|]].
  - apply (lines_lf (str "Subject: hello")); [by apply (bool_decide_unpack _)..|].
    apply (lines_lf []); [by apply (bool_decide_unpack _)..|].
    apply (lines_lf (str "one")); [by apply (bool_decide_unpack _)..|].
    apply (lines_crlf (str "two")); [by apply (bool_decide_unpack _)..|].
    apply (lines_last (str "three")); by apply (bool_decide_unpack _).
  - intros Hc. do 15 (inversion Hc as [|? ? ? ? Hc'|? Hc']; subst; clear Hc; rename Hc' into Hc; try congruence).
Qed.

Lemma refused_case : g_flatten tiny true false refused = Err TypeError /\ g_flatten tiny false false refused = Err TypeError /\
  g_flatten tiny false false (Node true (str "X") (LParts [from_part; bytes_part])) = Err TypeError /\
  Forall (fun q => own q = true) [from_part; bytes_part] /\
  Forall2 (fun q s => as_string tiny false true q = Ok s) [from_part; bytes_part]
    [str "A: 1" ++ [13; 10; 13; 10]%N ++ str ">From me"; []] /\
  Forall2 has_lines [str "A: 1" ++ [13; 10; 13; 10]%N ++ str ">From me"; []] [[str "A: 1"; []; str ">From me"]; [[]]].
Proof.
  split; [reflexivity|]. split; [reflexivity|]. split; [reflexivity|]. split; [repeat constructor|].
  split; [repeat constructor|].
  constructor; [|constructor; [|constructor]].
  2:{ apply (lines_last []); by apply (bool_decide_unpack _). }
  apply (lines_crlf (str "A: 1")); [by apply (bool_decide_unpack _)..|].
  apply (lines_crlf []); [by apply (bool_decide_unpack _)..|].
  apply (lines_last (str ">From me")); by apply (bool_decide_unpack _).
Qed.

(** A part with bytes in it, deep inside. *)
Definition bad : node codes := Node true (str "S") (LParts [from_part; Node true (str "T") (LParts [Node true (str "U") (LBytes [7%N])])]).
Lemma bad_case : as_string tiny false true bad = Err AttributeError.
Proof. reflexivity. Qed.
