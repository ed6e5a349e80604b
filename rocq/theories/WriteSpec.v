(** * Specification of what the filter writes in the headers *)
From Coq Require Import String.
From Verif Require Import Py NumModel MessageModel MessageSpec.

(** The name k is the lower-case name n in some spelling: each character is the
    same or the capital letter of it. *)
Definition spelled (k n : codes) : Prop :=
  Forall2 (fun a b => a = b \/ exists i, (i < 26)%N /\ a = (65 + i)%N /\ b = (97 + i)%N) k n.

(** No capital letter. *)
Definition small (n : codes) : Prop := Forall (fun c => (c < 65)%N \/ (90 < c)%N) n.

(** The name of a classification *)
Definition called (c : cls) : codes :=
  match c with spam => str "spam" | ham => str "ham" | unsure => str "unsure" end.

(** The text of a stored header in a notation. *)
Definition shown_as (hstr : codes -> codes) (v : hval) (t : codes) : Prop :=
  match v with HNone => t = str "None" | HText s => (no_raw s /\ t = s) \/ (~ no_raw s /\ t = hstr s) end.

(** h' is h with the note in front of the first header with the name, or in a
    new header. *)
Definition noted (hstr : codes -> codes) (name Name note : codes) (h h' : headers) : Prop :=
  (exists l1 k v l2 t, h = l1 ++ (k, v) :: l2 /\ spelled k name /\ Forall (fun kv => ~ spelled kv.1 name) l1 /\
     shown_as hstr v t /\ h' = l1 ++ (k, HText (note ++ str "," ++ t)) :: l2) \/
  (Forall (fun kv => ~ spelled kv.1 name) h /\ h' = h ++ [(Name, HText note)]).

Definition noted_if (P : Prop) (hstr : codes -> codes) (name Name note : codes) (h h' : headers) : Prop :=
  (P /\ noted hstr name Name note h h') \/ (~ P /\ h' = h).

(** The elements with P, in order. *)
Inductive picked {X} (P : X -> Prop) : list X -> list X -> Prop :=
  | picked_nil : picked P [] []
  | picked_take x l l' : P x -> picked P l l' -> picked P (x :: l) (x :: l')
  | picked_skip x l l' : ~ P x -> picked P l l' -> picked P (x :: l) l'.

(** A clue that is shown: the two indicators, and the clues that are at least as
    strong as the cutoff. *)
Definition worth_showing {A : num} (cutoff : F A) (ws : pyword * F A) : Prop :=
  ws.1 = WBytes (str "*H*") \/ ws.1 = WBytes (str "*S*") \/
  nle A ws.2 cutoff = true \/ nle A (nsub A (nZ A 1) cutoff) ws.2 = true.

(** The text shows these clues, separated by semicolons with a blank or a line break. *)
Definition evidence_text (clues : list codes) (t : codes) : Prop :=
  exists gs : list (list codes), t = join [59; 10; 9]%N (line_text <$> gs) /\ mjoin gs = clues /\ Forall (fun g => g <> []) gs.

Definition if_set {X} (b : bool) (x : X) : list X := if b then [x] else [].

(** The headers of one classification; p is the score if there is one. *)
Definition written {A : num} (fs : F A -> codes) (lv : F A -> nat) (o : opts A) (c : cls) (p : option (F A)) (id : option codes)
    (evidence : codes) : headers :=
  [(str "X-Spambayes-Classification", HText (called c))] ++
  match p with
  | Some p => if_set (o_score A o) (str "X-Spambayes-Spam-Probability", HText (fs p)) ++
              if_set (o_thermostat A o) (str "X-Spambayes-Level", HText (replicate (lv p) 42%N))
  | None => []
  end ++
  if_set (o_evidence A o) (str "X-Spambayes-Evidence", HText evidence) ++
  if_set (o_add_id A o) (str "X-Spambayes-MailId", match id with Some s => HText s | None => HNone end).

(** What reading a stored value gives, if it can be read. *)
Definition read_as (v : hval) (f : fetched) : Prop :=
  match v with HNone => False | HText s => (no_raw s /\ f = FText s) \/ (~ no_raw s /\ f = FHeader s) end.

(** The whole result of add_sb_headers that returned. *)
Definition added {A : num} (hstr : codes -> codes) (fs : F A -> codes) (lv : F A -> nat) (fc : pyword -> F A -> codes)
    (clues : list (pyword * F A)) (o : opts A) (c : cls) (p : option (F A)) (ev : codes) (m m' : mail) : Prop :=
  g_id m' = g_id m /\ g_t m' = g_t m /\ g_c m' = Some c /\
  (exists shown, picked (worth_showing (o_hco A o)) clues shown /\ evidence_text ((fun ws => fc ws.1 ws.2) <$> shown) ev) /\
  exists h, noted_if (c ∈ o_notate_to A o) hstr (str "to") (str "To") (called c ++ str "@spambayes.invalid")
              (g_h m ++ written fs lv o c p (g_id m) ev) h /\
            noted_if (c ∈ o_notate_subject A o) hstr (str "subject") (str "Subject") (called c) h (g_h m').
