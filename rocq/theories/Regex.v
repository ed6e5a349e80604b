(** * Regular expressions, as Python's re module runs them
    Nothing in this file models a particular function of /repo; the expressions
    themselves are in the model files that use them.  The matcher tries
    alternatives in order and repetitions greedily; it returns the list of all
    matches, the one Python reports first.  Simplification: an iteration of a
    repetition that consumes nothing is not taken (no expression of /repo
    repeats something that can match nothing). *)
From Verif Require Import Py.
Local Open Scope N_scope.

(** ** Character classes of bytes patterns *)

(** \s *)
Definition is_space (c : N) : bool := ((9 <=? c) && (c <=? 13)) || (c =? 32).
(** \d *)
Definition is_num (c : N) : bool := (48 <=? c) && (c <=? 57).
(** \w *)
Definition is_word (c : N) : bool :=
  is_num c || ((65 <=? c) && (c <=? 90)) || ((97 <=? c) && (c <=? 122)) || (c =? 95).

(** ** Expressions *)
Inductive regex :=
  | REps                       (* the empty expression *)
  | RChr (p : N -> bool)       (* one character of a class *)
  | RSeq (a b : regex)
  | RAlt (a b : regex)         (* a|b *)
  | RStar (a : regex)          (* a*, greedy *)
  | RGroup (n : nat) (a : regex)  (* a capturing group *)
  | RBol                       (* ^ with MULTILINE *)
  | REol                       (* $ with MULTILINE *)
  | RWordb                     (* \b *)
  | RNot (a : regex).          (* (?!a) *)

(** A literal text. *)
Fixpoint rlit (s : codes) : regex :=
  match s with
  | [] => REps
  | c :: s => RSeq (RChr (N.eqb c)) (rlit s)
  end.
(** a+ *)
Definition rplus (a : regex) : regex := RSeq a (RStar a).
(** a? *)
Definition ropt (a : regex) : regex := RAlt a REps.
(** a{0,n} *)
Fixpoint rupto (n : nat) (a : regex) : regex :=
  match n with
  | O => REps
  | S n => RAlt (RSeq a (rupto n a)) REps
  end.

(** ** Matching *)

(** A position in a text: the characters before it, nearest first, and those
    after it. *)
Record cur := Cur { pre : codes; post : codes }.
Definition start (s : codes) : cur := Cur [] s.

(** What is between two positions, the second being further on. *)
Definition between (c d : cur) : codes := take (length (post c) - length (post d)) (post c).

(** The texts of the groups. *)
Definition caps := list (nat * codes).
Fixpoint group (n : nat) (g : caps) : option codes :=
  match g with
  | [] => None
  | (k, w) :: g => if (k =? n)%nat then Some w else group n g
  end.

Definition at_bol (c : cur) : bool := match pre c with [] => true | x :: _ => x =? 10 end.
Definition at_eol (c : cur) : bool := match post c with [] => true | x :: _ => x =? 10 end.
Definition head_word (s : codes) : bool := match s with [] => false | x :: _ => is_word x end.
Definition at_wordb (c : cur) : bool := xorb (head_word (pre c)) (head_word (post c)).

Fixpoint star (f : cur -> list (cur * caps)) (fuel : nat) (c : cur) : list (cur * caps) :=
  match fuel with
  | O => [(c, [])]
  | S fuel =>
      flat_map (fun '(d, g) =>
        if (length (post d) <? length (post c))%nat
        then (fun '(e, h) => (e, h ++ g)) <$> star f fuel d else []) (f c)
      ++ [(c, [])]
  end.

Fixpoint rmatch (r : regex) (c : cur) : list (cur * caps) :=
  match r with
  | REps => [(c, [])]
  | RChr p => match post c with
              | x :: t => if p x then [(Cur (x :: pre c) t, [])] else []
              | [] => []
              end
  | RSeq a b => flat_map (fun '(d, g) => (fun '(e, h) => (e, h ++ g)) <$> rmatch b d) (rmatch a c)
  | RAlt a b => rmatch a c ++ rmatch b c
  | RStar a => star (rmatch a) (length (post c)) c
  | RGroup n a => (fun '(d, g) => (d, (n, between c d) :: g)) <$> rmatch a c
  | RBol => if at_bol c then [(c, [])] else []
  | REol => if at_eol c then [(c, [])] else []
  | RWordb => if at_wordb c then [(c, [])] else []
  | RNot a => match rmatch a c with [] => [(c, [])] | _ => [] end
  end.

(** pattern.match at a position: the end of the match and the groups. *)
Definition rmatch1 (r : regex) (c : cur) : option (cur * caps) := head (rmatch r c).

(** pattern.search from a position on: beginning and end of the match, groups. *)
Fixpoint rsearch_from (r : regex) (before after : codes) : option (cur * cur * caps) :=
  match rmatch1 r (Cur before after) with
  | Some (d, g) => Some (Cur before after, d, g)
  | None => match after with
            | [] => None
            | x :: t => rsearch_from r (x :: before) t
            end
  end.
Definition rsearch (r : regex) (c : cur) : option (cur * cur * caps) := rsearch_from r (pre c) (post c).

(** pattern.findall without groups: the matched texts; after a match the search
    continues at its end, or one character further when it was empty (no
    expression of /repo that is used with findall matches the empty text). *)
Fixpoint rfindall (fuel : nat) (r : regex) (c : cur) : list codes :=
  match fuel with
  | O => []
  | S fuel =>
      match rsearch r c with
      | None => []
      | Some (d, e, _) => between d e :: rfindall fuel r e
      end
  end.
Definition findall (r : regex) (s : codes) : list codes := rfindall (S (length s)) r (start s).
