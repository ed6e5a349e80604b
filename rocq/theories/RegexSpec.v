(** * What a regular expression matches, without reference to the matcher
    [matches r x w y]: in the text x ++ w ++ y the expression r matches the part w. *)
From Verif Require Import Py Regex.
Local Open Scope N_scope.

(** Repetition of a relation. *)
Inductive repeated (P : codes -> codes -> codes -> Prop) : codes -> codes -> codes -> Prop :=
  | rep_nil x y : repeated P x [] y
  | rep_cons x w v y : w <> [] -> P x w (v ++ y) -> repeated P (x ++ w) v y -> repeated P x (w ++ v) y.

Definition word_at_end (x : codes) : bool := match last x with Some c => is_word c | None => false end.
Definition word_at_start (y : codes) : bool := match y with c :: _ => is_word c | [] => false end.

Fixpoint matches (r : regex) (x w y : codes) : Prop :=
  match r with
  | REps => w = []
  | RChr p => exists c, w = [c] /\ p c = true
  | RSeq a b => exists u v, w = u ++ v /\ matches a x u (v ++ y) /\ matches b (x ++ u) v y
  | RAlt a b => matches a x w y \/ matches b x w y
  | RStar a => repeated (matches a) x w y
  | RGroup _ a => matches a x w y
  | RBol => w = [] /\ (x = [] \/ exists x', x = x' ++ [10])
  | REol => w = [] /\ (y = [] \/ exists y', y = 10 :: y')
  | RWordb => w = [] /\ word_at_end x <> word_at_start y
  | RNot a => w = [] /\ forall v z, y = v ++ z -> ~ matches a x v z
  end.

(** Somewhere in the text. *)
Definition occurs (P : codes -> codes -> codes -> Prop) (s : codes) : Prop :=
  exists x w y, s = x ++ w ++ y /\ P x w y.

(** The leftmost place, after [x0], where P holds in [s]. *)
Definition leftmost (P : codes -> codes -> codes -> Prop) (x0 s x w y : codes) : Prop :=
  s = x ++ w ++ y /\ P (x0 ++ x) w y /\
  forall x' w' y', s = x' ++ w' ++ y' -> P (x0 ++ x') w' y' -> (length x <= length x')%nat.

(** No place after [x0] where P holds in [s]. *)
Definition nowhere (P : codes -> codes -> codes -> Prop) (x0 s : codes) : Prop :=
  forall x w y, s = x ++ w ++ y -> ~ P (x0 ++ x) w y.
