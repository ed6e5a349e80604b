(** * Common vocabulary: Python results, strings, words, sorting.
    Nothing in this file models a particular function of /repo; it fixes how
    Python values and control flow are represented by the model files. *)
From stdpp Require Export prelude gmap list sorting.
From Coq Require Export ZArith NArith.
From Coq Require Import String Ascii.

(** ** Exceptions and results *)

(** The exception classes that occur in the modelled code.  [Exception1] and
    [Exception2] are the two bare [Exception(...)] of basic.py:379 and 381,
    [Exception3] the one of storage.py:242. *)
Inductive exn :=
  | ValueError | TypeError | KeyError | AttributeError | NameError
  | ZeroDivisionError | Exception1 | Exception2 | Exception3
  | StructError | UnicodeEncodeError | IndexError | OSErr | LockTimeout
  | UnpicklingError | SocketTimeout | OtherError (n : N).

Global Instance exn_eq_dec : EqDecision exn.
Proof. solve_decision. Defined.

(** A Python call returns a value or raises. *)
Inductive res (A : Type) := Ok (a : A) | Err (e : exn).
Global Arguments Ok {A} a.
Global Arguments Err {A} e.

Definition rbind {A B} (r : res A) (k : A -> res B) : res B :=
  match r with Ok a => k a | Err e => Err e end.

Definition is_ok {A} (r : res A) : bool :=
  match r with Ok _ => true | Err _ => false end.

(** A method call: it maps the object state to the new state and the outcome.
    The state is threaded through an exception, as in Python. *)
Definition M (S A : Type) : Type := S -> S * res A.

Definition mret {S A} (a : A) : M S A := fun s => (s, Ok a).
Definition merr {S A} (e : exn) : M S A := fun s => (s, Err e).
Definition mbind {S A B} (m : M S A) (k : A -> M S B) : M S B :=
  fun s => match m s with
           | (s', Ok a) => k a s'
           | (s', Err e) => (s', Err e)
           end.

(** [for x in xs: body(x)] *)
Fixpoint mfor {S A} (xs : list A) (body : A -> M S unit) : M S unit :=
  match xs with
  | [] => mret tt
  | x :: xs => mbind (body x) (fun _ => mfor xs body)
  end.

(** [[f(x) for x in xs]] with effects in order *)
Fixpoint mmap {S A B} (xs : list A) (f : A -> M S B) : M S (list B) :=
  match xs with
  | [] => mret []
  | x :: xs => mbind (f x) (fun y => mbind (mmap xs f) (fun ys => mret (y :: ys)))
  end.

(** ** Strings *)

(** A Python [str] is its list of code points, a [bytes] its list of bytes. *)
Definition codes := list N.

Fixpoint str (s : string) : codes :=
  match s with
  | EmptyString => []
  | String a s => N_of_ascii a :: str s
  end.

(** Lexicographic order, which is Python's order on [str] and on [bytes]. *)
Fixpoint lex (a b : codes) : comparison :=
  match a, b with
  | [], [] => Eq
  | [], _ :: _ => Lt
  | _ :: _, [] => Gt
  | x :: a, y :: b => match N.compare x y with Eq => lex a b | c => c end
  end.

(** ** Words: the hashable values used as tokens *)
Inductive pyword := WStr (s : codes) | WBytes (b : codes) | WNone.

Global Instance pyword_eq_dec : EqDecision pyword.
Proof. solve_decision. Defined.

Global Instance pyword_countable : Countable pyword.
Proof.
  refine (inj_countable'
    (fun w => match w with WStr s => inl (inl s) | WBytes b => inl (inr b) | WNone => inr tt end)
    (fun x => match x with inl (inl s) => WStr s | inl (inr b) => WBytes b | inr _ => WNone end) _).
  by intros [].
Defined.

Definition wkind (w : pyword) : N :=
  match w with WStr _ => 0%N | WBytes _ => 1%N | WNone => 2%N end.

Definition wcodes (w : pyword) : codes :=
  match w with WStr s => s | WBytes b => b | WNone => [] end.

(** A total order on words that agrees with Python's [<] on words of the same
    type (comparing words of different types raises in Python; see [kind_clash]
    in ClassifierModel.v). *)
Definition wcmp (a b : pyword) : comparison :=
  match N.compare (wkind a) (wkind b) with
  | Eq => lex (wcodes a) (wcodes b)
  | c => c
  end.

(** ** Sorting *)
Section sort.
  Context {A : Type} (leb : A -> A -> bool).

  Fixpoint insert_sorted (x : A) (l : list A) : list A :=
    match l with
    | [] => [x]
    | y :: l' => if leb x y then x :: y :: l' else y :: insert_sorted x l'
    end.

  (** A stable sort, as Python's [sorted]. *)
  Fixpoint isort (l : list A) : list A :=
    match l with
    | [] => []
    | x :: l => insert_sorted x (isort l)
    end.
End sort.

(** ** Formatting helpers used by several modules *)

(** Decimal digits of a natural number, as [str(n)]. *)
Fixpoint digits_fuel (fuel : nat) (n : N) (acc : codes) : codes :=
  match fuel with
  | O => acc
  | S fuel =>
      let acc := ((48 + n mod 10)%N) :: acc in
      if (n / 10 =? 0)%N then acc else digits_fuel fuel (n / 10) acc
  end.
Definition digits (n : N) : codes := digits_fuel (S (N.to_nat (N.size n))) n [].

Definition hexdigit (n : N) : N := if (n <? 10)%N then (48 + n)%N else (87 + n)%N.

(** [repr] of a bytes object: printable ASCII kept, tab, newline, return,
    backslash and the quote escaped, everything else as \xNN. *)
Definition repr_byte (q c : N) : codes :=
  if (c =? q)%N || (c =? 92)%N then [92%N; c]
  else if (c =? 9)%N then [92; 116]%N
  else if (c =? 10)%N then [92; 110]%N
  else if (c =? 13)%N then [92; 114]%N
  else if (c <? 32)%N || (126 <? c)%N
       then [92%N; 120%N; hexdigit (c / 16); hexdigit (c mod 16)]
  else [c].

Definition repr_bytes (b : codes) : codes :=
  let q := if existsb (N.eqb 39) b && negb (existsb (N.eqb 34) b) then 34%N else 39%N in
  98%N :: q :: (mjoin (repr_byte q <$> b)) ++ [q].

(** [str(w)], used by [str.format]. *)
Definition pystr (w : pyword) : codes :=
  match w with
  | WStr s => s
  | WBytes b => repr_bytes b
  | WNone => str "None"
  end.
