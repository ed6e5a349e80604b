(** * Model of classifiers/slurping.py *)
From Coq Require Import String.
From Verif Require Import Py NumModel ClassifierModel NetModel.

(** What a SlurpingClassifier and its surroundings consist of: the classifier
    object, whether it has the attribute setup_done (slurping.py:202), and whether
    the cache directory exists (slurping.py:219). *)
Record slurper (A : num) (St : Type) := Slurper {
  s_obj : obj A St;
  s_setup : bool;
  s_dir : bool
}.
Global Arguments Slurper {A St} _ _ _.
Global Arguments s_obj {A St} _.
Global Arguments s_setup {A St} _.
Global Arguments s_dir {A St} _.

(** The keyword parameters of FileCorpus.__init__, to which
    ExpiryFileCorpus.__init__ passes its own on (filesystem.py:63, 79-83) *)
Definition FileCorpus_params : list codes := [str "directory"; str "namefilter"; str "cache_size"].

(** Calling it with one positional argument and the keywords [kws]: an
    unknown keyword, or one for the same parameter, is a TypeError (filesystem.py:63) *)
Definition FileCorpus_call (kws : list codes) : res unit :=
  if forallb (fun k => bool_decide (k ∈ tail FileCorpus_params)) kws then Ok tt else Err TypeError.

Section slurping.
  Context {A : num} {St : Type} (bk : backend St) (it : set_order).
  (** What os.makedirs returns or raises, slurping.py:222 *)
  Context (makedirs : res unit).
  Notation slurper := (slurper A St).

  (** slurping.py:215-224, setup up to the construction of the corpus; what
      follows is not reached (C64) and has no model: were line 224 to return, the
      missing method of line 226 would raise *)
  Definition setup : M slurper unit := fun o =>
    let '(o, r) := if s_dir o then (o, Ok tt)
                   else match makedirs with
                        | Ok _ => (Slurper (s_obj o) (s_setup o) true, Ok tt)
                        | Err e => (o, Err e)
                        end in
    match r with
    | Err e => (o, Err e)
    | Ok _ => match FileCorpus_call [str "cacheSize"] with
              | Err e => (o, Err e)
              | Ok _ => (o, Err AttributeError)
              end
    end.

  (** The module variable slurp_wordstream, slurping.py:102; lines 139 and 158
      assign to local variables of the same name *)
  Definition slurp_wordstream : option (codes * codes) := None.

  (** slurping.py:199-213, _generate_slurp; with slurp_wordstream = None the
      lines 207-212 are not reached *)
  Definition generate_slurp : M slurper (list pyword) := fun o =>
    let '(o, r) := if s_setup o then (o, Ok tt)
                   else match setup o with
                        | (o, Ok _) => (Slurper (s_obj o) true (s_dir o), Ok tt)
                        | (o, Err e) => (o, Err e)
                        end in
    match r with
    | Err e => (o, Err e)
    | Ok _ => match slurp_wordstream with
              | Some _ => (o, Err (OtherError 4))
              | None => (o, Ok [])
              end
    end.

  (** Run a method of the superclass, slurping.py:170, 191, 197 *)
  Definition on_obj {B} (f : M (obj A St) B) : M slurper B := fun o =>
    let '(b, r) := f (s_obj o) in (Slurper b (s_setup o) (s_dir o), r).

  (** slurping.py:187-191 and 193-197, learn and unlearn *)
  Definition slurp_train (train : list pyword -> bool -> M (obj A St) unit) (s : stream) (is_spam : bool) :
      M slurper unit := fun o =>
    match o_bigrams (s_obj o) with
    | None => (o, Err AttributeError)
    | Some b => mbind generate_slurp (fun l =>
                  on_obj (train ((if b then enhance s else elems s) ++ l) is_spam)) o
    end.
  (** slurping.py:187-191 *)
  Definition slurp_learn := slurp_train (add_msg bk it).
  (** slurping.py:193-197 *)
  Definition slurp_unlearn := slurp_train (remove_msg bk it).

  (** Calling the builtin all with n positional arguments, slurping.py:174 *)
  Definition call_all (n : nat) : res unit := if (n =? 1)%nat then Ok tt else Err TypeError.

  (** slurping.py:164-185, spamprob; what follows line 175 is not reached (C64)
      and has no model *)
  Definition slurp_spamprob (s : stream) (evidence : bool) : M slurper (F A) :=
    mbind (on_obj (spamprob_evidence bk it s)) (fun '(p, clues) o =>
      match call_all 3 with
      | Err e => (o, Err e)
      | Ok _ => (o, Ok p)
      end).

  (** A call of a public method, slurping.py:164, 187, 193; what was returned is
      reduced to whether the call returned *)
  Definition slurp_call (c : call) (o : slurper) : slurper * res unit :=
    match c with
    | CLearn s b => slurp_learn s b o
    | CUnlearn s b => slurp_unlearn s b o
    | CScore s => let '(o, r) := slurp_spamprob s true o in
                  (o, match r with Ok _ => Ok tt | Err e => Err e end)
    end.
End slurping.

(** A program calling the methods in order, each with its outcome of
    os.makedirs, catching exceptions, slurping.py:164, 187, 193 *)
Fixpoint slurp_run {A St} (bk : backend St) (it : set_order) (cs : list (res unit * call)) (o : slurper A St) :
    slurper A St * list (res unit) :=
  match cs with
  | [] => (o, [])
  | (mk, c) :: cs =>
      let '(o, r) := slurp_call bk it mk c o in
      let '(o, rs) := slurp_run bk it cs o in (o, r :: rs)
  end.

(** [url.split('/', 1)[0]] of a text that contains a slash, slurping.py:120 *)
Fixpoint before_slash (s : codes) : codes :=
  match s with
  | [] => []
  | c :: s => if (c =? 47)%N then [] else c :: before_slash s
  end.

(** slurping.py:113-128, base_url(self, url) *)
Definition base_url (url : codes) : codes :=
  let domain := before_slash (url ++ [47%N]) in
  let parts := split_dot domain in
  let n := length parts in
  let part i := default [] (parts !! (n - i)) in
  if (2 <? n)%nat then
    let base_domain := part 2 ++ 46%N :: part 1 in
    if (length (part 1) <? 3)%nat then part 3 ++ 46%N :: base_domain else base_domain
  else domain.
