(** * Specification: learning labelled messages *)
From Verif Require Import Py NumModel ClassifierModel RaiseModel StripModel TokenModel MessageModel HeadModel TreeModel.

(** A program that tokenizes and learns labelled messages one after the other (an exception
    does not stop it). *)
Definition learn_all (U : unicode) (E : mailpkg) (o : topts) (a2b : codes -> res codes) (it : set_order)
    (order : list part -> list part) {A : num} (l : list (part * bool)) (ob : obj A (gmap pyword winfo)) : obj A (gmap pyword winfo) :=
  foldl (fun ob mb => (learn_gen mem_backend it (tokenize_message U E order o a2b mb.1) mb.2 ob).1) ob l.
