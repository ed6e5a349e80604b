(** * Specification for the cdb-backed classifier *)
From Verif Require Import Py ClassifierModel CdbClassModel.

(** A module that writes any list of pairs and reads the same list back. *)
Definition cdbmod_ok {X} (m : cdbmod X) : Prop :=
  forall items, exists x, cm_write m items = Ok x /\ cm_read m x = Ok items.

(** Any order of the items of a dictionary. *)
Definition dict_order_ok (ord : gmap pyword winfo -> list (pyword * winfo)) : Prop :=
  forall m, ord m ≡ₚ map_to_list m.

(** The same record with ham and spam exchanged. *)
Definition swapped (r : winfo) : winfo := WI (hamcount r) (spamcount r).
