(** * Specification of reading a corpus *)
From Verif Require Import Py CacheModel MessageModel.

(** An order of sets lists every element once. *)
Definition order_ok (order : gset key -> list key) : Prop :=
  forall s, NoDup (order s) /\ forall k, k ∈ order s <-> k ∈ s.

(** A cache reached by any history of calls. *)
Definition reached {C T} (em : emailpkg C) (xs : list (@kop C T)) (c : cache (msg C T)) : Prop :=
  (exists max d, c = run_kops em xs (naive_new max d)) \/
  exists matches max d, c = run_kops em xs (file_new matches max d).

(** Every message is put under its own id. *)
Definition own_ids {C T} (xs : list (@kop C T)) : Prop :=
  Forall (fun x => match x with KPut k m => k = m_id m | _ => True end) xs.
