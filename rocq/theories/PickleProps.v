(** * Property theorems C28 - C31 and C33 (pickled classifiers) *)
From Coq Require Import String.
From Verif Require Import Py NumModel ClassifierModel TrainSpec PickleModel PickleSpec PickleProofs LockProofs RaceProofs.

Notation pickle_obj A := (obj A (gmap pyword winfo)).

(** The assumptions about the pickle module can be satisfied. *)
Example codec_exists : codec_ok unary_codec.
Proof. exact unary_codec_ok. Qed.

(** ** C28 *)
Theorem C28_store_and_load_round_trip :
  forall (A : num) (c : codec) (it : set_order) (h : list call) (o' : pickle_obj A),
  codec_ok c -> set_order_ok it -> o_bigrams o' = Some false ->
  let o := fst (run mem_backend it h (c_new false ∅ : pickle_obj A)) in
  exists o2, pickle_load c None (pickle_store c o) o' = (o2, Ok tt) /\
    o_nspam o2 = o_nspam o /\ o_nham o2 = o_nham o /\ o_store o2 = o_store o /\ o_cache o2 = ∅ /\
    forall h', snd (run mem_backend it h' o2) = snd (run mem_backend it h' o).
Proof. intros A c it h o' Hc. exact (round_trip c Hc it h o'). Qed.
Print Assumptions C28_store_and_load_round_trip.

Theorem C28_pickled_classifier_refines_memory_classifier :
  forall (A : num) (c : codec) (it : set_order) (xs : list pop),
  codec_ok c -> set_order_ok it -> ptidy false xs ->
  let '((f, o), rs) := run_pops c it xs (None, fst (pickle_open c None None)) in
  let '(m, qs) := run mem_backend it (pcalls xs) (c_new false ∅ : pickle_obj A) in
  pmatch xs rs qs /\ same_training o m.
Proof. intros A c it xs Hc. exact (pickle_refines_memory c Hc it xs). Qed.
Print Assumptions C28_pickled_classifier_refines_memory_classifier.

Example C28_case :
  ptidy false [PLoad; PCall (CLearn (SList [WStr (str "a")]) true); PCall (CScore (SList [WStr (str "a")]));
               PStore; PReopen; PCall (CUnlearn (SList [WBytes (str "a")]) true); PStore; PLoad].
Proof. repeat split. Qed.

(** ** C29 *)
Theorem C29_failed_load_is_silent_and_store_wipes :
  forall (A : num) (c : codec) (fault : option exn) (f : option bytes) (o : pickle_obj A),
  codec_ok c ->
  (is_Some fault \/ f = None \/ (exists b, f = Some b /\ loads c b = None) \/
   (exists b t, f = Some b /\ loads c b = Some t /\ p_version t <> PICKLE_VERSION)) ->
  exists o1, pickle_load c fault f o = (o1, Ok tt) /\
    o_nspam o1 = 0%Z /\ o_nham o1 = 0%Z /\ o_store o1 = ∅ /\
    forall o' : pickle_obj A, exists o2 : pickle_obj A,
      pickle_load c None (pickle_store c o1) o' = (o2, Ok tt) /\
      o_store o2 = ∅ /\ o_nspam o2 = 0%Z /\ o_nham o2 = 0%Z.
Proof. intros A c fault f o Hc. exact (failed_load_wipes c Hc fault f o). Qed.
Print Assumptions C29_failed_load_is_silent_and_store_wipes.

Theorem C29_slow_reader_destroys_the_database :
  forall (A : num) (c : codec) (it : set_order) (o : pickle_obj A) (m1 : stream),
  codec_ok c -> set_order_ok it -> exists plan ms, plan_ok plan /\
  let s := sys_run plan ms (sys_init (Some (pickle c o))
                              (two (PRead (fun _ => PDone)) (train_prog A c it m1 true))) in
  (forall i, sys_procs s i = Ready PDone) /\
  exists b (o' : pickle_obj A), sys_db s = Some b /\ unpickle c b = Ok o' /\ o_nspam o' = 1%Z /\ o_nham o' = 0%Z.
Proof. intros A c it o m1 Hc Hit. exact (timeout_wipes c Hc it Hit o m1). Qed.
Print Assumptions C29_slow_reader_destroys_the_database.

(** ** C30 *)
Theorem C30_rename_is_atomic :
  forall (chunks copied : list bytes) (b : bytes) (old tmp : option bytes) (n : nat),
  concat chunks = b ->
  let s := foldl fs_apply (FS old tmp) (take n (write_steps true chunks copied)) in
  f_db s = old \/ f_db s = Some b.
Proof. exact rename_atomic. Qed.
Print Assumptions C30_rename_is_atomic.

Theorem C30_completed_write_is_complete :
  forall (same : bool) (chunks copied : list bytes) (b : bytes) (old tmp : option bytes),
  concat chunks = b -> concat copied = b ->
  f_db (foldl fs_apply (FS old tmp) (write_steps same chunks copied)) = Some b.
Proof. exact write_all. Qed.
Print Assumptions C30_completed_write_is_complete.

Theorem C30_copying_passes_through_every_prefix :
  forall (chunks copied : list bytes) (old tmp : option bytes) (k : nat),
  k <= length copied ->
  f_db (foldl fs_apply (FS old tmp) (take (2 + length chunks + k) (write_steps false chunks copied)))
    = Some (concat (take k copied)).
Proof. exact copy_partial. Qed.
Print Assumptions C30_copying_passes_through_every_prefix.

Theorem C30_copying_is_atomic_refuted :
  forall (b : bytes) (old tmp : option bytes), b <> [] -> old <> Some [] -> exists chunks copied n,
  concat chunks = b /\ concat copied = b /\
  let s := foldl fs_apply (FS old tmp) (take n (write_steps false chunks copied)) in
  f_db s <> old /\ f_db s <> Some b.
Proof. exact copy_not_atomic. Qed.
Print Assumptions C30_copying_is_atomic_refuted.

Theorem C30_crash_while_copying_loses_everything :
  forall (A : num) (c : codec) (o : pickle_obj A) (chunks copied : list bytes) (t : pstate)
         (old tmp : option bytes) (k : nat),
  codec_ok c -> concat chunks = dumps c t -> concat copied = dumps c t -> k <= length copied ->
  concat (take k copied) <> dumps c t ->
  let s := foldl fs_apply (FS old tmp) (take (2 + length chunks + k) (write_steps false chunks copied)) in
  exists o1, pickle_load c None (f_db s) o = (o1, Ok tt) /\ o_store o1 = ∅ /\
    o_nspam o1 = 0%Z /\ o_nham o1 = 0%Z.
Proof. exact @copy_crash_empty. Qed.
Print Assumptions C30_crash_while_copying_loses_everything.

(** Right after the truncation nothing was copied, and no pickle is empty. *)
Example C30_case (c : codec) (t : pstate) : codec_ok c ->
  0 <= length [dumps c t] /\ concat (take 0 [dumps c t]) <> dumps c t.
Proof. intros Hc. split; [apply Nat.le_0_l|]. intros E. by apply (dumps_nonempty c t Hc). Qed.

(** ** C31 *)
Theorem C31_mutual_exclusion :
  forall (plan : nat -> bytes -> list fstep) (v0 : option bytes) (progs : nat -> prog) (ms : list move) (i j : nat),
  plan_ok plan ->
  let s := sys_run plan ms (sys_init v0 progs) in
  in_critical (sys_procs s i) -> in_critical (sys_procs s j) -> i = j.
Proof. intros plan v0 progs ms i j Hp. exact (mutual_exclusion plan Hp v0 progs ms i j). Qed.
Print Assumptions C31_mutual_exclusion.

Theorem C31_file_is_an_atomic_register :
  forall (plan : nat -> bytes -> list fstep) (v0 : option bytes) (progs : nat -> prog) (ms : list move),
  plan_ok plan -> register_history v0 (sys_log (sys_run plan ms (sys_init v0 progs))).
Proof. intros plan v0 progs ms Hp. exact (atomic_register plan Hp v0 progs ms). Qed.
Print Assumptions C31_file_is_an_atomic_register.

Theorem C31_no_update_is_lost_refuted :
  forall (A : num) (c : codec) (it : set_order) (o : pickle_obj A) (m0 m1 : stream),
  codec_ok c -> set_order_ok it -> exists plan ms, plan_ok plan /\
  let s := sys_run plan ms (sys_init (Some (pickle c o))
                              (two (train_prog A c it m0 true) (train_prog A c it m1 true))) in
  (forall i, sys_procs s i = Ready PDone) /\
  (exists b0 b1, sys_log s = [EvRead 0 (Ok (pickle c o)); EvRead 1 (Ok (pickle c o));
                              EvWrite 0 b0; EvWrite 1 b1]) /\
  exists b (o' : pickle_obj A), sys_db s = Some b /\ unpickle c b = Ok o' /\ o_nspam o' = (o_nspam o + 1)%Z.
Proof. intros A c it o m0 m1 Hc Hit. exact (lost_update c Hc it Hit o m0 m1). Qed.
Print Assumptions C31_no_update_is_lost_refuted.

(** The same two processes one after the other: both updates arrive. *)
Theorem C31_serial_updates_arrive :
  forall (A : num) (c : codec) (it : set_order) (o : pickle_obj A) (m0 m1 : stream),
  codec_ok c -> set_order_ok it -> exists plan ms, plan_ok plan /\
  let s := sys_run plan ms (sys_init (Some (pickle c o))
                              (two (train_prog A c it m0 true) (train_prog A c it m1 true))) in
  (forall i, sys_procs s i = Ready PDone) /\
  exists b (o' : pickle_obj A), sys_db s = Some b /\ unpickle c b = Ok o' /\ o_nspam o' = (o_nspam o + 2)%Z.
Proof. intros A c it o m0 m1 Hc Hit. exact (serial_updates c Hc it Hit o m0 m1). Qed.
Print Assumptions C31_serial_updates_arrive.

Theorem C31_dead_holder_blocks_everybody :
  forall (plan : nat -> bytes -> list fstep) (v0 : option bytes) (progs : nat -> prog)
         (ms : list move) (i : nat) (ms' : list move),
  plan_ok plan ->
  let s := sys_run plan ms (sys_init v0 progs) in
  in_critical (sys_procs s i) ->
  let s' := sys_run plan (MKill i :: ms') s in
  sys_lock s' = Some i /\ sys_db s' = sys_db s /\ sys_log s' = sys_log s /\
  forall j, only_waits (sys_procs s j) (sys_procs s' j).
Proof. intros plan v0 progs ms i ms' Hp. exact (dead_holder_blocks plan Hp v0 progs ms i ms'). Qed.
Print Assumptions C31_dead_holder_blocks_everybody.

(** A process can get inside, and die there. *)
Example C31_case : plan_ok plan1 /\
  in_critical (sys_procs (sys_run plan1 [MStep 0 0] (sys_init None (two (PRead (fun _ => PDone)) PDone))) 0).
Proof. split; [apply plan1_ok|done]. Qed.

(** ** C33 *)
Theorem C33_unpickled_classifier_cannot_be_used :
  forall (A : num) (c : codec) (it : set_order) (o : pickle_obj A), codec_ok c -> exists o2,
  unpickle (A:=A) c (pickle c o) = Ok o2 /\
  o_store o2 = o_store o /\ o_nspam o2 = o_nspam o /\ o_nham o2 = o_nham o /\
  forall s b, learn mem_backend it s b o2 = (o2, Err AttributeError) /\
    unlearn mem_backend it s b o2 = (o2, Err AttributeError) /\
    spamprob mem_backend it s o2 = (o2, Err AttributeError) /\
    spamprob_evidence mem_backend it s o2 = (o2, Err AttributeError).
Proof. intros A c it o Hc. exact (unpickled_useless c Hc it o). Qed.
Print Assumptions C33_unpickled_classifier_cannot_be_used.

Theorem C33_unknown_version_raises :
  forall (A : num) (c : codec) (b : bytes) (t : pstate),
  loads c b = Some t -> p_version t <> PICKLE_VERSION -> unpickle (A:=A) c b = Err ValueError.
Proof. exact @unknown_version. Qed.
Print Assumptions C33_unknown_version_raises.

Example C33_case : exists b t, loads unary_codec b = Some t /\ p_version t <> PICKLE_VERSION.
Proof.
  exists (dumps unary_codec (PState 4 ∅ 0 0)), (PState 4 ∅ 0 0). split; [|done].
  apply (proj1 unary_codec_ok).
Qed.
