(** * Specification of UTF-8 *)
From Verif Require Import Py.
Local Open Scope N_scope.

(** A byte after the first one of a character *)
Definition tail_byte (b : N) : Prop := 128 <= b <= 191.

Definition surrogate (c : N) : Prop := 55296 <= c <= 57343.

(** The characters and the bytes that encode them. *)
Inductive char_bytes : N -> codes -> Prop :=
  | one_byte c : c <= 127 -> char_bytes c [c]
  | two_bytes a b c : 192 <= a <= 223 -> tail_byte b -> c = (a - 192) * 64 + (b - 128) -> 128 <= c -> char_bytes c [a; b]
  | three_bytes a b d c : 224 <= a <= 239 -> tail_byte b -> tail_byte d ->
      c = (a - 224) * 4096 + (b - 128) * 64 + (d - 128) -> 2048 <= c -> ~ surrogate c -> char_bytes c [a; b; d]
  | four_bytes a b d e c : 240 <= a <= 244 -> tail_byte b -> tail_byte d -> tail_byte e ->
      c = (a - 240) * 262144 + (b - 128) * 4096 + (d - 128) * 64 + (e - 128) -> 65536 <= c <= 1114111 -> char_bytes c [a; b; d; e].

(** The text s is written in these bytes. *)
Inductive text_bytes : codes -> codes -> Prop :=
  | text_nil : text_bytes [] []
  | text_cons c s b r : char_bytes c b -> text_bytes s r -> text_bytes (c :: s) (b ++ r).

(** Code points that Python strings can have *)
Definition code_point (c : N) : Prop := c <= 1114111.

(** A text token yields its bytes, a bytes token stays. *)
Definition as_bytes (w : pyword) (b : codes) : Prop := (exists s, w = WStr s /\ text_bytes s b) \/ w = WBytes b.

(** Text tokens consist of code points. *)
Definition word_points (w : pyword) : Prop := forall s, w = WStr s -> Forall code_point s.

(** The token w cannot be turned into bytes. *)
Definition not_bytes (w : pyword) (e : exn) : Prop :=
  (exists s c, w = WStr s /\ c ∈ s /\ surrogate c /\ e = UnicodeEncodeError) \/ (w = WNone /\ e = TypeError).

Definition is_text (w : pyword) : Prop := exists s, w = WStr s.
