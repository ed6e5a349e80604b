(** * Specification for C143: what is retrieved for a URL and what is answered *)
From Coq Require Import String.
From Verif Require Import Py FetchModel.
Local Open Scope N_scope.

(** A colon, a slash and a backslash end the name of a host. *)
Definition ends_host (c : N) : Prop := c = 58 \/ c = 47 \/ c = 92.

(** The digits at the beginning of a text, all of them and at least one *)
Definition leading_digits (is_digit : N -> bool) (s n r : codes) : Prop :=
  s = n ++ r /\ n <> [] /\ Forall (fun c => is_digit c = true) n /\ forall c r', r = c :: r' -> is_digit c = false.
Definition no_leading_digit (is_digit : N -> bool) (s : codes) : Prop :=
  forall c r, s = c :: r -> is_digit c = false.

(** The host and the port that a URL names *)
Definition names_host (is_digit : N -> bool) (url d : codes) (port : option codes) : Prop :=
  exists rest, url = d ++ rest /\ d <> [] /\ Forall (fun c => ~ ends_host c) d /\
    (rest = [] \/ exists c r, rest = c :: r /\ ends_host c) /\
    match port with
    | Some n => exists s r, rest = 58 :: s /\ leading_digits is_digit s n r
    | None => forall s, rest = 58 :: s -> no_leading_digit is_digit s
    end.

(** What stands behind the last dot *)
Definition last_piece (url e : codes) : Prop := 46 ∉ e /\ (url = e \/ exists a, url = a ++ 46 :: e).
Definition not_html_pieces : list codes := [str "jpg"; str "gif"; str "png"; str "css"; str "js"].

(** Nothing is remembered about the URL. *)
Definition unknown_url (c : caches) (url : codes) : Prop :=
  url <> [] /\ url ∉ c_non_resolving c /\ url ∉ c_non_html c /\ url ∉ c_unknown c /\ c_http c !! url = None.

(** The text of a failure with a status *)
Definition has_status (is_digit : N -> bool) (text n : codes) : Prop :=
  exists s r, text = str "HTTP Error " ++ s /\ leading_digits is_digit s n r.

Definition is_html (ct : option codes) : Prop := exists r, ct = Some (str "text/html" ++ r).
