(** * Edge cases of C48, C54 and C61 *)
From Coq Require Import String.
From Verif Require Import Py NumModel MessageModel MessageSpec WriteSpec WriteProofs NetModel NetSpec EdgeSpec EdgeProofs.

(** ** C48 *)
Theorem C48_names_in_lower_case : forall k n, small n -> (lower k = n <-> spelled k n).
Proof. exact spelled_lower. Qed.
Print Assumptions C48_names_in_lower_case.

(** ** C54 *)
Theorem C54_line_breaks_of_the_exception_field :
  forall (hdr : codes -> codes) s ls id h b, blank_line_at s h b -> exists t,
  insert_exception_header hdr s ls id = h ++ [10%N] ++ exception_fields t id ++ [13; 10]%N ++ b /\
  no_bare_newline t /\ no_cr t = no_cr (hdr (join [10; 32]%N ls)).
Proof. exact exception_field. Qed.
Print Assumptions C54_line_breaks_of_the_exception_field.

Example C54_line_breaks_case :
  blank_line_at (str "a" ++ [10; 10]%N ++ str "b") (str "a") (str "b") /\
  insert_exception_header (fun s => s ++ [10%N]) (str "a" ++ [10; 10]%N ++ str "b") [str "x"; str "y" ++ [13%N]] None =
    str "a" ++ [10%N] ++ exception_fields (str "x" ++ [13; 10; 32]%N ++ str "y" ++ [13; 10]%N) None ++ [13; 10]%N ++ str "b".
Proof. exact line_breaks_case. Qed.

(** ** C61 *)
Theorem C61_texts_that_are_no_addresses :
  forall other prefix s, (forall a b c d, octet a -> octet b -> octet c -> octet d -> s <> quad a b c d) ->
  let '(l, e) := gen_dotted_quad_clues other prefix s in
  (forall i t, l !! i = Some t -> exists n u, [8; 16; 24; 32]%N !! i = Some n /\ other s n = Ok u /\ t = prefix ++ str ":" ++ u) /\
  (e = None -> length l = 4) /\
  (forall x, e = Some x -> exists n, [8; 16; 24; 32]%N !! length l = Some n /\ other s n = Err x).
Proof. exact other_clues. Qed.
Print Assumptions C61_texts_that_are_no_addresses.

Example C61_other_case :
  (forall a b c d, octet a -> octet b -> octet c -> octet d -> str "1.2.3.04" <> quad a b c d) /\
  gen_dotted_quad_clues (fun _ _ => Err ValueError) (str "url-ip") (str "1.2.3.04") = ([], Some ValueError).
Proof. exact no_address_case. Qed.
