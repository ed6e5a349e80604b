(** * Properties C60-C63 and C68: hosts, networks, timeouts, memoisation *)
From Coq Require Import String.
From Verif Require Import Py NetModel NetSpec NetProofs IpProofs DnsProofs NetCases.

(** ** C60 *)
Theorem C60_host_tokens_are_the_suffixes :
  forall host,
  (forall t, t ∈ breakdown_host host <-> dot_suffix t host) /\
  longer_and_longer (breakdown_host host) /\
  length (breakdown_host host) = S (dots host) /\
  last (breakdown_host host) = Some host.
Proof. exact host_tokens. Qed.
Print Assumptions C60_host_tokens_are_the_suffixes.

Theorem C60_address_tokens_are_the_prefixes :
  forall addr,
  length (breakdown_ipaddr addr) = 4 /\
  (forall i t, breakdown_ipaddr addr !! i = Some t ->
     dot_prefix t addr /\ dots t = min i (dots addr)) /\
  (forall t t', dot_prefix t addr -> dot_prefix t' addr -> dots t = dots t' -> t = t') /\
  (forall a b c d, octet a -> octet b -> octet c -> octet d -> addr = quad a b c d ->
     last (breakdown_ipaddr addr) = Some addr).
Proof. exact address_tokens. Qed.
Print Assumptions C60_address_tokens_are_the_prefixes.

Theorem C60_top_two_labels :
  forall s, dot_suffix (top_two s) s /\ dots (top_two s) = min 1 (dots s).
Proof. exact top_two_spec. Qed.
Print Assumptions C60_top_two_labels.

Example C60_case :
  breakdown_host (str "mail.example.org") = [str "org"; str "example.org"; str "mail.example.org"] /\
  breakdown_ipaddr (str "10.1.2.3") = [str "10"; str "10.1"; str "10.1.2"; str "10.1.2.3"] /\
  breakdown_host (str ".org") = [str "org"; str ".org"] /\
  str "10.1.2.3" = quad 10 1 2 3.
Proof. split_and!; by vm_compute. Qed.

(** ** C61 *)
Theorem C61_clues_of_an_address :
  forall other prefix a b c d, octet a -> octet b -> octet c -> octet d ->
  gen_dotted_quad_clues other prefix (quad a b c d) =
    ([prefix ++ str ":" ++ quad a 0 0 0 ++ str "/8"; prefix ++ str ":" ++ quad a b 0 0 ++ str "/16";
      prefix ++ str ":" ++ quad a b c 0 ++ str "/24"; prefix ++ str ":" ++ quad a b c d ++ str "/32"], None).
Proof. exact quad_clues. Qed.
Print Assumptions C61_clues_of_an_address.

Theorem C61_equal_clues_exactly_for_equal_leading_octets :
  forall other prefix a b c d a' b' c' d',
  octet a -> octet b -> octet c -> octet d -> octet a' -> octet b' -> octet c' -> octet d' ->
  let l := fst (gen_dotted_quad_clues other prefix (quad a b c d)) in
  let l' := fst (gen_dotted_quad_clues other prefix (quad a' b' c' d')) in
  (l !! 0 = l' !! 0 <-> a = a') /\
  (l !! 1 = l' !! 1 <-> a = a' /\ b = b') /\
  (l !! 2 = l' !! 2 <-> a = a' /\ b = b' /\ c = c') /\
  (l !! 3 = l' !! 3 <-> a = a' /\ b = b' /\ c = c' /\ d = d').
Proof. exact clues_agree. Qed.
Print Assumptions C61_equal_clues_exactly_for_equal_leading_octets.

Theorem C61_subnets_are_nested_blocks :
  forall addr len len' x, (addr < 2 ^ 32)%N -> (len <= len')%N -> (len' <= 32)%N ->
  (let n := make_net addr len in (n_addr n <= x < n_addr n + 2 ^ (32 - len))%N <-> in_block addr len x) /\
  in_block addr len addr /\
  (in_block addr len' x -> in_block addr len x).
Proof. exact nested_blocks. Qed.
Print Assumptions C61_subnets_are_nested_blocks.

Theorem C61_same_subnet_exactly_for_same_leading_bits :
  forall a b len, (len <= 32)%N -> (a < 2 ^ 32)%N -> (b < 2 ^ 32)%N ->
  (make_net a len = make_net b len <-> (a / 2 ^ (32 - len) = b / 2 ^ (32 - len))%N).
Proof. exact same_net. Qed.
Print Assumptions C61_same_subnet_exactly_for_same_leading_bits.

Theorem C61_prefix_lengths_are_ignored :
  forall other s p q, subnets other s p = subnets other s q.
Proof. exact subnets_same. Qed.
Print Assumptions C61_prefix_lengths_are_ignored.

Example C61_case :
  octet 10 /\ octet 255 /\
  fst (subnets (fun _ _ => Err ValueError) (str "10.1.255.3") (Some [5%N]))
  = [str "10.0.0.0/8"; str "10.1.0.0/16"; str "10.1.255.0/24"; str "10.1.255.3/32"] /\
  in_block 167902979 20 167903000.
Proof. split_and!; try done; by vm_compute. Qed.

(** ** C62 *)
Theorem C62_timeout_restored :
  forall {W V} (empty : V) (f : M (W * timeout) V) w t,
  let '(s', r) := timed empty f (w, t) in
  let '(s1, r1) := f (w, Some 10%Z) in
  s' = (s1.1, t) /\
  (forall v, r = Ok v <-> r1 = Ok v \/ (r1 = Err SocketTimeout /\ v = empty)) /\
  (forall e, r = Err e <-> r1 = Err e /\ e <> SocketTimeout).
Proof. intros W V. exact timed_spec. Qed.
Print Assumptions C62_timeout_restored.

Theorem C62_reverse_lookup :
  forall {W} (gethostbyaddr : codes -> M (W * timeout) codes) a w t,
  let '(s', r) := reverse_dns_lookup gethostbyaddr a (w, t) in
  let '(s1, r1) := gethostbyaddr a (w, Some 10%Z) in
  s' = (s1.1, t) /\
  match r1 with
  | Ok name => r = Ok [name]
  | Err e => if decide (e = SocketTimeout \/ e = herror) then r = Ok [] else r = Err e
  end.
Proof. intros W. exact reverse_dns_spec. Qed.
Print Assumptions C62_reverse_lookup.

Theorem C62_lookup :
  forall {W} (getaddrinfo : codes -> M (W * timeout) (list codes)) a w t,
  let '(s', r) := dns_lookup getaddrinfo a (w, t) in
  let '(s1, r1) := getaddrinfo a (w, Some 10%Z) in
  s' = (s1.1, t) /\
  match r1 with
  | Ok l => exists l', r = Ok l' /\ NoDup l' /\ forall x, x ∈ l' <-> x ∈ l
  | Err e => if decide (e = SocketTimeout) then r = Ok [] else r = Err e
  end.
Proof. intros W. exact dns_spec. Qed.
Print Assumptions C62_lookup.

Theorem C62_properly_nested_calls_restore_the_timeout :
  forall sched, nested sched -> forall s,
  (forall i, i ∈ sched -> ts_threads s !! i = Some TBefore) ->
  ts_timeout (trun sched s) = ts_timeout s /\
  (forall i, i ∈ sched -> ts_threads (trun sched s) !! i = Some TAfter) /\
  (forall i, i ∉ sched -> ts_threads (trun sched s) !! i = ts_threads s !! i).
Proof. exact nested_run. Qed.
Print Assumptions C62_properly_nested_calls_restore_the_timeout.

Theorem C62_no_third_timeout_under_any_schedule :
  forall sched t0 n,
  let s := trun sched (TSys t0 (replicate n TBefore)) in
  ts_timeout s = t0 \/ ts_timeout s = Some 10%Z.
Proof. exact trun_values. Qed.
Print Assumptions C62_no_third_timeout_under_any_schedule.

Theorem C62_overlapping_calls_restore_the_timeout_refuted :
  forall t0 n, t0 <> Some 10%Z -> exists sched,
  let s := trun sched (TSys t0 (replicate (2 + n) TBefore)) in
  (forall i, i ∈ sched -> ts_threads s !! i = Some TAfter) /\ ts_timeout s <> t0.
Proof. exact crossing. Qed.
Print Assumptions C62_overlapping_calls_restore_the_timeout_refuted.

Example C62_case :
  nested [0; 1; 1; 1; 0; 2; 2; 2; 0] /\
  ts_timeout (trun [0; 1; 1; 1; 0; 2; 2; 2; 0] (TSys None (replicate 3 TBefore))) = None /\
  reverse_dns_lookup (fun a s => ((fst s, Some 3%Z), Err gaierror)) (str "x") (tt, None) = ((tt, None), Err gaierror).
Proof. exact c62_case. Qed.

(** ** C63 *)
Theorem C63_pure_functions_unchanged :
  forall {K V} `{Countable K} (f : K -> body K V unit) k r,
  plain f tt k tt r <-> exists d l, memo f tt ∅ k tt d r l.
Proof. intros K V EK CK. exact memo_pure. Qed.
Print Assumptions C63_pure_functions_unchanged.

Theorem C63_pure_functions_unchanged_in_sequences :
  forall {K V} `{Countable K} (f : K -> body K V unit) ks d rs l,
  memo_calls f tt ∅ ks tt d rs l -> Forall2 (fun k r => plain f tt k tt r) ks rs.
Proof. intros K V EK CK. exact memo_calls_pure. Qed.
Print Assumptions C63_pure_functions_unchanged_in_sequences.

Theorem C63_first_result_is_kept :
  forall {K V} `{Countable K} {W} (f : K -> body K V W), (forall k, flat (f k)) ->
  forall w ks w' d rs entered, memo_calls f w ∅ ks w' d rs entered ->
  length rs = length ks /\
  (forall i j k v, i <= j -> returned ks rs i k v -> ks !! j = Some k -> rs !! j = Some (Ok v)) /\
  entered = unanswered [] ks rs /\
  (forall k v, d !! k = Some v <-> exists i, returned ks rs i k v).
Proof. intros K V EK CK W. exact memo_first. Qed.
Print Assumptions C63_first_result_is_kept.

Example C63_case :
  (forall k, flat (counting k)) /\
  memo_calls counting 0 ∅ [5; 5; 0; 0; 5] 3 {[5 := 1]} [Ok 1; Ok 1; Err ValueError; Err ValueError; Ok 1] [5; 0; 0].
Proof. exact c63_case. Qed.

Example C63_case_recursive :
  plain factorial tt 3 tt (Ok 6).
Proof. exact factorial_3. Qed.

(** ** C68 *)
Theorem C68_nntp_headers :
  forall {W} (ipv6 : codes -> bool) (gethostbyaddr : codes -> M (W * timeout) codes)
    (getaddrinfo : codes -> M (W * timeout) (list codes)) (other : codes -> N -> res codes) hs w t,
  let '(s', (l, e)) := nntp_tokens ipv6 gethostbyaddr getaddrinfo other hs (w, t) in
  s'.2 = t /\
  (e = None -> exists a hs', hs = a :: hs' /\ parse_ipv4 a = None /\ ipv6 a = false
      /\ ((getaddrinfo a (w, Some 10%Z)).2 = Ok [] \/ (getaddrinfo a (w, Some 10%Z)).2 = Err SocketTimeout)
      /\ l = [str "nntp-host-name:" ++ a; str "nntp-host-domain:" ++ top_two a]) /\
  (forall x, e = Some x -> l = [] /\
     (x = TypeError \/ exists a hs', hs = a :: hs' /\ (getaddrinfo a (w, Some 10%Z)).2 = Err x)) /\
  (hs = [] -> e = Some TypeError) /\
  (forall a hs', hs = a :: hs' -> is_Some (parse_ipv4 a) \/ ipv6 a = true -> e = Some TypeError) /\
  (forall a hs' y ys, hs = a :: hs' -> parse_ipv4 a = None -> ipv6 a = false ->
     (getaddrinfo a (w, Some 10%Z)).2 = Ok (y :: ys) -> e = Some TypeError) /\
  (forall a hs' x, hs = a :: hs' -> parse_ipv4 a = None -> ipv6 a = false ->
     (getaddrinfo a (w, Some 10%Z)).2 = Err x -> e = if decide (x = SocketTimeout) then None else Some x) /\
  (forall a hs', hs = a :: hs' -> parse_ipv4 a = None -> ipv6 a = false ->
     (getaddrinfo a (w, Some 10%Z)).2 = Ok [] -> e = None).
Proof. intros W. exact nntp_spec. Qed.
Print Assumptions C68_nntp_headers.

Theorem C68_what_an_ipv4_address_is :
  forall s, is_Some (parse_ipv4 s) <->
  exists a b c d, octet a /\ octet b /\ octet c /\ octet d /\ s = quad a b c d.
Proof. exact ipv4_texts. Qed.
Print Assumptions C68_what_an_ipv4_address_is.

Example C68_case :
  parse_ipv4 (str "news.example.org") = None /\
  nntp_tokens (fun _ => false) (fun _ => merr herror) (fun _ => merr SocketTimeout)
    (fun _ _ => Err ValueError) [str "news.example.org"] (tt, None)
  = ((tt, None), ([str "nntp-host-name:news.example.org"; str "nntp-host-domain:example.org"], None)).
Proof. split; by vm_compute. Qed.
