(** * Models of iputils.py, dnsutils.py and the host helpers of tokenizer.py
    Simplifications: of the standard library's ipaddress module the IPv4 part is
    modelled (dotted quads of decimal octets, leading zeros rejected, as since
    Python 3.9.5); what it does with any other text is a parameter. *)
From Coq Require Import String.
From Verif Require Import Py.
Local Open Scope N_scope.

(** ** Splitting and joining at dots *)

(** [s.split('.')], tokenizer.py:1038, 1044, 1595 *)
Fixpoint split_dot (s : codes) : list codes :=
  match s with
  | [] => [[]]
  | c :: s =>
      if c =? 46 then [] :: split_dot s
      else match split_dot s with
           | p :: ps => (c :: p) :: ps
           | [] => [[c]]
           end
  end.

(** ['.'.join(l)], tokenizer.py:1040, 1046, 1595 *)
Fixpoint join_dot (l : list codes) : codes :=
  match l with
  | [] => []
  | [p] => p
  | p :: l => p ++ 46 :: join_dot l
  end.

(** [l[-i:]] for i > 0, tokenizer.py:1040, 1595 *)
Definition last_n {A} (i : nat) (l : list A) : list A := drop (length l - i) l.

(** tokenizer.py:1037-1040, breakdown_host *)
Definition breakdown_host (host : codes) : list codes :=
  let parts := split_dot host in
  (fun i => join_dot (last_n i parts)) <$> seq 1 (length parts).

(** tokenizer.py:1043-1046, breakdown_ipaddr *)
Definition breakdown_ipaddr (ipaddr : codes) : list codes :=
  let parts := split_dot ipaddr in
  (fun i => join_dot (take i parts)) <$> seq 1 4.

(** tokenizer.py:1586-1595, top_two *)
Definition top_two (name : codes) : codes := join_dot (last_n 2 (split_dot name)).

(** ** IPv4 addresses and networks, as used at iputils.py:30 *)

(** A decimal octet of a dotted quad, iputils.py:30 *)
Definition is_digit (c : N) : bool := (48 <=? c) && (c <=? 57).
(** Its value, iputils.py:30 *)
Definition octet_value (s : codes) : N := foldl (fun n c => 10 * n + (c - 48)) 0 s.
(** Parsing it, iputils.py:30 *)
Definition parse_octet (s : codes) : option N :=
  match s with
  | [] => None
  | c :: r =>
      if forallb is_digit s && (length s <=? 3)%nat && negb ((c =? 48) && (0 <? length r)%nat)
         && (octet_value s <=? 255)
      then Some (octet_value s) else None
  end.

(** A dotted quad as a 32-bit number, iputils.py:30 *)
Definition parse_ipv4 (s : codes) : option N :=
  match split_dot s with
  | [a; b; c; d] =>
      match parse_octet a, parse_octet b, parse_octet c, parse_octet d with
      | Some a, Some b, Some c, Some d => Some (a * 2 ^ 24 + b * 2 ^ 16 + c * 2 ^ 8 + d)
      | _, _, _, _ => None
      end
  | _ => None
  end.

(** [str(IPv4Address(n))], iputils.py:18, 30 *)
Definition show_ipv4 (n : N) : codes :=
  digits (n / 2 ^ 24 mod 256) ++ 46 :: digits (n / 2 ^ 16 mod 256) ++ 46 ::
  digits (n / 2 ^ 8 mod 256) ++ 46 :: digits (n mod 256).

(** An IPv4Network: network address and prefix length, iputils.py:30 *)
Record net4 := Net4 { n_addr : N; n_len : N }.

(** The netmask of a prefix length, iputils.py:30 *)
Definition netmask (len : N) : N := N.shiftl (N.ones len) (32 - len).

(** [IPv4Network('{}/{}'.format(address, len), strict=False)]: the host bits are
    cleared, iputils.py:30 *)
Definition make_net (addr len : N) : net4 := Net4 (N.land addr (netmask len)) len.

(** [str(network)], iputils.py:18 *)
Definition show_net (n : net4) : codes := show_ipv4 (n_addr n) ++ 47 :: digits (n_len n).

Section ip.
  (** ip_network on a text that is no dotted quad (an IPv6 network or an
      exception), iputils.py:30 *)
  Context (other : codes -> N -> res codes).

  (** The text of ip_network('{}/{}'.format(address, n), strict=False),
      iputils.py:18, 30 *)
  Definition net_text (address : codes) (n : N) : res codes :=
    match parse_ipv4 address with
    | Some a => Ok (show_net (make_net a n))
    | None => other address n
    end.

  (** A generator: the values it yields, and the exception that ends it, if
      any. (iputils.py:31) *)
  Fixpoint gen_map {X Y} (f : X -> res Y) (xs : list X) : list Y * option exn :=
    match xs with
    | [] => ([], None)
    | x :: xs => match f x with
                 | Ok y => let '(ys, e) := gen_map f xs in (y :: ys, e)
                 | Err e => ([], Some e)
                 end
    end.

  (** iputils.py:21-31, subnets, as texts; the argument prefix_lengths is
      assigned at lines 22-23 and not used afterwards *)
  Definition subnets (address : codes) (prefix_lengths : option (list N)) : list codes * option exn :=
    let _ := default [8; 16; 24; 32] prefix_lengths in
    gen_map (net_text address) [8; 16; 24; 32].

  (** iputils.py:17-18, gen_dotted_quad_clues *)
  Definition gen_dotted_quad_clues (prefix address : codes) : list codes * option exn :=
    let '(l, e) := subnets address None in ((fun x => prefix ++ 58 :: x) <$> l, e).
End ip.

(** ** dnsutils.py *)

(** dnsutils.py:7 *)
Definition DEFAULT_TIMEOUT : Z := 10.

(** The default timeout of the socket module; None: no timeout (dnsutils.py:14-15) *)
Notation timeout := (option Z).

Section timed.
  (** The world a wrapped function acts on, besides the default timeout. *)
  Context {W V : Type}.

  (** dnsutils.py:10-21, timed: [f] gets the world and the default timeout, may
      change both, and returns or raises; [empty] is the tuple () of line 18 *)
  Definition timed (empty : V) (f : M (W * timeout) V) : M (W * timeout) V := fun '(w, old_timeout) =>
    let '((w', _), r) := f (w, Some DEFAULT_TIMEOUT) in
    ((w', old_timeout),
     match r with
     | Err SocketTimeout => Ok empty
     | r => r
     end).
End timed.

(** socket.herror and socket.gaierror, dnsutils.py:45, 52 *)
Definition herror : exn := OtherError 2.
(** socket.gaierror, dnsutils.py:52 *)
Definition gaierror : exn := OtherError 3.

(** dnsutils.py:41-46, reverse_dns_lookup; [gethostbyaddr] gives the first
    component of the triple *)
Definition reverse_dns_lookup {W} (gethostbyaddr : codes -> M (W * timeout) codes) (address : codes) :
    M (W * timeout) (list codes) :=
  timed [] (fun s =>
    match gethostbyaddr address s with
    | (s, Ok name) => (s, Ok [name])
    | (s, Err e) => if decide (e = herror) then (s, Ok []) else (s, Err e)
    end).

(** dnsutils.py:49-52, dns_lookup; [getaddrinfo] gives the addresses.  The
    result is a set, here any list of its elements. *)
Definition dns_lookup {W} (getaddrinfo : codes -> M (W * timeout) (list codes)) (name : codes) :
    M (W * timeout) (list codes) :=
  timed [] (fun s =>
    match getaddrinfo name s with
    | (s, Ok l) => (s, Ok (remove_dups l))
    | (s, Err e) => (s, Err e)
    end).

(** *** Several threads inside timed functions *)

(** Where a thread is: before line 14, between 14 and 15 (with the value read),
    in the wrapped function (line 16), past line 20. dnsutils.py:12-21 *)
Inductive tphase := TBefore | TRead (old : timeout) | TInside (old : timeout) | TAfter.

(** The default timeout and the threads, dnsutils.py:12-21 *)
Record tsys := TSys { ts_timeout : timeout; ts_threads : list tphase }.

(** One step of thread i; the wrapped function does not change the default
    timeout. dnsutils.py:14, 15, 20 *)
Definition tstep (s : tsys) (i : nat) : tsys :=
  match ts_threads s !! i with
  | Some TBefore => TSys (ts_timeout s) (<[i := TRead (ts_timeout s)]> (ts_threads s))
  | Some (TRead old) => TSys (Some DEFAULT_TIMEOUT) (<[i := TInside old]> (ts_threads s))
  | Some (TInside old) => TSys old (<[i := TAfter]> (ts_threads s))
  | Some TAfter | None => s
  end.

(** dnsutils.py:12-21 under a schedule *)
Definition trun (sched : list nat) (s : tsys) : tsys := foldl tstep s sched.

(** *** mine_nntp *)

Section nntp.
  Context {W : Type}.
  (** Is a text an IPv6 address?  tokenizer.py:1578 *)
  Context (ipv6 : codes -> bool).
  (** The resolver, dnsutils.py:44, 52 *)
  Context (gethostbyaddr : codes -> M (W * timeout) codes).
  Context (getaddrinfo : codes -> M (W * timeout) (list codes)).

  (** An argument of socket.gethostbyaddr: a text, or an address object, which
      it does not accept. (dnsutils.py:44, tokenizer.py:1578, 1600) *)
  Definition gethostbyaddr_arg (x : codes + unit) : M (W * timeout) codes :=
    match x with inl s => gethostbyaddr s | inr _ => merr TypeError end.

  (** dnsutils.py:41-46 for such an argument *)
  Definition reverse_dns_lookup_arg (x : codes + unit) : M (W * timeout) (list codes) :=
    reverse_dns_lookup (fun _ => gethostbyaddr_arg x) [].

  (** tokenizer.py:1598-1606, clues_from_ipaddress, whose argument is an address
      object (line 1578); [text] is its text.  The first component of the result is
      what iterating over it gives. *)
  Definition clues_from_ipaddress (other : codes -> N -> res codes) (text : codes) :
      M (W * timeout) (list codes * option exn) :=
    mbind (reverse_dns_lookup_arg (inr tt)) (fun names =>
      let '(l, e) := gen_dotted_quad_clues other (str "nntp-host") text in
      mret (match e with
            | Some _ => (l, e)
            | None => (l ++ match names with
                            | [] => []
                            | n :: _ => [str "nntp-host-ip:has-reverse"; str "nntp-host-name:" ++ n;
                                         str "nntp-host-domain:" ++ top_two n]
                            end, None)
            end)).

  (** tokenizer.py:1609-1621, clues_from_domainname: a set cannot be indexed
      (line 1619) *)
  Definition clues_from_domainname (name : codes) : M (W * timeout) (list codes * option exn) :=
    mbind (dns_lookup getaddrinfo name) (fun addresses =>
      match addresses with
      | [] => mret ([str "nntp-host-name:" ++ name; str "nntp-host-domain:" ++ top_two name], None)
      | _ :: _ => merr TypeError
      end).

  (** tokenizer.py:1573-1583, mine_nntp; [hs] are the values of the headers *)
  Definition mine_nntp (other : codes -> N -> res codes) (hs : list codes) :
      M (W * timeout) (option (list codes * option exn)) :=
    match hs with
    | [] => mret None
    | a :: _ =>
        if (match parse_ipv4 a with Some _ => true | None => ipv6 a end)
        then mbind (clues_from_ipaddress other a) (fun l => mret (Some l))
        else mbind (clues_from_domainname a) (fun l => mret (Some l))
    end.

  (** tokenizer.py:1386-1388: the loop over the result; iterating over None is a
      TypeError.  The result is the tokens generated and the exception, if any. *)
  Definition nntp_tokens (other : codes -> N -> res codes) (hs : list codes) (s : W * timeout) :
      (W * timeout) * (list codes * option exn) :=
    match mine_nntp other hs s with
    | (s, Ok (Some l)) => (s, l)
    | (s, Ok None) => (s, ([], Some TypeError))
    | (s, Err e) => (s, ([], Some e))
    end.
End nntp.

(** *** memoize *)

Section memoize.
  Context {K V : Type} `{Countable K}.

  (** The wrapped function, dnsutils.py:34: it may call the memoised function
      again (and catch its exceptions) before it returns or raises, and it may
      act on a world W. *)
  Inductive body (W : Type) :=
    | Return (r : res V)
    | Act (f : W -> W * body W)
    | Recur (k : K) (cont : res V -> body W).
  Global Arguments Return {W} _.
  Global Arguments Act {W} _.
  Global Arguments Recur {W} _ _.

  (** A call of the function without the decorator, as a relation: [plain f w k
      w' r], the call f(k) in the world w ends in w' with r. dnsutils.py:34 *)
  Inductive plain {W} (f : K -> body W) : W -> K -> W -> res V -> Prop :=
    | plain_call w k w' r : plain_body f w (f k) w' r -> plain f w k w' r
  with plain_body {W} (f : K -> body W) : W -> body W -> W -> res V -> Prop :=
    | plain_return w r : plain_body f w (Return r) w r
    | plain_act w g w' r : plain_body f (g w).1 (g w).2 w' r -> plain_body f w (Act g) w' r
    | plain_recur w k c w1 r1 w2 r2 :
        plain f w k w1 r1 -> plain_body f w1 (c r1) w2 r2 -> plain_body f w (Recur k c) w2 r2.

  (** The same with the decorator, dnsutils.py:27-37: d is the dictionary; the
      last list records the arguments for which the function was entered. *)
  Inductive memo {W} (f : K -> body W) :
      W -> gmap K V -> K -> W -> gmap K V -> res V -> list K -> Prop :=
    | memo_hit w d k v : d !! k = Some v -> memo f w d k w d (Ok v) []
    | memo_miss w d k w' d' v l : d !! k = None ->
        memo_body f w d (f k) w' d' (Ok v) l -> memo f w d k w' (<[k := v]> d') (Ok v) (k :: l)
    | memo_raise w d k w' d' e l : d !! k = None ->
        memo_body f w d (f k) w' d' (Err e) l -> memo f w d k w' d' (Err e) (k :: l)
  with memo_body {W} (f : K -> body W) :
      W -> gmap K V -> body W -> W -> gmap K V -> res V -> list K -> Prop :=
    | memo_return w d r : memo_body f w d (Return r) w d r []
    | memo_act w d g w' d' r l :
        memo_body f (g w).1 d (g w).2 w' d' r l -> memo_body f w d (Act g) w' d' r l
    | memo_recur w d k c w1 d1 r1 l1 w2 d2 r2 l2 :
        memo f w d k w1 d1 r1 l1 -> memo_body f w1 d1 (c r1) w2 d2 r2 l2 ->
        memo_body f w d (Recur k c) w2 d2 r2 (l1 ++ l2).

  (** Calls in order; an exception does not end the program. dnsutils.py:31-37 *)
  Inductive memo_calls {W} (f : K -> body W) :
      W -> gmap K V -> list K -> W -> gmap K V -> list (res V) -> list K -> Prop :=
    | calls_nil w d : memo_calls f w d [] w d [] []
    | calls_cons w d k w1 d1 r l1 ks w2 d2 rs l2 :
        memo f w d k w1 d1 r l1 -> memo_calls f w1 d1 ks w2 d2 rs l2 ->
        memo_calls f w d (k :: ks) w2 d2 (r :: rs) (l1 ++ l2).
End memoize.
Global Arguments body K V W : clear implicits.
