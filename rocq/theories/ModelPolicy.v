(** Model of the term handling in capirca/lib/policy.py: flattening, clean-up, sanity
    checks, containment and shading. *)
From Verif Require Export ModelTerm.
Local Open Scope string_scope.
Local Open Scope list_scope.
Local Open Scope Z_scope.

(** Truth value of a list or of an optional string. *)
Definition some {A} (l : list A) : bool := match l with [] => false | _ => true end.
(** truth of an optional text (policy.py:534-760) *)
Definition given (o : option string) : bool :=
  match o with Some s => nonempty s | None => false end.

(** policy.py:1625-1643 CheckProtocolIsContained *)
Definition check_protocol_is_contained (superset subset : list string) : bool :=
  match superset, subset with
  | [], _ => true
  | _, [] => false
  | _, _ => forallb (fun p => str_in p superset) subset
  end.
(** policy.py:1672-1696 CheckAddressIsContained; None and [] are both false *)
Definition check_address_is_contained (superset subset : list net) : bool :=
  match superset, subset with
  | [], _ => true
  | _, [] => false
  | _, _ => forallb (fun a => existsb (fun b => subnet_of a b) superset) subset
  end.

(** policy.py:1143-1184 FlattenAll(mutate=True).  A flattened_* attribute that is not
    assigned keeps its initial value None. *)
Definition flatten_all (t : term) : res term :=
  let t := set_flattened true t in
  if negb (some (t_source_address_exclude t) || some (t_destination_address_exclude t)
           || some (t_address_exclude t)) then
    Ok (set_flattened_saddr (t_source_address t)
         (set_flattened_daddr (t_destination_address t)
           (set_flattened_addr (t_address t) t)))
  else
    let! t :=
      if some (t_source_address_exclude t) then
        let! l := address_list_exclude (t_source_address t) (t_source_address_exclude t) false in
        Ok (set_source_address l (set_flattened_saddr l t))
      else Ok t in
    let! t :=
      if some (t_destination_address_exclude t) then
        let! l := address_list_exclude (t_destination_address t) (t_destination_address_exclude t) false in
        Ok (set_destination_address l (set_flattened_daddr l t))
      else Ok t in
    if some (t_address_exclude t) then
      let! l := address_list_exclude (t_address t) (t_address_exclude t) false in
      Ok (set_address l (set_flattened_addr l t))
    else Ok t.
(** policy.py:568-571 *)
Definition flattened (t : term) : res term := if t_flattened t then Ok t else flatten_all t.

(** policy.py:1558-1564 cleanup, inside AddressCleanup; complement_addresses None is [] *)
Definition cleanup (optimize addressbook : bool) (addresses complement : list net) : res (list net) :=
  if negb optimize then Ok (sort_addr_list addresses)
  else if addressbook then collapse_preserve_tokens addresses
  else collapse_addr_list addresses complement.
(** the guarded assignment [if X: X = cleanup(X, Y)] *)
Definition clean (optimize addressbook : bool) (l complement : list net) : res (list net) :=
  if some l then cleanup optimize addressbook l complement else Ok l.
(** policy.py:1546-1594 AddressCleanup.  Each exclude list is cleaned against the already
    cleaned include list. address_exclude is left alone. *)
Definition address_cleanup (optimize addressbook : bool) (t : term) : res term :=
  let! a := clean optimize addressbook (t_address t) [] in
  let! s := clean optimize addressbook (t_source_address t) (t_source_address_exclude t) in
  let! sx := clean optimize addressbook (t_source_address_exclude t) s in
  let! d := clean optimize addressbook (t_destination_address t) (t_destination_address_exclude t) in
  let! dx := clean optimize addressbook (t_destination_address_exclude t) d in
  Ok (set_address a (set_source_address s (set_source_address_exclude sx
       (set_destination_address d (set_destination_address_exclude dx
         (set_port (collapse_port_list (t_port t))
           (set_source_port (collapse_port_list (t_source_port t))
             (set_destination_port (collapse_port_list (t_destination_port t)) t)))))))).

(** policy.py:34 PROTOS_WITH_PORTS *)
Definition protos_with_ports : list string := ["tcp"; "udp"; "udplite"; "sctp"].

(** policy.py:376-428 ICMP_TYPE *)
Definition icmp_type4 : list (string * Z) :=
  [("echo-reply", 0); ("unreachable", 3); ("source-quench", 4); ("redirect", 5);
   ("alternate-address", 6); ("echo-request", 8); ("router-advertisement", 9);
   ("router-solicitation", 10); ("time-exceeded", 11); ("parameter-problem", 12);
   ("timestamp-request", 13); ("timestamp-reply", 14); ("information-request", 15);
   ("information-reply", 16); ("mask-request", 17); ("mask-reply", 18);
   ("conversion-error", 31); ("mobile-redirect", 32)]%string.
(** policy.py:376-428 ICMP_TYPE[6] *)
Definition icmp_type6 : list (string * Z) :=
  [("destination-unreachable", 1); ("packet-too-big", 2); ("time-exceeded", 3);
   ("parameter-problem", 4); ("echo-request", 128); ("echo-reply", 129);
   ("multicast-listener-query", 130); ("multicast-listener-report", 131);
   ("multicast-listener-done", 132); ("router-solicit", 133); ("router-advertisement", 134);
   ("neighbor-solicit", 135); ("neighbor-advertisement", 136); ("redirect-message", 137);
   ("router-renumbering", 138); ("icmp-node-information-query", 139);
   ("icmp-node-information-response", 140); ("inverse-neighbor-discovery-solicitation", 141);
   ("inverse-neighbor-discovery-advertisement", 142); ("version-2-multicast-listener-report", 143);
   ("home-agent-address-discovery-request", 144); ("home-agent-address-discovery-reply", 145);
   ("mobile-prefix-solicitation", 146); ("mobile-prefix-advertisement", 147);
   ("certification-path-solicitation", 148); ("certification-path-advertisement", 149);
   ("multicast-router-advertisement", 151); ("multicast-router-solicitation", 152);
   ("multicast-router-termination", 153)]%string.
(** dict.get (policy.py:1504-1544) *)
Fixpoint assoc {A} (k : string) (l : list (string * A)) : option A :=
  match l with
  | [] => None
  | (k', v) :: l' => if String.eqb k k' then Some v else assoc k l'
  end.
(** policy.py:429-440 ICMP_CODE; of the duplicate key 'parameter-problem' Python keeps the
    later value *)
Definition icmp_codes : list (string * list Z) :=
  [("unreachable", [0; 1; 2; 3; 4; 5; 6; 7; 8; 9; 10; 11; 12; 13; 14; 15]);
   ("redirect", [0; 1; 2; 3]); ("router-advertisement", [0; 16]); ("time-exceeded", [0; 1]);
   ("parameter-problem", [0; 1; 2; 3]); ("destination-unreachable", [0; 1; 2; 3; 4; 5; 6; 7]);
   ("router-renumbering", [0; 1; 255]); ("icmp-node-information-query", [0; 1; 2]);
   ("icmp-node-information-response", [0; 1; 2])]%string.
(** policy.py:48-49 *)
Definition min_ttl : Z := 0.
(** policy.py:48-49 *)
Definition max_ttl : Z := 255.

(** policy.py:1523-1535 *)
Definition known_icmp_type (n : string) : bool :=
  match assoc n icmp_type4, assoc n icmp_type6 with None, None => false | _, _ => true end.

(** policy.py:1504-1522: the icmp-code part of SanityCheck *)
Definition check_icmp_code (t : term) : res unit :=
  if some (t_icmp_code t) then
    match t_icmp_type t with
    | [n] =>
        match assoc n icmp_codes with
        | None => Raise (Exn "KeyError")
        | Some codes =>
            if forallb (fun c => memb Z.eqb c codes) (t_icmp_code t) then Ok tt
            else Raise (Exn "ICMPCodeError")
        end
    | _ => Raise (Exn "ICMPCodeError")
    end
  else Ok tt.

(** policy.py:1413-1544 SanityCheck *)
Definition sanity_check (t : term) : res unit :=
  let! _ :=
    if some (t_verbatim t) then
      if some (t_action t) || some (t_source_port t) || some (t_destination_port t) || some (t_port t)
         || some (t_protocol t) || some (t_option t)
      then Raise (Exn "ParseError") else Ok tt
    else
      if negb (some (t_action t)) && negb (given (t_routing_instance t)) && negb (some (t_next_ip t))
         && negb (given (t_next_interface t)) && negb (given (t_next_hop_group t))
         && negb (given (t_encapsulate t)) && negb (given (t_decapsulate t))
         && negb (given (t_filter_term t)) && negb (given (t_port_mirror t))
      then Raise (Exn "TermNoActionError")
      else if given (t_filter_term t) && some (t_action t) then Raise (Exn "InvalidTermActionError")
      else
        let no_ports := filter (fun p => negb (str_in p protos_with_ports)) (t_protocol t) in
        if some no_ports && (some (t_source_port t) || some (t_destination_port t) || some (t_port t)) then
          if some (filter (fun p => negb (str_in p no_ports)) (t_protocol t))
          then Raise (Exn "MixedPortandNonPortProtos")
          else Raise (Exn "TermPortProtocolError")
        else Ok tt in
  let! _ :=
    if some (t_ether_type t) &&
       (some (t_protocol t) || some (t_address t) || some (t_destination_address t)
        || some (t_destination_address_exclude t) || some (t_destination_port t)
        || some (t_destination_prefix t) || some (t_destination_prefix_except t)
        || some (t_source_address t) || some (t_source_address_exclude t) || some (t_source_port t)
        || some (t_source_prefix t) || some (t_source_prefix_except t))
    then Raise (Exn "TermProtocolEtherTypeError") else Ok tt in
  let! _ := check_icmp_code t in
  let! _ :=
    if forallb known_icmp_type (t_icmp_type t) then Ok tt else Raise (Exn "TermInvalidIcmpType") in
  let! _ :=
    match t_ttl t with
    | Some n => if n =? 0 then Ok tt
                else if (min_ttl <=? n) && (n <=? max_ttl) then Ok tt else Raise (Exn "InvalidTermTTLValue")
    | None => Ok tt
    end in
  match t_traffic_class t with
  | Some n => if n =? 0 then Ok tt
              else if (0 <=? n) && (n <=? 7) then Ok tt else Raise (Exn "InvalidTrafficClassValue")
  | None => Ok tt
  end.

(** ** Containment *)

(** sorted(a) != sorted(b) on lists of strings *)
Definition list_str_eqb (a b : list string) : bool :=
  (List.length a =? List.length b)%nat && forallb (fun p => String.eqb (fst p) (snd p)) (combine a b).
(** policy.py:629-652 *)
Definition same_sorted (a b : list string) : bool :=
  list_str_eqb (py_sorted str_leb a) (py_sorted str_leb b).
(** the same for (platform, text) pairs, compared as Python lists of strings *)
Definition pair_leb (a b : string * string) : bool :=
  if String.eqb (fst a) (fst b) then str_leb (snd a) (snd b) else str_leb (fst a) (fst b).
(** policy.py:536-539 *)
Definition pair_eqb (a b : string * string) : bool := String.eqb (fst a) (fst b) && String.eqb (snd a) (snd b).
(** policy.py:536-539 *)
Definition same_verbatim (a b : list (string * string)) : bool :=
  let a := py_sorted pair_leb a in let b := py_sorted pair_leb b in
  (List.length a =? List.length b)%nat && forallb (fun p => pair_eqb (fst p) (snd p)) (combine a b).

(** Python order on lists of integers *)
Fixpoint zlist_ltb (a b : list Z) : bool :=
  match a, b with
  | _, [] => false
  | [], _ => true
  | x :: a', y :: b' => if x =? y then zlist_ltb a' b' else x <? y
  end.
(** [int(x) for x in s.split('-')] *)
Definition ints (s : string) : res (list Z) := mapM py_int (split_char "-" s).

(** policy.py:536-565: verbatim and protocols *)
Definition contains_protocol (self other : term) : bool :=
  (negb (some (t_verbatim self) || some (t_verbatim other)) || same_verbatim (t_verbatim self) (t_verbatim other))
  &&
  if some (t_protocol self) then
    some (t_protocol other) && check_protocol_is_contained (t_protocol other) (t_protocol self)
  else if some (t_protocol_except self) then
    if some (t_protocol_except other) then
      check_protocol_is_contained (t_protocol_except self) (t_protocol_except other)
    else if some (t_protocol other) then
      forallb (fun p => negb (str_in p (t_protocol_except self))) (t_protocol other)
    else false
  else true.

(** policy.py:567-610: flattened addresses *)
Definition contains_addresses (self other : term) : bool :=
  let chk := check_address_is_contained in
  (chk (t_flattened_addr self) (t_flattened_addr other) || chk (t_flattened_addr self) (t_flattened_saddr other)
   || chk (t_flattened_addr self) (t_flattened_daddr other))
  && (chk (t_flattened_addr other) (t_flattened_saddr self) && chk (t_flattened_addr other) (t_flattened_daddr self))
  && chk (t_flattened_saddr self) (t_flattened_saddr other)
  && chk (t_flattened_daddr self) (t_flattened_daddr other).

(** policy.py:612-627: ports *)
Definition contains_ports (self other : term) : bool :=
  let chk := check_port_is_contained in
  (negb (some (t_port self)) || chk (t_port self) (t_port other) || chk (t_port self) (t_source_port other)
   || chk (t_port self) (t_destination_port other))
  && chk (t_source_port self) (t_source_port other)
  && chk (t_destination_port self) (t_destination_port other).

(** policy.py:629-652: prefix lists and tags *)
Definition same_if {A} (l : list A) (b : bool) : bool := negb (some l) || b.
(** policy.py:629-652 *)
Definition contains_prefixes (self other : term) : bool :=
  same_if (t_source_prefix self) (same_sorted (t_source_prefix self) (t_source_prefix other))
  && same_if (t_source_prefix_except self)
       (same_sorted (t_source_prefix_except self) (t_source_prefix_except other))
  && same_if (t_destination_prefix self)
       (same_sorted (t_destination_prefix self) (t_destination_prefix other))
  && same_if (t_destination_prefix_except self)
       (same_sorted (t_destination_prefix_except self) (t_destination_prefix_except other))
  && same_if (t_source_tag self)
       (same_sorted (t_source_tag self) (t_source_tag other)
        && same_sorted (t_destination_tag self) (t_destination_tag other)).

(** policy.py:654-700: precedence, option, forwarding classes and actions *)
Definition all_in (l of_ : list string) : bool := forallb (fun x => str_in x of_) l.
(** if self.x: other.x (policy.py:654-700) *)
Definition need (a b : bool) : bool := negb a || b.
(** policy.py:654-700 *)
Definition contains_options (self other : term) : bool :=
  (if some (t_precedence self)
   then some (t_precedence other) && all_in (t_precedence other) (t_precedence self)
   else negb (some (t_precedence other)))
  && (if some (t_option self) then some (t_option other) && all_in (t_option other) (t_option self)
      else negb (some (t_option other)))
  && need (some (t_forwarding_class self))
       (some (t_forwarding_class other) && all_in (t_forwarding_class other) (t_forwarding_class self))
  && need (some (t_forwarding_class_except self))
       (some (t_forwarding_class_except other)
        && all_in (t_forwarding_class_except other) (t_forwarding_class_except self))
  && need (some (t_next_ip self)) (some (t_next_ip other))
  && need (given (t_next_interface self)) (given (t_next_interface other))
  && need (given (t_next_hop_group self)) (given (t_next_hop_group other))
  && need (given (t_encapsulate self)) (given (t_encapsulate other))
  && need (given (t_decapsulate self)) (given (t_decapsulate other)).

(** policy.py:701-709 *)
Definition contains_fragment (self other : option string) : res bool :=
  match self with
  | Some s =>
      if nonempty s then
        let! sfo := ints s in
        let sfo := py_sorted Z.leb sfo in
        match other with
        | Some o =>
            if nonempty o then
              let! ofo := ints o in
              let ofo := py_sorted Z.leb ofo in
              Ok (negb ((hd 0 ofo <? hd 0 sfo) || zlist_ltb (tl sfo) (tl ofo)))
            else Ok false
        | None => Ok false
        end
      else Ok true
  | None => Ok true
  end.
(** policy.py:710-722 *)
Definition contains_hop_limit (self other : option string) : res bool :=
  match self with
  | Some s =>
      if nonempty s then
        let! shl := ints s in
        match other with
        | Some o =>
            if nonempty o then
              let! ohl := ints o in
              Ok (negb (hd 0 shl <? hd 0 ohl)
                  && negb (some (firstn 1 (tl shl)) && some (firstn 1 (tl ohl)) && (hd 0 ohl <? hd 0 shl)))
            else Ok false
        | None => Ok false
        end
      else Ok true
  | None => Ok true
  end.
(** policy.py:723-731 *)
Definition contains_packet_length (self other : option string) : res bool :=
  match self with
  | Some s =>
      if nonempty s then
        let! spl := ints s in
        match other with
        | Some o =>
            if nonempty o then
              let! opl := ints o in
              Ok (negb ((hd 0 spl <? hd 0 opl)
                        || zlist_ltb (py_sorted Z.leb (tl opl)) (py_sorted Z.leb (tl spl))))
            else Ok false
        | None => Ok false
        end
      else Ok true
  | None => Ok true
  end.

(** policy.py:732-757: [sorted(x) is not sorted(y)] compares the identity of two fresh
    lists and is always true. *)
Definition contains_rest (self other : term) : bool :=
  need (given (t_port_mirror self)) (given (t_port_mirror other))
  && negb (some (t_icmp_type self)) && negb (some (t_icmp_code self))
  && negb (some (t_platform self)) && negb (some (t_platform_exclude self))
  && negb (some (t_source_zone self)) && negb (some (t_destination_zone self)).

(** policy.py:534-760 Term.__contains__: is [other] contained in [self].  The two terms are
    returned because the call flattens them (policy.py:568-571). *)
Definition term_contains (self other : term) : res (bool * (term * term)) :=
  if negb (contains_protocol self other) then Ok (false, (self, other))
  else
    let! self := flattened self in
    let! other := flattened other in
    if negb (contains_addresses self other && contains_ports self other
             && contains_prefixes self other && contains_options self other)
    then Ok (false, (self, other))
    else
      let! f := contains_fragment (t_fragment_offset self) (t_fragment_offset other) in
      if negb f then Ok (false, (self, other)) else
      let! h := contains_hop_limit (t_hop_limit self) (t_hop_limit other) in
      if negb h then Ok (false, (self, other)) else
      let! p := contains_packet_length (t_packet_length self) (t_packet_length other) in
      if negb p then Ok (false, (self, other)) else
      Ok (contains_rest self other, (self, other)).

(** policy.py:287-297, the inner loop: one term against all earlier ones.  Result: the
    earlier terms, the term, and the names (later, earlier) of the pairs found. *)
Fixpoint shade_against (priors : list term) (cur : term) : res (list term * term * list (string * string)) :=
  match priors with
  | [] => Ok ([], cur, [])
  | p :: ps =>
      let! r := term_contains p cur in
      let b := fst r in let p' := fst (snd r) in let cur' := snd (snd r) in
      let! rest := shade_against ps cur' in
      let found := b && negb (str_in "next" (t_action p')) in
      Ok (p' :: fst (fst rest), snd (fst rest),
          if found then (t_name cur', t_name p') :: snd rest else snd rest)
  end.
(** policy.py:273-299 _DetectShading, up to the final raise: the terms afterwards and the
    pairs reported. *)
Fixpoint shade_scan (priors rest : list term) : res (list term * list (string * string)) :=
  match rest with
  | [] => Ok (priors, [])
  | t :: ts =>
      let! r := shade_against priors t in
      let! s := shade_scan (fst (fst r) ++ [snd (fst r)]) ts in
      Ok (fst s, (snd r ++ snd s)%list)
  end.
(** policy.py:273-299 _DetectShading *)
Definition detect_shading (terms : list term) : res (list term) :=
  let! r := shade_scan [] terms in
  match snd r with [] => Ok (fst r) | _ => Raise (Exn "ShadingError") end.

(** ** Translation *)

(** A term as parsed: port fields hold service names. *)
Record raw_term := mkRaw {
  r_port : list string; r_source_port : list string; r_destination_port : list string; r_term : term }.

(** policy.py:221-244: one port field *)
Definition translate_field (fuel : nat) (services : table) (names protocols : list string) : res (list prange) :=
  if some names then
    let! l := translate_ports fuel services names protocols in
    if some l then Ok l else Raise (Exn "TermPortProtocolError")
  else Ok [].
(** policy.py:216-249: the body of the loop of _TranslateTerms for a term not yet
    translated.  [addressbook] is _NeedsAddressBook(), [optimize] the module flag. *)
Definition translate_term (fuel : nat) (services : table) (optimize addressbook : bool) (r : raw_term) : res term :=
  let t := r_term r in
  let! p := translate_field fuel services (r_port r) (t_protocol t) in
  let! s := translate_field fuel services (r_source_port r) (t_protocol t) in
  let! d := translate_field fuel services (r_destination_port r) (t_protocol t) in
  let! t := address_cleanup optimize addressbook
              (set_port p (set_source_port s (set_destination_port d t))) in
  let! _ := sanity_check t in
  Ok (set_translated true t).
(** policy.py:212-249 _TranslateTerms *)
Definition translate_terms (fuel : nat) (services : table) (optimize addressbook : bool) (l : list raw_term)
  : res (list term) :=
  match l with
  | [] => Raise (Exn "NoTermsError")
  | _ => mapM (translate_term fuel services optimize addressbook) l
  end.
(** policy.py:205-210 AddFilter, with the module flag _SHADE_CHECK *)
Definition add_filter (fuel : nat) (services : table) (optimize addressbook shade_check : bool)
  (l : list raw_term) : res (list term) :=
  let! ts := translate_terms fuel services optimize addressbook l in
  if shade_check then detect_shading ts else Ok ts.

(** policy.py:1186-1201 GetAddressOfVersion on one address field *)
Definition address_of_version (l : list net) (af : option ver) : list net :=
  match af with None => l | Some v => filter (fun n => ver_eqb (nver n) v) l end.
