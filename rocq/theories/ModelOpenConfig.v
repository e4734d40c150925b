(** OpenConfig access lists (openconfig.py). *)
From Verif Require Export ModelGce ModelCisco.
Local Open Scope string_scope.
Local Open Scope list_scope.
Local Open Scope Z_scope.

(** A loop over a list that changes a state and emits results. *)
Fixpoint sweep {A S R} (f : A -> S -> res (S * list R)) (l : list A) (s : S) : res (S * list R) :=
  match l with
  | [] => Ok (s, [])
  | x :: l' =>
      let! (s, rs) := f x s in
      let! (s, more) := sweep f l' s in
      Ok (s, rs ++ more)
  end.

(** aclgenerator.py:121-132 Term.__init__ on a list of protocols that an earlier call may have
    rewritten *)
Definition init_protocols (ps : list pval) : res (list pval) :=
  if forallb (fun p => match p with
                       | PName s => match assoc s proto_map with
                                    | Some _ => true
                                    | None => str_in s (map (fun kv => dec (snd kv)) proto_map) end
                       | PNum n => str_in (dec n) (map (fun kv => dec (snd kv)) proto_map) end) ps
  then Ok (map (fun p => match p with PName s => if String.eqb s "ipip" then PNum 4 else p | PNum _ => p end) ps)
  else Raise (Exn "UnsupportedFilterError").

(** The part of the dictionary that the loops of openconfig.py:129-179 assign to. *)
Record oc_ace := mkAce { oa_src : option string; oa_dst : option string; oa_sport : option json; oa_dport : option json; oa_proto : option Z }.
(** openconfig.py:130-133 *)
Definition set_src (x : option net) (a : oc_ace) : oc_ace :=
  match x with None => a | Some n => mkAce (Some (prefixlen_text n)) (oa_dst a) (oa_sport a) (oa_dport a) (oa_proto a) end.
(** openconfig.py:135-138 *)
Definition set_dst (x : option net) (a : oc_ace) : oc_ace :=
  match x with None => a | Some n => mkAce (oa_src a) (Some (prefixlen_text n)) (oa_sport a) (oa_dport a) (oa_proto a) end.
(** openconfig.py:141-150: the range 0-0 stands for any *)
Definition oc_port (r : prange) : option json :=
  if (fst r =? snd r) && (snd r =? 0) then None
  else if fst r =? snd r then Some (JNum (fst r)) else Some (JStr (append (dec (fst r)) (append ".." (dec (snd r))))).
(** openconfig.py:140-150 *)
Definition set_sport (r : prange) (a : oc_ace) : oc_ace :=
  match oc_port r with None => a | Some j => mkAce (oa_src a) (oa_dst a) (Some j) (oa_dport a) (oa_proto a) end.
(** openconfig.py:152-160 *)
Definition set_dport (r : prange) (a : oc_ace) : oc_ace :=
  match oc_port r with None => a | Some j => mkAce (oa_src a) (oa_dst a) (oa_sport a) (Some j) (oa_proto a) end.
(** openconfig.py:163-179 *)
Definition set_proto (q : option pval) (a : oc_ace) : res oc_ace :=
  match q with
  | None => Ok a
  | Some (PNum n) => Ok (mkAce (oa_src a) (oa_dst a) (oa_sport a) (oa_dport a) (Some n))
  | Some (PName s) => match assoc s proto_map with
                      | Some n => Ok (mkAce (oa_src a) (oa_dst a) (oa_sport a) (oa_dport a) (Some n))
                      | None => Raise (Exn "OcFirewallError")
                      end
  end.
(** a protocol compared to a text (openconfig.py:162-179) *)
Definition pnamed (s : string) (q : option pval) : bool := match q with Some (PName x) => String.eqb x s | _ => false end.
(** openconfig.py:181-204: the last option that asks for one decides the detail *)
Definition oc_detail (v : ver) (q : option pval) (options : list string) : option string :=
  fold_left (fun d opt =>
    let d := if str_in opt ["tcp-established"; "established"] && negb (pnamed "udp" q) then Some "TCP_ESTABLISHED" else d in
    let d := if String.eqb opt "initial" && pnamed "tcp" q then Some "TCP_INITIAL" else d in
    if String.eqb opt "is-fragment" && ver_eqb v V4 then Some "FRAGMENT" else d) options None.

(** [l] or a single None for any *)
Definition or_any {A} (l : list A) : list (option A) := match l with [] => [None] | _ => map Some l end.
(** openconfig.py:117-123: no port is the range 0-0 *)
Definition or_zero (l : list prange) : list prange := match l with [] => [(0, 0)] | _ => l end.
(** openconfig.py:108-207: the rules of a term; the dictionary is shared by all of them *)
Definition oc_rules (v : ver) (t : term) (saddrs daddrs : list net) (ps : list pval) : res (list (oc_ace * option string)) :=
  let! (_, rules) :=
    sweep (fun s a =>
      let a := set_src s a in
      sweep (fun d a =>
        let a := set_dst d a in
        sweep (fun sp a =>
          let a := set_sport sp a in
          sweep (fun dp a =>
            let a := set_dport dp a in
            sweep (fun q a =>
              let! a := set_proto q a in
              Ok (a, [(a, oc_detail v q (t_option t))])) (or_any ps) a)
            (or_zero (t_destination_port t)) a)
          (or_zero (t_source_port t)) a)
        (or_any daddrs) a)
      (or_any saddrs) (mkAce None None None None None) in
  Ok rules.

(** openconfig.py:65-72 Term.__init__ on a term and its protocols: both are changed in place
    (policy.py:1143-1184).  Simplified: the term has not been flattened by the shade check. *)
Definition oc_init (x : term * list pval) : res (term * list pval) :=
  let! ps := init_protocols (snd x) in
  let! t := flatten_all (fst x) in
  Ok (t, ps).
(** GetAddressOfVersion('flattened_saddr', af): None, which is no list, unless there are no
    exclusions at all or some on this side *)
Definition oc_side (v : ver) (t : term) (inc exc : list net) : res (list net) :=
  if (some (t_source_address_exclude t) || some (t_destination_address_exclude t) || some (t_address_exclude t)) && negb (some exc)
  then Raise (Exn "TypeError") else Ok (address_of_version inc (Some v)).
(** openconfig.py:52 *)
Definition oc_actions : list (string * string) := [("accept", "ACCEPT"); ("deny", "DROP"); ("reject", "REJECT")].
(** the key of the conditions (openconfig.py:129-179) *)
Definition oc_family (v : ver) : string := match v with V4 => "ipv4" | V6 => "ipv6" end.
(** a key that is there only if it was set (openconfig.py:129-179) *)
Definition opt_entry {A} (key : string) (f : A -> json) (o : option A) : list (string * json) :=
  match o with None => [] | Some x => [(key, f x)] end.
(** a block that is there only if it has keys (openconfig.py:129-179) *)
Definition block (key : string) (d : list (string * json)) : list (string * json) :=
  match d with [] => [] | _ => [(key, JDict [("config", JDict d)])] end.
(** The finished acl-entry; keys in the order in which they are written. *)
Definition oc_entry (v : ver) (description action : string) (r : oc_ace * option string) (seq : Z) : json :=
  let a := fst r in
  JDict ([("actions", JDict [("config", JDict [("forwarding-action", JStr action)])]);
          ("config", JDict [("description", JStr description); ("sequence-id", JNum seq)])]
         ++ block (oc_family v) (opt_entry "destination-address" JStr (oa_dst a) ++ opt_entry "protocol" JNum (oa_proto a)
                                 ++ opt_entry "source-address" JStr (oa_src a))
         ++ [("sequence-id", JNum seq)]
         ++ block "transport" (opt_entry "builtin-detail" JStr (snd r) ++ opt_entry "destination-port" (fun j => j) (oa_dport a)
                               ++ opt_entry "detail-mode" (fun _ => JStr "BUILTIN") (snd r) ++ opt_entry "source-port" (fun j => j) (oa_sport a))).
(** openconfig.py:79-207 ConvertToDict and 306-311: the numbered entries, and the next number *)
Fixpoint numbered (f : oc_ace * option string -> Z -> json) (seq : Z) (rs : list (oc_ace * option string)) : list json :=
  match rs with [] => [] | r :: rest => f r (seq + 1) :: numbered f (seq + 1) rest end.
(** openconfig.py:79-207 *)
Definition oc_term (v : ver) (seq : Z) (x : term * list pval) : res (Z * list json) :=
  let t := fst x in
  match t_action t with
  | [] => Raise (Exn "IndexError")
  | act :: _ =>
      match assoc act oc_actions with
      | None => Raise (Exn "KeyError")
      | Some action =>
          let description := append "[" (append (t_name t) (append "]: " (join " " (t_comment t)))) in
          let! s := oc_side v t (t_source_address t) (t_source_address_exclude t) in
          let! d := oc_side v t (t_destination_address t) (t_destination_address_exclude t) in
          let! rs := oc_rules v t s d (snd x) in
          Ok (seq + Z.of_nat (List.length rs), numbered (oc_entry v description action) seq rs)
      end
  end.

(** openconfig.py:276-311: the terms of a filter for one family.  Returns the next number, the
    entries, and the terms as they are left. *)
Fixpoint oc_terms (v : ver) (today : Z) (seq : Z) (xs : list (term * list pval)) : res (Z * list json * list (term * list pval)) :=
  match xs with
  | [] => Ok (seq, [], [])
  | x :: rest =>
      let t := fst x in
      if str_in "openconfig" (t_platform_exclude t) || (some (t_platform t) && negb (str_in "openconfig" (t_platform t))) || expired today t
      then let! (r, kept) := oc_terms v today seq rest in
           Ok (r, x :: kept)
      else if existsb (fun o => str_in o ["first-fragment"; "sample"; "rst"]) (t_option t) then Raise (Exn "OcFirewallError")
      else
        let! x := oc_init x in
        let! (seq, es) := oc_term v seq x in
        let! (r, kept) := oc_terms v today seq rest in
        Ok (fst r, es ++ snd r, x :: kept)
  end.

(** openconfig.py:251-261: the family, and the options without it; [order] is the order in which
    the set of families is walked *)
Definition oc_options (order : list string) (options : list string) : string * list string :=
  fold_left (fun st i => if str_in i (snd st) then (i, remove_first i (snd st)) else st) order ("inet", options).
(** openconfig.py:259-261 *)
Definition oc_families (af : string) : list ver := if String.eqb af "mixed" then [V4; V6] else if String.eqb af "inet6" then [V6] else [V4].
(** openconfig.py:271-273 OC_AF_TYPE *)
Definition oc_type (v : ver) : string := match v with V4 => "ACL_IPV4" | V6 => "ACL_IPV6" end.
(** openconfig.py:263-273, policy.py:1850-1866: the first remaining option names the filter.  An
    unnamed filter has the name None (null; here the empty dictionary), which a suffix makes a
    text. *)
Definition oc_name (af : string) (v : ver) (options : list string) : json :=
  let suffix := match v with V4 => "4" | V6 => "6" end in
  match options with
  | name :: _ => JStr (if String.eqb af "mixed" then append name suffix else name)
  | [] => if String.eqb af "mixed" then JStr (append "None" suffix) else JDict []
  end.
(** openconfig.py:263-314: one access list *)
Definition oc_set (name : json) (v : ver) (entries : list json) : json :=
  JDict [("acl-entries", JDict [("acl-entry", JList entries)]);
         ("config", JDict [("name", name); ("type", JStr (oc_type v))]);
         ("name", name); ("type", JStr (oc_type v))].
(** openconfig.py:259-314: one access list for each family *)
Fixpoint oc_sets (today : Z) (af : string) (options : list string) (vs : list ver) (seq : Z) (xs : list (term * list pval)) : res (Z * list json) :=
  match vs with
  | [] => Ok (seq, [])
  | v :: rest =>
      let! (r, kept) := oc_terms v today seq xs in
      let! (seq, more) := oc_sets today af options rest (fst r) kept in
      Ok (seq, oc_set (oc_name af v options) v (snd r) :: more)
  end.
(** openconfig.py:240-314 *)
Fixpoint oc_filters (order : list string) (today : Z) (seq : Z) (fs : list (list string * list term)) : res (list json) :=
  match fs with
  | [] => Ok []
  | (options, terms) :: rest =>
      let (af, options) := oc_options order options in
      let! (seq, sets) := oc_sets today af options (oc_families af) seq (map (fun t => (t, map PName (t_protocol t))) terms) in
      let! more := oc_filters order today seq rest in
      Ok (sets ++ more)
  end.
(** openconfig.py:218-233: icmp-type is not the name of an attribute, so that icmp_type stays
    supported *)
Definition oc_tokens : tokens := mkTokens
  (filter (fun s => negb (str_in s ["icmp-type"; "verbatim"])) (supported default_tokens))
  [("option", ["established"; "first-fragment"; "is-fragment"; "initial"; "rst"; "sample"; "tcp-established"]);
   ("action", ["accept"; "deny"; "reject"]);
   ("icmp_type", map fst icmp_type4 ++ map fst icmp_type6)].
(** openconfig.py:235-321 *)
Definition oc_policy (order : list string) (today : Z) (fs : list (list string * list term)) : res json :=
  let! _ := check_tokens "openconfig" oc_tokens (map (fun f => (["openconfig"], snd f)) fs) in
  let! sets := oc_filters order today 0 fs in
  Ok (JDict [("acl-sets", JDict [("acl-set", JList sets)])]).
