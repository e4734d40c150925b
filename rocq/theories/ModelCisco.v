(** Model of capirca/lib/cisco.py: extended access lists for IPv4 and IPv6 (also used for
    ciscoxr and cisconx, whose classes only change the parameters below and the header
    lines). Not modelled: the port-name table and the prefix notation for the platform
    'arista' (cisco.py:283-441, 526-531, 685-686, 714-716), log messages. *)
From Verif Require Export ModelGen ModelText.
Local Open Scope string_scope.
Local Open Scope list_scope.
Local Open Scope Z_scope.

(** cisco.py:28-34 _ACTION_TABLE *)
Definition cisco_actions : list (string * string) :=
  [("accept", "permit"); ("deny", "deny"); ("reject", "deny"); ("next", "! next");
   ("reject-with-tcp-rst", "deny")].

(** cisco.py:455-471: the parameters of Term.__init__ *)
Record cisco_cfg := mkCisco {
  c_platform : string; c_af : Z; c_proto_int : bool; c_dsmo : bool; c_remark : bool; c_verbose : bool }.
(** cisco.py:453-471: af as a version *)
Definition c_ver (c : cisco_cfg) : ver := if c_af c =? 6 then V6 else V4.

(** cisco.py:446-448 ALLOWED_PROTO_STRINGS; the numbers added at 470-471 are 4 (ipip). *)
Definition allowed_proto_strings : list string :=
  ["eigrp"; "gre"; "icmp"; "igmp"; "igrp"; "ip"; "ipinip"; "nos"; "pim"; "tcp"; "udp"; "sctp"; "ahp"].

(** cisco.py:510-525: the protocol column; None is Python's None, the result of PROTO_MAP.get
    for a protocol that is not a key of the map. *)
Definition cisco_protocols (c : cisco_cfg) (ps : list pval) : list (option pval) :=
  match ps with
  | [] => [Some (PName (if c_af c =? 6 then "ipv6"
                        else if String.eqb (c_platform c) "ciscoxr" then "ipv4" else "ip"))]
  | _ =>
      if (match ps with [PName s] => String.eqb s "hopopt" | _ => false end) then [Some (PName "hbh")]
      else if c_proto_int c then
        map (fun p => match p with
                      | PName s => if str_in s allowed_proto_strings then Some (PName s)
                                   else match assoc s proto_map with Some n => Some (PNum n) | None => None end
                      | PNum n => if n =? 4 then Some (PNum n) else None
                      end) ps
      else map Some ps
  end.
(** str(proto) (cisco.py:766) *)
Definition proto_text (p : option pval) : string :=
  match p with Some (PName s) => s | Some (PNum n) => dec n | None => "None" end.
(** x == s for a protocol x (cisco.py:574-586, 722-740) *)
Definition is_name (s : string) (p : option pval) : bool :=
  match p with Some (PName q) => String.eqb q s | _ => false end.
(** x == n for a protocol x (cisco.py:574-586, 722-740) *)
Definition is_num (n : Z) (p : option pval) : bool :=
  match p with Some (PNum m) => m =? n | _ => false end.

(** An element of the address columns: 'any', a network or a summarised pair. *)
Inductive caddr := AAny | ANet (n : net) | ADsm (d : dsm).
(** cisco.py:533-572: the source (or destination) column; None: the term is not rendered. *)
Definition cisco_addresses (c : cisco_cfg) (inc exc : list net) : res (option (list caddr)) :=
  if some inc then
    let a := address_of_version inc (Some (c_ver c)) in
    let e := address_of_version exc (Some (c_ver c)) in
    let! a := (if some e then address_list_exclude a e true else Ok a) in
    if negb (some a) then Ok None
    else if c_dsmo c then let! s := summarize a in Ok (Some (map ADsm s))
    else Ok (Some (map ANet a))
  else Ok (Some [AAny]).

(** cisco.py:673-698 _GetIpString *)
Definition get_ip_string (a : caddr) : res string :=
  match a with
  | AAny => Ok "any"
  | ANet n =>
      Ok (if nlen n =? width (nver n) then append "host " (addr_text (nver n) (naddr n))
          else match nver n with
               | V4 => append (addr_text V4 (naddr n)) (append " " (addr_text V4 (hostmask n)))
               | V6 => prefixlen_text n
               end)
  | ADsm d => let! (q, w) := to_dotted_quad d true false in Ok (append q (append " " w))
  end.

(** cisco.py:700-720 _FormatPort; None is the empty tuple *)
Definition format_port (p : option prange) : string :=
  match p with
  | None => ""
  | Some (lo, hi) =>
      if lo =? hi then append "eq " (dec lo) else append "range " (append (dec lo) (append " " (dec hi)))
  end.

(** cisco.py:771-789 _FixConsecutivePorts *)
Definition fix_consecutive_ports (l : list prange) : list prange :=
  flat_map (fun r => let (lo, hi) := r : prange in
                     if lo =? hi - 1 then [(lo, lo); (hi, hi)] else [(lo, hi)]) l.
(** cisco.py:619-626 *)
Definition cisco_ports (l : list prange) : list (option prange) :=
  if some l then map Some (fix_consecutive_ports l) else [None].

(** cisco.py:722-740 _FixOptions (list.remove drops the first occurrence) *)
Fixpoint remove_first (x : string) (l : list string) : list string :=
  match l with [] => [] | y :: l' => if String.eqb x y then l' else y :: remove_first x l' end.
(** cisco.py:722-740 *)
Definition fix_options (p : option pval) (opts : list string) : list string :=
  if (is_num 17 p || is_name "udp" p) && str_in "established" opts then remove_first "established" opts else opts.

(** cisco.py:742-769 _TermletToStr; the ICMP columns are None when their text is empty *)
Definition opt_dec (o : option Z) : string := match o with Some n => dec n | None => "" end.
(** cisco.py:742-769 *)
Definition termlet (action proto saddr sport daddr dport : string) (ty co : option Z) (opts : list string) : string :=
  append " " (join " " (filter (fun x => negb (is_empty x))
    [action; proto; saddr; sport; daddr; dport; opt_dec ty; opt_dec co; join " " opts])).

(** cisco.py:574-617: options and action. The local list [options] starts empty, as on the
    first call of __str__. An action that is not bound is an UnboundLocalError when used. *)
Definition cisco_options (c : cisco_cfg) (t : term) (protocol : list (option pval))
  : res (list string * option string) :=
  let est := (existsb (is_num 6) protocol || existsb (is_name "tcp") protocol)
             && (str_in "tcp-established" (t_option t) || str_in "established" (t_option t)) in
  let frag := existsb (is_name "ip") protocol
              && (str_in "fragments" (t_option t) || str_in "is-fragment" (t_option t)) in
  let o := (if est then ["established"%string] else []) ++ (if frag then ["fragments"%string] else []) in
  let! (o, nexthop) :=
    (if String.eqb (c_platform c) "ciscoxr" && negb (some (t_action t)) && some (t_next_ip t)
        && negb (str_in "nexthop1" (t_option t))
     then match t_next_ip t with
          | [n] =>
              if nlen n =? width (nver n)
              then Ok (o ++ [append "nexthop1 " (append (match nver n with V4 => "ipv4 " | V6 => "ipv6 " end)
                                                        (addr_text (nver n) (naddr n)))],
                       Some "permit"%string)
              else Raise (Exn "CiscoNextIpError")
          | _ => Raise (Exn "CiscoNextIpError")
          end
     else Ok (o, None)) in
  (* _ACTION_TABLE.get of an action that is not in the table is None and the column is empty *)
  let action := match t_action t with
                | a :: _ => Some (match assoc a cisco_actions with Some s => s | None => ""%string end)
                | [] => nexthop
                end in
  let o := o ++ (if some (t_logging t) then ["log"%string] else []) in
  match t_dscp_match t with
  | [] => Ok (o, action)
  | [d] => Ok (o ++ [append "dscp " d], action)
  | _ => Raise (Exn "ExtendedACLTermError")
  end.

(** cisco.py:493-500: remarks *)
Definition cisco_remarks (c : cisco_cfg) (t : term) : list string :=
  if c_verbose c then
    (if c_remark c then [append " remark " (t_name t)] else [])
    ++ flat_map (fun comment => map (fun line => append " remark " (rstrip (slice_to line 100))) (split_char newline comment))
         (t_comment t ++ (match t_owner t with
                          | Some o => if is_empty o then [] else [append "Owner: " o]
                          | None => [] end))
  else [].

(** cisco.py:648-669: the product of all columns *)
Definition cisco_lines (c : cisco_cfg) (action : string) (saddrs daddrs : list string)
  (sports dports : list (option prange)) (protocol : list (option pval)) (types codes : list (option Z))
  (opts : list string) : list string :=
  flat_map (fun sa => flat_map (fun da => flat_map (fun sp => flat_map (fun dp => flat_map (fun p =>
    let o := fix_options p opts in
    let p' := if String.eqb (c_platform c) "cisconx" && (c_af c =? 6) && is_name "icmpv6" p
              then Some (PName "icmp") else p in
    flat_map (fun ty => map (fun co =>
      termlet action (proto_text p') sa (format_port sp) da (format_port dp) ty co o) codes) types)
    protocol) dports) sports) daddrs) saddrs.

(** cisco.py:473-671 Term.__str__ before the lines are joined by newlines; the empty text is
    the empty list. The protocols are those of Term.__init__ (aclgenerator.py:121-132). *)
Definition cisco_term (c : cisco_cfg) (t : term) : res (list string) :=
  let! ps := term_protocols ["ipip"%string] (t_protocol t) in
  if (some (t_platform t) && negb (str_in (c_platform c) (t_platform t)))
     || (some (t_platform_exclude t) && str_in (c_platform c) (t_platform_exclude t)) then Ok []
  else if ((c_af c =? 6) && str_in "icmp" (t_protocol t)) || ((c_af c =? 4) && str_in "icmpv6" (t_protocol t))
  then Ok []
  else
    let ret := String newline "" :: cisco_remarks c t in
    if some (t_verbatim t) then
      Ok (ret ++ flat_map (fun v => if String.eqb (fst v) (c_platform c) then [snd v] else []) (t_verbatim t))
    else
      let protocol := cisco_protocols c ps in
      let! src := cisco_addresses c (t_source_address t) (t_source_address_exclude t) in
      match src with
      | None => Ok []
      | Some src =>
          let! dst := cisco_addresses c (t_destination_address t) (t_destination_address_exclude t) in
          match dst with
          | None => Ok []
          | Some dst =>
              let! (opts, action) := cisco_options c t protocol in
              let! types := (if some (t_icmp_type t)
                             then let! r := normalize_icmp_types (t_icmp_type t) (t_protocol t) (AfNum (c_af c)) in
                                  Ok (match r with Some l => map Some l | None => [None] end)
                             else Ok [None]) in
              let codes := if some (t_icmp_code t) then map Some (t_icmp_code t) else [None] in
              let! sa := mapM get_ip_string src in
              let! da := mapM get_ip_string dst in
              match action with
              | None => Raise (Exn "UnboundLocalError")
              | Some action =>
                  Ok (ret ++ cisco_lines c action sa da (cisco_ports (t_source_port t))
                               (cisco_ports (t_destination_port t)) protocol types codes opts)
              end
          end
      end.

(** ** A whole access list *)

(** cisco.py:915 _DEFAULT_PROTOCOL; aclgenerator.py:212-214 _SUPPORTED_AF, _FILTER_BLACKLIST;
    aclgenerator.py:267 _TERM_MAX_LENGTH *)
Definition cisco_gen : gen_class := mkGen "ip" ["inet"; "inet6"] [].
(** aclgenerator.py:267 _TERM_MAX_LENGTH *)
Definition cisco_name_limit : Z := 62.
(** cisco.py:999-1003 *)
Definition c_family (c : cisco_cfg) : string := if c_af c =? 6 then "inet6" else "inet".
(** cisco.py:1034-1048 and the same test in the other generators: the expiration date (a
    day number) is today or earlier. *)
Definition expired (today : Z) (t : term) : bool :=
  match t_expiration t with Some d => d <=? today | None => false end.
(** cisco.py:996-1069: the terms of a filter that are rendered, for the filter types extended
    and inet6; [seen] is term_dup_check. *)
Fixpoint cisco_select (c : cisco_cfg) (today : Z) (seen : list string) (terms : list term) : res (list term) :=
  match terms with
  | [] => Ok []
  | t :: rest =>
      if str_in (t_name t) seen then Raise (Exn "CiscoDuplicateTermError")
      else
        let! n := fix_term_length abbreviation_table (t_name t) false false cisco_name_limit in
        let! t' := fix_high_ports cisco_gen (set_name n t) (c_family c) false in
        let! ts := cisco_select c today (t_name t :: seen) rest in
        if match t_restrict_address_family t' with
           | Some f => negb (is_empty f) && negb (String.eqb f (c_family c))
           | None => false end then Ok ts
        else if expired today t' then Ok ts
        else Ok (t' :: ts)
  end.
(** cisco.py:1354-1363: the terms in order; empty texts are left out. *)
Definition cisco_acl (c : cisco_cfg) (today : Z) (terms : list term) : res (list string) :=
  let! ts := cisco_select c today [] terms in
  let! ls := mapM (cisco_term c) ts in
  Ok (concat ls).
