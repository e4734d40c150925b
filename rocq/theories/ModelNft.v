(** Model of capirca/lib/nftables.py. Not modelled: the check of supported keywords (see
    [field_error] in ModelGen.v), log messages, and Term.__str__ (lines 611-624), which the
    output does not use. *)
From Verif Require Export ModelGen ModelText ModelCisco.
Local Open Scope string_scope.
Local Open Scope list_scope.
Local Open Scope Z_scope.

(** nftables.py:36-38: the name of a family in a rule *)
Definition nft_fam (v : ver) : string := match v with V4 => "ip" | V6 => "ip6" end.
(** nftables.py:41-52 TabSpacer(1, ...) and Add *)
Definition nft_add (s : string) : string := if nonempty s then append " " s else s.
(** nftables.py:41-44 TabSpacer with 4 and 8 *)
Definition tab4 (s : string) : string := append "    " s.
(** TabSpacer with 8 (nftables.py:41-44) *)
Definition tab8 (s : string) : string := append "        " s.
(** nftables.py:55-73 ChainFormat, as lines *)
Definition chain_format (name : string) (ruleset : list string) : list string :=
  tab4 (append "chain " (append name " {")) :: map tab8 ruleset ++ [tab4 "}"].

(** ** Parts of a rule *)

(** nftables.py:148-184 ICMP_TYPE_REMAP *)
Definition nft_remap (v : ver) : list (string * string) :=
  match v with
  | V6 => [("multicast-listener-query", "mld-listener-query"); ("multicast-listener-report", "mld-listener-report");
      ("multicast-listener-done", "mld-listener-done"); ("router-solicit", "nd-router-solicit");
      ("router-advertisement", "nd-router-advert"); ("neighbor-solicit", "nd-neighbor-solicit");
      ("neighbor-advertisement", "nd-neighbor-advert"); ("redirect-message", "nd-redirect");
      ("inverse-neighbor-discovery-solicitation", "ind-neighbor-solicit");
      ("inverse-neighbor-discovery-advertisement", "ind-neighbor-advert");
      ("version-2-multicast-listener-report", "mld2-listener-report"); ("icmp-node-information-query", "139");
      ("icmp-node-information-response", "140"); ("home-agent-address-discovery-request", "144");
      ("home-agent-address-discovery-reply", "145"); ("mobile-prefix-solicitation", "146");
      ("mobile-prefix-advertisement", "147"); ("certification-path-solicitation", "148");
      ("certification-path-advertisement", "149"); ("multicast-router-advertisement", "151");
      ("multicast-router-solicitation", "152"); ("multicast-router-termination", "153")]
  | V4 => [("unreachable", "destination-unreachable"); ("information-request", "info-request");
      ("information-reply", "info-reply"); ("mask-request", "address-mask-request"); ("mask-reply", "address-mask-reply");
      ("alternate-address", "6"); ("conversion-error", "31"); ("mobile-redirect", "32")]
  end.
(** nftables.py:130-199 MapICMPtypes. The list is changed in place while it is traversed; as
    no replacement is itself replaced, that is a map. *)
Definition map_icmp_types (v : ver) (types : list string) : list string :=
  map (fun x => match assoc x (nft_remap v) with Some y => y | None => x end) types.
(** nftables.py:201-223 CreateAnonymousSet on a list of strings that is not empty *)
Definition nft_set (data : list string) : string :=
  match data with [x] => x | _ => append "{ " (append (join ", " data) " }") end.
(** nftables.py:563-590 _Group and _FormatPorts, then CreateAnonymousSet *)
Definition nft_port (r : prange) : string :=
  if fst r =? snd r then dec (fst r) else append (dec (fst r)) (append "-" (dec (snd r))).
(** nftables.py:563-590 *)
Definition nft_ports (ports : list prange) : string := nft_set (map nft_port ports).
(** nftables.py:240-259 PortStatement *)
Definition port_statement (protocol : string) (src dst : list prange) : string :=
  join " " ((if some src then [append protocol (append " sport " (nft_ports src))] else [])
            ++ (if some dst then [append protocol (append " dport " (nft_ports dst))] else [])).
(** nftables.py:225-327 PortsAndProtocols; [types] are the types after MapICMPtypes *)
Definition ports_and_protocols (v : ver) (protocol : list string) (src dst : list prange) (types : list string) : list string :=
  let mine := match v with V4 => "icmp" | V6 => "icmpv6" end in
  let other := match v with V4 => "icmpv6" | V6 => "icmp" end in
  let word := match v with V4 => "ip protocol" | V6 => "meta l4proto" end in
  let typed := some types && str_in mine protocol in
  let protocol := if typed then remove_first mine protocol else protocol in
  let protocol := if str_in other protocol then remove_first other protocol else protocol in
  (if typed then [append mine (append " type" (nft_add (nft_set types)))] else [])
  ++ (if some protocol then
        if (1 <? Z.of_nat (List.length protocol)) && negb (some src && some dst)
        then [append word (nft_add (nft_set protocol))]
        else map (fun p => if some src || some dst then port_statement p src dst else append word (nft_add p)) protocol
      else []).
(** nftables.py:329-372 _OptionsHandler *)
Definition nft_options (t : term) : string :=
  join " " ((if negb (str_in "deny" (t_action t)) && negb (str_in "reject" (t_action t)) && negb (some (t_icmp_type t)) then ["ct state new"] else [])
            ++ (if some (t_logging t) && negb (existsb (substring_of "disable") (t_logging t))
                then [append "log prefix " (append (String dquote "") (append (t_name t) (String dquote "")))] else [])
            ++ (if given (t_counter t) then ["counter"] else [])).
(** nftables.py:374-425 GroupExpressions *)
Definition group_expressions (interface : string) (addrs pps : list string) (options verdict comment : string) : res (list string) :=
  let statement :=
    if some addrs then
      flat_map (fun addr =>
        if some pps then
          flat_map (fun pstat =>
            let line := append addr (append (nft_add pstat) (append (nft_add options) (nft_add verdict))) in
            if starts_with "icmp type" pstat || starts_with "ip " addr then (if starts_with "ip " addr then [line] else [])
            else if starts_with "icmpv6 type" pstat || starts_with "ip6" addr then (if starts_with "ip6" addr then [line] else [])
            else []) pps
        else [append addr (append (nft_add options) (nft_add verdict))]) addrs
    else if some pps then map (fun pstat => append pstat (append (nft_add options) (nft_add verdict))) pps
    else [append (nft_add options) (nft_add verdict)] in
  if nonempty interface || nonempty comment then
    match statement with
    | [] => Raise (Exn "IndexError")
    | s :: rest =>
        let s := if nonempty interface then append interface (nft_add s) else s in
        let s := if nonempty comment then append s (nft_add comment) else s in
        Ok (s :: rest)
    end
  else Ok statement.
(** nftables.py:427-474 _AddrStatement and 546-561 _AddressClassifier *)
Definition addr_book (v : ver) (l : list net) : list string := map prefixlen_text (filter (fun n => ver_eqb (nver n) v) l).
(** nftables.py:427-474 *)
Definition addr_statement (v : ver) (src dst : list net) : list string :=
  let s := addr_book v src in
  let d := addr_book v dst in
  let saddr := append (nft_fam v) (append " saddr " (nft_set s)) in
  let daddr := append (nft_fam v) (append " daddr " (nft_set d)) in
  if some src && some dst then (if some s && some d then [append saddr (append " " daddr)] else [])
  else if some src then (if some s then [saddr] else [])
  else if some dst then (if some d then [daddr] else [])
  else [].

(** ** A term (nftables.py:476-544 RulesetGenerator) *)

(** nftables.py:110-113 _ACTIONS *)
Definition nft_actions : list (string * string) := [("accept", "accept"); ("deny", "drop"); ("reject", "reject")].
(** nftables.py:476-544: the interface of a rule *)
Definition nft_interface (t : term) : string :=
  match t_source_interface t, t_destination_interface t with
  | Some i, _ => if nonempty i then append "iifname " i else
                 match t_destination_interface t with Some o => if nonempty o then append "oifname " o else "" | None => "" end
  | None, Some o => if nonempty o then append "oifname " o else ""
  | None, None => ""
  end.
(** the loop over the families; [types] is term.icmp_type, which MapICMPtypes changes *)
Fixpoint ruleset_loop (t : term) (verdict comment : string) (fams : list ver) (types : list string) : res (list string) :=
  match fams with
  | [] => Ok []
  | v :: rest =>
      let addrs := addr_statement v (t_source_address t) (t_destination_address t) in
      if negb (some addrs) && (some (t_source_address t) || some (t_destination_address t)) then ruleset_loop t verdict comment rest types
      else
        let types := map_icmp_types v types in
        let pps := ports_and_protocols v (t_protocol t) (t_source_port t) (t_destination_port t) types in
        if match v with V6 => str_in "icmp" (t_protocol t) | V4 => str_in "icmpv6" (t_protocol t) end || str_in "icmp6" (t_protocol t)
        then ruleset_loop t verdict comment rest types
        else
          let! rules := group_expressions (nft_interface t) addrs pps (nft_options t) verdict comment in
          let! more := ruleset_loop t verdict comment rest types in
          Ok (rules ++ more)
  end.
(** nftables.py:541-543: the first of equal rules is kept *)
Fixpoint unique (seen l : list string) : list string :=
  match l with [] => [] | x :: r => if str_in x seen then unique seen r else x :: unique (x :: seen) r end.
(** nftables.py:476-544 *)
Definition ruleset (fams : list ver) (verbose : bool) (t : term) : res (list string) :=
  let comment := if verbose then append "comment " (truncate_words (Lines (t_comment t)) 126) else "" in
  match t_action t with
  | [] => Raise (Exn "IndexError")
  | a :: _ =>
      match assoc a nft_actions with
      | None => Raise (Exn "KeyError")
      | Some verdict => let! rules := ruleset_loop t verdict comment fams (t_icmp_type t) in Ok (unique [] rules)
      end
  end.

(** ** Headers (nftables.py:784-898 _ProcessHeader) *)

Record nft_info := mkNftInfo { ni_af : string; ni_hook : string; ni_priority : string; ni_policy : string; ni_verbose : bool;
  ni_base : string; ni_table : string; ni_regular : bool; ni_override : option string }.
(** str.isdigit on ASCII text *)
Definition isdigit (s : string) : bool := nonempty s && forall_char is_digit s.
(** nftables.py:856-886: the loop over the options; an option that takes a value skips it *)
Fixpoint header_loop (opts : list string) (i : nft_info) : res nft_info :=
  match opts with
  | [] => Ok i
  | o :: rest =>
      if String.eqb o "base-chain-name" then
        match rest with
        | [] => Raise (Exn "HeaderError")
        | x :: rest => header_loop rest (mkNftInfo (ni_af i) (ni_hook i) (ni_priority i) (ni_policy i) (ni_verbose i) x (ni_table i) (ni_regular i) (ni_override i))
        end
      else if String.eqb o "table-name" then
        match rest with
        | [] => Raise (Exn "HeaderError")
        | x :: rest => header_loop rest (mkNftInfo (ni_af i) (ni_hook i) (ni_priority i) (ni_policy i) (ni_verbose i) (ni_base i) x (ni_regular i) (ni_override i))
        end
      else if String.eqb o "as-regular-chain" then
        header_loop rest (mkNftInfo (ni_af i) (ni_hook i) (ni_priority i) (ni_policy i) (ni_verbose i) (ni_base i) (ni_table i) true (ni_override i))
      else if String.eqb o "address-family-override" then
        match rest with
        | [] => Raise (Exn "HeaderError")
        | x :: rest =>
            if String.eqb x "bridge"
            then header_loop rest (mkNftInfo (ni_af i) (ni_hook i) (ni_priority i) (ni_policy i) (ni_verbose i) (ni_base i) (ni_table i) (ni_regular i) (Some x))
            else Raise (Exn "HeaderError")
        end
      else header_loop rest i
  end.
(** nftables.py:784-898 *)
Definition process_header (opts : list string) : res nft_info :=
  match opts with
  | af :: hook :: _ =>
      match assoc af [("inet", "ip"); ("inet6", "ip6"); ("mixed", "inet")] with
      | None => Raise (Exn "HeaderError")
      | Some family =>
          let policy := if str_in "ACCEPT" opts then "accept" else "drop" in
          let hook := lower hook in
          if negb (str_in hook ["forward"; "input"; "output"]) then Raise (Exn "HeaderError")
          else
            let! priority := match filter isdigit opts with [] => Ok "0" | [n] => Ok n | _ => Raise (Exn "HeaderError") end in
            let verbose := negb (str_in "noverbose" opts) in
            header_loop (if verbose then opts else remove_first "noverbose" opts)
              (mkNftInfo family hook priority policy verbose "root" "filtering_policies" false None)
      end
  | _ => Raise (Exn "HeaderError")
  end.

(** ** Policies *)

(** nftables.py:766-772: the exclusions are taken out one by one *)
Fixpoint remove_all (l excl : list net) : res (list net) :=
  match excl with [] => Ok l | e :: rest => let! l := remove_address_from_list l e in remove_all l rest end.
(** nftables.py:721-764: the families of a header *)
Definition families (af : string) : list ver := if String.eqb af "ip" then [V4] else if String.eqb af "ip6" then [V6] else [V4; V6].
(** nftables.py:721-764: the terms that are rendered, with their rules *)
Fixpoint nft_select (i : nft_info) (today : Z) (seen : list string) (terms : list term) : res (list (string * list string)) :=
  match terms with
  | [] => Ok []
  | t :: rest =>
      if str_in (t_name t) seen then Raise (Exn "TermError")
      else if given (t_source_interface t) && given (t_destination_interface t) then Raise (Exn "TermError")
      else if t_stateless_reply t || str_in "established" (t_option t) || str_in "tcp-established" (t_option t) || expired today t
              || negb (active_on "nftables" t)
      then nft_select i today (t_name t :: seen) rest
      else
        let! src := remove_all (t_source_address t) (t_source_address_exclude t) in
        let! dst := remove_all (t_destination_address t) (t_destination_address_exclude t) in
        let! rules := ruleset (families (ni_af i)) (ni_verbose i) (set_source_address src (set_destination_address dst t)) in
        let! more := nft_select i today (t_name t :: seen) rest in
        Ok ((t_name t, rules) :: more)
  end.
(** a header: the options for the platform and the comments (nftables.py:681-720) *)
Record nft_header := mkNftHeader { nh_options : list string; nh_comment : list string }.
(** nftables.py:681-782 _TranslatePolicy: one entry for each header *)
Record nft_entry := mkNftEntry { ne_header : nft_header; ne_info : nft_info; ne_base : string; ne_chains : list (string * list string) }.
(** nftables.py:681-782 *)
Fixpoint nft_translate (today : Z) (counter : Z) (fs : list (nft_header * list term)) : res (list nft_entry) :=
  match fs with
  | [] => Ok []
  | (h, terms) :: rest =>
      let! i := process_header (nh_options h) in
      let! chains := nft_select i today [] terms in
      let! more := nft_translate today (counter + 1) rest in
      Ok (mkNftEntry h i (append (ni_base i) (dec counter)) chains :: more)
  end.
(** Dictionaries in the order of insertion: d[k] = f(d.get(k)) *)
Fixpoint dict_put {A} (k : string) (f : option A -> A) (d : list (string * A)) : list (string * A) :=
  match d with
  | [] => [(k, f None)]
  | (k', x) :: r => if String.eqb k k' then (k, f (Some x)) :: r else (k', x) :: dict_put k f r
  end.
(** d.get(k, empty) (nftables.py:900-942) *)
Definition or_empty {A} (o : option (list A)) : list A := match o with Some l => l | None => [] end.
(** nftables.py:900-942 _ConfigurationDictionary: tables, families, base chains *)
Definition nft_dict : Type := list (string * list (string * list (string * nft_entry))).
(** nftables.py:900-942: the family of an entry *)
Definition entry_family (e : nft_entry) : string := match ni_override (ne_info e) with Some f => f | None => ni_af (ne_info e) end.
(** nftables.py:900-942 *)
Definition configuration (es : list nft_entry) : nft_dict :=
  fold_left (fun d e => dict_put (ni_table (ne_info e))
    (fun fams => dict_put (entry_family e) (fun bases => dict_put (ne_base e) (fun _ => e) (or_empty bases)) (or_empty fams)) d) es [].
(** nftables.py:958-989: one base chain with the chains it calls *)
Definition entry_lines (e : nft_entry) : list string :=
  let i := ne_info e in
  let comment := if ni_verbose i then nh_comment (ne_header e) else [] in
  flat_map (fun c => chain_format (fst c) (snd c)) (ne_chains e)
  ++ [tab4 (append "chain " (append (ne_base e) " {"))]
  ++ (if some comment then [tab8 (append "#" (join " " comment))] else [])
  ++ (if ni_regular i then [] else
      [tab8 (append "type filter hook " (append (ni_hook i) (append " priority " (append (ni_priority i) (append "; policy " (append (ni_policy i) ";"))))))])
  ++ [tab8 (append "ct state established,related accept"
              (if some comment then append (nft_add "comment") (nft_add (truncate_words (Lines comment) 126)) else ""))]
  ++ map (fun c => tab8 (append "jump " (fst c))) (ne_chains e)
  ++ [tab4 "}"].
(** nftables.py:944-994 __str__, as lines *)
Definition nft_render (d : nft_dict) : list string :=
  flat_map (fun table => flat_map (fun fam =>
    append "table " (append (fst fam) (append " " (append (fst table) " {")))
    :: flat_map (fun base => entry_lines (snd base)) (snd fam) ++ ["}"]) (snd table)) d ++ [""; ""].
(** nftables.py:681-994 *)
Definition nft_policy (today : Z) (fs : list (nft_header * list term)) : res (list string) :=
  let! es := nft_translate today 0 fs in Ok (nft_render (configuration es)).
