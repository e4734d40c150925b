(** Model of capirca/lib/iptables.py and capirca/lib/speedway.py. Not modelled: the term
    attribute log_limit, which the record [term] does not carry (absent here), log messages,
    and rendering the same object a second time. A verbatim term whose lines are all empty
    gives an empty line here and none in the code. *)
From Verif Require Export ModelGen ModelText ModelCisco.
Local Open Scope string_scope.
Local Open Scope list_scope.
Local Open Scope Z_scope.

(** What a term is rendered for (iptables.py:68-107): the class (speedway or iptables), the
    filter, the address family, conntrack, comments. *)
Record ipt_cfg := mkIpt { ic_speedway : bool; ic_filter : string; ic_ver : ver; ic_state : bool; ic_verbose : bool }.
(** _PLATFORM: iptables.py:629, speedway.py:28 *)
Definition ipt_platform (speedway : bool) : string := if speedway then "speedway" else "iptables".
(** the name of a family (iptables.py:68-107) *)
Definition ipt_af (v : ver) : string := match v with V4 => "inet" | V6 => "inet6" end.
(** iptables.py:98-105 _all_ips *)
Definition all_ips (v : ver) : net := plain v 0 0.
(** s[:1] *)
Definition first_char (s : string) : string := match s with "" => "" | String c _ => String c "" end.
(** iptables.py:107 term_name *)
Definition chain_of (c : ipt_cfg) (name : string) : string := append (first_char (ic_filter c)) (append "_" name).

(** iptables.py:84-105 _action_table *)
Definition ipt_action (v : ver) (action : string) : option string :=
  if String.eqb action "accept" then Some "-j ACCEPT"
  else if String.eqb action "deny" then Some "-j DROP"
  else if String.eqb action "reject" then
    Some (match v with V4 => "-j REJECT --reject-with icmp-host-prohibited" | V6 => "-j REJECT --reject-with icmp6-adm-prohibited" end)
  else if String.eqb action "reject-with-tcp-rst" then Some "-j REJECT --reject-with tcp-reset"
  else if String.eqb action "next" then Some "-j RETURN" else None.
(** iptables.py:40-49 _PROTO_TABLE *)
Definition ipt_proto_table : list (string * string) :=
  [("icmpv6", "-p ipv6-icmp"); ("icmp", "-p icmp"); ("tcp", "-p tcp"); ("udp", "-p udp"); ("all", "-p all"); ("esp", "-p esp");
   ("ah", "-p ah"); ("gre", "-p gre")].
(** iptables.py:50-59 _TCP_FLAGS_TABLE *)
Definition ipt_flags_table : list (string * string) :=
  [("syn", "SYN"); ("ack", "ACK"); ("fin", "FIN"); ("rst", "RST"); ("urg", "URG"); ("psh", "PSH"); ("all", "ALL"); ("none", "NONE")].
(** iptables.py:60-66 _KNOWN_OPTIONS_MATCHERS *)
Definition ipt_matchers : list (string * string) :=
  [("first-fragment", "-m u32 --u32 4&0x3FFF=0x2000"); ("initial", "--syn"); ("tcp-initial", "--syn"); ("sample", "")].

(** ** Ports (iptables.py:564-618 _GeneratePortStatement) *)

(** [letter] is s or d; [norm] the ports collected so far in reverse, [count] their number, a
    range counting two *)
Definition multiport (letter : string) (norm : list string) : string :=
  append "-m multiport --" (append letter (append "ports " (join "," (rev norm)))).
(** iptables.py:564-618, the loop *)
Fixpoint port_statements_loop (letter : string) (ports : list prange) (norm : list string) (count : Z) : list string :=
  match ports with
  | [] =>
      match norm with
      | [] => []
      | [p] => [append "--" (append letter (append "port " p))]
      | _ => [multiport letter norm]
      end
  | (lo, hi) :: rest =>
      let norm := (if lo =? hi then dec lo else append (dec lo) (append ":" (dec hi))) :: norm in
      let count := count + (if lo =? hi then 1 else 2) in
      if 14 <=? count then multiport letter norm :: port_statements_loop letter rest [] 0
      else port_statements_loop letter rest norm count
  end.
(** iptables.py:564-618 _GeneratePortStatement *)
Definition port_statements (letter : string) (ports : list prange) : list string := port_statements_loop letter ports [] 0.

(** ** Addresses (iptables.py:317-396 _CalculateAddresses) *)

Definition count_ver (v : ver) (l : list net) : Z := Z.of_nat (List.length (filter (fun n => ver_eqb (nver n) v) l)).
(** len(l) (iptables.py:317-396) *)
Definition len {A} (l : list A) : Z := Z.of_nat (List.length l).
(** len(l) or 1 *)
Definition len1 {A} (l : list A) : Z := if some l then len l else 1.
(** iptables.py:317-396 *)
Definition calculate_addresses (v : ver) (src src_ex dst dst_ex : list net) : res (list net * list net * list net * list net) :=
  let term_src := if some src then src else [all_ips v] in
  let! src_cut := (if some src_ex then address_list_exclude term_src src_ex true else Ok []) in
  let term_dst := if some dst then dst else [all_ips v] in
  let! dst_cut := (if some dst_ex then address_list_exclude term_dst dst_ex true else Ok []) in
  let bailout_count := len src_ex + len dst_ex + len1 src * len1 dst in
  let exclude_count := len1 src_cut * len1 dst_cut in
  let cut := exclude_count <? bailout_count in
  let ex_src := if cut then [] else src_ex in
  let ex_dst := if cut then [] else dst_ex in
  let term_src := if cut && some src_cut then src_cut else term_src in
  let term_dst := if cut && some dst_cut then dst_cut else term_dst in
  let num_pairs := count_ver V4 term_src * count_ver V4 term_dst + count_ver V6 term_src * count_ver V6 term_dst in
  let! (term_src, ex_src, term_dst, ex_dst) :=
    (if 100 <? num_pairs then
       let! new_src := address_list_exclude [all_ips v] term_src true in
       let! new_dst := address_list_exclude [all_ips v] term_dst true in
       if (len new_src <? len new_dst) && negb (some ex_src) then
         if len new_src + len term_dst <? num_pairs then Ok ([all_ips v], new_src, term_dst, ex_dst) else Ok (term_src, ex_src, term_dst, ex_dst)
       else if negb (some ex_dst) then
         if len new_dst + len term_src <? num_pairs then Ok (term_src, ex_src, [all_ips v], new_dst) else Ok (term_src, ex_src, term_dst, ex_dst)
       else Ok (term_src, ex_src, term_dst, ex_dst)
     else Ok (term_src, ex_src, term_dst, ex_dst)) in
  let mine := filter (fun n => ver_eqb (nver n) v) in
  Ok (mine term_src, mine ex_src, mine term_dst, mine ex_dst).

(** ** One combination (iptables.py:398-538 _FormatPart) *)

(** iptables.py:540-562 _GenerateAddressStatement, one side; None for the empty string *)
Definition address_statement (v : ver) (flag : string) (a : option net) : string :=
  match a with
  | None => ""
  | Some n => if net_eqb n (all_ips v) then "" else append flag (append " " (prefixlen_text n))
  end.
(** str(icmp_type) and the code, iptables.py:489-497; [ty] None for the empty string *)
Definition icmp_statement (proto : string) (ty code : option Z) : string :=
  append (match ty with
          | None => ""
          | Some n => if String.eqb proto "icmpv6" then append "-m icmp6 --icmpv6-type " (dec n) else append "--icmp-type " (dec n)
          end)
         (match code with Some n => if n =? 0 then "" else append "/" (dec n) | None => "" end).
(** the arguments of _FormatPart (iptables.py:398-430) *)
Record combo := mkCombo { cb_proto : string; cb_src : option net; cb_sport : list prange; cb_dst : option net; cb_dport : list prange;
  cb_flags : list string; cb_type : option Z; cb_code : option Z; cb_track : list string * list string;
  cb_in : string; cb_out : string; cb_log : bool; cb_action : string }.
(** The state of the two loops over ports, iptables.py:506-538: the source port text, the
    protocol, the ICMP text and the options, all of which the body assigns. *)
Definition port_loop_state : Type := (string * string * string * list string)%type.
(** iptables.py:506-538, one line *)
Definition format_line (c : ipt_cfg) (t : term) (k : combo) (flags : string) (st : port_loop_state) (dport : string)
  : list string * port_loop_state :=
  let '(sport, proto, icmp, options) := st in
  let swap := substring_of "multiport" sport && negb (substring_of "multiport" dport) in
  let (sport, dport) := if swap then (dport, sport) else (sport, dport) in
  let is6 := String.eqb (cb_proto k) "icmpv6" in
  let options := if is6 then options ++ [proto; icmp] else options in
  let proto := if is6 then "" else proto in
  let icmp := if is6 then "" else icmp in
  let proto := if ver_eqb (ic_ver c) V6 && String.eqb (cb_proto k) "all" && substring_of "REJECT" (cb_action k) then "" else proto in
  let rval := append "-A " (chain_of c (t_name t))
    :: filter nonempty [proto; flags; sport; dport; icmp; address_statement (ic_ver c) "-s" (cb_src k);
                        address_statement (ic_ver c) "-d" (cb_dst k); join " " options;
                        if nonempty (cb_in k) then append "-i " (cb_in k) else ""; if nonempty (cb_out k) then append "-o " (cb_out k) else ""] in
  ((if cb_log k then [join " " (rval ++ [append "-j LOG --log-prefix " (t_name t)])] else [])
   ++ [join " " (rval ++ [cb_action k])], (sport, proto, icmp, options)).
(** iptables.py:506-538, the inner loop *)
Fixpoint dport_loop (c : ipt_cfg) (t : term) (k : combo) (flags : string) (st : port_loop_state) (dports : list string)
  : list string * port_loop_state :=
  match dports with
  | [] => ([], st)
  | d :: rest =>
      let (ls, st) := format_line c t k flags st d in
      let (ls', st) := dport_loop c t k flags st rest in
      (ls ++ ls', st)
  end.
(** iptables.py:506-538, the outer loop *)
Fixpoint sport_loop (c : ipt_cfg) (t : term) (k : combo) (flags : string) (st : string * string * list string)
  (sports dports : list string) : list string * (string * string * list string) :=
  match sports with
  | [] => ([], st)
  | s :: rest =>
      let '(proto, icmp, options) := st in
      let '(ls, (_, proto, icmp, options)) := dport_loop c t k flags (s, proto, icmp, options) dports in
      let (ls', st) := sport_loop c t k flags (proto, icmp, options) rest dports in
      (ls ++ ls', st)
  end.
(** [options] is the list the caller passes; it is changed in place unless it is empty. The
    result: the lines, and the caller's list afterwards. *)
Definition format_part (c : ipt_cfg) (t : term) (options : list string) (k : combo) : list string * list string :=
  let proto := match assoc (cb_proto k) ipt_proto_table with
               | Some p => p
               | None => if nonempty (cb_proto k) then append "-p " (cb_proto k) else ""
               end in
  let hop := String.eqb (cb_proto k) "hopopt" in
  let frag := String.eqb (cb_proto k) "fragment" in
  let q := String dquote "" in
  let proto := if hop || frag then "" else proto in
  let opts := options ++ (if hop then [append "-m u32 --u32 " (append q (append "0x3&0xff=0x0" q))] else [])
                      ++ (if frag then [append "-m u32 --u32 " (append q (append "0x3&0xff=0x2c" q))] else []) in
  let track := ic_state c && (negb (String.eqb (cb_proto k) "icmpv6")
                              || match cb_type k with Some n => (n =? 128) || (n =? 139) | None => false end) in
  let opts := if track && negb (existsb (substring_of "state") opts) && substring_of "ACCEPT" (cb_action k)
              then opts ++ ["-m state --state NEW,ESTABLISHED,RELATED"] else opts in
  let flags := if some (cb_flags k) || some (fst (cb_track k))
               then append "--tcp-flags " (append (join "," (sorted_set (cb_flags k ++ fst (cb_track k))))
                      (append " " (join "," (sorted_set (cb_flags k ++ snd (cb_track k))))))
               else "" in
  let icmp := icmp_statement (cb_proto k) (cb_type k) (cb_code k) in
  let sports := if some (cb_sport k) then port_statements "s" (cb_sport k) else [""] in
  let dports := if some (cb_dport k) then port_statements "d" (cb_dport k) else [""] in
  let (ls, st) := sport_loop c t k flags (proto, icmp, opts) sports dports in
  (ls, if some options then snd st else options).
(** iptables.py:279-310: the calls of _FormatPart *)
Fixpoint format_parts (c : ipt_cfg) (t : term) (options : list string) (ks : list combo) : list string :=
  match ks with
  | [] => []
  | k :: rest => let (ls, options) := format_part c t options k in ls ++ format_parts c t options rest
  end.

(** ** A term (iptables.py:109-315 __str__) *)

(** iptables.py:235-267: the loop over the options; the state: self.options, tcp_flags,
    whether tcp_track_options is set *)
Fixpoint ipt_options (c : ipt_cfg) (protocol opts : list string) (st : list string * list string * bool)
  : res (list string * list string * bool) :=
  match opts with
  | [] => Ok st
  | o :: rest =>
      let '(options, flags, track) := st in
      let est := starts_with "established" o in
      let tcp := starts_with "tcp-established" o in
      let! (options, track) :=
        (if (est || tcp) && negb (str_in "ESTABLISHED" (map strip options)) then
           if tcp && negb (list_str_eqb protocol ["tcp"]) then Raise (Exn "TcpEstablishedError")
           else if ic_state c then Ok (options ++ ["-m state --state ESTABLISHED,RELATED"], track)
           else Ok (options, track || list_str_eqb protocol ["tcp"])
         else Ok (options, track)) in
      let flags := flags ++ flat_map (fun e => if starts_with (fst e) o then [snd e] else []) ipt_flags_table in
      let options := match assoc o ipt_matchers with Some m => options ++ [m] | None => options end in
      ipt_options c protocol rest (options, flags, track)
  end.
(** s.replace('-', ':') *)
Definition colons (s : string) : string := map_string (fun c => if Ascii.eqb c "-" then ":"%char else c) s.
(** s.replace of the double quote by nothing *)
Definition unquote (s : string) : string := string_of_list_ascii (filter (fun c => negb (Ascii.eqb c dquote)) (list_ascii_of_string s)).
(** the newline (iptables.py:803-848) *)
Definition nl_text : string := String newline "".
(** iptables.py:147-169 the comment lines *)
Definition ipt_comments (c : ipt_cfg) (t : term) : list string :=
  if ic_verbose c then
    let name := chain_of c (t_name t) in
    let comments := t_comment t ++ (if given (t_owner t) then [append "Owner: " (match t_owner t with Some o => o | None => "" end)] else []) in
    let width := 92 - slen name in
    let wrapped := wrap_words comments (Z.to_nat (if width <? 40 then 40 else width)) nl_text in
    match wrapped with
    | first :: _ =>
        if nonempty first then
          flat_map (fun line => if nonempty line then
            [append "-A " (append name (append " -m comment --comment " (append (String dquote "") (append (unquote line) (String dquote "")))))]
            else []) wrapped
        else []
    | [] => []
    end
  else [].
(** iptables.py:279-286 *)
Definition bailout (src dst : option net) : combo :=
  mkCombo "" src [] dst [] [] None None ([], []) "" "" false "-j RETURN".
(** iptables.py:222-228 *)
Definition given_text (o : option string) : string := match o with Some s => s | None => "" end.
(** iptables.py:256-260, 288-315 *)
Definition ipt_track : list (list string * list string) :=
  [(["ACK"], ["ACK"]); (["SYN"; "FIN"; "ACK"; "RST"], ["RST"])].
(** iptables.py:288-310 *)
Definition ipt_combos (t : term) (srcs dsts : list net) (types codes : list (option Z)) (protocol flags : list string) (track : bool) (action : string)
  : list combo :=
  flat_map (fun s => flat_map (fun d => flat_map (fun ty => flat_map (fun co => flat_map (fun pr => map (fun tr =>
    mkCombo pr (Some s) (t_source_port t) (Some d) (t_destination_port t) flags ty co tr
      (given_text (t_source_interface t)) (given_text (t_destination_interface t)) (some (t_logging t)) action)
    (if track then ipt_track else [([], [])])) protocol) codes) types) dsts) srcs.
(** iptables.py:109-315 Term.__str__ *)
Definition ipt_term (c : ipt_cfg) (t : term) : res (list string) :=
  let platform := ipt_platform (ic_speedway c) in
  if (some (t_platform t) && negb (str_in platform (t_platform t))) || (some (t_platform_exclude t) && str_in platform (t_platform_exclude t)) then Ok []
  else if match ic_ver c with V6 => str_in "icmp" (t_protocol t) | V4 => str_in "icmpv6" (t_protocol t) end then Ok []
  else if some (t_verbatim t) then Ok (map snd (filter (fun v => String.eqb (fst v) platform) (t_verbatim t)))
  else
    match t_action t with
    | [] => Raise (Exn "IndexError")
    | action :: _ =>
        let name := chain_of c (t_name t) in
        let jump := append "-A " (append (ic_filter c) (append " -j " name)) in
        let head := append "-N " name :: (if ic_speedway c then [] else [jump]) ++ ipt_comments c t in
        if some (t_source_prefix t) || some (t_destination_prefix t) then
          if str_in action ["accept"; "next"]
          then Ok [append "# skipped " (append (t_name t) " due to source or destination prefix rule")]
          else Raise (Exn "UnsupportedFilterError")
        else
          let protocol := if some (t_protocol t) then t_protocol t else ["all"] in
          if str_in "hopopt" protocol && ver_eqb (ic_ver c) V4 then Ok []
          else
            let! (srcs, ex_srcs, dsts, ex_dsts) :=
              calculate_addresses (ic_ver c) (t_source_address t) (t_source_address_exclude t) (t_destination_address t) (t_destination_address_exclude t) in
            if negb (some srcs) then Ok []
            else if negb (some dsts) then Ok []
            else
              let! types := normalize_icmp_types (t_icmp_type t) protocol (AfName (ipt_af (ic_ver c))) in
              let types := match types with Some l => map Some l | None => [None] end in
              let! (options, flags, track) := ipt_options c protocol (t_option t) ([], [], false) in
              let options := options
                ++ (if given (t_packet_length t) then [append "-m length --length " (colons (given_text (t_packet_length t)))] else [])
                ++ (if given (t_fragment_offset t) then [append "-m u32 --u32 4&0x1FFF=" (colons (given_text (t_fragment_offset t)))] else []) in
              let codes := if some (t_icmp_code t) then map Some (t_icmp_code t) else [None] in
              match ipt_action (ic_ver c) action with
              | None => Raise (Exn "TypeError")
              | Some act =>
                  let bail := map (fun s => bailout (Some s) None) ex_srcs ++ map (fun d => bailout None (Some d)) ex_dsts in
                  Ok (filter nonempty
                        (head ++ flat_map (fun k => fst (format_part c t [] k)) bail
                         ++ format_parts c t options (ipt_combos t srcs dsts types codes protocol flags track act)
                         ++ (if ic_speedway c then [jump] else [])))
              end
    end.

(** ** Filters (iptables.py:692-848) *)

Record ipt_header := mkIptHeader { ih_name : string; ih_options : list string; ih_comment : list string }.
(** iptables.py:626-640: what the class hands to the checks of aclgenerator.py *)
Definition ipt_gen : gen_class := mkGen "all" ["inet"; "inet6"] [].
(** iptables.py:756-783, and aclgenerator.py:121-132 for the protocols: the terms that are rendered *)
Fixpoint ipt_select (c : ipt_cfg) (abbreviate truncate : bool) (today : Z) (seen : list string) (terms : list term) : res (list term) :=
  match terms with
  | [] => Ok []
  | t :: rest =>
      let! n := fix_term_length abbreviation_table (t_name t) abbreviate truncate 24 in
      if str_in n seen then Raise (Exn "DuplicateTermError")
      else
        let! t' := fix_high_ports ipt_gen (set_name n t) (ipt_af (ic_ver c)) (ic_state c) in
        if expired today t' then ipt_select c abbreviate truncate today (n :: seen) rest
        else
          let! _ := term_protocols [] (t_protocol t') in
          let! ts := ipt_select c abbreviate truncate today (n :: seen) rest in
          Ok (t' :: ts)
  end.
(** The variables that live through the loop over the filters, iptables.py:697-701:
    default_action, all_protocols_stateful, verbose. *)
Record ipt_state := mkIptState { is_default : option string; is_stateful : bool; is_verbose : bool }.
(** iptables.py:692-703 *)
Definition ipt_start : ipt_state := mkIptState None true true.
(** What one filter is rendered with. *)
Record ipt_filter := mkIptFilter { if_header : ipt_header; if_cfg : ipt_cfg; if_default : option string; if_terms : list term }.
(** iptables.py:703-786, one pass of the loop *)
Definition ipt_translate (speedway : bool) (today : Z) (st : ipt_state) (h : ipt_header) (terms : list term) : res (ipt_filter * ipt_state) :=
  if negb (forallb (fun o => str_in o ["ACCEPT"; "DROP"; "inet"; "inet6"; "nostate"; "abbreviateterms"; "truncateterms"; "noverbose"]) (ih_options h))
  then Raise (Exn "UnsupportedTargetOptionError")
  else
    let stateful := if str_in "nostate" (ih_options h) then false else is_stateful st in
    let verbose := if str_in "noverbose" (ih_options h) then false else is_verbose st in
    if str_in "inet" (ih_options h) && str_in "inet6" (ih_options h) then Raise (Exn "UnsupportedFilterError")
    else
      let v := if str_in "inet6" (ih_options h) then V6 else V4 in
      let default := if negb speedway && String.eqb (ih_name h) "FORWARD" then Some "DROP" else is_default st in
      let default := if some (ih_options h)
        then fold_left (fun d arg => if str_in arg ["ACCEPT"; "DROP"] then Some arg else d) (ih_name h :: ih_options h) default else default in
      let c := mkIpt speedway (ih_name h) v stateful verbose in
      let! ts := ipt_select c (str_in "abbreviateterms" (ih_options h)) (str_in "truncateterms" (ih_options h)) today [] terms in
      Ok (mkIptFilter h c default ts, mkIptState default stateful verbose).
(** iptables.py:703-786 *)
Fixpoint ipt_filters (speedway : bool) (today : Z) (st : ipt_state) (fs : list (ipt_header * list term)) : res (list ipt_filter) :=
  match fs with
  | [] => Ok []
  | (h, terms) :: rest =>
      let! (f, st) := ipt_translate speedway today st h terms in
      let! r := ipt_filters speedway today st rest in
      Ok (f :: r)
  end.
(** iptables.py:803-848 __str__, one filter *)
Definition ipt_filter_lines (speedway : bool) (f : ipt_filter) : res (list string) :=
  let h := if_header f in
  let comments := wrap_words (ih_comment h) 70 nl_text in
  let builtin := str_in (ih_name h) ["INPUT"; "OUTPUT"; "FORWARD"] in
  let default (action : string) := if speedway then append ":" (append (ih_name h) (append " " action)) else append "-P " (append (ih_name h) (append " " action)) in
  let! bodies := mapM (ipt_term (if_cfg f)) (if_terms f) in
  Ok ([append "# " (append (if speedway then "Speedway" else "Iptables") (append " " (append (ih_name h) " Policy")))]
      ++ (if match comments with first :: _ => nonempty first | [] => false end then map (append "# ") comments ++ ["#"] else [])
      ++ add_repository_tags "# " true true true false
      ++ [append "# " (ipt_af (ic_ver (if_cfg f)))]
      ++ (if builtin then
            match if_default f with
            | Some a => [default a]
            | None => if speedway then [default "DROP"] else []
            end
          else [append "-N " (ih_name h)])
      ++ concat bodies).
(** iptables.py:692-848 *)
Definition ipt_policy (speedway : bool) (today : Z) (fs : list (ipt_header * list term)) : res (list string) :=
  let! filters := ipt_filters speedway today ipt_start fs in
  let! bodies := mapM (ipt_filter_lines speedway) filters in
  Ok ((if speedway then ["*filter"] else []) ++ concat bodies ++ (if speedway then ["COMMIT"] else []) ++ [""]).
