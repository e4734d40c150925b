(** Model of capirca/lib/juniper.py. Not modelled: the attributes flexible_match_range,
    policer, qos, loss_priority, dscp_set and traffic_class_count, which the record [term] does not carry
    (absent here), log messages, and the attribute interface_type used by a subclass. *)
From Verif Require Export ModelGen ModelText ModelCisco.
Local Open Scope string_scope.
Local Open Scope list_scope.
Local Open Scope Z_scope.

(** ** Config (juniper.py:67-118) *)

Definition spaces (n : Z) : string := string_of_list_ascii (repeat " "%char (Z.to_nat n)).
(** s.endswith(suffix) *)
Definition ends_with (suffix s : string) : bool :=
  (String.length suffix <=? String.length s)%nat
  && String.eqb (substring (String.length s - String.length suffix) (String.length suffix) s) suffix.
(** The state: the current indent and the lines in reverse; [init] is the initial indent. *)
Definition config : Type := Z * list string.
(** juniper.py:91-118 Append with verbatim False *)
Definition append_line (init : Z) (c : config) (line : string) : res config :=
  let (indent, lines) := c in
  let indent := if ends_with "}" line then indent - 4 else indent in
  if indent <? init then Raise (Exn "JuniperIndentationError")
  else
    let lines := append (spaces indent) (strip line) :: lines in
    let opens := substring_of "/*" line in
    let closes := substring_of "*/" line in
    let indent := if negb opens && closes then indent - 1 else indent in
    if indent <? init then Raise (Exn "JuniperIndentationError")
    else
      let indent := if negb closes && opens then indent + 1 else indent in
      Ok (if ends_with " {" line then indent + 4 else indent, lines).
(** Append line by line (juniper.py:91-118) *)
Fixpoint append_lines (init : Z) (c : config) (ls : list string) : res config :=
  match ls with
  | [] => Ok c
  | l :: rest => let! c' := append_line init c l in append_lines init c' rest
  end.
(** juniper.py:85-89 __str__, before the lines are joined by newlines *)
Definition config_lines (init : Z) (c : config) : res (list string) :=
  if fst c =? init then Ok (rev (snd c)) else Raise (Exn "JuniperIndentationError").

(** ** Parts of a term *)

(** juniper.py:137-144 ACTIONS *)
Definition juniper_actions : list (string * string) :=
  [("accept", "accept"); ("deny", "discard"); ("reject", "reject"); ("next", "next term");
   ("reject-with-tcp-rst", "reject tcp-reset"); ("encapsulate", "encapsulate"); ("decapsulate", "decapsulate");
   ("port-mirror", "port-mirror")].

(** What the term is rendered for: the filter type, the options enable_dsmo and noverbose. *)
Record juniper_cfg := mkJuniper { jc_type : string; jc_dsmo : bool; jc_noverbose : bool }.
(** juniper.py:155-173 _TERM_TYPE *)
Definition kw (c : juniper_cfg) (key : string) : string :=
  if String.eqb (jc_type c) "inet6" then
    (if String.eqb key "addr" then "address" else if String.eqb key "saddr" then "source-address"
     else if String.eqb key "daddr" then "destination-address" else if String.eqb key "protocol" then "next-header"
     else if String.eqb key "protocol-except" then "next-header-except" else "tcp-established")
  else if String.eqb (jc_type c) "bridge" then
    (if String.eqb key "addr" then "ip-address" else if String.eqb key "saddr" then "ip-source-address"
     else if String.eqb key "daddr" then "ip-destination-address" else if String.eqb key "protocol" then "ip-protocol"
     else if String.eqb key "protocol-except" then "ip-protocol-except"
     else append "tcp-flags " (String dquote (append "(ack|rst)" (String dquote ""))))
  else
    (if String.eqb key "addr" then "address" else if String.eqb key "saddr" then "source-address"
     else if String.eqb key "daddr" then "destination-address" else if String.eqb key "protocol" then "protocol"
     else if String.eqb key "protocol-except" then "protocol-except" else "tcp-established").
(** aclgenerator.py:100-103 AF_MAP *)
Definition j_ver (c : juniper_cfg) : ver := if String.eqb (jc_type c) "inet6" then V6 else V4.

(** juniper.py:726-758 _MinimizePrefixes; [exclude_set] is a set of networks *)
Definition minimize_prefixes (include exclude : list net) : list net * list net :=
  let inc := filter (fun ip => negb (existsb (net_eqb ip) exclude)) include in
  (inc, filter (fun e => existsb (subnet_of e) inc) exclude).

(** s.rfind(' '), -1 if there is none *)
Fixpoint rfind_space (s : string) (i last : Z) : Z :=
  match s with
  | "" => last
  | String c s' => rfind_space s' (i + 1) (if Ascii.eqb c " " then i else last)
  end.
(** s[n:] for n >= 0 *)
Definition slice_from (s : string) (n : Z) : string := substring (Z.to_nat n) (String.length s) s.
(** juniper.py:826-843: the loop that splits the text; [comment] is the start of the line *)
Fixpoint comment_loop (fuel : nat) (indentation length_eol : Z) (comment text : string) : list string :=
  match fuel with
  | O => []
  | S f =>
      if is_empty text then []
      else
        let cut := if length_eol <? slen text
                   then let k := rfind_space (slice_to text length_eol) 0 (-1) in
                        if k <=? 0 then length_eol else k
                   else length_eol in
        append comment (append " " (strip (slice_to text cut)))
        :: comment_loop f indentation length_eol (append (spaces indentation) "**") (slice_from text cut)
  end.
(** juniper.py:846 *)
Fixpoint close_last (ls : list string) : list string :=
  match ls with
  | [] => []
  | [l] => [append l " */"]
  | l :: rest => l :: close_last rest
  end.
(** juniper.py:760-850 _Comment, with the default line_length *)
Definition address_comment (c : juniper_cfg) (exclude : bool) (text : string) : list string :=
  if jc_noverbose c || is_empty text || substring_of "/*" text || substring_of "*/" text then []
  else
    let indentation := (if exclude then 21 else 14) + 12 in
    let text := slice_to text 132 in
    close_last (comment_loop (String.length text) indentation (77 - indentation) " /*" text).

(** juniper.py:852-893 _Group on the texts of the elements (_FormattedGroup is called with
    its default lc, so nothing is lower-cased) *)
Definition group (l : list string) : string :=
  match l with
  | [x] => append x ";"
  | _ => append "[ " (append (join " " l) " ];")
  end.
(** juniper.py:884-887: one port or range *)
Definition port_text (r : prange) : string :=
  let (lo, hi) := r in if lo =? hi then dec lo else append (dec lo) (append "-" (dec hi)).
(** str of a protocol (juniper.py:852-893) *)
Definition pval_text (p : pval) : string := match p with PName s => s | PNum n => dec n end.
(** a protocol compared to a text (juniper.py:215-295) *)
Definition pval_is (s : string) (p : pval) : bool := match p with PName q => String.eqb q s | PNum _ => false end.
(** l[l.index(a)] = b, if a is in l *)
Fixpoint replace_first (a b : string) (l : list pval) : list pval :=
  match l with
  | [] => []
  | p :: l' => if pval_is a p then PName b :: l' else p :: replace_first a b l'
  end.
(** l.remove(a), if a is in l *)
Fixpoint remove_pval (a : string) (l : list pval) : list pval :=
  match l with [] => [] | p :: l' => if pval_is a p then l' else p :: remove_pval a l' end.
(** protocol == ['tcp'] (juniper.py:270, 278) *)
Definition only_tcp (ps : list pval) : bool := match ps with [p] => pval_is "tcp" p | _ => false end.

(** juniper.py:255-295: the options; the state is (extra_actions, from_str) *)
Definition juniper_option (c : juniper_cfg) (ps : list pval) (acc : list string * list string) (opt : string)
  : res (list string * list string) :=
  let (extra, from) := acc in
  if starts_with "sample" opt then Ok (extra ++ ["sample"%string], from)
  else if starts_with "established" opt then
    Ok (extra, if only_tcp ps && negb (str_in "tcp-established;" from) then from ++ [append (kw c "tcp-est") ";"] else from)
  else if starts_with "tcp-established" opt then
    if only_tcp ps then
      Ok (extra, if str_in (append (kw c "tcp-est") ";") from then from else from ++ [append (kw c "tcp-est") ";"])
    else Raise (Exn "TcpEstablishedWithNonTcpError")
  else if starts_with "rst" opt then Ok (extra, from ++ [append "tcp-flags " (String dquote (append "rst" (String dquote ";")))])
  else if starts_with "initial" opt && existsb (pval_is "tcp") ps then Ok (extra, from ++ ["tcp-initial;"%string])
  else if starts_with "first-fragment" opt then Ok (extra, from ++ ["first-fragment;"%string])
  else Ok (extra, from ++ [append opt ";"]).
(** juniper.py:258-295 *)
Fixpoint juniper_options (c : juniper_cfg) (ps : list pval) (acc : list string * list string) (opts : list string)
  : res (list string * list string) :=
  match opts with
  | [] => Ok acc
  | o :: rest => let! acc' := juniper_option c ps acc o in juniper_options c ps acc' rest
  end.

(** juniper.py:313-337 has_match_criteria *)
Definition has_match_criteria (t : term) (ps : list pval) : bool :=
  some (t_address t) || some (t_dscp_except t) || some (t_dscp_match t) || some (t_destination_address t)
  || some (t_destination_port t) || some (t_destination_prefix t) || some (t_destination_prefix_except t)
  || given (t_encapsulate t) || some (t_ether_type t) || some (t_forwarding_class t)
  || some (t_forwarding_class_except t) || given (t_fragment_offset t) || given (t_hop_limit t)
  || some (t_next_ip t) || some (t_port t) || some (t_precedence t) || some ps || some (t_protocol_except t)
  || some (t_source_address t) || some (t_source_port t) || some (t_source_prefix t) || some (t_source_prefix_except t)
  || some (t_traffic_type t) || match t_ttl t with Some n => negb (n =? 0) | None => false end.

(** The entries of an address block: text and comment. *)
Definition entries (c : juniper_cfg) (l : list net) : res (list (string * string)) :=
  if jc_dsmo c then
    let! s := summarize l in
    mapM (fun d => let! (q, m) := to_dotted_quad d false true in Ok (append q (append "/" m), dtext d)) s
  else Ok (map (fun n => (prefixlen_text n, ntext n)) l).
(** juniper.py:344-433, one address *)
Definition entry_lines (c : juniper_cfg) (exclude : bool) (e : string * string) : list string :=
  address_comment c exclude (snd e) ++ [append (fst e) (if exclude then " except;" else ";")].
(** juniper.py:344-361: the address block *)
Definition either_block (c : juniper_cfg) (l : list net) : res (option (list string)) :=
  let! es := entries c (address_of_version l (Some (j_ver c))) in
  if some es then Ok (Some ([append (kw c "addr") " {"] ++ flat_map (entry_lines c false) es ++ ["}"%string]))
  else if some l then Ok None else Ok (Some []).
(** juniper.py:365-433: the source and destination address blocks *)
Definition side_block (c : juniper_cfg) (key : string) (inc exc : list net) : res (option (list string)) :=
  let a := address_of_version inc (Some (j_ver c)) in
  let x := address_of_version exc (Some (j_ver c)) in
  let (a, x) := if jc_dsmo c then (a, x) else minimize_prefixes a x in
  let! ea := entries c a in
  let! ex := entries c x in
  if some ea then
    Ok (Some ([append (kw c key) " {"] ++ flat_map (entry_lines c false) ea ++ flat_map (entry_lines c true) ex ++ ["}"%string]))
  else if some inc then Ok None else Ok (Some []).

(** juniper.py:444-460 *)
Definition prefix_list_block (key : string) (inc exc : list string) : list string :=
  if some inc || some exc then
    [append key " {"] ++ map (fun p => append p ";") inc ++ map (fun p => append p " except;") exc ++ ["}"%string]
  else [].
(** a list of values, if there are any (juniper.py:466-566) *)
Definition group_line (key : string) (l : list string) : list string :=
  if some l then [append key (append " " (group l))] else [].
(** one value, if there is one (juniper.py:466-566) *)
Definition value_line (key : string) (o : option string) : list string :=
  match o with
  | Some s => if is_empty s then [] else [append key (append " " (append s ";"))]
  | None => []
  end.

(** juniper.py:527-539: int(precedence) in range(0, 8) *)
Definition precedence_line (l : list string) : res (list string) :=
  if some l then
    let! _ := mapM (fun p => let! n := py_int p in
                             if (0 <=? n) && (n <=? 7) then Ok tt else Raise (Exn "PrecedenceError")) l in
    Ok (group_line "precedence" (sorted_set l))
  else Ok [].

(** juniper.py:339-566: the lines of the from clause; None: the term is not rendered.
    Protocols other than names do not occur in the test of NormalizeIcmpTypes. *)
Definition from_lines (c : juniper_cfg) (t : term) (ps : list pval) (from : list string)
  : res (option (list string)) :=
  let v6 := String.eqb (jc_type c) "inet6" in
  let! a := either_block c (t_address t) in
  match a with None => Ok None | Some a =>
  let! s := side_block c "saddr" (t_source_address t) (t_source_address_exclude t) in
  match s with None => Ok None | Some s =>
  let! d := side_block c "daddr" (t_destination_address t) (t_destination_address_exclude t) in
  match d with None => Ok None | Some d =>
  let! types := (if some (t_icmp_type t)
                 then let! r := normalize_icmp_types (t_icmp_type t) (map pval_text ps) (AfName (jc_type c)) in
                      Ok (match r with Some l => map dec l | None => [] end)
                 else Ok []) in
  let! prec := precedence_line (t_precedence t) in
  Ok (Some (
    ["from {"%string]
    ++ a ++ s ++ d
    ++ group_line "forwarding-class" (t_forwarding_class t)
    ++ group_line "forwarding-class-except" (t_forwarding_class_except t)
    ++ prefix_list_block "source-prefix-list" (t_source_prefix t) (t_source_prefix_except t)
    ++ prefix_list_block "destination-prefix-list" (t_destination_prefix t) (t_destination_prefix_except t)
    ++ (match t_ttl t with
        | Some n => if negb (n =? 0) && String.eqb (jc_type c) "inet" then [append "ttl " (append (dec n) ";")] else []
        | None => [] end)
    ++ group_line "port" (map port_text (t_port t))
    ++ group_line "source-port" (map port_text (t_source_port t))
    ++ group_line "destination-port" (map port_text (t_destination_port t))
    ++ from
    ++ value_line "packet-length" (t_packet_length t)
    ++ value_line "fragment-offset" (t_fragment_offset t)
    ++ group_line "icmp-type" types
    ++ group_line "icmp-code" (map dec (t_icmp_code t))
    ++ group_line "ether-type" (t_ether_type t)
    ++ group_line (kw c "protocol") (map pval_text (replace_first "icmpv6" "icmp6" ps))
    ++ group_line (kw c "protocol-except")
         (map pval_text (replace_first "icmpv6" "icmp6" (replace_first "hopopt" "hop-by-hop" (map PName (t_protocol_except t)))))
    ++ group_line "traffic-type" (t_traffic_type t)
    ++ prec
    ++ (if some (t_dscp_match t)
        then [append (if v6 then "traffic-class [ " else "dscp [ ") (append (join " " (t_dscp_match t)) " ];")] else [])
    ++ (if some (t_dscp_except t)
        then [append (if v6 then "traffic-class-except [ " else "dscp-except [ ") (append (join " " (t_dscp_except t)) " ];")] else [])
    ++ (if v6 then value_line "hop-limit" (t_hop_limit t) else [])
    ++ ["}"%string]))
  end end end.

(** juniper.py:713-724 CheckTerminatingAction; an attribute that is set is in the set *)
Definition opt_list (o : option string) : list string := if given o then match o with Some s => [s] | None => [] end else [].
(** juniper.py:713-724 *)
Definition check_terminating_action (t : term) : res unit :=
  if (1 <? Zlen (nodup_str (t_action t ++ opt_list (t_encapsulate t) ++ opt_list (t_decapsulate t)
                            ++ opt_list (t_routing_instance t))))
  then Raise (Exn "JuniperMultipleTerminatingActionError") else Ok tt.
(** juniper.py:704-711 NextIpCheck and the line that follows it *)
Definition next_ip_line (l : list net) : res string :=
  match l with
  | [n] => if nlen n =? width (nver n)
           then Ok (append (match nver n with V4 => "next-ip " | V6 => "next-ip6 " end) (append (prefixlen_text n) ";"))
           else Raise (Exn "JuniperNextIpError")
  | [] => Raise (Exn "IndexError")
  | _ => Raise (Exn "JuniperNextIpError")
  end.
(** set.update(text): the characters *)
Definition characters (o : option string) : list string :=
  match o with Some s => map (fun c => String c "") (list_ascii_of_string s) | None => [] end.
(** juniper.py:582-604 the set unique_actions *)
Fixpoint add_until (u : list string) (more : list (list string)) : list string :=
  match more with
  | [] => u
  | l :: rest =>
      if some l then let u' := nodup_str (u ++ l) in if 1 <? Zlen u' then u' else add_until u' rest
      else add_until u rest
  end.
(** juniper.py:582-604 *)
Definition unique_actions (t : term) (extra : list string) : list string :=
  let u := nodup_str (extra ++ (if given (t_routing_instance t) then [] else t_action t)
                      ++ (if given (t_encapsulate t) then ["encapsulate"%string] else [])
                      ++ (if given (t_decapsulate t) then ["decapsulate"%string] else [])) in
  if Zlen u <=? 1
  then add_until u [t_logging t; characters (t_routing_instance t); characters (t_counter t);
                    map prefixlen_text (t_next_ip t); characters (t_port_mirror t)]
  else u.
(** juniper.py:581-700: the lines of the then clause *)
Definition then_lines (c : juniper_cfg) (t : term) (extra : list string) : res (list string) :=
  let! _ := check_terminating_action t in
  let u := unique_actions t extra in
  match u with
  | [] => Ok []
  | [one] =>
      match assoc one juniper_actions with
      | None =>
          let! l := next_ip_line (t_next_ip t) in Ok ["then {"; l; "}"]%string
      | Some a =>
          if (String.eqb (jc_type c) "inet" && str_in a ["discard"; "reject"; "reject tcp-reset"])
             || (String.eqb (jc_type c) "inet6" && str_in a ["reject"; "reject tcp-reset"])
          then Ok ["then {"; append a ";"; "}"]%string
          else if String.eqb a "encapsulate"
          then Ok ["then {"; append "encapsulate " (append (match t_encapsulate t with Some s => s | None => "None" end) ";"); "}"]%string
          else if String.eqb a "decapsulate"
          then Ok ["then {"; append "decapsulate " (append (match t_decapsulate t with Some s => s | None => "None" end) ";"); "}"]%string
          else Ok [append "then " (append a ";")]
      end
  | _ =>
      let! nip := (if some (t_next_ip t) then let! l := next_ip_line (t_next_ip t) in Ok [l] else Ok []) in
      (* ACTIONS.get(action) + ';' raises TypeError for an action that is not in the table *)
      let! acts := (if given (t_routing_instance t) then Ok []
                    else mapM (fun a => match assoc a juniper_actions with
                                        | Some s => Ok (append s ";")
                                        | None => Raise (Exn "TypeError") end) (t_action t)) in
      Ok (["then {"%string]
          ++ map (fun l => if String.eqb l "local" then "log;"%string else "syslog;"%string) (t_logging t)
          ++ value_line "routing-instance" (t_routing_instance t)
          ++ value_line "count" (t_counter t)
          ++ (if given (t_port_mirror t) then ["port-mirror;"%string] else [])
          ++ nip
          ++ value_line "encapsulate" (t_encapsulate t)
          ++ value_line "decapsulate" (t_decapsulate t)
          ++ map (fun a => append a ";") extra
          ++ acts
          ++ ["}"%string])
  end.

(** juniper.py:236-243: the comment of the term *)
Definition term_comment_lines (c : juniper_cfg) (t : term) : list string :=
  let comments := t_comment t ++ (if given (t_owner t) then [append "Owner: " (match t_owner t with Some o => o | None => "" end)] else []) in
  if jc_noverbose c then []
  else if some comments then
    ["/*"%string] ++ flat_map (fun comment => map (fun l => append "** " l) (split_char newline comment)) comments ++ ["*/"%string]
  else [].

(** juniper.py:175-196 Term.__init__ on a list of protocols. It may have been rewritten by an
    earlier call on the same term. *)
Definition juniper_init (ps : list pval) : res (list pval) :=
  if forallb (fun p => match p with
                       | PName s => match assoc s proto_map with
                                    | Some _ => true
                                    | None => str_in s (map (fun kv => dec (snd kv)) proto_map) end
                       | PNum n => str_in (dec n) (map (fun kv => dec (snd kv)) proto_map) end) ps
  then Ok (replace_first "hopopt" "hop-by-hop"
             (map (fun p => if pval_is "ipip" p then PNum 4 else p) ps))
  else Raise (Exn "UnsupportedFilterError").

(** juniper.py:201-702 Term.__str__, before the lines are joined; [ps] is term.protocol as
    Term.__init__ left it. The second result is term.protocol afterwards. *)
Definition juniper_term (c : juniper_cfg) (t : term) (inactive : bool) (ps : list pval)
  : res (list string * list pval) :=
  if (some (t_platform t) && negb (str_in "juniper" (t_platform t)))
     || (some (t_platform_exclude t) && str_in "juniper" (t_platform_exclude t)) then Ok ([], ps)
  else
    let ps' := if String.eqb (jc_type c) "inet6" then remove_pval "icmp" ps
               else if String.eqb (jc_type c) "inet" then remove_pval "icmp6" (remove_pval "icmpv6" ps) else ps in
    if negb (some ps') && some ps then Ok ([], ps')
    else
      let comment := term_comment_lines c t in
      if some (t_verbatim t) then
        let! cfg := append_lines 12 (12, []) comment in
        let! ls := config_lines 12 (fst cfg, rev (map snd (filter (fun v => String.eqb (fst v) "juniper") (t_verbatim t))) ++ snd cfg) in
        Ok (ls, ps')
      else
        let! (extra, from) := juniper_options c ps' ([], []) (t_option t) in
        let head := comment ++ [append (if inactive then "inactive:" else "") (append " term " (append (t_name t) " {"))] in
        if given (t_filter_term t) then
          let! cfg := append_lines 12 (12, []) (head ++ [append "filter " (append (match t_filter_term t with Some f => f | None => "" end) ";"); "}"%string]) in
          let! ls := config_lines 12 cfg in Ok (ls, ps')
        else
          let! fr := (if has_match_criteria t ps' then from_lines c t ps' from else Ok (Some [])) in
          match fr with
          | None => Ok ([], ps')
          | Some fr =>
              let! th := then_lines c t extra in
              let! cfg := append_lines 12 (12, []) (head ++ fr ++ th ++ ["}"%string]) in
              let! ls := config_lines 12 cfg in
              Ok (ls, if has_match_criteria t ps' then replace_first "icmpv6" "icmp6" ps' else ps')
          end.

(** ** A whole filter *)

(** juniper.py:905-908 _DEFAULT_PROTOCOL, _SUPPORTED_AF *)
Definition juniper_gen : gen_class := mkGen "ip" ["inet"; "inet6"; "bridge"; "mixed"] [].
(** juniper.py:1027-1063: the terms of a filter of one type that are rendered, with the flag
    inactive. *)
Fixpoint juniper_select (c : juniper_cfg) (today : Z) (seen : list string) (terms : list term) : res (list (term * bool)) :=
  match terms with
  | [] => Ok []
  | t :: rest =>
      if match t_restrict_address_family t with
         | Some f => negb (is_empty f) && negb (String.eqb f (jc_type c))
         | None => false end then juniper_select c today seen rest
      else
        let inactive := str_in "inactive" (t_option t) in
        let! n := fix_term_length abbreviation_table (t_name t) false false cisco_name_limit in
        if str_in n seen then Raise (Exn "JuniperDuplicateTermError")
        else
          let! t' := fix_high_ports juniper_gen (set_name n (set_option (remove_first "inactive" (t_option t)) t)) (jc_type c) false in
          if expired today t' then juniper_select c today (n :: seen) rest
          else if str_in "is-fragment" (t_option t') && String.eqb (jc_type c) "inet6"
          then Raise (Exn "JuniperFragmentInV6Error")
          else
            let! _ := juniper_init (map PName (t_protocol t')) in
            let! ts := juniper_select c today (n :: seen) rest in
            Ok ((t', inactive) :: ts)
  end.
(** The texts of the terms. *)
Definition juniper_terms (c : juniper_cfg) (today : Z) (terms : list term) : res (list (list string)) :=
  let! ts := juniper_select c today [] terms in
  mapM (fun ti => let! ps := juniper_init (map PName (t_protocol (fst ti))) in
                  let! (ls, _) := juniper_term c (fst ti) (snd ti) ps in Ok ls) ts.
(** juniper.py:1071-1104 for one filter: its lines. *)
Definition juniper_filter (c : juniper_cfg) (today : Z) (filter_name : string) (comments : list string)
  (interface_specific enhanced : bool) (terms : list term) : res (list string) :=
  let! ts := juniper_terms c today terms in
  let! cfg := append_lines 0 (0, [])
    (["firewall {"; append "family " (append (jc_type c) " {"); "/*"]%string
     ++ add_repository_tags "** " true true true false ++ ["**"%string]
     ++ flat_map (fun comment => map (fun l => append "** " l) (split_char newline comment)) comments
     ++ ["*/"; append "replace: filter " (append filter_name " {")]%string
     ++ (if interface_specific then ["interface-specific;"%string] else [])
     ++ (if enhanced then ["enhanced-mode;"%string] else [])) in
  let! cfg := append_lines 0 (fst cfg, rev (concat ts) ++ snd cfg) ["}"; "}"; "}"]%string in
  config_lines 0 cfg.

(** juniper.py:1012-1066 for a filter of type mixed, one term that is not copied by
    FixHighPorts: the term is set up twice and then rendered for IPv4 and for IPv6, and both
    renderings work on the same list of protocols. *)
Definition juniper_mixed_term (dsmo noverbose : bool) (t : term) : res (list string * list string) :=
  let! ps := juniper_init (map PName (t_protocol t)) in
  let! ps := juniper_init ps in
  let! (l4, ps) := juniper_term (mkJuniper "inet" dsmo noverbose) t false ps in
  let! (l6, _) := juniper_term (mkJuniper "inet6" dsmo noverbose) t false ps in
  Ok (l4, l6).
