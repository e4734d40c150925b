(** Model of the parts of capirca/lib/aclgenerator.py shared by all generators. *)
From Verif Require Export ModelPolicy PyStr.
Local Open Scope string_scope.
Local Open Scope list_scope.
Local Open Scope Z_scope.

(** ** Python slices and replacement on strings *)

Definition slen (s : string) : Z := Z.of_nat (String.length s).
(** s[:n]; a negative n counts from the end. *)
Definition slice_to (s : string) (n : Z) : string :=
  if n <? 0 then substring 0 (Z.to_nat (slen s + n)) s else substring 0 (Z.to_nat n) s.
(** re.sub(word, by, s) for a pattern without special characters: all non-overlapping
    occurrences from the left.  [skip] counts the characters of the occurrence just
    replaced that are still to be passed over. *)
Fixpoint sub_aux (word by_ s : string) (skip : nat) : string :=
  match s with
  | EmptyString => ""
  | String c s' =>
      match skip with
      | S k => sub_aux word by_ s' k
      | O => if String.prefix word s then append by_ (sub_aux word by_ s' (String.length word - 1))
             else String c (sub_aux word by_ s' 0)
      end
  end.
(** aclgenerator.py:461-502: re.sub with a plain word *)
Definition re_sub (word by_ s : string) : string := sub_aux word by_ s 0.

(** ** Protocols and address families *)

(** aclgenerator.py:72-99 PROTO_MAP *)
Definition proto_map : list (string * Z) :=
  [("hopopt", 0); ("icmp", 1); ("igmp", 2); ("ggp", 3); ("ipip", 4); ("tcp", 6); ("egp", 8);
   ("igp", 9); ("udp", 17); ("rdp", 27); ("ipv6", 41); ("ipv6-route", 43); ("fragment", 44);
   ("rsvp", 46); ("gre", 47); ("esp", 50); ("ah", 51); ("icmpv6", 58); ("ipv6-nonxt", 59);
   ("ipv6-opts", 60); ("ospf", 89); ("pim", 103); ("vrrp", 112); ("l2tp", 115); ("sctp", 132);
   ("udplite", 136); ("all", -1)]%string.
(** An element of term.protocol: a name (also a numeral, as the parser leaves it) or,
    after conversion, an integer. *)
Inductive pval := PName (s : string) | PNum (n : Z).

(** aclgenerator.py:522-541 ProtocolNameToNumber; the KeyError of a name that is to be
    converted but not in the map is not reachable from Term.__init__ below. *)
Definition protocol_name_to_number (protocols proto_to_num : list string) (m : list (string * Z)) : res (list pval) :=
  mapM (fun p => if str_in p proto_to_num
                 then match assoc p m with Some n => Ok (PNum n) | None => Raise (Exn "KeyError") end
                 else Ok (PName p)) protocols.

(** aclgenerator.py:121-132 Term.__init__, for the attribute ALWAYS_PROTO_NUM [always]:
    the new value of term.protocol. *)
Definition term_protocols (always protocols : list string) : res (list pval) :=
  if some protocols then
    if forallb (fun p => match assoc p proto_map with
                         | Some _ => true
                         | None => str_in p (map (fun kv => dec (snd kv)) proto_map)
                         end) protocols
    then protocol_name_to_number protocols always proto_map
    else Raise (Exn "UnsupportedFilterError")
  else Ok [].

(** An address family given as a number or as a name (aclgenerator.py:134-155). *)
Inductive afval := AfNum (n : Z) | AfName (s : string).
(** aclgenerator.py:100-103 AF_MAP *)
Definition af_map : list (string * Z) := [("inet", 4); ("inet6", 6); ("bridge", 4)]%string.
(** aclgenerator.py:134-155 NormalizeAddressFamily *)
Definition normalize_af (af : afval) : res Z :=
  match af with
  | AfNum n => if memb Z.eqb n (map snd af_map) then Ok n else Raise (Exn "UnsupportedAFError")
  | AfName s => match assoc s af_map with Some n => Ok n | None => Raise (Exn "UnsupportedAFError") end
  end.

(** The ICMP_TYPE table of a numeric family (policy.py:376-428). *)
Definition icmp_table (af : Z) : list (string * Z) := if af =? 4 then icmp_type4 else icmp_type6.
(** aclgenerator.py:157-198 NormalizeIcmpTypes; [None] stands for the value [''] returned
    when no types are given. *)
Definition normalize_icmp_types (types protocols : list string) (af : afval) : res (option (list Z)) :=
  if negb (some types) then Ok None
  else if negb (list_str_eqb protocols ["icmp"%string]) && negb (list_str_eqb protocols ["icmpv6"%string])
  then Raise (Exn "UnsupportedFilterError")
  else
    let! n := normalize_af af in
    if (negb (n =? 4) && list_str_eqb protocols ["icmp"%string])
       || (negb (n =? 6) && list_str_eqb protocols ["icmpv6"%string])
    then Raise (Exn "MismatchIcmpInetError")
    else
      let! l := mapM (fun x => match assoc x (icmp_table n) with
                               | Some k => Ok k
                               | None => Raise (Exn "UnknownIcmpTypeError")
                               end) types in
      Ok (Some (py_sorted Z.leb l)).

(** ** Supported keywords *)

(** The attributes of a policy term with their values, as term.__dict__ has them
    (policy.py:445-528): a list of texts, or for any other type only whether Python
    takes the value as true (numbers: not zero). Attributes that the record [term] does not
    carry are missing here. *)
Inductive value := VList (l : list string) | VAtom (b : bool).
(** bool(value) (aclgenerator.py:269-322) *)
Definition truthy (v : value) : bool := match v with VList l => some l | VAtom b => b end.
(** term.__dict__ (policy.py:445-528) *)
Definition term_fields (t : term) : list (string * value) :=
  [("name", VAtom (negb (is_empty (t_name t))));
   ("action", VList (t_action t));
   ("address", VAtom (some (t_address t)));
   ("address_exclude", VAtom (some (t_address_exclude t)));
   ("source_address", VAtom (some (t_source_address t)));
   ("source_address_exclude", VAtom (some (t_source_address_exclude t)));
   ("destination_address", VAtom (some (t_destination_address t)));
   ("destination_address_exclude", VAtom (some (t_destination_address_exclude t)));
   ("port", VAtom (some (t_port t)));
   ("source_port", VAtom (some (t_source_port t)));
   ("destination_port", VAtom (some (t_destination_port t)));
   ("protocol", VList (t_protocol t));
   ("protocol_except", VList (t_protocol_except t));
   ("option", VList (t_option t));
   ("source_prefix", VList (t_source_prefix t));
   ("source_prefix_except", VList (t_source_prefix_except t));
   ("destination_prefix", VList (t_destination_prefix t));
   ("destination_prefix_except", VList (t_destination_prefix_except t));
   ("source_tag", VList (t_source_tag t));
   ("destination_tag", VList (t_destination_tag t));
   ("precedence", VList (t_precedence t));
   ("forwarding_class", VList (t_forwarding_class t));
   ("forwarding_class_except", VList (t_forwarding_class_except t));
   ("icmp_type", VList (t_icmp_type t));
   ("icmp_code", VAtom (some (t_icmp_code t)));
   ("ether_type", VList (t_ether_type t));
   ("traffic_type", VList (t_traffic_type t));
   ("dscp_match", VList (t_dscp_match t));
   ("dscp_except", VList (t_dscp_except t));
   ("fragment_offset", VAtom (given (t_fragment_offset t)));
   ("hop_limit", VAtom (given (t_hop_limit t)));
   ("packet_length", VAtom (given (t_packet_length t)));
   ("ttl", VAtom (match t_ttl t with Some n => negb (Z.eqb n 0) | None => false end));
   ("traffic_class", VAtom (match t_traffic_class t with Some n => negb (Z.eqb n 0) | None => false end));
   ("platform", VList (t_platform t));
   ("platform_exclude", VList (t_platform_exclude t));
   ("source_zone", VList (t_source_zone t));
   ("destination_zone", VList (t_destination_zone t));
   ("source_interface", VAtom (given (t_source_interface t)));
   ("destination_interface", VAtom (given (t_destination_interface t)));
   ("restrict_address_family", VAtom (given (t_restrict_address_family t)));
   ("verbatim", VAtom (some (t_verbatim t)));
   ("next_ip", VAtom (some (t_next_ip t)));
   ("next_interface", VAtom (given (t_next_interface t)));
   ("next_hop_group", VAtom (given (t_next_hop_group t)));
   ("encapsulate", VAtom (given (t_encapsulate t)));
   ("decapsulate", VAtom (given (t_decapsulate t)));
   ("port_mirror", VAtom (given (t_port_mirror t)));
   ("routing_instance", VAtom (given (t_routing_instance t)));
   ("filter_term", VAtom (given (t_filter_term t)));
   ("logging", VList (t_logging t));
   ("counter", VAtom (given (t_counter t)));
   ("comment", VList (t_comment t));
   ("owner", VAtom (given (t_owner t)));
   ("expiration", VAtom (match t_expiration t with Some _ => true | None => false end));
   ("stateless_reply", VAtom (t_stateless_reply t));
   ("translated", VAtom (t_translated t));
   ("flattened", VAtom (t_flattened t));
   ("flattened_addr", VAtom (some (t_flattened_addr t)));
   ("flattened_saddr", VAtom (some (t_flattened_saddr t)));
   ("flattened_daddr", VAtom (some (t_flattened_daddr t)))]%string.

(** aclgenerator.py:218-230 WARN_IF_UNSUPPORTED *)
Definition warn_if_unsupported : list string :=
  ["restrict_address_family"; "counter"; "destination_tag"; "filter_term"; "logging"; "loss_priority";
   "owner"; "qos"; "routing_instance"; "policer"; "source_tag"]%string.

(** A generator's tokens: aclgenerator.py:329-380 *)
Record tokens := mkTokens { supported : list string; sub_tokens : list (string * list string) }.
(** aclgenerator.py:329-380 *)
Definition default_tokens : tokens := mkTokens
  ["action"; "comment"; "destination_address"; "destination_address_exclude"; "destination_port";
   "expiration"; "icmp_type"; "stateless_reply"; "name"; "option"; "protocol"; "platform";
   "platform_exclude"; "source_address"; "source_address_exclude"; "source_port"; "translated"; "verbatim"]%string
  [("option", ["established"; "first-fragment"; "is-fragment"; "initial"; "rst"; "sample"; "tcp-established"]);
   ("action", ["accept"; "deny"; "next"; "reject"; "reject-with-tcp-rst"]);
   ("icmp_type", (map fst icmp_type4 ++ map fst icmp_type6)%list)]%string.
(** aclgenerator.py:382-399 _GetSupportedTokens *)
Definition get_supported_tokens (k : tokens) : res tokens :=
  if forallb (fun e => str_in (fst e) (supported k)) (sub_tokens k) then Ok k
  else Raise (Exn "UnsupportedFilterError").

(** aclgenerator.py:282-287: the term is active on the platform. *)
Definition active_on (platform : string) (t : term) : bool :=
  (negb (some (t_platform t)) || str_in platform (t_platform t))
  && negb (some (t_platform_exclude t) && str_in platform (t_platform_exclude t)).
(** aclgenerator.py:291-307: does an attribute add to err *)
Definition field_error (k : tokens) (e : string * value) : bool :=
  let (el, v) := e in
  (truthy v && negb (str_in el (supported k)) && negb (starts_with "flatten" el)
   && negb (str_in el warn_if_unsupported))
  || match v, assoc el (sub_tokens k) with
     | VList l, Some subs =>
         some l && negb (forallb (fun x => str_in x subs) l) && negb (str_in ".*" subs)
     | _, _ => false
     end.
(** aclgenerator.py:269-322 ACLGenerator.__init__ up to the call of _TranslatePolicy; a
    filter is its header's platform list and its terms. *)
Definition check_tokens (platform : string) (k : tokens) (filters : list (list string * list term)) : res unit :=
  let! k := get_supported_tokens k in
  if existsb (fun f => str_in platform (fst f)
                       && existsb (fun t => active_on platform t && existsb (field_error k) (term_fields t)) (snd f))
       filters
  then Raise (Exn "UnsupportedFilterError") else Ok tt.

(** ** Established terms *)

(** The class attributes FixHighPorts uses. *)
Record gen_class := mkGen {
  default_protocol : string; supported_af : list string; filter_blacklist : list (string * list string) }.
(** aclgenerator.py:402-459 FixHighPorts *)
Definition fix_high_ports (g : gen_class) (t : term) (af : string) (all_protocols_stateful : bool) : res term :=
  let protocols := if some (t_protocol t) then t_protocol t else [default_protocol g] in
  if negb (str_in af (supported_af g)) then Raise (Exn "UnsupportedAFError")
  else if match assoc af (filter_blacklist g) with
          | Some bad => existsb (fun p => str_in p bad) protocols
          | None => false
          end
  then Raise (Exn "UnsupportedFilterError")
  else if existsb (starts_with "established") (t_option t) then
    if forallb (fun p => str_in p ["tcp"; "udp"]%string) protocols then
      let ports := if all_protocols_stateful then t_destination_port t
                   else t_destination_port t ++ [(1024, 65535)] in
      Ok (set_destination_port (collapse_port_list ports) t)
    else if negb all_protocols_stateful then Raise (Exn "EstablishedError")
    else Ok t
  else Ok t.

(** ** Term names *)

(** aclgenerator.py:240-264 _ABBREVIATION_TABLE *)
Definition abbreviation_table : list (string * string) :=
  [("experiment", "EXP"); ("wifi-radius", "W-R"); ("customer", "CUST"); ("server", "SRV");
   ("global", "GBL"); ("google", "GOOG"); ("service", "SVC"); ("router", "RTR"); ("internal", "INT");
   ("external", "EXT"); ("transit", "TRNS"); ("management", "MGMT"); ("established", "EST");
   ("unreachable", "UNR"); ("fragment", "FRAG"); ("accept", "ACC"); ("discard", "DISC");
   ("reject", "REJ"); ("replies", "RPL"); ("request", "REQ")]%string.
(** aclgenerator.py:488-491: the abbreviation loop; [true] if it returned from the function *)
Fixpoint abbreviate_loop (table : list (string * string)) (limit : Z) (name : string) : bool * string :=
  match table with
  | [] => (false, name)
  | (word, abbrev) :: rest =>
      if slen name <=? limit then (true, name)
      else abbreviate_loop rest limit (re_sub word abbrev name)
  end.
(** aclgenerator.py:461-502 FixTermLength; [limit] is override_max_length after the default
    has been filled in (lines 485-486), [table] the class's _ABBREVIATION_TABLE, whose
    patterns are fixed texts. *)
Definition fix_term_length (table : list (string * string)) (name : string) (abbreviate truncate : bool)
  (limit : Z) : res string :=
  let (done, n) := if abbreviate then abbreviate_loop table limit name else (false, name) in
  if done then Ok n
  else
    let n := if truncate then slice_to n limit else n in
    if slen n <=? limit then Ok n else Raise (Exn "TermNameTooLongError").

(** ** Comments *)

(** aclgenerator.py:621: i.replace(newline, space).replace(double quote, single quote) *)
Definition dquote : ascii := "034".
(** aclgenerator.py:621 *)
Definition newline : ascii := "010".
(** aclgenerator.py:621, one character *)
Definition sanitize_char (c : ascii) : ascii :=
  if Ascii.eqb c newline then " "%char else if Ascii.eqb c dquote then "'"%char else c.
(** the argument of TruncateWords: a list or a text (aclgenerator.py:601-625) *)
Inductive words := Lines (l : list string) | Line (s : string).
(** aclgenerator.py:601-625 TruncateWords *)
Definition truncate_words (input : words) (char_limit : Z) : string :=
  let limit := if 126 <? char_limit then 126 else char_limit in
  let comment := match input with Lines l => join " " (map (map_string sanitize_char) l) | Line s => s end in
  String dquote (append (slice_to comment limit) (String dquote "")).

(** aclgenerator.py:589-596 WrapWords: the three alternatives of the regular expression.
    [prev] holds the characters before the position (nearest first), [rest] those after;
    the result is the number of characters matched. *)
Definition blank_or_end (l : list ascii) : bool := match l with [] => true | c :: _ => is_ws c end.
(** aclgenerator.py:589-596: n characters that are no blanks *)
Definition solid (n : nat) (l : list ascii) : bool :=
  (n <=? List.length (firstn n l))%nat && forallb (fun c => negb (is_ws c)) (firstn n l).
(** aclgenerator.py:589-596: how many characters before the next blank *)
Fixpoint run_length (l : list ascii) : nat :=
  match l with c :: l' => if is_ws c then O else S (run_length l') | [] => O end.
(** greatest j <= k with 1 <= j, the first j characters no newline, blank or end after *)
Fixpoint last_break (k : nat) (l : list ascii) : nat :=
  match k with
  | O => O
  | S k' => if (k <=? List.length l)%nat && forallb (fun c => negb (Ascii.eqb c newline)) (firstn k l)
               && blank_or_end (skipn k l)
            then k else last_break k' l
  end.
(** aclgenerator.py:589-596: the length of the match *)
Definition wrap_match (n : nat) (prev rest : list ascii) : nat :=
  if solid n rest && negb (blank_or_end (skipn n rest)) then n
  else if solid n prev && negb (blank_or_end rest) then run_length rest
  else match rest with
       | c :: tl => if is_ws c then O else match last_break (n - 1) tl with O => O | S j => S (S j) end
       | [] => O
       end.
(** findall: from the left, non-overlapping, moving on by one where nothing matches *)
Fixpoint wrap_find (fuel : nat) (n : nat) (prev rest : list ascii) : list (list ascii) :=
  match fuel, rest with
  | S f, c :: tl =>
      match wrap_match n prev rest with
      | O => wrap_find f n (c :: prev) tl
      | k => firstn k rest :: wrap_find f n (rev (firstn k rest) ++ prev) (skipn k rest)
      end
  | _, _ => []
  end.
(** s.split(sep) for a separator of any length *)
Fixpoint split_str_aux (sep s : string) (skip : nat) (cur : string) : list string :=
  match s with
  | EmptyString => [cur]
  | String c s' =>
      match skip with
      | S k => split_str_aux sep s' k cur
      | O => if String.prefix sep s then cur :: split_str_aux sep s' (String.length sep - 1) ""
             else split_str_aux sep s' 0 (append cur (String c ""))
      end
  end.
(** s.split(sep) (aclgenerator.py:597-599) *)
Definition split_str (sep s : string) : list string := split_str_aux sep s 0 "".
(** aclgenerator.py:574-599 WrapWords for a size of at least two *)
Definition wrap_text (n : nat) (joiner s : string) : string :=
  if (n <? String.length s)%nat
  then join joiner (map string_of_list_ascii (wrap_find (String.length s) n [] (list_ascii_of_string s)))
  else s.
(** aclgenerator.py:574-599 *)
Definition wrap_words (textlist : list string) (size : nat) (joiner : string) : list string :=
  flat_map (fun s => map strip (filter (fun x => negb (is_empty x)) (split_str joiner (strip (wrap_text size joiner s)))))
    textlist.

(** aclgenerator.py:544-571 AddRepositoryTags *)
Definition add_repository_tags (prefix : string) (rid date revision wrap : bool) : list string :=
  let w := if wrap then String dquote "" else ""%string in
  let tag (k : string) := (prefix ++ w ++ "$" ++ k ++ ":$" ++ w)%string in
  (if rid then [tag "Id"] else []) ++ (if date then [tag "Date"] else [])
  ++ (if revision then [tag "Revision"] else []).
