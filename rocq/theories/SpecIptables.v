(** Reading of iptables rules, as iptables-restore does: arguments with quotes, options with
    their values, chains that call each other. Independent of the code that writes them. *)
From Verif Require Export ModelIptables SpecText SpecGen SpecCisco.
Local Open Scope string_scope.
Local Open Scope list_scope.
Local Open Scope Z_scope.

(** ** Arguments of a line *)

Definition put (cur : option string) (c : ascii) : option string :=
  Some (append (match cur with Some w => w | None => "" end) (String c "")).
Definition taken (cur : option string) : list string := match cur with Some w => [w] | None => [] end.
(** [cur]: the argument being read. In quotes a backslash makes the next character literal; a
    line that ends within quotes is refused. *)
Fixpoint argv (quoted : bool) (cur : option string) (s : string) : option (list string) :=
  match s with
  | "" => if quoted then None else Some (taken cur)
  | String c s' =>
      if quoted then
        if Ascii.eqb c dquote then argv false cur s'
        else if Ascii.eqb c "\" then match s' with String d s'' => argv true (put cur d) s'' | "" => None end
        else argv true (put cur c) s'
      else if Ascii.eqb c dquote then argv true (Some (match cur with Some w => w | None => "" end)) s'
      else if is_ws c then option_map (app (taken cur)) (argv false None s')
      else argv false (put cur c) s'
  end.

(** ** Values *)

(** A decimal number; a leading zero would make it octal. *)
Definition number (s : string) : option Z :=
  match s with
  | String c (String _ _) => if Ascii.eqb c "0" then None else numeral_value s
  | _ => numeral_value s
  end.
(** n or lo:hi *)
Definition read_range (s : string) : option (Z * Z) :=
  match map number (split_char ":" s) with
  | [Some n] => Some (n, n)
  | [Some lo; Some hi] => if lo <=? hi then Some (lo, hi) else None
  | _ => None
  end.
Definition port_range (s : string) : option (Z * Z) :=
  match read_range s with Some r => if snd r <=? 65535 then Some r else None | None => None end.
(** The places a list of ports takes in a multiport match, of which there are fifteen. *)
Definition slots (s : string) : nat := List.length (flat_map (split_char ":") (split_char "," s)).
Definition port_ranges (s : string) : option (list (Z * Z)) :=
  if (slots s <=? 15)%nat then all_some (map port_range (split_char "," s)) else None.
Definition tcp_flag_names : list (string * string) :=
  [("FIN", "fin"); ("SYN", "syn"); ("RST", "rst"); ("PSH", "psh"); ("ACK", "ack"); ("URG", "urg")].
Definition tcp_flags : list string := map snd tcp_flag_names.
Definition read_flags (s : string) : option (list string) :=
  option_map (@concat string)
    (all_some (map (fun f => if String.eqb f "ALL" then Some tcp_flags else if String.eqb f "NONE" then Some []
                             else option_map (fun g => [g]) (assoc f tcp_flag_names)) (split_char "," s))).
(** Of the flags in the mask exactly those compared with are set. *)
Definition flags_say (mask comp : list string) (p : packet) : Prop :=
  forall f, In f tcp_flags -> (In f mask /\ p_option p f <-> In f comp).
Definition syn_only (p : packet) : Prop := flags_say ["syn"; "rst"; "ack"; "fin"] ["syn"] p.
(** Connection tracking: a packet is new or belongs to a known connection. *)
Definition states_say (s : string) (p : packet) : Prop :=
  exists w, In w (split_char "," s) /\
    ((w = "NEW" /\ ~ p_option p "established") \/ (w = "ESTABLISHED" /\ p_option p "established")).
Definition protocol_arg (s : string) (p : packet) : Prop :=
  if String.eqb s "all" then True
  else match numeral_value s with
       | Some n => In (p_proto p, n) proto_map
       | None => p_proto p = (if String.eqb s "ipv6-icmp" then "icmpv6" else s)
       end.
(** type or type/code *)
Definition read_icmp (s : string) : option (Z * option Z) :=
  match map number (split_char "/" s) with
  | [Some n] => Some (n, None)
  | [Some n; Some m] => Some (n, Some m)
  | _ => None
  end.
(** The tests on the words of the header that are understood here: flags and offset of an
    IPv4 fragment, the next header of IPv6. *)
Definition u32_test (v : ver) (s : string) : option (packet -> Prop) :=
  match v with
  | V4 => if String.eqb s "4&0x3FFF=0x2000" then Some (fun p => p_option p "first-fragment")
          else if starts_with "4&0x1FFF=" s then
            option_map (fun r p => SpecPorts.in_range r (p_fragment p)) (read_range (after_char "=" s))
          else None
  | V6 => if String.eqb s "0x3&0xff=0x0" then Some (fun p => p_proto p = "hopopt")
          else if String.eqb s "0x3&0xff=0x2c" then Some (fun p => p_proto p = "fragment")
          else None
  end.

(** ** Rules *)

(** What has been read of a rule: its protocol, the modules loaded, whether TCP flags are
    tested already. *)
Record reading := mkReading { rd_proto : option string; rd_modules : list string; rd_flags : bool }.
Definition with_ports (st : reading) : bool :=
  match rd_proto st with Some q => str_in q ["tcp"; "udp"; "udplite"; "sctp"] | None => false end.
Definition proto_is (q : string) (st : reading) : bool := match rd_proto st with Some r => String.eqb q r | None => false end.
Definition has_module (m : string) (st : reading) : bool := str_in m (rd_modules st).
Definition icmp_test (v : ver) (r : Z * option Z) (p : packet) : Prop := type_says v (Some (fst r)) p /\ code_says (snd r) p.
(** An option with one value. A single port after a multiport match is taken for part of that
    match, so it is refused. *)
Definition condition (v : ver) (st : reading) (f a : string) : option (packet -> Prop) :=
  if String.eqb f "-s" then Some (fun p => prefix_says v a (snd (p_src p)))
  else if String.eqb f "-d" then Some (fun p => prefix_says v a (snd (p_dst p)))
  else if String.eqb f "-i" then if has_char "+" a then None else Some (fun p => p_src_if p = a)
  else if String.eqb f "-o" then if has_char "+" a then None else Some (fun p => p_dst_if p = a)
  else if String.eqb f "--sport" then
    if with_ports st && negb (has_module "multiport" st) then option_map (fun r p => SpecPorts.in_range r (p_sport p)) (port_range a) else None
  else if String.eqb f "--dport" then
    if with_ports st && negb (has_module "multiport" st) then option_map (fun r p => SpecPorts.in_range r (p_dport p)) (port_range a) else None
  else if String.eqb f "--sports" then
    if with_ports st && has_module "multiport" st then option_map (fun l p => in_ports l (p_sport p)) (port_ranges a) else None
  else if String.eqb f "--dports" then
    if with_ports st && has_module "multiport" st then option_map (fun l p => in_ports l (p_dport p)) (port_ranges a) else None
  else if String.eqb f "--icmp-type" then if proto_is "icmp" st then option_map (icmp_test V4) (read_icmp a) else None
  else if String.eqb f "--icmpv6-type" then if proto_is "ipv6-icmp" st then option_map (icmp_test V6) (read_icmp a) else None
  else if String.eqb f "--length" then
    if has_module "length" st then option_map (fun r p => SpecPorts.in_range r (p_length p)) (read_range a) else None
  else if String.eqb f "--u32" then if has_module "u32" st then u32_test v a else None
  else if String.eqb f "--state" then if has_module "state" st then Some (states_say a) else None
  else if String.eqb f "--comment" then if has_module "comment" st then Some (fun _ => True) else None
  else None.

(** A rule: its conditions, and where it sends a packet that meets them. *)
Record rule := mkRule { r_conditions : list (packet -> Prop); r_target : option string }.
Definition also (c : packet -> Prop) (o : option rule) : option rule :=
  option_map (fun r => mkRule (c :: r_conditions r) (r_target r)) o.
Fixpoint read_rule (v : ver) (st : reading) (ws : list string) : option rule :=
  match ws with
  | [] => Some (mkRule [] None)
  | f :: r =>
      if String.eqb f "-j" then match r with t :: _ => Some (mkRule [] (Some t)) | [] => None end
      else if String.eqb f "--syn" then
        if proto_is "tcp" st && negb (rd_flags st) then also syn_only (read_rule v (mkReading (rd_proto st) (rd_modules st) true) r) else None
      else match r with
           | [] => None
           | a :: r =>
               if String.eqb f "-p" then
                 match rd_proto st with
                 | None => also (protocol_arg a) (read_rule v (mkReading (Some a) (rd_modules st) (rd_flags st)) r)
                 | Some _ => None
                 end
               else if String.eqb f "-m" then
                 if str_in a ["multiport"; "state"; "u32"; "length"; "comment"; "icmp6"]
                 then read_rule v (mkReading (rd_proto st) (a :: rd_modules st) (rd_flags st)) r else None
               else if String.eqb f "--tcp-flags" then
                 match r with
                 | [] => None
                 | b :: r =>
                     if proto_is "tcp" st && negb (rd_flags st) then
                       match read_flags a, read_flags b with
                       | Some mask, Some comp => also (flags_say mask comp) (read_rule v (mkReading (rd_proto st) (rd_modules st) true) r)
                       | _, _ => None
                       end
                     else None
                 end
               else match condition v st f a with Some c => also c (read_rule v st r) | None => None end
           end
  end.

(** ** Tables *)

Inductive command := Skip | NewChain (chain : string) | Policy (chain action : string) | Rule (chain : string) (r : rule).
Definition read_line (v : ver) (line : string) : option command :=
  if starts_with "#" line then Some Skip
  else match argv false None line with
       | None => None
       | Some [] => Some Skip
       | Some (w :: ws) =>
           if String.eqb w "-A" then
             match ws with c :: ws => option_map (Rule c) (read_rule v (mkReading None [] false) ws) | [] => None end
           else if String.eqb w "-N" then match ws with [c] => Some (NewChain c) | _ => None end
           else if String.eqb w "-P" then match ws with [c; a] => Some (Policy c a) | _ => None end
           else if starts_with ":" w then match ws with [a] => Some (Policy (after_char ":" w) a) | _ => None end
           else if str_in w ["*filter"; "COMMIT"] then Some Skip
           else None
       end.
Definition read_table (v : ver) (text : string) : option (list command) := all_some (map (read_line v) (split_char newline text)).
(** The table can be loaded: a chain is made once and before rules are put in it or call it. *)
Definition builtin_chains : list string := ["INPUT"; "OUTPUT"; "FORWARD"].
Definition verdicts : list string := ["ACCEPT"; "DROP"; "REJECT"; "RETURN"].
Fixpoint loads (chains : list string) (cmds : list command) : Prop :=
  match cmds with
  | [] => True
  | Skip :: r => loads chains r
  | NewChain c :: r => ~ In c ("LOG" :: verdicts ++ chains) /\ loads (c :: chains) r
  | Policy c _ :: r => In c builtin_chains /\ loads chains r
  | Rule c x :: r => In c chains /\ (forall t, r_target x = Some t -> In t verdicts \/ t = "LOG" \/ In t chains) /\ loads chains r
  end.
Definition rules_in (chain : string) (cmds : list command) : list rule :=
  flat_map (fun x => match x with Rule c r => if String.eqb c chain then [r] else [] | _ => [] end) cmds.
Definition meets (r : rule) (p : packet) : Prop := Forall (fun c : packet -> Prop => c p) (r_conditions r).
(** The outcome of a packet in a chain; RETURN for a packet sent back. A rule that calls a
    chain gives the outcome of that chain, unless the packet comes back; one that logs gives
    none. *)
Fixpoint chain_gives (depth : nat) (cmds : list command) (chain : string) (p : packet) (outcome : string) : Prop :=
  match depth with
  | O => False
  | S d =>
      first_says (fun r o => meets r p /\ exists t, r_target r = Some t /\
                    ((In t verdicts /\ o = t) \/ (~ In t ("LOG" :: verdicts) /\ chain_gives d cmds t p o /\ o <> "RETURN")))
        (rules_in chain cmds) outcome
  end.
(** Chains call chains made before them, so the number of commands bounds the depth. *)
Definition table_decides (cmds : list command) (chain : string) (p : packet) (outcome : string) : Prop :=
  chain_gives (S (List.length cmds)) cmds chain p outcome /\ outcome <> "RETURN".
(** What becomes of packets that no rule decides. *)
Definition default_of (chain : string) (cmds : list command) : option string :=
  fold_left (fun d x => match x with Policy c a => if String.eqb c chain then Some a else d | _ => d end) cmds None.

(** ** The terms that can be expressed *)

(** An argument that needs no quotes. *)
Definition arg_char (c : ascii) : bool := negb (is_ws c || Ascii.eqb c dquote).
Definition plain_arg (s : string) : Prop := s <> "" /\ forall_char arg_char s = true.
Definition only_ipt_conditions (t : term) : Prop :=
  t_address t = [] /\ t_address_exclude t = [] /\ t_port t = [] /\ t_protocol_except t = [] /\
  t_source_prefix t = [] /\ t_source_prefix_except t = [] /\ t_destination_prefix t = [] /\ t_destination_prefix_except t = [] /\
  t_source_tag t = [] /\ t_destination_tag t = [] /\ t_precedence t = [] /\ t_forwarding_class t = [] /\
  t_forwarding_class_except t = [] /\ t_hop_limit t = None /\ t_ttl t = None /\ t_source_zone t = [] /\
  t_destination_zone t = [] /\ t_ether_type t = [] /\ t_traffic_type t = [] /\ t_dscp_match t = [] /\ t_dscp_except t = [] /\
  t_restrict_address_family t = None /\ t_verbatim t = [].
(** Networks are networks, and exclusions leave something. *)
Definition ipt_side (v : ver) (inc exc : list net) : Prop :=
  valid_list inc /\ valid_list exc /\
  (exc <> [] -> exists x, (inc = [] /\ fst x = v /\ 0 <= snd x < 2 ^ width v \/ covered inc x) /\ ~ covered exc x).
(** Ports within the limits. *)
Definition port_ok (r : Z * Z) : Prop := 0 <= fst r <= snd r /\ snd r <= 65535.
(** A number or range as the policy writes it. *)
Definition range_text_ok (o : option string) : Prop :=
  forall s, o = Some s -> s <> "" -> exists lo hi, 0 <= lo <= hi /\ (s = dec lo /\ hi = lo \/ s = append (dec lo) (append "-" (dec hi))).
Definition established_names : list string := ["established"; "tcp-established"].
Definition initial_names : list string := ["initial"; "tcp-initial"].
Definition flag_options : list string := "all" :: tcp_flags.
Definition has_option (names : list string) (t : term) : Prop := exists o, In o (t_option t) /\ In o names.
(** Protocols that are matched in a way of their own. *)
Definition special_protocols : list string := ["hopopt"; "fragment"; "icmpv6"].

Record ipt_term_ok (c : ipt_cfg) (t : term) : Prop := {
  it_only : only_ipt_conditions t;
  it_names : plain_arg (t_name t) /\ plain_arg (ic_filter c);
  it_action : exists a r, t_action t = a :: r /\ In a ["accept"; "deny"; "reject"; "reject-with-tcp-rst"; "next"];
  it_src : ipt_side (ic_ver c) (t_source_address t) (t_source_address_exclude t);
  it_dst : ipt_side (ic_ver c) (t_destination_address t) (t_destination_address_exclude t);
  it_protocol : forall q, In q (t_protocol t) -> In q (map fst proto_map) /\ q <> "all";
  (* protocols of the other family do not occur beside others *)
  it_family : (ic_ver c = V6 -> In "icmp" (t_protocol t) -> forall q, In q (t_protocol t) -> q = "icmp") /\
              (ic_ver c = V4 -> In "icmpv6" (t_protocol t) -> forall q, In q (t_protocol t) -> q = "icmpv6") /\
              (ic_ver c = V4 -> In "hopopt" (t_protocol t) -> forall q, In q (t_protocol t) -> q = "hopopt") /\
              (ic_ver c = V4 -> ~ In "fragment" (t_protocol t));
  it_ports : forall r, In r (t_source_port t ++ t_destination_port t) -> port_ok r /\
    t_protocol t <> [] /\ forall q, In q (t_protocol t) -> In q ["tcp"; "udp"; "udplite"; "sctp"];
  it_codes : (forall n, In n (t_icmp_code t) -> 0 < n) /\ (t_icmp_code t <> [] -> t_icmp_type t <> []);
  it_option : forall o, In o (t_option t) ->
    o = "sample" \/ (o = "first-fragment" /\ ic_ver c = V4) \/
    (In o established_names /\ (ic_state c = true \/ t_protocol t = ["tcp"])) \/
    (In o (initial_names ++ flag_options) /\ t_protocol t = ["tcp"]);
  (* the TCP flags are tested once *)
  it_once : (List.length (filter (fun o => str_in o initial_names) (t_option t)) <= 1)%nat /\
            ~ (has_option flag_options t /\ has_option initial_names t) /\
            (ic_state c = false -> has_option established_names t -> ~ has_option (initial_names ++ flag_options) t);
  it_special : (exists q, In q special_protocols /\ In q (t_protocol t)) ->
               t_option t = [] /\ given (t_packet_length t) = false /\ given (t_fragment_offset t) = false;
  it_values : range_text_ok (t_packet_length t) /\ range_text_ok (t_fragment_offset t) /\
              (given (t_fragment_offset t) = true -> ic_ver c = V4);
  it_interfaces : forall s, t_source_interface t = Some s \/ t_destination_interface t = Some s -> plain_arg s /\ has_char "+" s = false;
  it_comments : forall s, In s (t_comment t) \/ t_owner t = Some s -> has_char "\" s = false }.

(** A packet that the table of this family sees; names for the same thing agree: the names of
    the established and initial options, which without connection tracking are about the TCP
    flags, and the option all. Sampling is no condition. *)
Definition ipt_traffic (c : ipt_cfg) (p : packet) : Prop :=
  fst (p_src p) = ic_ver c /\ 0 <= snd (p_src p) < 2 ^ width (ic_ver c) /\
  fst (p_dst p) = ic_ver c /\ 0 <= snd (p_dst p) < 2 ^ width (ic_ver c) /\
  (ic_ver c = V4 -> p_proto p <> "icmpv6" /\ p_proto p <> "hopopt") /\ (ic_ver c = V6 -> p_proto p <> "icmp") /\
  (p_option p "established" \/ ~ p_option p "established") /\ (p_option p "tcp-established" <-> p_option p "established") /\
  (ic_state c = false ->
     (p_option p "established" <->
      p_option p "ack" \/ (p_option p "rst" /\ ~ p_option p "syn" /\ ~ p_option p "fin" /\ ~ p_option p "ack"))) /\
  (p_option p "initial" <-> syn_only p) /\ (p_option p "tcp-initial" <-> syn_only p) /\
  (p_option p "all" <-> forall f, In f tcp_flags -> p_option p f) /\ p_option p "sample" /\
  p_platform p = ipt_platform (ic_speedway c).

(** The target for an action that decides. *)
Definition ipt_verdict (action : string) : option string :=
  if String.eqb action "accept" then Some "ACCEPT"
  else if String.eqb action "deny" then Some "DROP"
  else if String.eqb action "next" then None else Some "REJECT".
(** With connection tracking a term means what it says; without, replies go to the given
    ports or to high ports (C24). *)
Definition ipt_matches (c : ipt_cfg) (t : term) (p : packet) : Prop :=
  if ic_state c then term_matches t p else stateless_matches t p.
Definition ipt_rule (c : ipt_cfg) (today : Z) (p : packet) (t : term) (outcome : string) : Prop :=
  in_force today t /\ ipt_matches c t p /\ exists a r, t_action t = a :: r /\ ipt_verdict a = Some outcome.

(** ** Whole policies *)

(** What a filter is written with: connection tracking and comments, unless the header or one
    before it switches them off. *)
Definition ipt_cfg_of (speedway : bool) (before : list ipt_header) (h : ipt_header) : ipt_cfg :=
  mkIpt speedway (ih_name h) (if str_in "inet6" (ih_options h) then V6 else V4)
    (negb (existsb (fun x => str_in "nostate" (ih_options x)) (before ++ [h])))
    (negb (existsb (fun x => str_in "noverbose" (ih_options x)) (before ++ [h]))).
(** A filter at its place in the policy. *)
Definition filter_at (fs : list (ipt_header * list term)) (before : list ipt_header) (h : ipt_header) (terms : list term) : Prop :=
  exists fs1 fs2, fs = fs1 ++ (h, terms) :: fs2 /\ before = map fst fs1.
(** All filters are for one address family, are named differently, and have terms that can
    be expressed. *)
Record ipt_policy_ok (speedway : bool) (today : Z) (v : ver) (fs : list (ipt_header * list term)) : Prop := {
  ip_family : forall h ts, In (h, ts) fs -> In "inet6" (ih_options h) <-> v = V6;
  ip_names : NoDup (map (fun f => ih_name (fst f)) fs) /\ forall h ts, In (h, ts) fs -> plain_arg (ih_name h);
  ip_terms : forall before h terms t, filter_at fs before h terms -> In t terms -> in_force today t -> ipt_term_ok (ipt_cfg_of speedway before h) t }.
(** Filter names that cannot be mistaken for the name of a term's chain. *)
Definition filter_name_ok (s : string) : Prop := ~ In s ("LOG" :: verdicts) /\ String.get 1 s <> Some "_"%char.
(** The last of the words ACCEPT and DROP. *)
Definition named_default (options : list string) : option string :=
  fold_left (fun d o => if str_in o ["ACCEPT"; "DROP"] then Some o else d) options None.

(** ** Port batches *)

(** A port condition on its own: one port or range, or a multiport match with at most fifteen
    places. [letter]: s for source, d for destination. *)
Definition batch_reads (letter text : string) (ports : list (Z * Z)) : Prop :=
  (exists r a, ports = [r] /\ argv false None text = Some [append "--" (append letter "port"); a] /\ port_range a = Some r) \/
  (exists a, argv false None text = Some ["-m"; "multiport"; append "--" (append letter "ports"); a] /\ port_ranges a = Some ports).
