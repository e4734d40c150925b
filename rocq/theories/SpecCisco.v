(** Reading of extended access-list lines, as a device does: word by word. Independent of
    the code that writes them. *)
From Verif Require Export ModelCisco SpecText SpecGen.
Local Open Scope string_scope.
Local Open Scope list_scope.
Local Open Scope Z_scope.

(** An address: any, host A, A followed by a wildcard mask (IPv4), or prefix/length. *)
Definition read_address (v : ver) (ws : list string) : option ((Z -> Prop) * list string) :=
  match ws with
  | [] => None
  | a :: r =>
      if String.eqb a "any" then Some (fun _ => True, r)
      else match v, r with
           | _, [] => match v with V4 => None | V6 => Some (prefix_says V6 a, r) end
           | _, b :: r' =>
               if String.eqb a "host" then Some (fun x => ip_value v b = Some x, r')
               else match v with
                    | V4 => Some (wildcard_says a b, r')
                    | V6 => Some (prefix_says V6 a, r)
                    end
           end
  end.
(** A port condition, if there is one. *)
Definition read_port (ws : list string) : (Z -> Prop) * list string :=
  match ws with
  | w :: a :: r =>
      if String.eqb w "eq" then (fun x => numeral_value a = Some x, r)
      else match r with
           | b :: r' =>
               if String.eqb w "range"
               then (fun x => exists lo hi, numeral_value a = Some lo /\ numeral_value b = Some hi /\ lo <= x <= hi, r')
               else (fun _ => True, ws)
           | [] => (fun _ => True, ws)
           end
  | _ => (fun _ => True, ws)
  end.
(** An optional number. *)
Definition read_number (ws : list string) : option Z * list string :=
  match ws with
  | a :: r => match numeral_value a with Some n => (Some n, r) | None => (None, ws) end
  | [] => (None, ws)
  end.
(** A protocol: all traffic of the family, a number, or a name.  The word for all traffic has
    to be one of the family of the list. *)
Definition protocol_says (v : ver) (s : string) (p : packet) : Prop :=
  if str_in s ["ip"; "ipv4"; "ipv6"] then In s (match v with V4 => ["ip"; "ipv4"] | V6 => ["ipv6"] end)
  else match numeral_value s with
       | Some n => In (p_proto p, n) proto_map
       | None => if String.eqb s "hbh" then p_proto p = "hopopt"
                 else match v with
                      | V6 => p_proto p = (if String.eqb s "icmp" then "icmpv6" else s)
                      | V4 => p_proto p = s
                      end
       end.
Definition icmp_types_of (v : ver) : list (string * Z) := match v with V4 => icmp_type4 | V6 => icmp_type6 end.
Definition type_says (v : ver) (o : option Z) (p : packet) : Prop :=
  match o with Some n => In (p_icmp_type p, n) (icmp_types_of v) | None => True end.
Definition code_says (o : option Z) (p : packet) : Prop :=
  match o with Some n => p_icmp_code p = n | None => True end.
(** The words after the addresses and ICMP numbers; logging and the next hop do not
    restrict, unknown words make the line useless. *)
Fixpoint options_say (ws : list string) (p : packet) : Prop :=
  match ws with
  | [] => True
  | w :: r =>
      if String.eqb w "established" then p_option p "established" /\ options_say r p
      else if String.eqb w "fragments" then p_option p "fragments" /\ options_say r p
      else if String.eqb w "log" then options_say r p
      else if String.eqb w "dscp" then match r with d :: r' => p_dscp p = d /\ options_say r' p | [] => False end
      else if String.eqb w "nexthop1" then match r with _ :: _ :: r' => options_say r' p | _ => False end
      else False
  end.
(** The words of a line after the action match the packet. *)
Definition conditions_match (v : ver) (ws : list string) (p : packet) : Prop :=
  match ws with
  | [] => False
  | proto :: ws =>
      match read_address v ws with
      | None => False
      | Some (src, ws) =>
          let (sport, ws) := read_port ws in
          match read_address v ws with
          | None => False
          | Some (dst, ws) =>
              let (dport, ws) := read_port ws in
              let (ty, ws) := read_number ws in
              let (co, ws) := read_number ws in
              protocol_says v proto p /\ src (snd (p_src p)) /\ sport (p_sport p) /\
              dst (snd (p_dst p)) /\ dport (p_dport p) /\ type_says v ty p /\ code_says co p /\ options_say ws p
          end
      end
  end.
(** The line is a rule with this action that matches the packet; remarks and comments are
    not rules. *)
Definition line_matches (v : ver) (action line : string) (p : packet) : Prop :=
  match split_ws line with
  | a :: ws => a = action /\ In a ["permit"; "deny"] /\ conditions_match v ws p
  | [] => False
  end.

(** ** The terms an extended access list can express *)

(** Conditions that no extended access list of this generator carries are not used. *)
Definition only_cisco_conditions (t : term) : Prop :=
  t_address t = [] /\ t_address_exclude t = [] /\ t_port t = [] /\ t_protocol_except t = [] /\
  t_source_prefix t = [] /\ t_source_prefix_except t = [] /\ t_destination_prefix t = [] /\
  t_destination_prefix_except t = [] /\ t_source_tag t = [] /\ t_destination_tag t = [] /\
  t_precedence t = [] /\ t_forwarding_class t = [] /\ t_forwarding_class_except t = [] /\
  t_fragment_offset t = None /\ t_hop_limit t = None /\ t_packet_length t = None /\ t_ttl t = None /\
  t_source_zone t = [] /\ t_destination_zone t = [] /\ t_ether_type t = [] /\ t_traffic_type t = [] /\
  t_dscp_except t = [] /\ t_source_interface t = None /\ t_destination_interface t = None /\
  t_verbatim t = [].

Record cisco_term_ok (c : cisco_cfg) (t : term) : Prop := {
  ct_af : c_af c = 4 \/ c_af c = 6;
  (* summarised pairs are used for IPv4 only *)
  ct_dsmo : c_dsmo c = true -> c_af c = 4;
  ct_only : only_cisco_conditions t;
  (* one of the actions that decide *)
  ct_action : exists a r, t_action t = a :: r /\ In a ["accept"; "deny"; "reject"; "reject-with-tcp-rst"];
  (* networks are networks; exclusions come with inclusions *)
  ct_src : valid_list (t_source_address t) /\ valid_list (t_source_address_exclude t) /\
           (t_source_address t = [] -> t_source_address_exclude t = []);
  ct_dst : valid_list (t_destination_address t) /\ valid_list (t_destination_address_exclude t) /\
           (t_destination_address t = [] -> t_destination_address_exclude t = []);
  (* protocols are given by name; 'ipv6' is not, where names are printed, the protocol *)
  ct_protocol : forall q, In q (t_protocol t) -> In q (map fst proto_map) /\ q <> "all";
  ct_ipv6 : c_proto_int c = false -> ~ In "ipv6" (t_protocol t);
  (* the ICMP of the other family does not occur beside other protocols *)
  ct_icmp : (c_af c = 6 -> In "icmp" (t_protocol t) -> forall q, In q (t_protocol t) -> q = "icmp") /\
            (c_af c = 4 -> In "icmpv6" (t_protocol t) -> forall q, In q (t_protocol t) -> q = "icmpv6");
  ct_ports : forall r, In r (t_source_port t ++ t_destination_port t) -> 0 <= fst r /\ 0 <= snd r;
  ct_codes : (forall n, In n (t_icmp_code t) -> 0 <= n) /\ (t_icmp_code t <> [] -> t_icmp_type t <> []);
  (* options that lines of this term can carry *)
  ct_option : forall o, In o (t_option t) ->
    (In o ["established"; "tcp-established"] /\ t_protocol t <> [] /\ forall q, In q (t_protocol t) -> q = "tcp") \/
    (In o ["fragments"; "is-fragment"] /\ t_protocol t = [] /\ c_af c = 4 /\ c_platform c <> "ciscoxr");
  ct_dscp : forall d, In d (t_dscp_match t) -> split_ws d = [d] }.

(** A packet that the access list of this family sees on a device of this platform. *)
Record cisco_packet (c : cisco_cfg) (t : term) (p : packet) : Prop := {
  cq_src : fst (p_src p) = c_ver c /\ 0 <= snd (p_src p) < 2 ^ width (c_ver c);
  cq_dst : fst (p_dst p) = c_ver c /\ 0 <= snd (p_dst p) < 2 ^ width (c_ver c);
  cq_icmp : p_proto p <> match c_ver c with V4 => "icmpv6" | V6 => "icmp" end;
  cq_established : p_option p "tcp-established" <-> p_option p "established";
  cq_fragment : p_option p "is-fragment" <-> p_option p "fragments";
  cq_platform : p_platform p = c_platform c;
  cq_family : opt_eq (t_restrict_address_family t) (p_family p) }.

(** The word for the verdict of an action that decides. *)
Definition verdict (action : string) : string := if String.eqb action "accept" then "permit" else "deny".

(** ** First match *)

(** The outcome of a list of rules: some rule gives it, and every earlier rule that
    applies gives it too. [says x a]: the rule x applies and gives the outcome a. *)
Definition first_says {A} (says : A -> string -> Prop) (rules : list A) (outcome : string) : Prop :=
  exists before x after, rules = before ++ x :: after /\ says x outcome /\
    forall y a, In y before -> says y a -> a = outcome.
(** The outcome of an access list, and of a list of terms. *)
Definition acl_decides (v : ver) (lines : list string) (p : packet) (outcome : string) : Prop :=
  first_says (fun line a => line_matches v a line p) lines outcome.
Definition terms_decide (applies : term -> Prop) (terms : list term) (outcome : string) : Prop :=
  first_says (fun t a => applies t /\ exists w r, t_action t = w :: r /\ a = verdict w) terms outcome.
(** An option that asks for established connections. *)
Definition wants_established (t : term) : Prop := exists o, In o (t_option t) /\ starts_with "established" o = true.
(** What a term means on a platform that does not track connections: replies go to the
    given ports or to high ports (C24). *)
Definition stateless_matches (t : term) (p : packet) : Prop :=
  (wants_established t -> term_matches (set_destination_port [] t) p /\
                          (in_ports (t_destination_port t) (p_dport p) \/ 1024 <= p_dport p <= 65535)) /\
  (~ wants_established t -> term_matches t p).
(** A term is in force today. *)
Definition in_force (today : Z) (t : term) : Prop := forall d, t_expiration t = Some d -> today < d.
(** the same as a test *)
Definition valid_on (today : Z) (t : term) : bool := match t_expiration t with Some d => today <? d | None => true end.
(** The term is in force today and matches. *)
Definition applies_today (today : Z) (p : packet) (t : term) : Prop :=
  in_force today t /\ stateless_matches t p.

(** A packet that an access list of this family sees on a device of this platform; the
    two names for the same flag agree. *)
Definition cisco_traffic (c : cisco_cfg) (p : packet) : Prop :=
  fst (p_src p) = c_ver c /\ 0 <= snd (p_src p) < 2 ^ width (c_ver c) /\
  fst (p_dst p) = c_ver c /\ 0 <= snd (p_dst p) < 2 ^ width (c_ver c) /\
  p_proto p <> match c_ver c with V4 => "icmpv6" | V6 => "icmp" end /\
  (p_option p "tcp-established" <-> p_option p "established") /\
  (p_option p "is-fragment" <-> p_option p "fragments") /\
  p_platform p = c_platform c /\ p_family p = c_family c.

