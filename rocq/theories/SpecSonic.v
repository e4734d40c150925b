(** Specification vocabulary for SONiC access lists: how a switch reads the ACL_RULE table of its
    configuration database, and what the policy asks for.  Nothing here is taken from the code
    that writes the table. *)
From Verif Require Export ModelSonic SpecOpenConfig.
Local Open Scope string_scope.
Local Open Scope list_scope.
Local Open Scope Z_scope.

(** The value of a key of a rule, when there is one. *)
Definition given (key : string) (r : json) (P : json -> Prop) : Prop := if_given (path [key] r) P.
Definition number_says (n : Z) (j : json) : Prop := exists s, j = JStr s /\ numeral_value s = Some n.
(** An address of the family within the prefix. *)
Definition address_says (v : ver) (x : ipaddr) (j : json) : Prop := fst x = v /\ exists s, j = JStr s /\ range_has x s.
(** "lo-hi" *)
Definition port_range_says (n : Z) (j : json) : Prop :=
  exists a b lo hi, j = JStr (append a (append "-" b)) /\ numeral_value a = Some lo /\ numeral_value b = Some hi /\ lo <= n <= hi.
Definition proto_number_says (p : packet) (j : json) : Prop := exists n, number_says n j /\ In (p_proto p, n) proto_map.
(** flags/mask: the bit of ACK is 16, that of RST is 4; one of the listed pairs has to hold *)
Definition flags_say (p : packet) (j : json) : Prop :=
  exists l, j = JList l /\ p_proto p = "tcp" /\
    ((In (JStr "0x10/0x10") l /\ p_option p "ack") \/ (In (JStr "0x4/0x4") l /\ p_option p "rst")).
Definition icmp_number_says (table : list (string * Z)) (p : packet) (j : json) : Prop := exists n, number_says n j /\ In (p_icmp_type p, n) table.
(** The packet meets every condition of the rule. *)
Record sn_matches (r : json) (p : packet) : Prop := {
  sm_proto : given "IP_PROTOCOL" r (proto_number_says p);
  sm_flags : given "TCP_FLAGS" r (flags_say p);
  sm_icmp4 : given "ICMP_TYPE" r (icmp_number_says icmp_type4 p);
  sm_icmp6 : given "ICMPV6_TYPE" r (icmp_number_says icmp_type6 p);
  sm_src4 : given "SRC_IP" r (address_says V4 (p_src p));
  sm_src6 : given "SRC_IPV6" r (address_says V6 (p_src p));
  sm_dst4 : given "DST_IP" r (address_says V4 (p_dst p));
  sm_dst6 : given "DST_IPV6" r (address_says V6 (p_dst p));
  sm_sport : given "L4_SRC_PORT" r (number_says (p_sport p));
  sm_sports : given "L4_SRC_PORT_RANGE" r (port_range_says (p_sport p));
  sm_dport : given "L4_DST_PORT" r (number_says (p_dport p));
  sm_dports : given "L4_DST_PORT_RANGE" r (port_range_says (p_dport p)) }.
Definition sn_rule_says (r : json) (p : packet) (outcome : string) : Prop :=
  sn_matches r p /\ path ["PACKET_ACTION"] r = Some (JStr outcome).
(** The rules of the table: under ACL_RULE, with keys table|rule. *)
Definition rule_of (table : string) (j : json) (r : json) : Prop :=
  exists d key, path ["ACL_RULE"] j = Some (JDict d) /\ In (append table (append "|" key), r) d.
Definition priority_of (r : json) (n : Z) : Prop := exists s, path ["PRIORITY"] r = Some (JStr s) /\ numeral_value s = Some n.
(** The rule with the highest priority decides: some rule gives the outcome, and so does every
    matching rule with a higher priority. *)
Definition sn_table_decides (table : string) (j : json) (p : packet) (outcome : string) : Prop :=
  exists r n, rule_of table j r /\ sn_rule_says r p outcome /\ priority_of r n /\
    forall r' o' n', rule_of table j r' -> sn_rule_says r' p o' -> priority_of r' n' -> n < n' -> o' = outcome.

Definition sn_outcome (action outcome : string) : Prop :=
  (action = "accept" /\ outcome = "FORWARD") \/ (action = "deny" /\ outcome = "DROP").
(** The first term in force that matches decides. *)
Definition sn_policy_decides (today : Z) (terms : list term) (p : packet) (outcome : string) : Prop :=
  first_says (fun t o => in_force today t /\ term_matches t p /\ exists a r, t_action t = a :: r /\ sn_outcome a o) terms outcome.
(** The header asks for the family. *)
Definition wants (v : ver) (options : list string) : Prop :=
  In "mixed" options \/ In (match v with V4 => "inet" | V6 => "inet6" end) options.

Definition one_port (r : prange) : Prop := fst r = snd r.
(** single ports only, or ranges only *)
Definition uniform (l : list prange) : Prop := (forall r, In r l -> one_port r) \/ (forall r, In r l -> ~ one_port r).
Record sn_term_ok (t : term) : Prop := {
  nt_addresses : valid_list (t_source_address t) /\ valid_list (t_destination_address t);
  (* no port 0 alone *)
  nt_ports : forall r, In r (t_source_port t ++ t_destination_port t) -> 0 <= fst r <= snd r /\ 0 < snd r;
  nt_uniform : uniform (t_source_port t) /\ uniform (t_destination_port t);
  (* has the number -1 *)
  nt_all : ~ In "all" (t_protocol t);
  nt_option : t_option t = [] \/ t_protocol t = ["tcp"];
  (* seen by the check of supported keywords only, not by the generator *)
  nt_platform : ~ In "sonic" (t_platform_exclude t);
  (* only warned about, or not seen, by the check of supported keywords *)
  nt_warned : t_restrict_address_family t = None /\ t_source_tag t = [] /\ t_destination_tag t = [] /\ t_ttl t <> Some 0;
  (* never empty texts in a policy file *)
  nt_texts : t_source_interface t <> Some "" /\ t_destination_interface t <> Some "" }.

(** A packet of the family. *)
Record sn_traffic (v : ver) (p : packet) : Prop := {
  nq_src : fst (p_src p) = v /\ 0 <= snd (p_src p) < 2 ^ width v;
  nq_dst : fst (p_dst p) = v /\ 0 <= snd (p_dst p) < 2 ^ width v;
  nq_icmp : p_proto p <> match v with V4 => "icmpv6" | V6 => "icmp" end;
  nq_established : p_proto p = "tcp" -> (p_option p "tcp-established" <-> p_option p "ack" \/ p_option p "rst");
  nq_platform : p_platform p = "sonic" }.
