(** What it means for a packet to match a policy term: the reading of the policy
    language (doc/ and the Term docstring, policy.py:301-373), independent of any code. *)
From Verif Require Export ModelPolicy SpecIP SpecPorts SpecBase SpecNaming.
Local Open Scope Z_scope.

(** The properties of a packet that terms refer to. Prefix lists, tags and options are
    opaque names: [p_src_prefix p n] says that the source lies in prefix list [n]. *)
Record packet := mkPacket {
  p_src : ipaddr; p_dst : ipaddr; p_proto : string; p_sport : Z; p_dport : Z;
  p_icmp_type : string; p_icmp_code : Z;
  p_option : string -> Prop;
  p_src_prefix : string -> Prop; p_dst_prefix : string -> Prop;
  p_src_tag : string -> Prop; p_dst_tag : string -> Prop;
  p_precedence : string; p_class : string;
  p_fragment : Z; p_hops : Z; p_length : Z; p_ttl : Z;
  p_ether : string; p_traffic : string; p_dscp : string;
  p_src_zone : string; p_dst_zone : string; p_src_if : string; p_dst_if : string;
  p_family : string; p_platform : string }.

(** An empty list of alternatives does not restrict. *)
Definition any_or {A} (l : list A) (P : A -> Prop) : Prop := l = [] \/ exists a, In a l /\ P a.
Definition none_of {A} (l : list A) (P : A -> Prop) : Prop := forall a, In a l -> ~ P a.
Definition opt_eq {A} (o : option A) (a : A) : Prop := match o with Some b => a = b | None => True end.

(** "n" or "lo-hi" *)
Definition range_of_text (s : string) (lo hi : Z) : Prop :=
  exists a b, s = (a ++ "-" ++ b)%string /\ numeral_value a = Some lo /\ numeral_value b = Some hi.
Definition in_text_range (s : string) (n : Z) : Prop :=
  numeral_value s = Some n \/ exists lo hi, range_of_text s lo hi /\ lo <= n <= hi.
Definition text_range (o : option string) (n : Z) : Prop :=
  match o with Some s => s = ""%string \/ in_text_range s n | None => True end.

(** An address satisfies an include list and an exclude list. *)
Definition side_matches (inc exc : list net) (x : ipaddr) : Prop :=
  (inc = [] \/ covered inc x) /\ ~ covered exc x.
Definition either_matches (inc exc : list net) (x y : ipaddr) : Prop :=
  (inc = [] /\ exc = []) \/ side_matches inc exc x \/ side_matches inc exc y.

Definition addresses_match (t : term) (p : packet) : Prop :=
  either_matches (t_address t) (t_address_exclude t) (p_src p) (p_dst p) /\
  side_matches (t_source_address t) (t_source_address_exclude t) (p_src p) /\
  side_matches (t_destination_address t) (t_destination_address_exclude t) (p_dst p).
Definition protocols_match (t : term) (p : packet) : Prop :=
  any_or (t_protocol t) (eq (p_proto p)) /\ none_of (t_protocol_except t) (eq (p_proto p)).
Definition all_ports_match (t : term) (p : packet) : Prop :=
  (ports_match (t_port t) (p_sport p) \/ ports_match (t_port t) (p_dport p)) /\
  ports_match (t_source_port t) (p_sport p) /\ ports_match (t_destination_port t) (p_dport p).
Definition prefixes_match (t : term) (p : packet) : Prop :=
  any_or (t_source_prefix t) (p_src_prefix p) /\ none_of (t_source_prefix_except t) (p_src_prefix p) /\
  any_or (t_destination_prefix t) (p_dst_prefix p) /\
  none_of (t_destination_prefix_except t) (p_dst_prefix p) /\
  any_or (t_source_tag t) (p_src_tag p) /\ any_or (t_destination_tag t) (p_dst_tag p).
Definition options_match (t : term) (p : packet) : Prop :=
  any_or (t_precedence t) (eq (p_precedence p)) /\
  (forall o, In o (t_option t) -> p_option p o) /\
  any_or (t_forwarding_class t) (eq (p_class p)) /\
  none_of (t_forwarding_class_except t) (eq (p_class p)).
Definition numbers_match (t : term) (p : packet) : Prop :=
  text_range (t_fragment_offset t) (p_fragment p) /\ text_range (t_hop_limit t) (p_hops p) /\
  text_range (t_packet_length t) (p_length p) /\ opt_eq (t_ttl t) (p_ttl p).
Definition icmp_match (t : term) (p : packet) : Prop :=
  any_or (t_icmp_type t) (eq (p_icmp_type p)) /\ any_or (t_icmp_code t) (eq (p_icmp_code p)).
Definition place_matches (t : term) (p : packet) : Prop :=
  any_or (t_platform t) (eq (p_platform p)) /\ none_of (t_platform_exclude t) (eq (p_platform p)) /\
  any_or (t_source_zone t) (eq (p_src_zone p)) /\ any_or (t_destination_zone t) (eq (p_dst_zone p)).
Definition link_matches (t : term) (p : packet) : Prop :=
  any_or (t_ether_type t) (eq (p_ether p)) /\ any_or (t_traffic_type t) (eq (p_traffic p)) /\
  any_or (t_dscp_match t) (eq (p_dscp p)) /\ none_of (t_dscp_except t) (eq (p_dscp p)) /\
  opt_eq (t_source_interface t) (p_src_if p) /\ opt_eq (t_destination_interface t) (p_dst_if p) /\
  opt_eq (t_restrict_address_family t) (p_family p).

(** The packet meets every condition of the term. *)
Definition term_matches (t : term) (p : packet) : Prop :=
  addresses_match t p /\ protocols_match t p /\ all_ports_match t p /\ prefixes_match t p /\
  options_match t p /\ numbers_match t p /\ icmp_match t p /\ place_matches t p /\ link_matches t p.

(** ** The terms for which the containment test is faithful *)

Definition one_family (l : list net) : Prop := forall n m, In n l -> In m l -> nver n = nver m.
(** Lists that FlattenAll subtracts exactly (see C07). *)
Definition subtractable (inc exc : list net) : Prop :=
  valid_list inc /\ valid_list exc /\
  (exc = [] \/ (one_family inc /\ one_family exc /\ pairwise_disjoint inc)).
Definition flat_term (t : term) : Prop :=
  t_flattened t = false /\ t_flattened_addr t = [] /\ t_flattened_saddr t = [] /\ t_flattened_daddr t = [] /\
  subtractable (t_address t) (t_address_exclude t) /\
  subtractable (t_source_address t) (t_source_address_exclude t) /\
  subtractable (t_destination_address t) (t_destination_address_exclude t).

(** Something is left of the list. *)
Definition something_left (inc exc : list net) : Prop := exists x, covered inc x /\ ~ covered exc x.
(** A term has no exclusions at all, or every address list it has comes with
    exclusions that leave something of it. *)
Definition plain_or_full (t : term) : Prop :=
  (t_address_exclude t = [] /\ t_source_address_exclude t = [] /\ t_destination_address_exclude t = []) \/
  (forall inc exc,
     In (inc, exc) [(t_address t, t_address_exclude t); (t_source_address t, t_source_address_exclude t);
                    (t_destination_address t, t_destination_address_exclude t)] ->
     (inc = [] /\ exc = []) \/ (exc <> [] /\ something_left inc exc)).

(** Two lists of alternatives of which the first may only be larger by repetition. *)
Definition not_longer {A} (a b : list A) : Prop := NoDup b /\ (List.length a <= List.length b)%nat.

Record comparable (earlier later : term) : Prop := {
  cmp_verbatim : t_verbatim earlier = [] /\ t_verbatim later = [];
  cmp_protocol : not_longer (t_protocol later) (t_protocol earlier);
  cmp_one_of : t_protocol earlier = [] \/ t_protocol_except earlier = [];
  cmp_protocol_except : not_longer (t_protocol_except earlier) (t_protocol_except later)
                        \/ t_protocol_except later = [];
  cmp_option : not_longer (t_option earlier) (t_option later);
  cmp_class_except : not_longer (t_forwarding_class_except earlier) (t_forwarding_class_except later);
  cmp_tags : t_source_tag earlier = [] -> t_destination_tag earlier = [];
  cmp_fragment : t_fragment_offset earlier = None \/ t_fragment_offset earlier = t_fragment_offset later \/
                 (exists s o lo hi lo' hi', t_fragment_offset earlier = Some s /\ t_fragment_offset later = Some o /\
                    range_of_text s lo hi /\ lo <= hi /\ range_of_text o lo' hi');
  cmp_hops : t_hop_limit earlier = None \/ t_hop_limit earlier = t_hop_limit later;
  cmp_length : t_packet_length earlier = None \/ t_packet_length earlier = t_packet_length later;
  cmp_ttl : t_ttl earlier = None \/ t_ttl earlier = t_ttl later;
  cmp_ether : t_ether_type earlier = [] \/ t_ether_type earlier = t_ether_type later;
  cmp_traffic : t_traffic_type earlier = [] \/ t_traffic_type earlier = t_traffic_type later;
  cmp_dscp : t_dscp_match earlier = [] \/ t_dscp_match earlier = t_dscp_match later;
  cmp_dscp_except : t_dscp_except earlier = [] \/ t_dscp_except earlier = t_dscp_except later;
  cmp_src_if : t_source_interface earlier = None \/ t_source_interface earlier = t_source_interface later;
  cmp_dst_if : t_destination_interface earlier = None
               \/ t_destination_interface earlier = t_destination_interface later;
  cmp_family : t_restrict_address_family earlier = None
               \/ t_restrict_address_family earlier = t_restrict_address_family later }.

(** ** Well-formed terms, as the language manual describes them *)

Definition says_what_to_do (t : term) : Prop :=
  t_action t <> [] \/ t_next_ip t <> [] \/
  exists s, s <> ""%string /\
    In (Some s) [t_routing_instance t; t_next_interface t; t_next_hop_group t; t_encapsulate t;
                 t_decapsulate t; t_filter_term t; t_port_mirror t].
Definition has_ports (t : term) : Prop := t_port t <> [] \/ t_source_port t <> [] \/ t_destination_port t <> [].
Definition has_layer3 (t : term) : Prop :=
  t_protocol t <> [] \/ t_address t <> [] \/
  t_source_address t <> [] \/ t_source_address_exclude t <> [] \/
  t_destination_address t <> [] \/ t_destination_address_exclude t <> [] \/
  t_source_port t <> [] \/ t_destination_port t <> [] \/
  t_source_prefix t <> [] \/ t_source_prefix_except t <> [] \/
  t_destination_prefix t <> [] \/ t_destination_prefix_except t <> [].
(** The codes an ICMP type has (None: it has none). *)
Definition icmp_code_table (n : string) : option (list Z) := assoc n icmp_codes.
Definition known_type (n : string) : Prop := In n (map fst icmp_type4) \/ In n (map fst icmp_type6).

Definition acceptable (t : term) : Prop :=
  (t_verbatim t <> [] -> t_action t = [] /\ ~ has_ports t /\ t_protocol t = [] /\ t_option t = []) /\
  (t_verbatim t = [] ->
     says_what_to_do t /\
     (t_action t = [] \/ ~ exists s, s <> ""%string /\ t_filter_term t = Some s) /\
     (has_ports t -> forall q, In q (t_protocol t) -> In q ["tcp"; "udp"; "udplite"; "sctp"]%string)) /\
  (t_ether_type t <> [] -> ~ has_layer3 t) /\
  (t_icmp_code t <> [] -> exists n codes, t_icmp_type t = [n] /\ icmp_code_table n = Some codes /\
     forall c, In c (t_icmp_code t) -> In c codes) /\
  (forall n, In n (t_icmp_type t) -> known_type n) /\
  (forall n, t_ttl t = Some n -> 0 <= n <= 255) /\
  (forall n, t_traffic_class t = Some n -> 0 <= n <= 7).

(** ** Translated ports *)

(** A port field given by service names allows a port. *)
Definition named_ports (services : table) (names protocols : list string) (n : Z) : Prop :=
  names = [] \/
  exists name T proto txt lo hi, In name names /\ query_token name = Ok T /\ In proto protocols /\
    service_port services T proto txt /\ range_text txt lo hi /\ lo <= n <= hi.
(** All address lists of the term hold networks in canonical form. *)
Definition term_valid (t : term) : Prop :=
  valid_list (t_address t) /\ valid_list (t_address_exclude t) /\
  valid_list (t_source_address t) /\ valid_list (t_source_address_exclude t) /\
  valid_list (t_destination_address t) /\ valid_list (t_destination_address_exclude t).
(** Exclusions never take away a whole non-empty address list. *)
Definition survives (inc exc : list net) : Prop := inc <> [] -> exc <> [] -> something_left inc exc.
Definition nothing_emptied (t : term) : Prop :=
  survives (t_address t) (t_address_exclude t) /\
  survives (t_source_address t) (t_source_address_exclude t) /\
  survives (t_destination_address t) (t_destination_address_exclude t).
(** The containment test says the earlier term hides the later one. *)
Definition hides (e l : term) : Prop :=
  ~ In "next"%string (t_action e) /\ exists r, term_contains e l = Ok (true, r).

(** The errors a policy author is told about (policy.py:68-137). *)
Definition policy_errors : list string :=
  ["ParseError"; "TermNoActionError"; "InvalidTermActionError"; "MixedPortandNonPortProtos";
   "TermPortProtocolError"; "TermProtocolEtherTypeError"; "ICMPCodeError"; "TermInvalidIcmpType";
   "InvalidTermTTLValue"; "InvalidTrafficClassValue"]%string.
