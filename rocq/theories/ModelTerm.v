(** Generated by tools/gen_term.py.  The policy Term of capirca/lib/policy.py:328-532.

    One field per attribute set in policy.py:445-528; an attribute whose value None or []
    is only ever tested for truth is modelled as the empty list.  Not modelled, because no
    modelled function looks at them: log_limit, log_name, loss_priority, policer, qos,
    traffic_class_count, dscp_set, flexible_match_range, inactive, vpn, priority,
    source/target_service_accounts, target_resources, timeout, pan_application,
    versa_application. *)
From Verif Require Export ModelPorts ModelNaming.

(** policy.py:328-532 *)
Record term := mkTerm {
  t_name : string;
  t_action : list string;
  t_address : list net;
  t_address_exclude : list net;
  t_source_address : list net;
  t_source_address_exclude : list net;
  t_destination_address : list net;
  t_destination_address_exclude : list net;
  t_port : list prange;
  t_source_port : list prange;
  t_destination_port : list prange;
  t_protocol : list string;
  t_protocol_except : list string;
  t_option : list string;
  t_source_prefix : list string;
  t_source_prefix_except : list string;
  t_destination_prefix : list string;
  t_destination_prefix_except : list string;
  t_source_tag : list string;
  t_destination_tag : list string;
  t_precedence : list string;
  t_forwarding_class : list string;
  t_forwarding_class_except : list string;
  t_icmp_type : list string;
  t_icmp_code : list Z;
  t_ether_type : list string;
  t_traffic_type : list string;
  t_dscp_match : list string;
  t_dscp_except : list string;
  t_fragment_offset : option string;
  t_hop_limit : option string;
  t_packet_length : option string;
  t_ttl : option Z;
  t_traffic_class : option Z;
  t_platform : list string;
  t_platform_exclude : list string;
  t_source_zone : list string;
  t_destination_zone : list string;
  t_source_interface : option string;
  t_destination_interface : option string;
  t_restrict_address_family : option string;
  t_verbatim : list (string * string);
  t_next_ip : list net;
  t_next_interface : option string;
  t_next_hop_group : option string;
  t_encapsulate : option string;
  t_decapsulate : option string;
  t_port_mirror : option string;
  t_routing_instance : option string;
  t_filter_term : option string;
  t_logging : list string;
  t_counter : option string;
  t_comment : list string;
  t_owner : option string;
  t_expiration : option Z;
  t_stateless_reply : bool;
  t_translated : bool;
  t_flattened : bool;
  t_flattened_addr : list net;
  t_flattened_saddr : list net;
  t_flattened_daddr : list net }.

(** policy.py:444-532: a term just created. *)
Definition blank (n : string) : term := mkTerm
  n [] [] [] [] [] [] [] [] [] [] [] [] [] [] [] [] [] [] [] [] [] [] [] [] [] [] [] [] None None None None None [] [] [] [] None None None [] [] None None None None None None None [] None [] None None false false false [] [] [].

(** term.name = v (policy.py:445) *)
Definition set_name (v : string) (t : term) : term := mkTerm
  v (t_action t) (t_address t) (t_address_exclude t) (t_source_address t) (t_source_address_exclude t) (t_destination_address t) (t_destination_address_exclude t) (t_port t) (t_source_port t) (t_destination_port t) (t_protocol t) (t_protocol_except t) (t_option t) (t_source_prefix t) (t_source_prefix_except t) (t_destination_prefix t) (t_destination_prefix_except t) (t_source_tag t) (t_destination_tag t) (t_precedence t) (t_forwarding_class t) (t_forwarding_class_except t) (t_icmp_type t) (t_icmp_code t) (t_ether_type t) (t_traffic_type t) (t_dscp_match t) (t_dscp_except t) (t_fragment_offset t) (t_hop_limit t) (t_packet_length t) (t_ttl t) (t_traffic_class t) (t_platform t) (t_platform_exclude t) (t_source_zone t) (t_destination_zone t) (t_source_interface t) (t_destination_interface t) (t_restrict_address_family t) (t_verbatim t) (t_next_ip t) (t_next_interface t) (t_next_hop_group t) (t_encapsulate t) (t_decapsulate t) (t_port_mirror t) (t_routing_instance t) (t_filter_term t) (t_logging t) (t_counter t) (t_comment t) (t_owner t) (t_expiration t) (t_stateless_reply t) (t_translated t) (t_flattened t) (t_flattened_addr t) (t_flattened_saddr t) (t_flattened_daddr t).
(** term.action = v (policy.py:447) *)
Definition set_action (v : list string) (t : term) : term := mkTerm
  (t_name t) v (t_address t) (t_address_exclude t) (t_source_address t) (t_source_address_exclude t) (t_destination_address t) (t_destination_address_exclude t) (t_port t) (t_source_port t) (t_destination_port t) (t_protocol t) (t_protocol_except t) (t_option t) (t_source_prefix t) (t_source_prefix_except t) (t_destination_prefix t) (t_destination_prefix_except t) (t_source_tag t) (t_destination_tag t) (t_precedence t) (t_forwarding_class t) (t_forwarding_class_except t) (t_icmp_type t) (t_icmp_code t) (t_ether_type t) (t_traffic_type t) (t_dscp_match t) (t_dscp_except t) (t_fragment_offset t) (t_hop_limit t) (t_packet_length t) (t_ttl t) (t_traffic_class t) (t_platform t) (t_platform_exclude t) (t_source_zone t) (t_destination_zone t) (t_source_interface t) (t_destination_interface t) (t_restrict_address_family t) (t_verbatim t) (t_next_ip t) (t_next_interface t) (t_next_hop_group t) (t_encapsulate t) (t_decapsulate t) (t_port_mirror t) (t_routing_instance t) (t_filter_term t) (t_logging t) (t_counter t) (t_comment t) (t_owner t) (t_expiration t) (t_stateless_reply t) (t_translated t) (t_flattened t) (t_flattened_addr t) (t_flattened_saddr t) (t_flattened_daddr t).
(** term.address = v (policy.py:448) *)
Definition set_address (v : list net) (t : term) : term := mkTerm
  (t_name t) (t_action t) v (t_address_exclude t) (t_source_address t) (t_source_address_exclude t) (t_destination_address t) (t_destination_address_exclude t) (t_port t) (t_source_port t) (t_destination_port t) (t_protocol t) (t_protocol_except t) (t_option t) (t_source_prefix t) (t_source_prefix_except t) (t_destination_prefix t) (t_destination_prefix_except t) (t_source_tag t) (t_destination_tag t) (t_precedence t) (t_forwarding_class t) (t_forwarding_class_except t) (t_icmp_type t) (t_icmp_code t) (t_ether_type t) (t_traffic_type t) (t_dscp_match t) (t_dscp_except t) (t_fragment_offset t) (t_hop_limit t) (t_packet_length t) (t_ttl t) (t_traffic_class t) (t_platform t) (t_platform_exclude t) (t_source_zone t) (t_destination_zone t) (t_source_interface t) (t_destination_interface t) (t_restrict_address_family t) (t_verbatim t) (t_next_ip t) (t_next_interface t) (t_next_hop_group t) (t_encapsulate t) (t_decapsulate t) (t_port_mirror t) (t_routing_instance t) (t_filter_term t) (t_logging t) (t_counter t) (t_comment t) (t_owner t) (t_expiration t) (t_stateless_reply t) (t_translated t) (t_flattened t) (t_flattened_addr t) (t_flattened_saddr t) (t_flattened_daddr t).
(** term.address_exclude = v (policy.py:449) *)
Definition set_address_exclude (v : list net) (t : term) : term := mkTerm
  (t_name t) (t_action t) (t_address t) v (t_source_address t) (t_source_address_exclude t) (t_destination_address t) (t_destination_address_exclude t) (t_port t) (t_source_port t) (t_destination_port t) (t_protocol t) (t_protocol_except t) (t_option t) (t_source_prefix t) (t_source_prefix_except t) (t_destination_prefix t) (t_destination_prefix_except t) (t_source_tag t) (t_destination_tag t) (t_precedence t) (t_forwarding_class t) (t_forwarding_class_except t) (t_icmp_type t) (t_icmp_code t) (t_ether_type t) (t_traffic_type t) (t_dscp_match t) (t_dscp_except t) (t_fragment_offset t) (t_hop_limit t) (t_packet_length t) (t_ttl t) (t_traffic_class t) (t_platform t) (t_platform_exclude t) (t_source_zone t) (t_destination_zone t) (t_source_interface t) (t_destination_interface t) (t_restrict_address_family t) (t_verbatim t) (t_next_ip t) (t_next_interface t) (t_next_hop_group t) (t_encapsulate t) (t_decapsulate t) (t_port_mirror t) (t_routing_instance t) (t_filter_term t) (t_logging t) (t_counter t) (t_comment t) (t_owner t) (t_expiration t) (t_stateless_reply t) (t_translated t) (t_flattened t) (t_flattened_addr t) (t_flattened_saddr t) (t_flattened_daddr t).
(** term.source_address = v (policy.py:477) *)
Definition set_source_address (v : list net) (t : term) : term := mkTerm
  (t_name t) (t_action t) (t_address t) (t_address_exclude t) v (t_source_address_exclude t) (t_destination_address t) (t_destination_address_exclude t) (t_port t) (t_source_port t) (t_destination_port t) (t_protocol t) (t_protocol_except t) (t_option t) (t_source_prefix t) (t_source_prefix_except t) (t_destination_prefix t) (t_destination_prefix_except t) (t_source_tag t) (t_destination_tag t) (t_precedence t) (t_forwarding_class t) (t_forwarding_class_except t) (t_icmp_type t) (t_icmp_code t) (t_ether_type t) (t_traffic_type t) (t_dscp_match t) (t_dscp_except t) (t_fragment_offset t) (t_hop_limit t) (t_packet_length t) (t_ttl t) (t_traffic_class t) (t_platform t) (t_platform_exclude t) (t_source_zone t) (t_destination_zone t) (t_source_interface t) (t_destination_interface t) (t_restrict_address_family t) (t_verbatim t) (t_next_ip t) (t_next_interface t) (t_next_hop_group t) (t_encapsulate t) (t_decapsulate t) (t_port_mirror t) (t_routing_instance t) (t_filter_term t) (t_logging t) (t_counter t) (t_comment t) (t_owner t) (t_expiration t) (t_stateless_reply t) (t_translated t) (t_flattened t) (t_flattened_addr t) (t_flattened_saddr t) (t_flattened_daddr t).
(** term.source_address_exclude = v (policy.py:478) *)
Definition set_source_address_exclude (v : list net) (t : term) : term := mkTerm
  (t_name t) (t_action t) (t_address t) (t_address_exclude t) (t_source_address t) v (t_destination_address t) (t_destination_address_exclude t) (t_port t) (t_source_port t) (t_destination_port t) (t_protocol t) (t_protocol_except t) (t_option t) (t_source_prefix t) (t_source_prefix_except t) (t_destination_prefix t) (t_destination_prefix_except t) (t_source_tag t) (t_destination_tag t) (t_precedence t) (t_forwarding_class t) (t_forwarding_class_except t) (t_icmp_type t) (t_icmp_code t) (t_ether_type t) (t_traffic_type t) (t_dscp_match t) (t_dscp_except t) (t_fragment_offset t) (t_hop_limit t) (t_packet_length t) (t_ttl t) (t_traffic_class t) (t_platform t) (t_platform_exclude t) (t_source_zone t) (t_destination_zone t) (t_source_interface t) (t_destination_interface t) (t_restrict_address_family t) (t_verbatim t) (t_next_ip t) (t_next_interface t) (t_next_hop_group t) (t_encapsulate t) (t_decapsulate t) (t_port_mirror t) (t_routing_instance t) (t_filter_term t) (t_logging t) (t_counter t) (t_comment t) (t_owner t) (t_expiration t) (t_stateless_reply t) (t_translated t) (t_flattened t) (t_flattened_addr t) (t_flattened_saddr t) (t_flattened_daddr t).
(** term.destination_address = v (policy.py:454) *)
Definition set_destination_address (v : list net) (t : term) : term := mkTerm
  (t_name t) (t_action t) (t_address t) (t_address_exclude t) (t_source_address t) (t_source_address_exclude t) v (t_destination_address_exclude t) (t_port t) (t_source_port t) (t_destination_port t) (t_protocol t) (t_protocol_except t) (t_option t) (t_source_prefix t) (t_source_prefix_except t) (t_destination_prefix t) (t_destination_prefix_except t) (t_source_tag t) (t_destination_tag t) (t_precedence t) (t_forwarding_class t) (t_forwarding_class_except t) (t_icmp_type t) (t_icmp_code t) (t_ether_type t) (t_traffic_type t) (t_dscp_match t) (t_dscp_except t) (t_fragment_offset t) (t_hop_limit t) (t_packet_length t) (t_ttl t) (t_traffic_class t) (t_platform t) (t_platform_exclude t) (t_source_zone t) (t_destination_zone t) (t_source_interface t) (t_destination_interface t) (t_restrict_address_family t) (t_verbatim t) (t_next_ip t) (t_next_interface t) (t_next_hop_group t) (t_encapsulate t) (t_decapsulate t) (t_port_mirror t) (t_routing_instance t) (t_filter_term t) (t_logging t) (t_counter t) (t_comment t) (t_owner t) (t_expiration t) (t_stateless_reply t) (t_translated t) (t_flattened t) (t_flattened_addr t) (t_flattened_saddr t) (t_flattened_daddr t).
(** term.destination_address_exclude = v (policy.py:455) *)
Definition set_destination_address_exclude (v : list net) (t : term) : term := mkTerm
  (t_name t) (t_action t) (t_address t) (t_address_exclude t) (t_source_address t) (t_source_address_exclude t) (t_destination_address t) v (t_port t) (t_source_port t) (t_destination_port t) (t_protocol t) (t_protocol_except t) (t_option t) (t_source_prefix t) (t_source_prefix_except t) (t_destination_prefix t) (t_destination_prefix_except t) (t_source_tag t) (t_destination_tag t) (t_precedence t) (t_forwarding_class t) (t_forwarding_class_except t) (t_icmp_type t) (t_icmp_code t) (t_ether_type t) (t_traffic_type t) (t_dscp_match t) (t_dscp_except t) (t_fragment_offset t) (t_hop_limit t) (t_packet_length t) (t_ttl t) (t_traffic_class t) (t_platform t) (t_platform_exclude t) (t_source_zone t) (t_destination_zone t) (t_source_interface t) (t_destination_interface t) (t_restrict_address_family t) (t_verbatim t) (t_next_ip t) (t_next_interface t) (t_next_hop_group t) (t_encapsulate t) (t_decapsulate t) (t_port_mirror t) (t_routing_instance t) (t_filter_term t) (t_logging t) (t_counter t) (t_comment t) (t_owner t) (t_expiration t) (t_stateless_reply t) (t_translated t) (t_flattened t) (t_flattened_addr t) (t_flattened_saddr t) (t_flattened_daddr t).
(** term.port = v (policy.py:468) *)
Definition set_port (v : list prange) (t : term) : term := mkTerm
  (t_name t) (t_action t) (t_address t) (t_address_exclude t) (t_source_address t) (t_source_address_exclude t) (t_destination_address t) (t_destination_address_exclude t) v (t_source_port t) (t_destination_port t) (t_protocol t) (t_protocol_except t) (t_option t) (t_source_prefix t) (t_source_prefix_except t) (t_destination_prefix t) (t_destination_prefix_except t) (t_source_tag t) (t_destination_tag t) (t_precedence t) (t_forwarding_class t) (t_forwarding_class_except t) (t_icmp_type t) (t_icmp_code t) (t_ether_type t) (t_traffic_type t) (t_dscp_match t) (t_dscp_except t) (t_fragment_offset t) (t_hop_limit t) (t_packet_length t) (t_ttl t) (t_traffic_class t) (t_platform t) (t_platform_exclude t) (t_source_zone t) (t_destination_zone t) (t_source_interface t) (t_destination_interface t) (t_restrict_address_family t) (t_verbatim t) (t_next_ip t) (t_next_interface t) (t_next_hop_group t) (t_encapsulate t) (t_decapsulate t) (t_port_mirror t) (t_routing_instance t) (t_filter_term t) (t_logging t) (t_counter t) (t_comment t) (t_owner t) (t_expiration t) (t_stateless_reply t) (t_translated t) (t_flattened t) (t_flattened_addr t) (t_flattened_saddr t) (t_flattened_daddr t).
(** term.source_port = v (policy.py:479) *)
Definition set_source_port (v : list prange) (t : term) : term := mkTerm
  (t_name t) (t_action t) (t_address t) (t_address_exclude t) (t_source_address t) (t_source_address_exclude t) (t_destination_address t) (t_destination_address_exclude t) (t_port t) v (t_destination_port t) (t_protocol t) (t_protocol_except t) (t_option t) (t_source_prefix t) (t_source_prefix_except t) (t_destination_prefix t) (t_destination_prefix_except t) (t_source_tag t) (t_destination_tag t) (t_precedence t) (t_forwarding_class t) (t_forwarding_class_except t) (t_icmp_type t) (t_icmp_code t) (t_ether_type t) (t_traffic_type t) (t_dscp_match t) (t_dscp_except t) (t_fragment_offset t) (t_hop_limit t) (t_packet_length t) (t_ttl t) (t_traffic_class t) (t_platform t) (t_platform_exclude t) (t_source_zone t) (t_destination_zone t) (t_source_interface t) (t_destination_interface t) (t_restrict_address_family t) (t_verbatim t) (t_next_ip t) (t_next_interface t) (t_next_hop_group t) (t_encapsulate t) (t_decapsulate t) (t_port_mirror t) (t_routing_instance t) (t_filter_term t) (t_logging t) (t_counter t) (t_comment t) (t_owner t) (t_expiration t) (t_stateless_reply t) (t_translated t) (t_flattened t) (t_flattened_addr t) (t_flattened_saddr t) (t_flattened_daddr t).
(** term.destination_port = v (policy.py:456) *)
Definition set_destination_port (v : list prange) (t : term) : term := mkTerm
  (t_name t) (t_action t) (t_address t) (t_address_exclude t) (t_source_address t) (t_source_address_exclude t) (t_destination_address t) (t_destination_address_exclude t) (t_port t) (t_source_port t) v (t_protocol t) (t_protocol_except t) (t_option t) (t_source_prefix t) (t_source_prefix_except t) (t_destination_prefix t) (t_destination_prefix_except t) (t_source_tag t) (t_destination_tag t) (t_precedence t) (t_forwarding_class t) (t_forwarding_class_except t) (t_icmp_type t) (t_icmp_code t) (t_ether_type t) (t_traffic_type t) (t_dscp_match t) (t_dscp_except t) (t_fragment_offset t) (t_hop_limit t) (t_packet_length t) (t_ttl t) (t_traffic_class t) (t_platform t) (t_platform_exclude t) (t_source_zone t) (t_destination_zone t) (t_source_interface t) (t_destination_interface t) (t_restrict_address_family t) (t_verbatim t) (t_next_ip t) (t_next_interface t) (t_next_hop_group t) (t_encapsulate t) (t_decapsulate t) (t_port_mirror t) (t_routing_instance t) (t_filter_term t) (t_logging t) (t_counter t) (t_comment t) (t_owner t) (t_expiration t) (t_stateless_reply t) (t_translated t) (t_flattened t) (t_flattened_addr t) (t_flattened_saddr t) (t_flattened_daddr t).
(** term.protocol = v (policy.py:470) *)
Definition set_protocol (v : list string) (t : term) : term := mkTerm
  (t_name t) (t_action t) (t_address t) (t_address_exclude t) (t_source_address t) (t_source_address_exclude t) (t_destination_address t) (t_destination_address_exclude t) (t_port t) (t_source_port t) (t_destination_port t) v (t_protocol_except t) (t_option t) (t_source_prefix t) (t_source_prefix_except t) (t_destination_prefix t) (t_destination_prefix_except t) (t_source_tag t) (t_destination_tag t) (t_precedence t) (t_forwarding_class t) (t_forwarding_class_except t) (t_icmp_type t) (t_icmp_code t) (t_ether_type t) (t_traffic_type t) (t_dscp_match t) (t_dscp_except t) (t_fragment_offset t) (t_hop_limit t) (t_packet_length t) (t_ttl t) (t_traffic_class t) (t_platform t) (t_platform_exclude t) (t_source_zone t) (t_destination_zone t) (t_source_interface t) (t_destination_interface t) (t_restrict_address_family t) (t_verbatim t) (t_next_ip t) (t_next_interface t) (t_next_hop_group t) (t_encapsulate t) (t_decapsulate t) (t_port_mirror t) (t_routing_instance t) (t_filter_term t) (t_logging t) (t_counter t) (t_comment t) (t_owner t) (t_expiration t) (t_stateless_reply t) (t_translated t) (t_flattened t) (t_flattened_addr t) (t_flattened_saddr t) (t_flattened_daddr t).
(** term.protocol_except = v (policy.py:471) *)
Definition set_protocol_except (v : list string) (t : term) : term := mkTerm
  (t_name t) (t_action t) (t_address t) (t_address_exclude t) (t_source_address t) (t_source_address_exclude t) (t_destination_address t) (t_destination_address_exclude t) (t_port t) (t_source_port t) (t_destination_port t) (t_protocol t) v (t_option t) (t_source_prefix t) (t_source_prefix_except t) (t_destination_prefix t) (t_destination_prefix_except t) (t_source_tag t) (t_destination_tag t) (t_precedence t) (t_forwarding_class t) (t_forwarding_class_except t) (t_icmp_type t) (t_icmp_code t) (t_ether_type t) (t_traffic_type t) (t_dscp_match t) (t_dscp_except t) (t_fragment_offset t) (t_hop_limit t) (t_packet_length t) (t_ttl t) (t_traffic_class t) (t_platform t) (t_platform_exclude t) (t_source_zone t) (t_destination_zone t) (t_source_interface t) (t_destination_interface t) (t_restrict_address_family t) (t_verbatim t) (t_next_ip t) (t_next_interface t) (t_next_hop_group t) (t_encapsulate t) (t_decapsulate t) (t_port_mirror t) (t_routing_instance t) (t_filter_term t) (t_logging t) (t_counter t) (t_comment t) (t_owner t) (t_expiration t) (t_stateless_reply t) (t_translated t) (t_flattened t) (t_flattened_addr t) (t_flattened_saddr t) (t_flattened_daddr t).
(** term.option = v (policy.py:465) *)
Definition set_option (v : list string) (t : term) : term := mkTerm
  (t_name t) (t_action t) (t_address t) (t_address_exclude t) (t_source_address t) (t_source_address_exclude t) (t_destination_address t) (t_destination_address_exclude t) (t_port t) (t_source_port t) (t_destination_port t) (t_protocol t) (t_protocol_except t) v (t_source_prefix t) (t_source_prefix_except t) (t_destination_prefix t) (t_destination_prefix_except t) (t_source_tag t) (t_destination_tag t) (t_precedence t) (t_forwarding_class t) (t_forwarding_class_except t) (t_icmp_type t) (t_icmp_code t) (t_ether_type t) (t_traffic_type t) (t_dscp_match t) (t_dscp_except t) (t_fragment_offset t) (t_hop_limit t) (t_packet_length t) (t_ttl t) (t_traffic_class t) (t_platform t) (t_platform_exclude t) (t_source_zone t) (t_destination_zone t) (t_source_interface t) (t_destination_interface t) (t_restrict_address_family t) (t_verbatim t) (t_next_ip t) (t_next_interface t) (t_next_hop_group t) (t_encapsulate t) (t_decapsulate t) (t_port_mirror t) (t_routing_instance t) (t_filter_term t) (t_logging t) (t_counter t) (t_comment t) (t_owner t) (t_expiration t) (t_stateless_reply t) (t_translated t) (t_flattened t) (t_flattened_addr t) (t_flattened_saddr t) (t_flattened_daddr t).
(** term.source_prefix = v (policy.py:480) *)
Definition set_source_prefix (v : list string) (t : term) : term := mkTerm
  (t_name t) (t_action t) (t_address t) (t_address_exclude t) (t_source_address t) (t_source_address_exclude t) (t_destination_address t) (t_destination_address_exclude t) (t_port t) (t_source_port t) (t_destination_port t) (t_protocol t) (t_protocol_except t) (t_option t) v (t_source_prefix_except t) (t_destination_prefix t) (t_destination_prefix_except t) (t_source_tag t) (t_destination_tag t) (t_precedence t) (t_forwarding_class t) (t_forwarding_class_except t) (t_icmp_type t) (t_icmp_code t) (t_ether_type t) (t_traffic_type t) (t_dscp_match t) (t_dscp_except t) (t_fragment_offset t) (t_hop_limit t) (t_packet_length t) (t_ttl t) (t_traffic_class t) (t_platform t) (t_platform_exclude t) (t_source_zone t) (t_destination_zone t) (t_source_interface t) (t_destination_interface t) (t_restrict_address_family t) (t_verbatim t) (t_next_ip t) (t_next_interface t) (t_next_hop_group t) (t_encapsulate t) (t_decapsulate t) (t_port_mirror t) (t_routing_instance t) (t_filter_term t) (t_logging t) (t_counter t) (t_comment t) (t_owner t) (t_expiration t) (t_stateless_reply t) (t_translated t) (t_flattened t) (t_flattened_addr t) (t_flattened_saddr t) (t_flattened_daddr t).
(** term.source_prefix_except = v (policy.py:500) *)
Definition set_source_prefix_except (v : list string) (t : term) : term := mkTerm
  (t_name t) (t_action t) (t_address t) (t_address_exclude t) (t_source_address t) (t_source_address_exclude t) (t_destination_address t) (t_destination_address_exclude t) (t_port t) (t_source_port t) (t_destination_port t) (t_protocol t) (t_protocol_except t) (t_option t) (t_source_prefix t) v (t_destination_prefix t) (t_destination_prefix_except t) (t_source_tag t) (t_destination_tag t) (t_precedence t) (t_forwarding_class t) (t_forwarding_class_except t) (t_icmp_type t) (t_icmp_code t) (t_ether_type t) (t_traffic_type t) (t_dscp_match t) (t_dscp_except t) (t_fragment_offset t) (t_hop_limit t) (t_packet_length t) (t_ttl t) (t_traffic_class t) (t_platform t) (t_platform_exclude t) (t_source_zone t) (t_destination_zone t) (t_source_interface t) (t_destination_interface t) (t_restrict_address_family t) (t_verbatim t) (t_next_ip t) (t_next_interface t) (t_next_hop_group t) (t_encapsulate t) (t_decapsulate t) (t_port_mirror t) (t_routing_instance t) (t_filter_term t) (t_logging t) (t_counter t) (t_comment t) (t_owner t) (t_expiration t) (t_stateless_reply t) (t_translated t) (t_flattened t) (t_flattened_addr t) (t_flattened_saddr t) (t_flattened_daddr t).
(** term.destination_prefix = v (policy.py:457) *)
Definition set_destination_prefix (v : list string) (t : term) : term := mkTerm
  (t_name t) (t_action t) (t_address t) (t_address_exclude t) (t_source_address t) (t_source_address_exclude t) (t_destination_address t) (t_destination_address_exclude t) (t_port t) (t_source_port t) (t_destination_port t) (t_protocol t) (t_protocol_except t) (t_option t) (t_source_prefix t) (t_source_prefix_except t) v (t_destination_prefix_except t) (t_source_tag t) (t_destination_tag t) (t_precedence t) (t_forwarding_class t) (t_forwarding_class_except t) (t_icmp_type t) (t_icmp_code t) (t_ether_type t) (t_traffic_type t) (t_dscp_match t) (t_dscp_except t) (t_fragment_offset t) (t_hop_limit t) (t_packet_length t) (t_ttl t) (t_traffic_class t) (t_platform t) (t_platform_exclude t) (t_source_zone t) (t_destination_zone t) (t_source_interface t) (t_destination_interface t) (t_restrict_address_family t) (t_verbatim t) (t_next_ip t) (t_next_interface t) (t_next_hop_group t) (t_encapsulate t) (t_decapsulate t) (t_port_mirror t) (t_routing_instance t) (t_filter_term t) (t_logging t) (t_counter t) (t_comment t) (t_owner t) (t_expiration t) (t_stateless_reply t) (t_translated t) (t_flattened t) (t_flattened_addr t) (t_flattened_saddr t) (t_flattened_daddr t).
(** term.destination_prefix_except = v (policy.py:501) *)
Definition set_destination_prefix_except (v : list string) (t : term) : term := mkTerm
  (t_name t) (t_action t) (t_address t) (t_address_exclude t) (t_source_address t) (t_source_address_exclude t) (t_destination_address t) (t_destination_address_exclude t) (t_port t) (t_source_port t) (t_destination_port t) (t_protocol t) (t_protocol_except t) (t_option t) (t_source_prefix t) (t_source_prefix_except t) (t_destination_prefix t) v (t_source_tag t) (t_destination_tag t) (t_precedence t) (t_forwarding_class t) (t_forwarding_class_except t) (t_icmp_type t) (t_icmp_code t) (t_ether_type t) (t_traffic_type t) (t_dscp_match t) (t_dscp_except t) (t_fragment_offset t) (t_hop_limit t) (t_packet_length t) (t_ttl t) (t_traffic_class t) (t_platform t) (t_platform_exclude t) (t_source_zone t) (t_destination_zone t) (t_source_interface t) (t_destination_interface t) (t_restrict_address_family t) (t_verbatim t) (t_next_ip t) (t_next_interface t) (t_next_hop_group t) (t_encapsulate t) (t_decapsulate t) (t_port_mirror t) (t_routing_instance t) (t_filter_term t) (t_logging t) (t_counter t) (t_comment t) (t_owner t) (t_expiration t) (t_stateless_reply t) (t_translated t) (t_flattened t) (t_flattened_addr t) (t_flattened_saddr t) (t_flattened_daddr t).
(** term.source_tag = v (policy.py:511) *)
Definition set_source_tag (v : list string) (t : term) : term := mkTerm
  (t_name t) (t_action t) (t_address t) (t_address_exclude t) (t_source_address t) (t_source_address_exclude t) (t_destination_address t) (t_destination_address_exclude t) (t_port t) (t_source_port t) (t_destination_port t) (t_protocol t) (t_protocol_except t) (t_option t) (t_source_prefix t) (t_source_prefix_except t) (t_destination_prefix t) (t_destination_prefix_except t) v (t_destination_tag t) (t_precedence t) (t_forwarding_class t) (t_forwarding_class_except t) (t_icmp_type t) (t_icmp_code t) (t_ether_type t) (t_traffic_type t) (t_dscp_match t) (t_dscp_except t) (t_fragment_offset t) (t_hop_limit t) (t_packet_length t) (t_ttl t) (t_traffic_class t) (t_platform t) (t_platform_exclude t) (t_source_zone t) (t_destination_zone t) (t_source_interface t) (t_destination_interface t) (t_restrict_address_family t) (t_verbatim t) (t_next_ip t) (t_next_interface t) (t_next_hop_group t) (t_encapsulate t) (t_decapsulate t) (t_port_mirror t) (t_routing_instance t) (t_filter_term t) (t_logging t) (t_counter t) (t_comment t) (t_owner t) (t_expiration t) (t_stateless_reply t) (t_translated t) (t_flattened t) (t_flattened_addr t) (t_flattened_saddr t) (t_flattened_daddr t).
(** term.destination_tag = v (policy.py:512) *)
Definition set_destination_tag (v : list string) (t : term) : term := mkTerm
  (t_name t) (t_action t) (t_address t) (t_address_exclude t) (t_source_address t) (t_source_address_exclude t) (t_destination_address t) (t_destination_address_exclude t) (t_port t) (t_source_port t) (t_destination_port t) (t_protocol t) (t_protocol_except t) (t_option t) (t_source_prefix t) (t_source_prefix_except t) (t_destination_prefix t) (t_destination_prefix_except t) (t_source_tag t) v (t_precedence t) (t_forwarding_class t) (t_forwarding_class_except t) (t_icmp_type t) (t_icmp_code t) (t_ether_type t) (t_traffic_type t) (t_dscp_match t) (t_dscp_except t) (t_fragment_offset t) (t_hop_limit t) (t_packet_length t) (t_ttl t) (t_traffic_class t) (t_platform t) (t_platform_exclude t) (t_source_zone t) (t_destination_zone t) (t_source_interface t) (t_destination_interface t) (t_restrict_address_family t) (t_verbatim t) (t_next_ip t) (t_next_interface t) (t_next_hop_group t) (t_encapsulate t) (t_decapsulate t) (t_port_mirror t) (t_routing_instance t) (t_filter_term t) (t_logging t) (t_counter t) (t_comment t) (t_owner t) (t_expiration t) (t_stateless_reply t) (t_translated t) (t_flattened t) (t_flattened_addr t) (t_flattened_saddr t) (t_flattened_daddr t).
(** term.precedence = v (policy.py:469) *)
Definition set_precedence (v : list string) (t : term) : term := mkTerm
  (t_name t) (t_action t) (t_address t) (t_address_exclude t) (t_source_address t) (t_source_address_exclude t) (t_destination_address t) (t_destination_address_exclude t) (t_port t) (t_source_port t) (t_destination_port t) (t_protocol t) (t_protocol_except t) (t_option t) (t_source_prefix t) (t_source_prefix_except t) (t_destination_prefix t) (t_destination_prefix_except t) (t_source_tag t) (t_destination_tag t) v (t_forwarding_class t) (t_forwarding_class_except t) (t_icmp_type t) (t_icmp_code t) (t_ether_type t) (t_traffic_type t) (t_dscp_match t) (t_dscp_except t) (t_fragment_offset t) (t_hop_limit t) (t_packet_length t) (t_ttl t) (t_traffic_class t) (t_platform t) (t_platform_exclude t) (t_source_zone t) (t_destination_zone t) (t_source_interface t) (t_destination_interface t) (t_restrict_address_family t) (t_verbatim t) (t_next_ip t) (t_next_interface t) (t_next_hop_group t) (t_encapsulate t) (t_decapsulate t) (t_port_mirror t) (t_routing_instance t) (t_filter_term t) (t_logging t) (t_counter t) (t_comment t) (t_owner t) (t_expiration t) (t_stateless_reply t) (t_translated t) (t_flattened t) (t_flattened_addr t) (t_flattened_saddr t) (t_flattened_daddr t).
(** term.forwarding_class = v (policy.py:459) *)
Definition set_forwarding_class (v : list string) (t : term) : term := mkTerm
  (t_name t) (t_action t) (t_address t) (t_address_exclude t) (t_source_address t) (t_source_address_exclude t) (t_destination_address t) (t_destination_address_exclude t) (t_port t) (t_source_port t) (t_destination_port t) (t_protocol t) (t_protocol_except t) (t_option t) (t_source_prefix t) (t_source_prefix_except t) (t_destination_prefix t) (t_destination_prefix_except t) (t_source_tag t) (t_destination_tag t) (t_precedence t) v (t_forwarding_class_except t) (t_icmp_type t) (t_icmp_code t) (t_ether_type t) (t_traffic_type t) (t_dscp_match t) (t_dscp_except t) (t_fragment_offset t) (t_hop_limit t) (t_packet_length t) (t_ttl t) (t_traffic_class t) (t_platform t) (t_platform_exclude t) (t_source_zone t) (t_destination_zone t) (t_source_interface t) (t_destination_interface t) (t_restrict_address_family t) (t_verbatim t) (t_next_ip t) (t_next_interface t) (t_next_hop_group t) (t_encapsulate t) (t_decapsulate t) (t_port_mirror t) (t_routing_instance t) (t_filter_term t) (t_logging t) (t_counter t) (t_comment t) (t_owner t) (t_expiration t) (t_stateless_reply t) (t_translated t) (t_flattened t) (t_flattened_addr t) (t_flattened_saddr t) (t_flattened_daddr t).
(** term.forwarding_class_except = v (policy.py:460) *)
Definition set_forwarding_class_except (v : list string) (t : term) : term := mkTerm
  (t_name t) (t_action t) (t_address t) (t_address_exclude t) (t_source_address t) (t_source_address_exclude t) (t_destination_address t) (t_destination_address_exclude t) (t_port t) (t_source_port t) (t_destination_port t) (t_protocol t) (t_protocol_except t) (t_option t) (t_source_prefix t) (t_source_prefix_except t) (t_destination_prefix t) (t_destination_prefix_except t) (t_source_tag t) (t_destination_tag t) (t_precedence t) (t_forwarding_class t) v (t_icmp_type t) (t_icmp_code t) (t_ether_type t) (t_traffic_type t) (t_dscp_match t) (t_dscp_except t) (t_fragment_offset t) (t_hop_limit t) (t_packet_length t) (t_ttl t) (t_traffic_class t) (t_platform t) (t_platform_exclude t) (t_source_zone t) (t_destination_zone t) (t_source_interface t) (t_destination_interface t) (t_restrict_address_family t) (t_verbatim t) (t_next_ip t) (t_next_interface t) (t_next_hop_group t) (t_encapsulate t) (t_decapsulate t) (t_port_mirror t) (t_routing_instance t) (t_filter_term t) (t_logging t) (t_counter t) (t_comment t) (t_owner t) (t_expiration t) (t_stateless_reply t) (t_translated t) (t_flattened t) (t_flattened_addr t) (t_flattened_saddr t) (t_flattened_daddr t).
(** term.icmp_type = v (policy.py:487) *)
Definition set_icmp_type (v : list string) (t : term) : term := mkTerm
  (t_name t) (t_action t) (t_address t) (t_address_exclude t) (t_source_address t) (t_source_address_exclude t) (t_destination_address t) (t_destination_address_exclude t) (t_port t) (t_source_port t) (t_destination_port t) (t_protocol t) (t_protocol_except t) (t_option t) (t_source_prefix t) (t_source_prefix_except t) (t_destination_prefix t) (t_destination_prefix_except t) (t_source_tag t) (t_destination_tag t) (t_precedence t) (t_forwarding_class t) (t_forwarding_class_except t) v (t_icmp_code t) (t_ether_type t) (t_traffic_type t) (t_dscp_match t) (t_dscp_except t) (t_fragment_offset t) (t_hop_limit t) (t_packet_length t) (t_ttl t) (t_traffic_class t) (t_platform t) (t_platform_exclude t) (t_source_zone t) (t_destination_zone t) (t_source_interface t) (t_destination_interface t) (t_restrict_address_family t) (t_verbatim t) (t_next_ip t) (t_next_interface t) (t_next_hop_group t) (t_encapsulate t) (t_decapsulate t) (t_port_mirror t) (t_routing_instance t) (t_filter_term t) (t_logging t) (t_counter t) (t_comment t) (t_owner t) (t_expiration t) (t_stateless_reply t) (t_translated t) (t_flattened t) (t_flattened_addr t) (t_flattened_saddr t) (t_flattened_daddr t).
(** term.icmp_code = v (policy.py:488) *)
Definition set_icmp_code (v : list Z) (t : term) : term := mkTerm
  (t_name t) (t_action t) (t_address t) (t_address_exclude t) (t_source_address t) (t_source_address_exclude t) (t_destination_address t) (t_destination_address_exclude t) (t_port t) (t_source_port t) (t_destination_port t) (t_protocol t) (t_protocol_except t) (t_option t) (t_source_prefix t) (t_source_prefix_except t) (t_destination_prefix t) (t_destination_prefix_except t) (t_source_tag t) (t_destination_tag t) (t_precedence t) (t_forwarding_class t) (t_forwarding_class_except t) (t_icmp_type t) v (t_ether_type t) (t_traffic_type t) (t_dscp_match t) (t_dscp_except t) (t_fragment_offset t) (t_hop_limit t) (t_packet_length t) (t_ttl t) (t_traffic_class t) (t_platform t) (t_platform_exclude t) (t_source_zone t) (t_destination_zone t) (t_source_interface t) (t_destination_interface t) (t_restrict_address_family t) (t_verbatim t) (t_next_ip t) (t_next_interface t) (t_next_hop_group t) (t_encapsulate t) (t_decapsulate t) (t_port_mirror t) (t_routing_instance t) (t_filter_term t) (t_logging t) (t_counter t) (t_comment t) (t_owner t) (t_expiration t) (t_stateless_reply t) (t_translated t) (t_flattened t) (t_flattened_addr t) (t_flattened_saddr t) (t_flattened_daddr t).
(** term.ether_type = v (policy.py:489) *)
Definition set_ether_type (v : list string) (t : term) : term := mkTerm
  (t_name t) (t_action t) (t_address t) (t_address_exclude t) (t_source_address t) (t_source_address_exclude t) (t_destination_address t) (t_destination_address_exclude t) (t_port t) (t_source_port t) (t_destination_port t) (t_protocol t) (t_protocol_except t) (t_option t) (t_source_prefix t) (t_source_prefix_except t) (t_destination_prefix t) (t_destination_prefix_except t) (t_source_tag t) (t_destination_tag t) (t_precedence t) (t_forwarding_class t) (t_forwarding_class_except t) (t_icmp_type t) (t_icmp_code t) v (t_traffic_type t) (t_dscp_match t) (t_dscp_except t) (t_fragment_offset t) (t_hop_limit t) (t_packet_length t) (t_ttl t) (t_traffic_class t) (t_platform t) (t_platform_exclude t) (t_source_zone t) (t_destination_zone t) (t_source_interface t) (t_destination_interface t) (t_restrict_address_family t) (t_verbatim t) (t_next_ip t) (t_next_interface t) (t_next_hop_group t) (t_encapsulate t) (t_decapsulate t) (t_port_mirror t) (t_routing_instance t) (t_filter_term t) (t_logging t) (t_counter t) (t_comment t) (t_owner t) (t_expiration t) (t_stateless_reply t) (t_translated t) (t_flattened t) (t_flattened_addr t) (t_flattened_saddr t) (t_flattened_daddr t).
(** term.traffic_type = v (policy.py:491) *)
Definition set_traffic_type (v : list string) (t : term) : term := mkTerm
  (t_name t) (t_action t) (t_address t) (t_address_exclude t) (t_source_address t) (t_source_address_exclude t) (t_destination_address t) (t_destination_address_exclude t) (t_port t) (t_source_port t) (t_destination_port t) (t_protocol t) (t_protocol_except t) (t_option t) (t_source_prefix t) (t_source_prefix_except t) (t_destination_prefix t) (t_destination_prefix_except t) (t_source_tag t) (t_destination_tag t) (t_precedence t) (t_forwarding_class t) (t_forwarding_class_except t) (t_icmp_type t) (t_icmp_code t) (t_ether_type t) v (t_dscp_match t) (t_dscp_except t) (t_fragment_offset t) (t_hop_limit t) (t_packet_length t) (t_ttl t) (t_traffic_class t) (t_platform t) (t_platform_exclude t) (t_source_zone t) (t_destination_zone t) (t_source_interface t) (t_destination_interface t) (t_restrict_address_family t) (t_verbatim t) (t_next_ip t) (t_next_interface t) (t_next_hop_group t) (t_encapsulate t) (t_decapsulate t) (t_port_mirror t) (t_routing_instance t) (t_filter_term t) (t_logging t) (t_counter t) (t_comment t) (t_owner t) (t_expiration t) (t_stateless_reply t) (t_translated t) (t_flattened t) (t_flattened_addr t) (t_flattened_saddr t) (t_flattened_daddr t).
(** term.dscp_match = v (policy.py:494) *)
Definition set_dscp_match (v : list string) (t : term) : term := mkTerm
  (t_name t) (t_action t) (t_address t) (t_address_exclude t) (t_source_address t) (t_source_address_exclude t) (t_destination_address t) (t_destination_address_exclude t) (t_port t) (t_source_port t) (t_destination_port t) (t_protocol t) (t_protocol_except t) (t_option t) (t_source_prefix t) (t_source_prefix_except t) (t_destination_prefix t) (t_destination_prefix_except t) (t_source_tag t) (t_destination_tag t) (t_precedence t) (t_forwarding_class t) (t_forwarding_class_except t) (t_icmp_type t) (t_icmp_code t) (t_ether_type t) (t_traffic_type t) v (t_dscp_except t) (t_fragment_offset t) (t_hop_limit t) (t_packet_length t) (t_ttl t) (t_traffic_class t) (t_platform t) (t_platform_exclude t) (t_source_zone t) (t_destination_zone t) (t_source_interface t) (t_destination_interface t) (t_restrict_address_family t) (t_verbatim t) (t_next_ip t) (t_next_interface t) (t_next_hop_group t) (t_encapsulate t) (t_decapsulate t) (t_port_mirror t) (t_routing_instance t) (t_filter_term t) (t_logging t) (t_counter t) (t_comment t) (t_owner t) (t_expiration t) (t_stateless_reply t) (t_translated t) (t_flattened t) (t_flattened_addr t) (t_flattened_saddr t) (t_flattened_daddr t).
(** term.dscp_except = v (policy.py:495) *)
Definition set_dscp_except (v : list string) (t : term) : term := mkTerm
  (t_name t) (t_action t) (t_address t) (t_address_exclude t) (t_source_address t) (t_source_address_exclude t) (t_destination_address t) (t_destination_address_exclude t) (t_port t) (t_source_port t) (t_destination_port t) (t_protocol t) (t_protocol_except t) (t_option t) (t_source_prefix t) (t_source_prefix_except t) (t_destination_prefix t) (t_destination_prefix_except t) (t_source_tag t) (t_destination_tag t) (t_precedence t) (t_forwarding_class t) (t_forwarding_class_except t) (t_icmp_type t) (t_icmp_code t) (t_ether_type t) (t_traffic_type t) (t_dscp_match t) v (t_fragment_offset t) (t_hop_limit t) (t_packet_length t) (t_ttl t) (t_traffic_class t) (t_platform t) (t_platform_exclude t) (t_source_zone t) (t_destination_zone t) (t_source_interface t) (t_destination_interface t) (t_restrict_address_family t) (t_verbatim t) (t_next_ip t) (t_next_interface t) (t_next_hop_group t) (t_encapsulate t) (t_decapsulate t) (t_port_mirror t) (t_routing_instance t) (t_filter_term t) (t_logging t) (t_counter t) (t_comment t) (t_owner t) (t_expiration t) (t_stateless_reply t) (t_translated t) (t_flattened t) (t_flattened_addr t) (t_flattened_saddr t) (t_flattened_daddr t).
(** term.fragment_offset = v (policy.py:485) *)
Definition set_fragment_offset (v : option string) (t : term) : term := mkTerm
  (t_name t) (t_action t) (t_address t) (t_address_exclude t) (t_source_address t) (t_source_address_exclude t) (t_destination_address t) (t_destination_address_exclude t) (t_port t) (t_source_port t) (t_destination_port t) (t_protocol t) (t_protocol_except t) (t_option t) (t_source_prefix t) (t_source_prefix_except t) (t_destination_prefix t) (t_destination_prefix_except t) (t_source_tag t) (t_destination_tag t) (t_precedence t) (t_forwarding_class t) (t_forwarding_class_except t) (t_icmp_type t) (t_icmp_code t) (t_ether_type t) (t_traffic_type t) (t_dscp_match t) (t_dscp_except t) v (t_hop_limit t) (t_packet_length t) (t_ttl t) (t_traffic_class t) (t_platform t) (t_platform_exclude t) (t_source_zone t) (t_destination_zone t) (t_source_interface t) (t_destination_interface t) (t_restrict_address_family t) (t_verbatim t) (t_next_ip t) (t_next_interface t) (t_next_hop_group t) (t_encapsulate t) (t_decapsulate t) (t_port_mirror t) (t_routing_instance t) (t_filter_term t) (t_logging t) (t_counter t) (t_comment t) (t_owner t) (t_expiration t) (t_stateless_reply t) (t_translated t) (t_flattened t) (t_flattened_addr t) (t_flattened_saddr t) (t_flattened_daddr t).
(** term.hop_limit = v (policy.py:486) *)
Definition set_hop_limit (v : option string) (t : term) : term := mkTerm
  (t_name t) (t_action t) (t_address t) (t_address_exclude t) (t_source_address t) (t_source_address_exclude t) (t_destination_address t) (t_destination_address_exclude t) (t_port t) (t_source_port t) (t_destination_port t) (t_protocol t) (t_protocol_except t) (t_option t) (t_source_prefix t) (t_source_prefix_except t) (t_destination_prefix t) (t_destination_prefix_except t) (t_source_tag t) (t_destination_tag t) (t_precedence t) (t_forwarding_class t) (t_forwarding_class_except t) (t_icmp_type t) (t_icmp_code t) (t_ether_type t) (t_traffic_type t) (t_dscp_match t) (t_dscp_except t) (t_fragment_offset t) v (t_packet_length t) (t_ttl t) (t_traffic_class t) (t_platform t) (t_platform_exclude t) (t_source_zone t) (t_destination_zone t) (t_source_interface t) (t_destination_interface t) (t_restrict_address_family t) (t_verbatim t) (t_next_ip t) (t_next_interface t) (t_next_hop_group t) (t_encapsulate t) (t_decapsulate t) (t_port_mirror t) (t_routing_instance t) (t_filter_term t) (t_logging t) (t_counter t) (t_comment t) (t_owner t) (t_expiration t) (t_stateless_reply t) (t_translated t) (t_flattened t) (t_flattened_addr t) (t_flattened_saddr t) (t_flattened_daddr t).
(** term.packet_length = v (policy.py:484) *)
Definition set_packet_length (v : option string) (t : term) : term := mkTerm
  (t_name t) (t_action t) (t_address t) (t_address_exclude t) (t_source_address t) (t_source_address_exclude t) (t_destination_address t) (t_destination_address_exclude t) (t_port t) (t_source_port t) (t_destination_port t) (t_protocol t) (t_protocol_except t) (t_option t) (t_source_prefix t) (t_source_prefix_except t) (t_destination_prefix t) (t_destination_prefix_except t) (t_source_tag t) (t_destination_tag t) (t_precedence t) (t_forwarding_class t) (t_forwarding_class_except t) (t_icmp_type t) (t_icmp_code t) (t_ether_type t) (t_traffic_type t) (t_dscp_match t) (t_dscp_except t) (t_fragment_offset t) (t_hop_limit t) v (t_ttl t) (t_traffic_class t) (t_platform t) (t_platform_exclude t) (t_source_zone t) (t_destination_zone t) (t_source_interface t) (t_destination_interface t) (t_restrict_address_family t) (t_verbatim t) (t_next_ip t) (t_next_interface t) (t_next_hop_group t) (t_encapsulate t) (t_decapsulate t) (t_port_mirror t) (t_routing_instance t) (t_filter_term t) (t_logging t) (t_counter t) (t_comment t) (t_owner t) (t_expiration t) (t_stateless_reply t) (t_translated t) (t_flattened t) (t_flattened_addr t) (t_flattened_saddr t) (t_flattened_daddr t).
(** term.ttl = v (policy.py:481) *)
Definition set_ttl (v : option Z) (t : term) : term := mkTerm
  (t_name t) (t_action t) (t_address t) (t_address_exclude t) (t_source_address t) (t_source_address_exclude t) (t_destination_address t) (t_destination_address_exclude t) (t_port t) (t_source_port t) (t_destination_port t) (t_protocol t) (t_protocol_except t) (t_option t) (t_source_prefix t) (t_source_prefix_except t) (t_destination_prefix t) (t_destination_prefix_except t) (t_source_tag t) (t_destination_tag t) (t_precedence t) (t_forwarding_class t) (t_forwarding_class_except t) (t_icmp_type t) (t_icmp_code t) (t_ether_type t) (t_traffic_type t) (t_dscp_match t) (t_dscp_except t) (t_fragment_offset t) (t_hop_limit t) (t_packet_length t) v (t_traffic_class t) (t_platform t) (t_platform_exclude t) (t_source_zone t) (t_destination_zone t) (t_source_interface t) (t_destination_interface t) (t_restrict_address_family t) (t_verbatim t) (t_next_ip t) (t_next_interface t) (t_next_hop_group t) (t_encapsulate t) (t_decapsulate t) (t_port_mirror t) (t_routing_instance t) (t_filter_term t) (t_logging t) (t_counter t) (t_comment t) (t_owner t) (t_expiration t) (t_stateless_reply t) (t_translated t) (t_flattened t) (t_flattened_addr t) (t_flattened_saddr t) (t_flattened_daddr t).
(** term.traffic_class = v (policy.py:473) *)
Definition set_traffic_class (v : option Z) (t : term) : term := mkTerm
  (t_name t) (t_action t) (t_address t) (t_address_exclude t) (t_source_address t) (t_source_address_exclude t) (t_destination_address t) (t_destination_address_exclude t) (t_port t) (t_source_port t) (t_destination_port t) (t_protocol t) (t_protocol_except t) (t_option t) (t_source_prefix t) (t_source_prefix_except t) (t_destination_prefix t) (t_destination_prefix_except t) (t_source_tag t) (t_destination_tag t) (t_precedence t) (t_forwarding_class t) (t_forwarding_class_except t) (t_icmp_type t) (t_icmp_code t) (t_ether_type t) (t_traffic_type t) (t_dscp_match t) (t_dscp_except t) (t_fragment_offset t) (t_hop_limit t) (t_packet_length t) (t_ttl t) v (t_platform t) (t_platform_exclude t) (t_source_zone t) (t_destination_zone t) (t_source_interface t) (t_destination_interface t) (t_restrict_address_family t) (t_verbatim t) (t_next_ip t) (t_next_interface t) (t_next_hop_group t) (t_encapsulate t) (t_decapsulate t) (t_port_mirror t) (t_routing_instance t) (t_filter_term t) (t_logging t) (t_counter t) (t_comment t) (t_owner t) (t_expiration t) (t_stateless_reply t) (t_translated t) (t_flattened t) (t_flattened_addr t) (t_flattened_saddr t) (t_flattened_daddr t).
(** term.platform = v (policy.py:519) *)
Definition set_platform (v : list string) (t : term) : term := mkTerm
  (t_name t) (t_action t) (t_address t) (t_address_exclude t) (t_source_address t) (t_source_address_exclude t) (t_destination_address t) (t_destination_address_exclude t) (t_port t) (t_source_port t) (t_destination_port t) (t_protocol t) (t_protocol_except t) (t_option t) (t_source_prefix t) (t_source_prefix_except t) (t_destination_prefix t) (t_destination_prefix_except t) (t_source_tag t) (t_destination_tag t) (t_precedence t) (t_forwarding_class t) (t_forwarding_class_except t) (t_icmp_type t) (t_icmp_code t) (t_ether_type t) (t_traffic_type t) (t_dscp_match t) (t_dscp_except t) (t_fragment_offset t) (t_hop_limit t) (t_packet_length t) (t_ttl t) (t_traffic_class t) v (t_platform_exclude t) (t_source_zone t) (t_destination_zone t) (t_source_interface t) (t_destination_interface t) (t_restrict_address_family t) (t_verbatim t) (t_next_ip t) (t_next_interface t) (t_next_hop_group t) (t_encapsulate t) (t_decapsulate t) (t_port_mirror t) (t_routing_instance t) (t_filter_term t) (t_logging t) (t_counter t) (t_comment t) (t_owner t) (t_expiration t) (t_stateless_reply t) (t_translated t) (t_flattened t) (t_flattened_addr t) (t_flattened_saddr t) (t_flattened_daddr t).
(** term.platform_exclude = v (policy.py:520) *)
Definition set_platform_exclude (v : list string) (t : term) : term := mkTerm
  (t_name t) (t_action t) (t_address t) (t_address_exclude t) (t_source_address t) (t_source_address_exclude t) (t_destination_address t) (t_destination_address_exclude t) (t_port t) (t_source_port t) (t_destination_port t) (t_protocol t) (t_protocol_except t) (t_option t) (t_source_prefix t) (t_source_prefix_except t) (t_destination_prefix t) (t_destination_prefix_except t) (t_source_tag t) (t_destination_tag t) (t_precedence t) (t_forwarding_class t) (t_forwarding_class_except t) (t_icmp_type t) (t_icmp_code t) (t_ether_type t) (t_traffic_type t) (t_dscp_match t) (t_dscp_except t) (t_fragment_offset t) (t_hop_limit t) (t_packet_length t) (t_ttl t) (t_traffic_class t) (t_platform t) v (t_source_zone t) (t_destination_zone t) (t_source_interface t) (t_destination_interface t) (t_restrict_address_family t) (t_verbatim t) (t_next_ip t) (t_next_interface t) (t_next_hop_group t) (t_encapsulate t) (t_decapsulate t) (t_port_mirror t) (t_routing_instance t) (t_filter_term t) (t_logging t) (t_counter t) (t_comment t) (t_owner t) (t_expiration t) (t_stateless_reply t) (t_translated t) (t_flattened t) (t_flattened_addr t) (t_flattened_saddr t) (t_flattened_daddr t).
(** term.source_zone = v (policy.py:508) *)
Definition set_source_zone (v : list string) (t : term) : term := mkTerm
  (t_name t) (t_action t) (t_address t) (t_address_exclude t) (t_source_address t) (t_source_address_exclude t) (t_destination_address t) (t_destination_address_exclude t) (t_port t) (t_source_port t) (t_destination_port t) (t_protocol t) (t_protocol_except t) (t_option t) (t_source_prefix t) (t_source_prefix_except t) (t_destination_prefix t) (t_destination_prefix_except t) (t_source_tag t) (t_destination_tag t) (t_precedence t) (t_forwarding_class t) (t_forwarding_class_except t) (t_icmp_type t) (t_icmp_code t) (t_ether_type t) (t_traffic_type t) (t_dscp_match t) (t_dscp_except t) (t_fragment_offset t) (t_hop_limit t) (t_packet_length t) (t_ttl t) (t_traffic_class t) (t_platform t) (t_platform_exclude t) v (t_destination_zone t) (t_source_interface t) (t_destination_interface t) (t_restrict_address_family t) (t_verbatim t) (t_next_ip t) (t_next_interface t) (t_next_hop_group t) (t_encapsulate t) (t_decapsulate t) (t_port_mirror t) (t_routing_instance t) (t_filter_term t) (t_logging t) (t_counter t) (t_comment t) (t_owner t) (t_expiration t) (t_stateless_reply t) (t_translated t) (t_flattened t) (t_flattened_addr t) (t_flattened_saddr t) (t_flattened_daddr t).
(** term.destination_zone = v (policy.py:507) *)
Definition set_destination_zone (v : list string) (t : term) : term := mkTerm
  (t_name t) (t_action t) (t_address t) (t_address_exclude t) (t_source_address t) (t_source_address_exclude t) (t_destination_address t) (t_destination_address_exclude t) (t_port t) (t_source_port t) (t_destination_port t) (t_protocol t) (t_protocol_except t) (t_option t) (t_source_prefix t) (t_source_prefix_except t) (t_destination_prefix t) (t_destination_prefix_except t) (t_source_tag t) (t_destination_tag t) (t_precedence t) (t_forwarding_class t) (t_forwarding_class_except t) (t_icmp_type t) (t_icmp_code t) (t_ether_type t) (t_traffic_type t) (t_dscp_match t) (t_dscp_except t) (t_fragment_offset t) (t_hop_limit t) (t_packet_length t) (t_ttl t) (t_traffic_class t) (t_platform t) (t_platform_exclude t) (t_source_zone t) v (t_source_interface t) (t_destination_interface t) (t_restrict_address_family t) (t_verbatim t) (t_next_ip t) (t_next_interface t) (t_next_hop_group t) (t_encapsulate t) (t_decapsulate t) (t_port_mirror t) (t_routing_instance t) (t_filter_term t) (t_logging t) (t_counter t) (t_comment t) (t_owner t) (t_expiration t) (t_stateless_reply t) (t_translated t) (t_flattened t) (t_flattened_addr t) (t_flattened_saddr t) (t_flattened_daddr t).
(** term.source_interface = v (policy.py:517) *)
Definition set_source_interface (v : option string) (t : term) : term := mkTerm
  (t_name t) (t_action t) (t_address t) (t_address_exclude t) (t_source_address t) (t_source_address_exclude t) (t_destination_address t) (t_destination_address_exclude t) (t_port t) (t_source_port t) (t_destination_port t) (t_protocol t) (t_protocol_except t) (t_option t) (t_source_prefix t) (t_source_prefix_except t) (t_destination_prefix t) (t_destination_prefix_except t) (t_source_tag t) (t_destination_tag t) (t_precedence t) (t_forwarding_class t) (t_forwarding_class_except t) (t_icmp_type t) (t_icmp_code t) (t_ether_type t) (t_traffic_type t) (t_dscp_match t) (t_dscp_except t) (t_fragment_offset t) (t_hop_limit t) (t_packet_length t) (t_ttl t) (t_traffic_class t) (t_platform t) (t_platform_exclude t) (t_source_zone t) (t_destination_zone t) v (t_destination_interface t) (t_restrict_address_family t) (t_verbatim t) (t_next_ip t) (t_next_interface t) (t_next_hop_group t) (t_encapsulate t) (t_decapsulate t) (t_port_mirror t) (t_routing_instance t) (t_filter_term t) (t_logging t) (t_counter t) (t_comment t) (t_owner t) (t_expiration t) (t_stateless_reply t) (t_translated t) (t_flattened t) (t_flattened_addr t) (t_flattened_saddr t) (t_flattened_daddr t).
(** term.destination_interface = v (policy.py:518) *)
Definition set_destination_interface (v : option string) (t : term) : term := mkTerm
  (t_name t) (t_action t) (t_address t) (t_address_exclude t) (t_source_address t) (t_source_address_exclude t) (t_destination_address t) (t_destination_address_exclude t) (t_port t) (t_source_port t) (t_destination_port t) (t_protocol t) (t_protocol_except t) (t_option t) (t_source_prefix t) (t_source_prefix_except t) (t_destination_prefix t) (t_destination_prefix_except t) (t_source_tag t) (t_destination_tag t) (t_precedence t) (t_forwarding_class t) (t_forwarding_class_except t) (t_icmp_type t) (t_icmp_code t) (t_ether_type t) (t_traffic_type t) (t_dscp_match t) (t_dscp_except t) (t_fragment_offset t) (t_hop_limit t) (t_packet_length t) (t_ttl t) (t_traffic_class t) (t_platform t) (t_platform_exclude t) (t_source_zone t) (t_destination_zone t) (t_source_interface t) v (t_restrict_address_family t) (t_verbatim t) (t_next_ip t) (t_next_interface t) (t_next_hop_group t) (t_encapsulate t) (t_decapsulate t) (t_port_mirror t) (t_routing_instance t) (t_filter_term t) (t_logging t) (t_counter t) (t_comment t) (t_owner t) (t_expiration t) (t_stateless_reply t) (t_translated t) (t_flattened t) (t_flattened_addr t) (t_flattened_saddr t) (t_flattened_daddr t).
(** term.restrict_address_family = v (policy.py:450) *)
Definition set_restrict_address_family (v : option string) (t : term) : term := mkTerm
  (t_name t) (t_action t) (t_address t) (t_address_exclude t) (t_source_address t) (t_source_address_exclude t) (t_destination_address t) (t_destination_address_exclude t) (t_port t) (t_source_port t) (t_destination_port t) (t_protocol t) (t_protocol_except t) (t_option t) (t_source_prefix t) (t_source_prefix_except t) (t_destination_prefix t) (t_destination_prefix_except t) (t_source_tag t) (t_destination_tag t) (t_precedence t) (t_forwarding_class t) (t_forwarding_class_except t) (t_icmp_type t) (t_icmp_code t) (t_ether_type t) (t_traffic_type t) (t_dscp_match t) (t_dscp_except t) (t_fragment_offset t) (t_hop_limit t) (t_packet_length t) (t_ttl t) (t_traffic_class t) (t_platform t) (t_platform_exclude t) (t_source_zone t) (t_destination_zone t) (t_source_interface t) (t_destination_interface t) v (t_verbatim t) (t_next_ip t) (t_next_interface t) (t_next_hop_group t) (t_encapsulate t) (t_decapsulate t) (t_port_mirror t) (t_routing_instance t) (t_filter_term t) (t_logging t) (t_counter t) (t_comment t) (t_owner t) (t_expiration t) (t_stateless_reply t) (t_translated t) (t_flattened t) (t_flattened_addr t) (t_flattened_saddr t) (t_flattened_daddr t).
(** term.verbatim = v (policy.py:482) *)
Definition set_verbatim (v : list (string * string)) (t : term) : term := mkTerm
  (t_name t) (t_action t) (t_address t) (t_address_exclude t) (t_source_address t) (t_source_address_exclude t) (t_destination_address t) (t_destination_address_exclude t) (t_port t) (t_source_port t) (t_destination_port t) (t_protocol t) (t_protocol_except t) (t_option t) (t_source_prefix t) (t_source_prefix_except t) (t_destination_prefix t) (t_destination_prefix_except t) (t_source_tag t) (t_destination_tag t) (t_precedence t) (t_forwarding_class t) (t_forwarding_class_except t) (t_icmp_type t) (t_icmp_code t) (t_ether_type t) (t_traffic_type t) (t_dscp_match t) (t_dscp_except t) (t_fragment_offset t) (t_hop_limit t) (t_packet_length t) (t_ttl t) (t_traffic_class t) (t_platform t) (t_platform_exclude t) (t_source_zone t) (t_destination_zone t) (t_source_interface t) (t_destination_interface t) (t_restrict_address_family t) v (t_next_ip t) (t_next_interface t) (t_next_hop_group t) (t_encapsulate t) (t_decapsulate t) (t_port_mirror t) (t_routing_instance t) (t_filter_term t) (t_logging t) (t_counter t) (t_comment t) (t_owner t) (t_expiration t) (t_stateless_reply t) (t_translated t) (t_flattened t) (t_flattened_addr t) (t_flattened_saddr t) (t_flattened_daddr t).
(** term.next_ip = v (policy.py:496) *)
Definition set_next_ip (v : list net) (t : term) : term := mkTerm
  (t_name t) (t_action t) (t_address t) (t_address_exclude t) (t_source_address t) (t_source_address_exclude t) (t_destination_address t) (t_destination_address_exclude t) (t_port t) (t_source_port t) (t_destination_port t) (t_protocol t) (t_protocol_except t) (t_option t) (t_source_prefix t) (t_source_prefix_except t) (t_destination_prefix t) (t_destination_prefix_except t) (t_source_tag t) (t_destination_tag t) (t_precedence t) (t_forwarding_class t) (t_forwarding_class_except t) (t_icmp_type t) (t_icmp_code t) (t_ether_type t) (t_traffic_type t) (t_dscp_match t) (t_dscp_except t) (t_fragment_offset t) (t_hop_limit t) (t_packet_length t) (t_ttl t) (t_traffic_class t) (t_platform t) (t_platform_exclude t) (t_source_zone t) (t_destination_zone t) (t_source_interface t) (t_destination_interface t) (t_restrict_address_family t) (t_verbatim t) v (t_next_interface t) (t_next_hop_group t) (t_encapsulate t) (t_decapsulate t) (t_port_mirror t) (t_routing_instance t) (t_filter_term t) (t_logging t) (t_counter t) (t_comment t) (t_owner t) (t_expiration t) (t_stateless_reply t) (t_translated t) (t_flattened t) (t_flattened_addr t) (t_flattened_saddr t) (t_flattened_daddr t).
(** term.next_interface = v (policy.py:497) *)
Definition set_next_interface (v : option string) (t : term) : term := mkTerm
  (t_name t) (t_action t) (t_address t) (t_address_exclude t) (t_source_address t) (t_source_address_exclude t) (t_destination_address t) (t_destination_address_exclude t) (t_port t) (t_source_port t) (t_destination_port t) (t_protocol t) (t_protocol_except t) (t_option t) (t_source_prefix t) (t_source_prefix_except t) (t_destination_prefix t) (t_destination_prefix_except t) (t_source_tag t) (t_destination_tag t) (t_precedence t) (t_forwarding_class t) (t_forwarding_class_except t) (t_icmp_type t) (t_icmp_code t) (t_ether_type t) (t_traffic_type t) (t_dscp_match t) (t_dscp_except t) (t_fragment_offset t) (t_hop_limit t) (t_packet_length t) (t_ttl t) (t_traffic_class t) (t_platform t) (t_platform_exclude t) (t_source_zone t) (t_destination_zone t) (t_source_interface t) (t_destination_interface t) (t_restrict_address_family t) (t_verbatim t) (t_next_ip t) v (t_next_hop_group t) (t_encapsulate t) (t_decapsulate t) (t_port_mirror t) (t_routing_instance t) (t_filter_term t) (t_logging t) (t_counter t) (t_comment t) (t_owner t) (t_expiration t) (t_stateless_reply t) (t_translated t) (t_flattened t) (t_flattened_addr t) (t_flattened_saddr t) (t_flattened_daddr t).
(** term.next_hop_group = v (policy.py:498) *)
Definition set_next_hop_group (v : option string) (t : term) : term := mkTerm
  (t_name t) (t_action t) (t_address t) (t_address_exclude t) (t_source_address t) (t_source_address_exclude t) (t_destination_address t) (t_destination_address_exclude t) (t_port t) (t_source_port t) (t_destination_port t) (t_protocol t) (t_protocol_except t) (t_option t) (t_source_prefix t) (t_source_prefix_except t) (t_destination_prefix t) (t_destination_prefix_except t) (t_source_tag t) (t_destination_tag t) (t_precedence t) (t_forwarding_class t) (t_forwarding_class_except t) (t_icmp_type t) (t_icmp_code t) (t_ether_type t) (t_traffic_type t) (t_dscp_match t) (t_dscp_except t) (t_fragment_offset t) (t_hop_limit t) (t_packet_length t) (t_ttl t) (t_traffic_class t) (t_platform t) (t_platform_exclude t) (t_source_zone t) (t_destination_zone t) (t_source_interface t) (t_destination_interface t) (t_restrict_address_family t) (t_verbatim t) (t_next_ip t) (t_next_interface t) v (t_encapsulate t) (t_decapsulate t) (t_port_mirror t) (t_routing_instance t) (t_filter_term t) (t_logging t) (t_counter t) (t_comment t) (t_owner t) (t_expiration t) (t_stateless_reply t) (t_translated t) (t_flattened t) (t_flattened_addr t) (t_flattened_saddr t) (t_flattened_daddr t).
(** term.encapsulate = v (policy.py:503) *)
Definition set_encapsulate (v : option string) (t : term) : term := mkTerm
  (t_name t) (t_action t) (t_address t) (t_address_exclude t) (t_source_address t) (t_source_address_exclude t) (t_destination_address t) (t_destination_address_exclude t) (t_port t) (t_source_port t) (t_destination_port t) (t_protocol t) (t_protocol_except t) (t_option t) (t_source_prefix t) (t_source_prefix_except t) (t_destination_prefix t) (t_destination_prefix_except t) (t_source_tag t) (t_destination_tag t) (t_precedence t) (t_forwarding_class t) (t_forwarding_class_except t) (t_icmp_type t) (t_icmp_code t) (t_ether_type t) (t_traffic_type t) (t_dscp_match t) (t_dscp_except t) (t_fragment_offset t) (t_hop_limit t) (t_packet_length t) (t_ttl t) (t_traffic_class t) (t_platform t) (t_platform_exclude t) (t_source_zone t) (t_destination_zone t) (t_source_interface t) (t_destination_interface t) (t_restrict_address_family t) (t_verbatim t) (t_next_ip t) (t_next_interface t) (t_next_hop_group t) v (t_decapsulate t) (t_port_mirror t) (t_routing_instance t) (t_filter_term t) (t_logging t) (t_counter t) (t_comment t) (t_owner t) (t_expiration t) (t_stateless_reply t) (t_translated t) (t_flattened t) (t_flattened_addr t) (t_flattened_saddr t) (t_flattened_daddr t).
(** term.decapsulate = v (policy.py:504) *)
Definition set_decapsulate (v : option string) (t : term) : term := mkTerm
  (t_name t) (t_action t) (t_address t) (t_address_exclude t) (t_source_address t) (t_source_address_exclude t) (t_destination_address t) (t_destination_address_exclude t) (t_port t) (t_source_port t) (t_destination_port t) (t_protocol t) (t_protocol_except t) (t_option t) (t_source_prefix t) (t_source_prefix_except t) (t_destination_prefix t) (t_destination_prefix_except t) (t_source_tag t) (t_destination_tag t) (t_precedence t) (t_forwarding_class t) (t_forwarding_class_except t) (t_icmp_type t) (t_icmp_code t) (t_ether_type t) (t_traffic_type t) (t_dscp_match t) (t_dscp_except t) (t_fragment_offset t) (t_hop_limit t) (t_packet_length t) (t_ttl t) (t_traffic_class t) (t_platform t) (t_platform_exclude t) (t_source_zone t) (t_destination_zone t) (t_source_interface t) (t_destination_interface t) (t_restrict_address_family t) (t_verbatim t) (t_next_ip t) (t_next_interface t) (t_next_hop_group t) (t_encapsulate t) v (t_port_mirror t) (t_routing_instance t) (t_filter_term t) (t_logging t) (t_counter t) (t_comment t) (t_owner t) (t_expiration t) (t_stateless_reply t) (t_translated t) (t_flattened t) (t_flattened_addr t) (t_flattened_saddr t) (t_flattened_daddr t).
(** term.port_mirror = v (policy.py:505) *)
Definition set_port_mirror (v : option string) (t : term) : term := mkTerm
  (t_name t) (t_action t) (t_address t) (t_address_exclude t) (t_source_address t) (t_source_address_exclude t) (t_destination_address t) (t_destination_address_exclude t) (t_port t) (t_source_port t) (t_destination_port t) (t_protocol t) (t_protocol_except t) (t_option t) (t_source_prefix t) (t_source_prefix_except t) (t_destination_prefix t) (t_destination_prefix_except t) (t_source_tag t) (t_destination_tag t) (t_precedence t) (t_forwarding_class t) (t_forwarding_class_except t) (t_icmp_type t) (t_icmp_code t) (t_ether_type t) (t_traffic_type t) (t_dscp_match t) (t_dscp_except t) (t_fragment_offset t) (t_hop_limit t) (t_packet_length t) (t_ttl t) (t_traffic_class t) (t_platform t) (t_platform_exclude t) (t_source_zone t) (t_destination_zone t) (t_source_interface t) (t_destination_interface t) (t_restrict_address_family t) (t_verbatim t) (t_next_ip t) (t_next_interface t) (t_next_hop_group t) (t_encapsulate t) (t_decapsulate t) v (t_routing_instance t) (t_filter_term t) (t_logging t) (t_counter t) (t_comment t) (t_owner t) (t_expiration t) (t_stateless_reply t) (t_translated t) (t_flattened t) (t_flattened_addr t) (t_flattened_saddr t) (t_flattened_daddr t).
(** term.routing_instance = v (policy.py:476) *)
Definition set_routing_instance (v : option string) (t : term) : term := mkTerm
  (t_name t) (t_action t) (t_address t) (t_address_exclude t) (t_source_address t) (t_source_address_exclude t) (t_destination_address t) (t_destination_address_exclude t) (t_port t) (t_source_port t) (t_destination_port t) (t_protocol t) (t_protocol_except t) (t_option t) (t_source_prefix t) (t_source_prefix_except t) (t_destination_prefix t) (t_destination_prefix_except t) (t_source_tag t) (t_destination_tag t) (t_precedence t) (t_forwarding_class t) (t_forwarding_class_except t) (t_icmp_type t) (t_icmp_code t) (t_ether_type t) (t_traffic_type t) (t_dscp_match t) (t_dscp_except t) (t_fragment_offset t) (t_hop_limit t) (t_packet_length t) (t_ttl t) (t_traffic_class t) (t_platform t) (t_platform_exclude t) (t_source_zone t) (t_destination_zone t) (t_source_interface t) (t_destination_interface t) (t_restrict_address_family t) (t_verbatim t) (t_next_ip t) (t_next_interface t) (t_next_hop_group t) (t_encapsulate t) (t_decapsulate t) (t_port_mirror t) v (t_filter_term t) (t_logging t) (t_counter t) (t_comment t) (t_owner t) (t_expiration t) (t_stateless_reply t) (t_translated t) (t_flattened t) (t_flattened_addr t) (t_flattened_saddr t) (t_flattened_daddr t).
(** term.filter_term = v (policy.py:458) *)
Definition set_filter_term (v : option string) (t : term) : term := mkTerm
  (t_name t) (t_action t) (t_address t) (t_address_exclude t) (t_source_address t) (t_source_address_exclude t) (t_destination_address t) (t_destination_address_exclude t) (t_port t) (t_source_port t) (t_destination_port t) (t_protocol t) (t_protocol_except t) (t_option t) (t_source_prefix t) (t_source_prefix_except t) (t_destination_prefix t) (t_destination_prefix_except t) (t_source_tag t) (t_destination_tag t) (t_precedence t) (t_forwarding_class t) (t_forwarding_class_except t) (t_icmp_type t) (t_icmp_code t) (t_ether_type t) (t_traffic_type t) (t_dscp_match t) (t_dscp_except t) (t_fragment_offset t) (t_hop_limit t) (t_packet_length t) (t_ttl t) (t_traffic_class t) (t_platform t) (t_platform_exclude t) (t_source_zone t) (t_destination_zone t) (t_source_interface t) (t_destination_interface t) (t_restrict_address_family t) (t_verbatim t) (t_next_ip t) (t_next_interface t) (t_next_hop_group t) (t_encapsulate t) (t_decapsulate t) (t_port_mirror t) (t_routing_instance t) v (t_logging t) (t_counter t) (t_comment t) (t_owner t) (t_expiration t) (t_stateless_reply t) (t_translated t) (t_flattened t) (t_flattened_addr t) (t_flattened_saddr t) (t_flattened_daddr t).
(** term.logging = v (policy.py:461) *)
Definition set_logging (v : list string) (t : term) : term := mkTerm
  (t_name t) (t_action t) (t_address t) (t_address_exclude t) (t_source_address t) (t_source_address_exclude t) (t_destination_address t) (t_destination_address_exclude t) (t_port t) (t_source_port t) (t_destination_port t) (t_protocol t) (t_protocol_except t) (t_option t) (t_source_prefix t) (t_source_prefix_except t) (t_destination_prefix t) (t_destination_prefix_except t) (t_source_tag t) (t_destination_tag t) (t_precedence t) (t_forwarding_class t) (t_forwarding_class_except t) (t_icmp_type t) (t_icmp_code t) (t_ether_type t) (t_traffic_type t) (t_dscp_match t) (t_dscp_except t) (t_fragment_offset t) (t_hop_limit t) (t_packet_length t) (t_ttl t) (t_traffic_class t) (t_platform t) (t_platform_exclude t) (t_source_zone t) (t_destination_zone t) (t_source_interface t) (t_destination_interface t) (t_restrict_address_family t) (t_verbatim t) (t_next_ip t) (t_next_interface t) (t_next_hop_group t) (t_encapsulate t) (t_decapsulate t) (t_port_mirror t) (t_routing_instance t) (t_filter_term t) v (t_counter t) (t_comment t) (t_owner t) (t_expiration t) (t_stateless_reply t) (t_translated t) (t_flattened t) (t_flattened_addr t) (t_flattened_saddr t) (t_flattened_daddr t).
(** term.counter = v (policy.py:452) *)
Definition set_counter (v : option string) (t : term) : term := mkTerm
  (t_name t) (t_action t) (t_address t) (t_address_exclude t) (t_source_address t) (t_source_address_exclude t) (t_destination_address t) (t_destination_address_exclude t) (t_port t) (t_source_port t) (t_destination_port t) (t_protocol t) (t_protocol_except t) (t_option t) (t_source_prefix t) (t_source_prefix_except t) (t_destination_prefix t) (t_destination_prefix_except t) (t_source_tag t) (t_destination_tag t) (t_precedence t) (t_forwarding_class t) (t_forwarding_class_except t) (t_icmp_type t) (t_icmp_code t) (t_ether_type t) (t_traffic_type t) (t_dscp_match t) (t_dscp_except t) (t_fragment_offset t) (t_hop_limit t) (t_packet_length t) (t_ttl t) (t_traffic_class t) (t_platform t) (t_platform_exclude t) (t_source_zone t) (t_destination_zone t) (t_source_interface t) (t_destination_interface t) (t_restrict_address_family t) (t_verbatim t) (t_next_ip t) (t_next_interface t) (t_next_hop_group t) (t_encapsulate t) (t_decapsulate t) (t_port_mirror t) (t_routing_instance t) (t_filter_term t) (t_logging t) v (t_comment t) (t_owner t) (t_expiration t) (t_stateless_reply t) (t_translated t) (t_flattened t) (t_flattened_addr t) (t_flattened_saddr t) (t_flattened_daddr t).
(** term.comment = v (policy.py:451) *)
Definition set_comment (v : list string) (t : term) : term := mkTerm
  (t_name t) (t_action t) (t_address t) (t_address_exclude t) (t_source_address t) (t_source_address_exclude t) (t_destination_address t) (t_destination_address_exclude t) (t_port t) (t_source_port t) (t_destination_port t) (t_protocol t) (t_protocol_except t) (t_option t) (t_source_prefix t) (t_source_prefix_except t) (t_destination_prefix t) (t_destination_prefix_except t) (t_source_tag t) (t_destination_tag t) (t_precedence t) (t_forwarding_class t) (t_forwarding_class_except t) (t_icmp_type t) (t_icmp_code t) (t_ether_type t) (t_traffic_type t) (t_dscp_match t) (t_dscp_except t) (t_fragment_offset t) (t_hop_limit t) (t_packet_length t) (t_ttl t) (t_traffic_class t) (t_platform t) (t_platform_exclude t) (t_source_zone t) (t_destination_zone t) (t_source_interface t) (t_destination_interface t) (t_restrict_address_family t) (t_verbatim t) (t_next_ip t) (t_next_interface t) (t_next_hop_group t) (t_encapsulate t) (t_decapsulate t) (t_port_mirror t) (t_routing_instance t) (t_filter_term t) (t_logging t) (t_counter t) v (t_owner t) (t_expiration t) (t_stateless_reply t) (t_translated t) (t_flattened t) (t_flattened_addr t) (t_flattened_saddr t) (t_flattened_daddr t).
(** term.owner = v (policy.py:466) *)
Definition set_owner (v : option string) (t : term) : term := mkTerm
  (t_name t) (t_action t) (t_address t) (t_address_exclude t) (t_source_address t) (t_source_address_exclude t) (t_destination_address t) (t_destination_address_exclude t) (t_port t) (t_source_port t) (t_destination_port t) (t_protocol t) (t_protocol_except t) (t_option t) (t_source_prefix t) (t_source_prefix_except t) (t_destination_prefix t) (t_destination_prefix_except t) (t_source_tag t) (t_destination_tag t) (t_precedence t) (t_forwarding_class t) (t_forwarding_class_except t) (t_icmp_type t) (t_icmp_code t) (t_ether_type t) (t_traffic_type t) (t_dscp_match t) (t_dscp_except t) (t_fragment_offset t) (t_hop_limit t) (t_packet_length t) (t_ttl t) (t_traffic_class t) (t_platform t) (t_platform_exclude t) (t_source_zone t) (t_destination_zone t) (t_source_interface t) (t_destination_interface t) (t_restrict_address_family t) (t_verbatim t) (t_next_ip t) (t_next_interface t) (t_next_hop_group t) (t_encapsulate t) (t_decapsulate t) (t_port_mirror t) (t_routing_instance t) (t_filter_term t) (t_logging t) (t_counter t) (t_comment t) v (t_expiration t) (t_stateless_reply t) (t_translated t) (t_flattened t) (t_flattened_addr t) (t_flattened_saddr t) (t_flattened_daddr t).
(** term.expiration = v (policy.py:453) *)
Definition set_expiration (v : option Z) (t : term) : term := mkTerm
  (t_name t) (t_action t) (t_address t) (t_address_exclude t) (t_source_address t) (t_source_address_exclude t) (t_destination_address t) (t_destination_address_exclude t) (t_port t) (t_source_port t) (t_destination_port t) (t_protocol t) (t_protocol_except t) (t_option t) (t_source_prefix t) (t_source_prefix_except t) (t_destination_prefix t) (t_destination_prefix_except t) (t_source_tag t) (t_destination_tag t) (t_precedence t) (t_forwarding_class t) (t_forwarding_class_except t) (t_icmp_type t) (t_icmp_code t) (t_ether_type t) (t_traffic_type t) (t_dscp_match t) (t_dscp_except t) (t_fragment_offset t) (t_hop_limit t) (t_packet_length t) (t_ttl t) (t_traffic_class t) (t_platform t) (t_platform_exclude t) (t_source_zone t) (t_destination_zone t) (t_source_interface t) (t_destination_interface t) (t_restrict_address_family t) (t_verbatim t) (t_next_ip t) (t_next_interface t) (t_next_hop_group t) (t_encapsulate t) (t_decapsulate t) (t_port_mirror t) (t_routing_instance t) (t_filter_term t) (t_logging t) (t_counter t) (t_comment t) (t_owner t) v (t_stateless_reply t) (t_translated t) (t_flattened t) (t_flattened_addr t) (t_flattened_saddr t) (t_flattened_daddr t).
(** term.stateless_reply = v (policy.py:528) *)
Definition set_stateless_reply (v : bool) (t : term) : term := mkTerm
  (t_name t) (t_action t) (t_address t) (t_address_exclude t) (t_source_address t) (t_source_address_exclude t) (t_destination_address t) (t_destination_address_exclude t) (t_port t) (t_source_port t) (t_destination_port t) (t_protocol t) (t_protocol_except t) (t_option t) (t_source_prefix t) (t_source_prefix_except t) (t_destination_prefix t) (t_destination_prefix_except t) (t_source_tag t) (t_destination_tag t) (t_precedence t) (t_forwarding_class t) (t_forwarding_class_except t) (t_icmp_type t) (t_icmp_code t) (t_ether_type t) (t_traffic_type t) (t_dscp_match t) (t_dscp_except t) (t_fragment_offset t) (t_hop_limit t) (t_packet_length t) (t_ttl t) (t_traffic_class t) (t_platform t) (t_platform_exclude t) (t_source_zone t) (t_destination_zone t) (t_source_interface t) (t_destination_interface t) (t_restrict_address_family t) (t_verbatim t) (t_next_ip t) (t_next_interface t) (t_next_hop_group t) (t_encapsulate t) (t_decapsulate t) (t_port_mirror t) (t_routing_instance t) (t_filter_term t) (t_logging t) (t_counter t) (t_comment t) (t_owner t) (t_expiration t) v (t_translated t) (t_flattened t) (t_flattened_addr t) (t_flattened_saddr t) (t_flattened_daddr t).
(** term.translated = v (policy.py:492) *)
Definition set_translated (v : bool) (t : term) : term := mkTerm
  (t_name t) (t_action t) (t_address t) (t_address_exclude t) (t_source_address t) (t_source_address_exclude t) (t_destination_address t) (t_destination_address_exclude t) (t_port t) (t_source_port t) (t_destination_port t) (t_protocol t) (t_protocol_except t) (t_option t) (t_source_prefix t) (t_source_prefix_except t) (t_destination_prefix t) (t_destination_prefix_except t) (t_source_tag t) (t_destination_tag t) (t_precedence t) (t_forwarding_class t) (t_forwarding_class_except t) (t_icmp_type t) (t_icmp_code t) (t_ether_type t) (t_traffic_type t) (t_dscp_match t) (t_dscp_except t) (t_fragment_offset t) (t_hop_limit t) (t_packet_length t) (t_ttl t) (t_traffic_class t) (t_platform t) (t_platform_exclude t) (t_source_zone t) (t_destination_zone t) (t_source_interface t) (t_destination_interface t) (t_restrict_address_family t) (t_verbatim t) (t_next_ip t) (t_next_interface t) (t_next_hop_group t) (t_encapsulate t) (t_decapsulate t) (t_port_mirror t) (t_routing_instance t) (t_filter_term t) (t_logging t) (t_counter t) (t_comment t) (t_owner t) (t_expiration t) (t_stateless_reply t) v (t_flattened t) (t_flattened_addr t) (t_flattened_saddr t) (t_flattened_daddr t).
(** term.flattened = v (policy.py:524) *)
Definition set_flattened (v : bool) (t : term) : term := mkTerm
  (t_name t) (t_action t) (t_address t) (t_address_exclude t) (t_source_address t) (t_source_address_exclude t) (t_destination_address t) (t_destination_address_exclude t) (t_port t) (t_source_port t) (t_destination_port t) (t_protocol t) (t_protocol_except t) (t_option t) (t_source_prefix t) (t_source_prefix_except t) (t_destination_prefix t) (t_destination_prefix_except t) (t_source_tag t) (t_destination_tag t) (t_precedence t) (t_forwarding_class t) (t_forwarding_class_except t) (t_icmp_type t) (t_icmp_code t) (t_ether_type t) (t_traffic_type t) (t_dscp_match t) (t_dscp_except t) (t_fragment_offset t) (t_hop_limit t) (t_packet_length t) (t_ttl t) (t_traffic_class t) (t_platform t) (t_platform_exclude t) (t_source_zone t) (t_destination_zone t) (t_source_interface t) (t_destination_interface t) (t_restrict_address_family t) (t_verbatim t) (t_next_ip t) (t_next_interface t) (t_next_hop_group t) (t_encapsulate t) (t_decapsulate t) (t_port_mirror t) (t_routing_instance t) (t_filter_term t) (t_logging t) (t_counter t) (t_comment t) (t_owner t) (t_expiration t) (t_stateless_reply t) (t_translated t) v (t_flattened_addr t) (t_flattened_saddr t) (t_flattened_daddr t).
(** term.flattened_addr = v (policy.py:525) *)
Definition set_flattened_addr (v : list net) (t : term) : term := mkTerm
  (t_name t) (t_action t) (t_address t) (t_address_exclude t) (t_source_address t) (t_source_address_exclude t) (t_destination_address t) (t_destination_address_exclude t) (t_port t) (t_source_port t) (t_destination_port t) (t_protocol t) (t_protocol_except t) (t_option t) (t_source_prefix t) (t_source_prefix_except t) (t_destination_prefix t) (t_destination_prefix_except t) (t_source_tag t) (t_destination_tag t) (t_precedence t) (t_forwarding_class t) (t_forwarding_class_except t) (t_icmp_type t) (t_icmp_code t) (t_ether_type t) (t_traffic_type t) (t_dscp_match t) (t_dscp_except t) (t_fragment_offset t) (t_hop_limit t) (t_packet_length t) (t_ttl t) (t_traffic_class t) (t_platform t) (t_platform_exclude t) (t_source_zone t) (t_destination_zone t) (t_source_interface t) (t_destination_interface t) (t_restrict_address_family t) (t_verbatim t) (t_next_ip t) (t_next_interface t) (t_next_hop_group t) (t_encapsulate t) (t_decapsulate t) (t_port_mirror t) (t_routing_instance t) (t_filter_term t) (t_logging t) (t_counter t) (t_comment t) (t_owner t) (t_expiration t) (t_stateless_reply t) (t_translated t) (t_flattened t) v (t_flattened_saddr t) (t_flattened_daddr t).
(** term.flattened_saddr = v (policy.py:526) *)
Definition set_flattened_saddr (v : list net) (t : term) : term := mkTerm
  (t_name t) (t_action t) (t_address t) (t_address_exclude t) (t_source_address t) (t_source_address_exclude t) (t_destination_address t) (t_destination_address_exclude t) (t_port t) (t_source_port t) (t_destination_port t) (t_protocol t) (t_protocol_except t) (t_option t) (t_source_prefix t) (t_source_prefix_except t) (t_destination_prefix t) (t_destination_prefix_except t) (t_source_tag t) (t_destination_tag t) (t_precedence t) (t_forwarding_class t) (t_forwarding_class_except t) (t_icmp_type t) (t_icmp_code t) (t_ether_type t) (t_traffic_type t) (t_dscp_match t) (t_dscp_except t) (t_fragment_offset t) (t_hop_limit t) (t_packet_length t) (t_ttl t) (t_traffic_class t) (t_platform t) (t_platform_exclude t) (t_source_zone t) (t_destination_zone t) (t_source_interface t) (t_destination_interface t) (t_restrict_address_family t) (t_verbatim t) (t_next_ip t) (t_next_interface t) (t_next_hop_group t) (t_encapsulate t) (t_decapsulate t) (t_port_mirror t) (t_routing_instance t) (t_filter_term t) (t_logging t) (t_counter t) (t_comment t) (t_owner t) (t_expiration t) (t_stateless_reply t) (t_translated t) (t_flattened t) (t_flattened_addr t) v (t_flattened_daddr t).
(** term.flattened_daddr = v (policy.py:527) *)
Definition set_flattened_daddr (v : list net) (t : term) : term := mkTerm
  (t_name t) (t_action t) (t_address t) (t_address_exclude t) (t_source_address t) (t_source_address_exclude t) (t_destination_address t) (t_destination_address_exclude t) (t_port t) (t_source_port t) (t_destination_port t) (t_protocol t) (t_protocol_except t) (t_option t) (t_source_prefix t) (t_source_prefix_except t) (t_destination_prefix t) (t_destination_prefix_except t) (t_source_tag t) (t_destination_tag t) (t_precedence t) (t_forwarding_class t) (t_forwarding_class_except t) (t_icmp_type t) (t_icmp_code t) (t_ether_type t) (t_traffic_type t) (t_dscp_match t) (t_dscp_except t) (t_fragment_offset t) (t_hop_limit t) (t_packet_length t) (t_ttl t) (t_traffic_class t) (t_platform t) (t_platform_exclude t) (t_source_zone t) (t_destination_zone t) (t_source_interface t) (t_destination_interface t) (t_restrict_address_family t) (t_verbatim t) (t_next_ip t) (t_next_interface t) (t_next_hop_group t) (t_encapsulate t) (t_decapsulate t) (t_port_mirror t) (t_routing_instance t) (t_filter_term t) (t_logging t) (t_counter t) (t_comment t) (t_owner t) (t_expiration t) (t_stateless_reply t) (t_translated t) (t_flattened t) (t_flattened_addr t) (t_flattened_saddr t) v.
