{
 "claims": [
  {
   "property": "C01",
   "status": "proved",
   "theorems": [
    "C01_collapse_preserves_addresses",
    "C01_collapse_result_valid"
   ],
   "note": "All lists and exclusion lists, both families."
  },
  {
   "property": "C02",
   "status": "proved",
   "theorems": [
    "C02_collapse_canonical",
    "C02_collapse_depends_only_on_addresses",
    "C02_collapse_shortest"
   ],
   "note": "Canonical form, uniqueness and minimal length."
  },
  {
   "property": "C03",
   "status": "partial",
   "theorems": [
    "C03_collapse_never_raises_refuted",
    "C03_collapse_never_raises_partial"
   ],
   "note": "False in general: with an exclusion list and both families a TypeError is possible (refuted by a witness). Proved without an exclusion list and for one family."
  },
  {
   "property": "C04",
   "status": "partial",
   "theorems": [
    "C04_collapse_keeps_verdict_refuted",
    "C04_collapse_never_widens_partial",
    "C04_collapse_keeps_verdict_partial"
   ],
   "note": "False in general (refuted by a witness). Proved: no address becomes matched by collapsing; verdicts unchanged whenever every exclusion that contains a listed network starts at that network's own first address (the only overlap the code looks for)."
  },
  {
   "property": "C05",
   "status": "proved",
   "theorems": [
    "C05_collapse_keeps_comments"
   ],
   "note": ""
  },
  {
   "property": "C06",
   "status": "proved",
   "theorems": [
    "C06_remove_address_exact"
   ],
   "note": ""
  },
  {
   "property": "C07",
   "status": "partial",
   "theorems": [
    "C07_exclude_list_exact",
    "C07_exclude_nocollapse_refuted",
    "C07_exclude_nocollapse_partial"
   ],
   "note": "collapse_addrs=True is exact for all inputs. collapse_addrs=False is false for overlapping supersets (witness) and exact for pairwise disjoint single-family ones."
  },
  {
   "property": "C08",
   "status": "partial",
   "theorems": [
    "C08_preserve_tokens_coverage",
    "C08_preserve_tokens_attribution_refuted",
    "C08_preserve_tokens_attribution_partial",
    "C08_is_super_net_sound",
    "C08_is_super_net_complete"
   ],
   "note": "Coverage exact for all inputs. Attribution is false when networks are merged (witness): the merged network takes the defining token; proved when token and parent token agree."
  },
  {
   "property": "C09",
   "status": "proved",
   "theorems": [
    "C09_exclude_address_partition",
    "C09_exclude_address_outside_raises"
   ],
   "note": ""
  },
  {
   "property": "C10",
   "status": "proved",
   "theorems": [
    "C10_sort_addr_list"
   ],
   "note": ""
  },
  {
   "property": "C11",
   "status": "proved",
   "theorems": [
    "C11_collapse_ports_same_set",
    "C11_collapse_ports_ascending"
   ],
   "note": ""
  },
  {
   "property": "C12",
   "status": "partial",
   "theorems": [
    "C12_collapsed_ranges_disjoint_refuted",
    "C12_collapsed_ranges_separated_partial"
   ],
   "note": "False in general: ranges sharing one end port are not joined (witness). Proved when no range ends where another starts."
  },
  {
   "property": "C13",
   "status": "proved",
   "theorems": [
    "C13_port_containment_sound",
    "C13_port_containment_complete_when_separated"
   ],
   "note": ""
  },
  {
   "property": "C14",
   "status": "partial",
   "theorems": [
    "C14_shading_reports_contained_pairs",
    "C14_shading_verdict",
    "C14_shading_sound_refuted",
    "C14_shading_sound_options_refuted",
    "C14_shading_sound_ttl_refuted",
    "C14_shading_sound_exclusion_refuted",
    "C14_shading_sound_partial",
    "C14_rejected_policy_has_dead_term_partial"
   ],
   "note": "The reported pairs are exactly the pairs the containment test accepts (in full). Soundness of that test is false: refuted by four witnesses (protocol lists compared the wrong way round, options, fields never compared such as ttl, destinations ignored when there is a source exclusion). Proved for comparable terms."
  },
  {
   "property": "C15",
   "status": "proved",
   "theorems": [
    "C15_summarize_same_addresses",
    "C15_summarize_keeps_comments",
    "C15_summarize_sorted_and_short"
   ],
   "note": ""
  },
  {
   "property": "C16",
   "status": "proved",
   "theorems": [
    "C16_dotted_quad_exact",
    "C16_dotted_quad_accepts",
    "C16_prefixlen_text"
   ],
   "note": ""
  },
  {
   "property": "C17",
   "status": "partial",
   "theorems": [
    "C17_undefined_rejected_refuted",
    "C17_undefined_networks_rejected_partial",
    "C17_undefined_services_rejected_partial"
   ],
   "note": "Refuted: a reference on a line with a comment is not checked. Proved for lines without a comment; for services provided no .net file starts with a continuation line."
  },
  {
   "property": "C18",
   "status": "proved",
   "theorems": [
    "C18_get_net_exact"
   ],
   "note": "For every loaded definitions text without a reference cycle below the token; the address syntax (nacaddr.IP on text) is a universally quantified function. Terminates, and either the exact list or UndefinedAddressError with an undefined token reachable."
  },
  {
   "property": "C19",
   "status": "proved",
   "theorems": [
    "C19_get_service_exact",
    "C19_by_proto_exact"
   ],
   "note": "As C18, for services; by-protocol lookup exact, protocol names compared without case."
  },
  {
   "property": "C20",
   "status": "partial",
   "theorems": [
    "C20_lookup_terminates_refuted",
    "C20_get_net_terminates_partial",
    "C20_get_service_terminates_partial",
    "C20_parents_terminate_partial"
   ],
   "note": "Refuted: two definitions that refer to each other load, and the lookup recurses for every depth. Proved: absence of a cycle is necessary and sufficient."
  },
  {
   "property": "C21",
   "status": "partial",
   "theorems": [
    "C21_exact_match_partial",
    "C21_exact_match_is_deciding_term_partial",
    "C21_deciding_term_reported_partial",
    "C21_exact_match_is_last",
    "C21_action_match_partial",
    "C21_wildcards_partial",
    "C21_filters_are_independent",
    "C21_exact_match_refuted"
   ],
   "note": "Refuted in general: exclusions, either-side addresses/ports and many other conditions are ignored (witness). Proved for terms with only conditions the checker looks at: the exact match is the deciding term, the deciding term is always reported, wildcards mean 'some packet'. 'Nothing after an exact match' and independence of filters hold in full. ActionMatch (C21_action_match_partial): the matches it returns are exactly the terms that match for certain, are not preceded by a deciding one and have the action asked for."
  },
  {
   "property": "C22",
   "status": "proved",
   "theorems": [
    "C22_reads_stay_inside",
    "C22_outside_files_do_not_matter",
    "C22_expansion_exact",
    "C22_cycles_end_in_an_error",
    "C22_errors",
    "C22_include_lines"
   ],
   "note": "Paths are compared as texts after normalisation; symbolic links are not resolved (the code does not resolve them either). The working directory is absolute."
  },
  {
   "property": "C23",
   "status": "proved",
   "theorems": [
    "C23_name_fits",
    "C23_short_names_unchanged",
    "C23_error",
    "C23_only_truncated",
    "C23_abbreviates_as_needed",
    "C23_abbreviates_if_possible"
   ],
   "note": "For every abbreviation table of fixed, non-empty words (both tables in the code are)."
  },
  {
   "property": "C24",
   "status": "proved",
   "theorems": [
    "C24_established_gains_high_ports",
    "C24_established_matches",
    "C24_other_terms_unchanged",
    "C24_stateful_platforms",
    "C24_errors"
   ],
   "note": "A term without destination ports (any port) is narrowed to the high ports by the same rule; C24_established_matches says so."
  },
  {
   "property": "C25",
   "status": "partial",
   "theorems": [
    "C25_accepted_iff_keywords_known",
    "C25_error",
    "C25_no_condition_dropped_refuted",
    "C25_no_condition_dropped_partial",
    "C25_keywords_on_the_list"
   ],
   "note": "Exact acceptance condition proved. Refuted for source_tag, destination_tag, restrict_address_family (only warned about) and ttl 0 (not seen); proved for all other match fields of the term model."
  },
  {
   "property": "C26",
   "status": "proved",
   "theorems": [
    "C26_icmp_types_exact",
    "C26_no_types",
    "C26_errors"
   ],
   "note": ""
  },
  {
   "property": "C27",
   "status": "proved",
   "theorems": [
    "C27_limit_respected",
    "C27_one_quoted_line",
    "C27_short_texts_unchanged"
   ],
   "note": "For limits that are not negative (a negative limit slices from the end); line breaks are removed only from lists of comments."
  },
  {
   "property": "C28",
   "status": "partial",
   "theorems": [
    "C28_term_lines_exact_partial",
    "C28_access_list_decides_as_policy_partial",
    "C28_exclusion_alone_refuted",
    "C28_fragment_option_refuted",
    "C28_protocol_ipv6_refuted",
    "C28_other_icmp_refuted",
    "C28_established_tcp_udp_partial"
   ],
   "note": "Exact for terms within what extended access lists can express, for one term and for the outcome of a whole access list (first match, expired and other-family terms, established rewriting). Refuted by four witnesses: exclusion without inclusion, is-fragment beside a protocol, protocol ipv6 where names are printed, the other family's ICMP beside other protocols. Port names of the platform arista are not modelled."
  },
  {
   "property": "C29",
   "status": "proved",
   "theorems": [
    "C29_ports_unchanged",
    "C29_no_two_port_range"
   ],
   "note": ""
  },
  {
   "property": "C30",
   "status": "partial",
   "theorems": [
    "C30_references_keep_members_partial",
    "C30_defined_twice_refuted",
    "C30_nexus_refuted",
    "C30_generated_lists_decide_partial",
    "C30_shared_network_refuted"
   ],
   "note": "Proved for every text with plain line ends whose names are defined once per family, and for whole generated configurations (IOS and XR) whose headers have no network name in common: the lists decide as the policy and no duplicates remain. False for Nexus lists, for a name defined twice, and for two headers that use the same network (refutations, the last one on generated text)."
  },
  {
   "property": "C31",
   "status": "partial",
   "theorems": [
    "C31_table_decides_as_policy_partial",
    "C31_full_exclusion_refuted",
    "C31_icmp_code_zero_refuted",
    "C31_option_none_refuted",
    "C31_mixed_families_refuted",
    "C31_icmpv6_types_refuted",
    "C31_comment_backslash_refuted"
   ],
   "note": "The generated text is read back with an independent reader of iptables-restore syntax; each filter decides every packet as the first matching term says. Missing: terms outside ipt_term_ok. The full claim is false: six refutations (full exclusion, ICMP code 0, option none, protocols of both families, ICMPv6 types beside an option, comment ending in a backslash)."
  },
  {
   "property": "C32",
   "status": "proved",
   "theorems": [
    "C32_batches_exact",
    "C32_batches_match"
   ],
   "note": "Stated through a reader of the port conditions that refuses more than fifteen places."
  },
  {
   "property": "C33",
   "status": "proved",
   "theorems": [
    "C33_minimize_keeps_verdicts",
    "C33_minimize_only_removes"
   ],
   "note": "Longest-prefix verdict of every address is kept, unconditionally for valid lists."
  },
  {
   "property": "C34",
   "status": "partial",
   "theorems": [
    "C34_term_exact_partial",
    "C34_filter_exact_partial",
    "C34_option_alone_refuted",
    "C34_packet_length_alone_refuted",
    "C34_exclusion_alone_refuted",
    "C34_nested_exclusion_refuted",
    "C34_established_refuted",
    "C34_ttl_refuted",
    "C34_mixed_icmpv6_refuted"
   ],
   "note": "The text is read back by an independent reader of Junos configuration (words, statements, blocks, comments). Terms within juniper_term_ok and whole filters decide exactly as the policy. Refuted outside: option or packet length alone, exclusion alone or around an inclusion, established with several protocols, ttl in IPv6, ICMPv6 in a mixed filter. Families inet, inet6 and bridge (mixed headers: C88). Missing: verbatim and filter terms."
  },
  {
   "property": "C35",
   "status": "partial",
   "theorems": [
    "C35_ruleset_decides_as_policy_partial",
    "C35_ports_dropped_refuted",
    "C35_interface_first_rule_only_refuted",
    "C35_full_exclusion_refuted",
    "C35_exclusion_alone_refuted",
    "C35_icmp_both_families_refuted",
    "C35_header_comment_escapes_refuted",
    "C35_reserved_name_refuted"
   ],
   "note": "Whole policies, from their text: the chain of every header accepts replies and otherwise decides as the first matching term in force says; restricted to terms whose conditions nftables.py does not drop, the dropped ones are refuted one by one."
  },
  {
   "property": "C36",
   "status": "partial",
   "theorems": [
    "C36_filter_selects_accepted_partial",
    "C36_inverted_selects_denied_partial",
    "C36_source_is_destination_refuted",
    "C36_accepts_intersected_refuted",
    "C36_denies_intersected_refuted",
    "C36_exclusion_negated_twice_refuted",
    "C36_accept_rest_refuted",
    "C36_order_lost_refuted",
    "C36_icmp_codes_refuted",
    "C36_icmpv6_types_refuted",
    "C36_all_addresses_refuted",
    "C36_options_dropped_refuted",
    "C36_family_not_enforced_refuted",
    "C36_direction_stays_refuted",
    "C36_empty_header_refuted",
    "C36_inverted_default_refuted"
   ],
   "note": "The text is read by an independent reader of pcap-filter expressions (and/or equal precedence, left to right). Proved for headers with at most one denying term, one accepting term and then a default deny (and the mirror shape for the inverted filter), with conditions on destination, protocol, ports, ICMP types and TCP flags, any number of headers. False in general; refuted by witnesses: source written as destination, accepts and denies joined by and, exclusions negated twice, accept-rest dropped, order lost, several ICMP codes, icmpv6 types dropped, ::/0 dropped, other options dropped, family not enforced, direction stays for later headers, empty header makes the text unreadable, inverted default deny selects accepted packets."
  },
  {
   "property": "C37",
   "status": "partial",
   "theorems": [
    "C37_text_rewritten_iff_changed",
    "C37_missing_file_written",
    "C37_second_run_writes_nothing_partial",
    "C37_binary_always_rewritten_refuted"
   ],
   "note": "Proved for text outputs, and for whole runs without binary outputs and file-name clashes, with generated texts free of carriage returns. Refuted for binary outputs (SONiC): the file's bytes are compared as a Python bytes literal, so it is rewritten every time."
  },
  {
   "property": "C38",
   "status": "partial",
   "theorems": [
    "C38_parallel_run_writes_the_same_partial",
    "C38_error_refuted",
    "C38_same_name_refuted"
   ],
   "note": "Proved for every interleaving when no policy fails and no two outputs share a file name. Refuted otherwise: after an error a sequential run writes nothing, a parallel run writes the rest; with equal names the schedule decides."
  },
  {
   "property": "C39",
   "status": "partial",
   "theorems": [
    "C39_precedence",
    "C39_succeeds_partial",
    "C39_empty_file_refuted"
   ],
   "note": "Exact precedence proved. Refuted for empty configuration files, which raise TypeError instead of setting nothing."
  },
  {
   "property": "C40",
   "status": "partial",
   "theorems": [
    "C40_cisco_expired_not_rendered",
    "C40_expired_never_rendered_aruba",
    "C40_expired_never_rendered_asa",
    "C40_expired_never_rendered_sonic",
    "C40_expired_never_rendered_k8s",
    "C40_expired_never_rendered_openconfig",
    "C40_gce_expired_dropped",
    "C40_iptables_expired_not_rendered",
    "C40_juniper_expired_not_rendered",
    "C40_expired_never_rendered_nftables",
    "C40_expired_never_rendered_pcap",
    "C40_srx_expired_not_rendered"
   ],
   "note": "Proved for Cisco access lists, Juniper filters, iptables/speedway tables, nftables rulesets, pcap filters, OpenConfig, SONiC, Kubernetes, Aruba, Cisco ASA and Juniper SRX; GCE: removing expired terms leaves the rules unchanged when each header keeps a term. Cloud Armor and hierarchical policies refuse the keyword. The generators that are not modelled are missing."
  },
  {
   "property": "C41",
   "status": "partial",
   "theorems": [
    "C41_summaries_renderable_refuted",
    "C41_summaries_renderable_partial"
   ],
   "note": "False in general (witness: 10/8 with 138/8 gives mask 127.0.0.0, which is rejected). Proved when all addresses agree on the top bit."
  },
  {
   "property": "C42",
   "status": "partial",
   "theorems": [
    "C42_parents_sound",
    "C42_parents_complete_refuted",
    "C42_parents_complete_partial"
   ],
   "note": "Soundness in full. Completeness is refuted (references on commented lines are not followed) and proved when references carry no comment."
  },
  {
   "property": "C43",
   "status": "proved",
   "theorems": [
    "C43_translate_ports_exact",
    "C43_translate_ports_fails"
   ],
   "note": "Exact result, and an exact account of the exceptions."
  },
  {
   "property": "C44",
   "status": "proved",
   "theorems": [
    "C44_documents_load_to_their_meaning"
   ],
   "note": "Round trip from documents to loaded tables."
  },
  {
   "property": "C45",
   "status": "partial",
   "theorems": [
    "C45_port_protocol_pairing_refuted"
   ],
   "note": "Refuted: DNS = 53/udp in a tcp+udp term yields port 53 for both."
  },
  {
   "property": "C46",
   "status": "partial",
   "theorems": [
    "C46_ip_parents_complete_refuted",
    "C46_ip_parents_partial",
    "C46_ip_parents_terminate_partial"
   ],
   "note": "Refuted for items that do not start with a digit (such as fe80::/10); proved exact for items that do, and for token names starting with a letter."
  },
  {
   "property": "C47",
   "status": "proved",
   "theorems": [
    "C47_port_parents_exact"
   ],
   "note": "For a decimal query; names of definitions must be single words."
  },
  {
   "property": "C48",
   "status": "partial",
   "theorems": [
    "C48_cleanup_preserves_matching",
    "C48_cleanup_total_refuted",
    "C48_cleanup_total_partial"
   ],
   "note": "Meaning preserved in full. Totality is refuted (both families with an exclusion list and optimisation: TypeError) and proved otherwise."
  },
  {
   "property": "C49",
   "status": "partial",
   "theorems": [
    "C49_sanity_check_exact",
    "C49_rejections_are_policy_errors_refuted",
    "C49_rejections_are_policy_errors_partial"
   ],
   "note": "Acceptance characterised exactly. 'Every rejection is a policy error' is refuted (an ICMP code for a type without codes ends in KeyError) and proved otherwise."
  },
  {
   "property": "C50",
   "status": "partial",
   "theorems": [
    "C50_flattening_preserves_matching_refuted",
    "C50_flattening_preserves_matching_partial",
    "C50_flattening_total_refuted"
   ],
   "note": "Refuted when the exclusions take away a whole list (it then matches anything) and when families are mixed (TypeError); proved otherwise."
  },
  {
   "property": "C51",
   "status": "proved",
   "theorems": [
    "C51_translated_term_matches_its_text",
    "C51_ports_need_a_protocol"
   ],
   "note": "For every loaded definitions text and every parsed term."
  },
  {
   "property": "C52",
   "status": "proved",
   "theorems": [
    "C52_port_accepted",
    "C52_port_rejected"
   ],
   "note": "Texts with blanks are stripped by int(); underscores and non-ASCII digits are not modelled."
  },
  {
   "property": "C53",
   "status": "partial",
   "theorems": [
    "C53_protocol_containment_exact",
    "C53_address_containment_sound",
    "C53_address_containment_networkwise",
    "C53_address_containment_complete_refuted"
   ],
   "note": "Protocol check exact; address check sound and exact network by network; completeness refuted (an inner network covered only by two outer networks together is not recognised)."
  },
  {
   "property": "C54",
   "status": "partial",
   "theorems": [
    "C54_lines_fit",
    "C54_no_text_lost_refuted",
    "C54_no_text_lost_partial"
   ],
   "note": "Refuted: a one-letter word that does not fit with a neighbour is dropped. Proved when all words have two letters or more. Line separator newline (the default, used by all callers)."
  },
  {
   "property": "C55",
   "status": "proved",
   "theorems": [
    "C55_protocols_known"
   ],
   "note": ""
  },
  {
   "property": "C56",
   "status": "proved",
   "theorems": [
    "C56_address_text",
    "C56_prefix_text",
    "C56_wildcard_text"
   ],
   "note": "Texts as printed by Python's ipaddress, whose algorithm is modelled."
  },
  {
   "property": "C57",
   "status": "proved",
   "theorems": [
    "C57_crash_repaired"
   ],
   "note": "For outputs without file-name clashes and without carriage returns. The state of the disk after a crash: some files written, one possibly cut short."
  },
  {
   "property": "C58",
   "status": "partial",
   "theorems": [
    "C58_outputs_written_partial",
    "C58_rendering_succeeds_partial",
    "C58_pcap_fails_refuted",
    "C58_shaded_policy_passed_over",
    "C58_parse_error_ends_run"
   ],
   "note": "Proved for outputs without file-name clashes; refuted for pcap, whose suffixes pathlib refuses."
  },
  {
   "property": "C59",
   "status": "partial",
   "theorems": [
    "C59_comments_inert_partial",
    "C59_comment_injects_refuted"
   ],
   "note": "Proved when no comment line contains the end-of-comment sign; refuted otherwise (a comment can inject an accepting term)."
  },
  {
   "property": "C60",
   "status": "partial",
   "theorems": [
    "C60_named_default_partial",
    "C60_default_leaks_refuted",
    "C60_nostate_leaks_refuted"
   ],
   "note": "Proved: a named default action is the chain's. The rest of the claim is false: default action and nostate of one header leak into later ones (refuted)."
  },
  {
   "property": "C61",
   "status": "partial",
   "theorems": [
    "C61_tables_load_partial",
    "C61_same_chain_refuted"
   ],
   "note": "Proved for filters whose names start with different letters; false in general (C61_same_chain_refuted)."
  },
  {
   "property": "C62",
   "status": "partial",
   "theorems": [
    "C62_header_options",
    "C62_chain_attached",
    "C62_negative_priority_refuted"
   ],
   "note": "Options read exactly as specified and the hook line of every chain read back from the text; negative priorities are silently replaced by 0 (refuted)."
  },
  {
   "property": "C63",
   "status": "partial",
   "theorems": [
    "C63_ruleset_loads_partial",
    "C63_same_term_name_refuted",
    "C63_headers_collide_refuted"
   ],
   "note": "Proved when the headers of a table share no names; with shared names refuted."
  },
  {
   "property": "C64",
   "status": "partial",
   "theorems": [
    "C64_group_lists_decide_partial",
    "C64_shared_name_refuted",
    "C64_exclusion_refuted",
    "C64_established_refuted",
    "C64_icmp_type_refuted",
    "C64_mixed_side_refuted",
    "C64_restricted_refuted"
   ],
   "note": "Exact for whole generated configurations under the stated conditions on terms (SpecCiscoRules.v, group_term_ok and group_policy_ok). The claim is false in general: exclusions, options and ICMP types are ignored, groups named by their first network can clash, mixed sides refer to undefined groups, inet6-restricted terms are left out of IPv6 lists (six refutations on generated text)."
  },
  {
   "property": "C65",
   "status": "proved",
   "theorems": [
    "C65_layout_is_free",
    "C65_layouts_agree"
   ],
   "note": "Proved for every text that consists of spelled tokens separated by gaps (laid_out).  Texts with stray characters are C66."
  },
  {
   "property": "C66",
   "status": "partial",
   "theorems": [
    "C66_grammar_exact",
    "C66_grammar_unambiguous",
    "C66_every_text_has_tokens",
    "C66_stray_characters_refuted"
   ],
   "note": "Equivalence between the recursive-descent model of the PLY grammar and an inductive grammar; the LALR tables themselves are not modelled.  Refuted part: characters that belong to no token are skipped silently, so a malformed text can be accepted."
  },
  {
   "property": "C67",
   "status": "proved",
   "theorems": [
    "C67_repeated_keywords_accumulate",
    "C67_single_keywords_last_wins",
    "C67_addresses_looked_up",
    "C67_other_keywords",
    "C67_accepted_iff",
    "C67_header_collects"
   ],
   "note": "All keywords of the term and header grammar."
  },
  {
   "property": "C68",
   "status": "partial",
   "theorems": [
    "C68_parsed_text_means_what_it_says",
    "C68_empty_definition_matches_all_refuted"
   ],
   "note": "Shade checking off (with it on, parsing can additionally raise ShadingError).  Restricted to statements whose network names each define at least one network: a name with an empty definition turns the restriction into any (refuted)."
  },
  {
   "property": "C69",
   "status": "partial",
   "theorems": [
    "C69_comment_lines",
    "C69_verbatim_text_kept_partial",
    "C69_escaped_text_is_one_token",
    "C69_final_quote_refuted"
   ],
   "note": "Comments fully; verbatim text except when it ends with a quote, where the text is mangled (refuted)."
  },
  {
   "property": "C70",
   "status": "proved",
   "theorems": [
    "C70_dates_exist",
    "C70_dates_ordered",
    "C70_expiration_read"
   ],
   "note": "date_ordinal models datetime.date."
  },
  {
   "property": "C71",
   "status": "partial",
   "theorems": [
    "C71_firewall_decides_as_policy_partial",
    "C71_firewall_unique",
    "C71_order_of_terms_lost_refuted",
    "C71_ipv4_style_addresses_dropped_refuted",
    "C71_icmpv6_from_tags_dropped_refuted",
    "C71_destination_exclude_ignored_refuted"
   ],
   "note": "Proved for all policies whose terms meet gce_term_ok, rank their terms by priority (well_ranked) and share no network and direction with another header; four refutations: equal priorities lose the order of terms, IPv4-style IPv6 addresses are dropped, icmpv6 from tags is dropped in mixed policies, an exclusion of destinations alone is ignored. Service accounts are outside the theorem."
  },
  {
   "property": "C72",
   "status": "proved",
   "theorems": [
    "C72_rules_within_limits",
    "C72_quota_kept",
    "C72_first_quota_exceeded_refuted"
   ],
   "note": "Every rule of every policy is within the limits; total attributes at most N when the first header states a maximum and all maxima are at most N. Refuted: a later header with a larger maximum lets the total exceed the first."
  },
  {
   "property": "C73",
   "status": "partial",
   "theorems": [
    "C73_names_unique_partial",
    "C73_names_clash_refuted"
   ],
   "note": "Proved for one header whose term names do not extend each other behind a dash, with any splitting and families; refuted otherwise (a-v6)."
  },
  {
   "property": "C74",
   "status": "partial",
   "theorems": [
    "C74_described_partial",
    "C74_owner_of_another_term_refuted"
   ],
   "note": "Proved unless a term has an owner and no comment, or an owner in a mixed policy; refuted there: owners leak to later terms."
  },
  {
   "property": "C75",
   "status": "partial",
   "theorems": [
    "C75_same_rules_every_run_partial",
    "C75_runs_differ_refuted"
   ],
   "note": "Proved when each header names at most one address family; refuted for two."
  },
  {
   "property": "C76",
   "status": "partial",
   "theorems": [
    "C76_text_to_nftables_partial",
    "C76_text_to_iptables_partial",
    "C76_text_to_pcap_partial"
   ],
   "note": "Composition of C65, C66, C68 and C70 with C35 (nftables), C31 (iptables, speedway) and C36 (pcap). Partial: the policies those theorems leave out, filters with nostate, names that stand for no network (C68), texts with include lines."
  },
  {
   "property": "C77",
   "status": "partial",
   "theorems": [
    "C77_access_lists",
    "C77_entries_from_terms",
    "C77_lists_decide_as_policy_partial",
    "C77_other_family_refuted",
    "C77_all_excluded_refuted",
    "C77_one_sided_exclusion_refuted",
    "C77_port_zero_refuted",
    "C77_icmp_type_refuted",
    "C77_udp_established_refuted",
    "C77_last_option_refuted",
    "C77_families_order_refuted"
   ],
   "note": "Proved for terms OpenConfig entries can express (oc_term_ok): some address of the family left on each side, exclusions on both sides or neither, no port 0 range, no icmp types, at most one option with fitting protocols. Outside these the claim is refuted: addresses of the other family only and complete exclusion become any, exclusion on one side raises TypeError, port 0 means any, icmp types are dropped, established lets all udp through, only the last option counts, and several family words give an order-dependent result."
  },
  {
   "property": "C78",
   "status": "partial",
   "theorems": [
    "C78_rules_numbered",
    "C78_table_decides_as_policy_partial",
    "C78_port_zero_refuted",
    "C78_established_alone_refuted",
    "C78_platform_exclude_refuted",
    "C78_mixed_ports_refuted",
    "C78_second_header_refuted",
    "C78_ipip_refuted"
   ],
   "note": "Numbering proved in full for one header. Decisions: one header for SONiC, terms without port 0, without single ports and ranges in one list, tcp-established only with protocol tcp, protocol all not used. The rest is refuted: port 0 is any port, tcp-established without protocol matches everything, mixed single ports and ranges, platform-exclude ignored, ipip fails with KeyError, a second header hides the rules of the first."
  },
  {
   "property": "C79",
   "status": "partial",
   "theorems": [
    "C79_limits",
    "C79_priorities",
    "C79_rules_decide_as_policy_partial",
    "C79_other_family_refuted",
    "C79_platform_refuted",
    "C79_second_header_refuted"
   ],
   "note": "Limits proved for all policies, numbering for one header. Decisions: one header, terms meant for the platform with addresses of a family of the header. The rest is refuted: addresses of the other family only give a rule for everyone, terms for other platforms are rendered, numbers start again with a second header."
  },
  {
   "property": "C80",
   "status": "partial",
   "theorems": [
    "C80_names_distinct",
    "C80_resources_accepted_partial",
    "C80_permits_as_policy_partial",
    "C80_order_refuted",
    "C80_expired_refuted",
    "C80_far_exclusion_refuted",
    "C80_two_headers_refuted",
    "C80_dots_refuted",
    "C80_exclusions_refuted",
    "C80_number_refuted"
   ],
   "note": "Proved for policies with any number of headers: names distinct within a header, resources accepted by the API server for terms without dots in names, with the three transport protocols, ports from 1 and exclusions inside every address, and permitted traffic equal to accepted traffic when no accepting term follows a denying one. Refuted otherwise: an accepting term after a default deny still opens the pods, a policy whose terms have all expired permits everything, exclusions of the other side are dropped, two headers may give the same name, names with two dots in a row, exclusions outside one of several addresses and protocol numbers give resources the API server refuses."
  },
  {
   "property": "C81",
   "status": "partial",
   "theorems": [
    "C81_priorities",
    "C81_limits_partial",
    "C81_rules_decide_as_policy_partial",
    "C81_far_address_refuted",
    "C81_ipip_refuted",
    "C81_threat_list_dropped_refuted",
    "C81_beta_cost_refuted",
    "C81_one_name_refuted",
    "C81_two_families_refuted"
   ],
   "note": "Proved for any number of headers: numbering; limits of every rule and the name; total charge within the limit of every header unless threat lists are used with the beta interface; decisions for headers that name at most one family and terms without addresses of the other side, targets or threat lists. Refuted: addresses of the other side are dropped, ipip raises KeyError, a threat list with icmpv6 in a mixed policy leaves no rule, threat lists are not counted with the beta interface, headers with different interfaces may give different names, and a header with two families depends on the order in which Python walks a frozen set."
  },
  {
   "property": "C82",
   "status": "partial",
   "theorems": [
    "C82_lists_decide_as_policy_partial",
    "C82_source_port_refuted",
    "C82_icmp_type_refuted",
    "C82_exclude_refuted",
    "C82_platform_refuted",
    "C82_no_ports_refuted",
    "C82_one_protocol_refuted",
    "C82_range_refuted",
    "C82_names_refuted",
    "C82_other_header_refuted"
   ],
   "note": "Proved from the text of the policy for any number of headers and terms whose terms keep to addresses, destination ports with tcp or udp (or icmp, gre or esp alone, or no protocol), the user options, and names that differ also in lower case. Refuted: keywords the lists cannot express (source port, icmp type, excluded addresses, platform) are silently ignored because the check of keywords never applies to this generator; tcp without ports gives no rule; of a list with icmp only icmp is written; an action other than accept and deny gives a rule without outcome; a range may be written with its ends swapped; names that differ in case share an alias; headers of other platforms become lists called None."
  },
  {
   "property": "C83",
   "status": "partial",
   "theorems": [
    "C83_lists_decide_as_policy_partial",
    "C83_established_refuted",
    "C83_exclude_refuted",
    "C83_icmpv6_refuted",
    "C83_verbatim_refuted",
    "C83_other_header_refuted",
    "C83_same_name_refuted",
    "C83_protocol_refuted",
    "C83_next_refuted"
   ],
   "note": "Proved from the policy to the text and back for any number of headers with different names and terms with addresses and exclusions, ports, ICMP types, the protocols the device knows, logging, owners and comments, including terms for other platforms and expired ones. Refuted: the options for established connections are dropped without a word; exclusions without addresses are ignored; a term with icmpv6 among its protocols gives lines that are no configuration; only the first verbatim line is looked at; headers of other platforms become a list called None; a second header with the same name removes the first; protocols unknown to the device and the action next give rules that are none."
  },
  {
   "property": "C84",
   "status": "partial",
   "theorems": [
    "C84_zones_decide_as_policy_partial",
    "C84_eight_icmp_types_refuted",
    "C84_two_actions_refuted",
    "C84_all_excluded_refuted",
    "C84_options_refuted",
    "C84_shared_exclusion_refuted",
    "C84_numbered_name_refuted",
    "C84_policy_names_refuted",
    "C84_large_terms_split_exactly",
    "C84_large_limit_refuted"
   ],
   "note": "Proved from the policy to the text and back: for any number of headers and zones, with one book per zone or one for the device, and terms with addresses, exclusions, ports, protocols, ICMP types, logging, owners and comments, the text parses and its policies decide as the policy file, provided the names used mean one thing each (stated without reference to the program). The pieces of a large term together match what the term matches and have names of their own. Refuted: eight ICMP types, or two actions, give a text that is no configuration; a term whose addresses are all excluded permits all; options other than those for established connections are dropped; terms of one name in two headers share the name for what exclusions leave; a name that is another one with a number shares its addresses; two headers for the same zones may bring policies of one name; the limit on addresses is not kept by the pieces of a large term. Not covered by the decision theorem: terms that are split, expresspath, vpn tunnels, verbatim terms."
  },
  {
   "property": "C85",
   "status": "partial",
   "theorems": [
    "C85_rules_decide_as_policy_partial",
    "C85_exclude_refuted",
    "C85_stateful_refuted",
    "C85_nostate_refuted",
    "C85_comment_refuted",
    "C85_next_refuted",
    "C85_ipip_refuted",
    "C85_expired_table_refuted"
   ],
   "note": "Proved from the policy to the text and back (continued lines, comments, tables, rules, quick, flags and state as pf reads them) for any number of headers and terms with addresses, ports, protocols, flags, ICMP types, interfaces, directions, families, logging and comments, for all packets that open a connection, and for all packets if all headers ask for rules without state. Refuted: excluded addresses widen a rule to all addresses; a term that denies tcp lets packets of established connections through to later terms unless nostate is asked for; nostate goes over to later headers; a comment ending in a backslash takes the rule below it; next is written as pass; ipip ends in an error; terms that have expired still fill the tables. Not covered: protocols pf does not know by name, verbatim terms (the generator ignores them)."
  },
  {
   "property": "C86",
   "status": "partial",
   "theorems": [
    "C86_rules_decide_as_policy_partial",
    "C86_rules_decide_in_order_partial",
    "C86_order_refuted",
    "C86_family_refuted",
    "C86_everything_refuted",
    "C86_other_icmp_refuted",
    "C86_commands_refuted",
    "C86_flags_refuted"
   ],
   "note": "Proved from the policy to the text and back, for any number of headers and terms with addresses, ports, the protocols netsh accepts as written, ICMP types, established and expired terms and terms for other platforms, with headers called in and out, for packets of a family all headers of the direction are for. Refuted: a deny term takes back what an earlier accept term allows (blocks win over order); a header or term for all addresses of one family covers the other as well (any); a term with the other family's ICMP among its protocols is left out as a whole; ports without tcp or udp, protocols such as gre and other header names give commands that are not accepted; flags are ignored."
  },
  {
   "property": "C87",
   "status": "partial",
   "theorems": [
    "C87_rules_decide_as_policy_partial",
    "C87_policy_of_header",
    "C87_excluded_refuted",
    "C87_other_family_refuted",
    "C87_all_mixed_refuted",
    "C87_protocol_refuted",
    "C87_ports_refuted",
    "C87_exclusion_refuted",
    "C87_zero_refuted",
    "C87_history_refuted"
   ],
   "note": "Proved from the policy to the rules, for inet, inet6 and mixed filters with any number of terms with addresses and exclusions, tcp, udp, ICMP and ICMPv6, ports and types, established and expired terms and terms for other platforms, for all packets but those of 0.0.0.0, with the name, number and scope of the header. Refuted: excluding all addresses, and addresses of the other family only, mean any address; exclusions without inclusions, ports without a protocol and protocols other than these are left out; 0.0.0.0/0 in a mixed filter lets IPv6 through; a destination with 0.0.0.0 and no source is written in a form the interface refuses; a generator printed after another was made carries the other's name."
  },
  {
   "property": "C88",
   "status": "partial",
   "theorems": [
    "C88_configuration_decides_partial",
    "C88_mixed_icmpv6_opens_refuted",
    "C88_mixed_icmpv6_lost_refuted",
    "C88_mixed_hopopt_refused",
    "C88_noverbose_first_refused",
    "C88_names_clash_refuted"
   ],
   "note": "Proved from the policy to the statements of the configuration, for any number of headers of type inet, inet6, bridge and mixed with their options, and any number of terms with the conditions of C34, with restrictions to a family, inactive and expired terms, for all packets: every filter asked for is there and decides as its terms, there is no other, and names that differ make it the only one. Refuted: in a mixed header a term for icmpv6 alone accepts every IPv6 packet, icmpv6 beside another protocol is lost, hopopt is refused, noverbose before the type is taken for the type, and a mixed header can clash with another name. Not covered: enable_dsmo, verbatim and filter terms."
  },
  {
   "property": "C89",
   "status": "partial",
   "theorems": [
    "C89_rules_have_verdicts_partial",
    "C89_rules_without_policy_refuted",
    "C89_port_zero_refuted",
    "C89_port_ranges_refuted",
    "C89_names_clash_refuted",
    "C89_commands_refuted"
   ],
   "note": "Proved for any number of headers and terms with tcp, udp and icmp, addresses of both families, at most one range of ports from 1 for each side, names without blanks that give different labels: all commands are read, and the verdicts of the rules of each filter are exactly those of its terms in force that match the packet or its answer. Refuted for all such policies: no rule belongs to the policy the commands create, whose name has -policy added. Refuted by examples: a range of ports from 0 is for all ports, only the last of several ranges is written, terms of the same name in filters with the same first letter share their filters and actions, and protocols by unknown names or one port without tcp or udp give commands that are not accepted. Not covered: which of several verdicts the system takes."
  },
  {
   "property": "C90",
   "status": "partial",
   "theorems": [
    "C90_terraform_decides_as_policy_partial",
    "C90_firewall_unique",
    "C90_numbered_in_order",
    "C90_stated_priority_ignored_refuted",
    "C90_stated_priority_reorders_refuted",
    "C90_description_not_cut_refuted",
    "C90_name_declared_twice_refuted"
   ],
   "note": "Proved for any number of headers and terms that decide alone on their network and direction, without service accounts: the declared rules decide every packet as the first matching term in force; and for all policies without stated priorities, the declared rules are numbered 1, 2, 3 and so on over all headers. Refuted: the priority that a term states is not used beside addresses although the code says so, and where a term with tags only states one, it is compared with the counted numbers and reorders the terms; descriptions are not cut to 2047 characters; two headers may declare different rules under one name. Not covered: service accounts, and terms that fail as in the refutations of C71."
  },
  {
   "property": "C91",
   "status": "partial",
   "theorems": [
    "C91_reads_file_partial",
    "C91_search_exact_partial",
    "C91_search_in_filter_partial",
    "C91_unknown_filter",
    "C91_filter_position_refuted",
    "C91_unknown_port_finds_all_refuted",
    "C91_terms_for_all_missed_refuted",
    "C91_same_name_shared_refuted",
    "C91_short_target_refuted",
    "C91_one_line_term_refuted",
    "C91_text_read_as_policy_refuted"
   ],
   "note": "Proved: files with one field on a line, with any blanks, comments, other fields and quoted texts over several lines, are read as written when every header names a filter that is not the one before; searches report exactly the terms that name a definition containing the port and the address (in definitions of any depth, ANY and RESERVED aside), when some definition contains each; a filter that does not exist is an error. Refuted: positions reported for a named filter are not positions in the policy; ports that no definition contains find all terms; terms for all destinations are not found by destination; two headers in a row with the same filter name share their terms; target lines with only a platform are an error; fields on the line of their term are not read; the last line of a quoted text is read as policy. Not covered: the order in which the positions are listed, and searches by the name of a network."
  },
  {
   "property": "C92",
   "status": "partial",
   "theorems": [
    "C92_sets_match_as_terms_partial",
    "C92_set_names_fit",
    "C92_long_names_refuted",
    "C92_merged_sets_refuted",
    "C92_two_filters_refuted"
   ],
   "note": "Proved: the commands run without failure (no set made twice or filled beyond its capacity, no member added twice, none of the wrong family or of length 0), and with those sets the source and destination conditions are met by exactly the addresses of the term, for terms of one family whose names differ in the first 27 (IPv4) or 24 (IPv6) characters; all set names fit. Refuted: terms whose long names begin alike, or with the same name in two filters, make the same set twice; with the option exists they share it and match each other's addresses. Not covered: the rest of the rules (C31 covers iptables.py) and which terms get as far as their addresses."
  },
  {
   "property": "C93",
   "status": "partial",
   "theorems": [
    "C93_report_exact_partial",
    "C93_group_diff_exact_partial",
    "C93_membership_exact",
    "C93_encapsulated_partial",
    "C93_union_exact",
    "C93_services_exact",
    "C93_encapsulated_halves_refuted",
    "C93_services_compared_refuted",
    "C93_difference_refuted",
    "C93_last_address_refuted",
    "C93_letters_refuted"
   ],
   "note": "Proved: the report of an address is exact, shows exactly the matching networks and is ordered by longest prefix; differences, membership, union and services (in either order of arguments) are exact; a definition is said to be within another exactly if each of its networks is within a single network of the other, which is sound. For the report: addresses written with a leading digit, references on lines without comments. Refuted: a network held by two halves is said not to be within them; comparing services always fails; the difference of two definitions lists what they have in common; of several addresses only the last is answered for; addresses that start with a letter are in no definition."
  },
  {
   "property": "C94",
   "status": "partial",
   "theorems": [
    "C94_section_decides_as_policy_partial",
    "C94_excluded_refuted",
    "C94_other_family_refuted",
    "C94_ports_refuted",
    "C94_exclusion_refuted",
    "C94_echo_reply_refuted",
    "C94_markup_refuted",
    "C94_two_filters_refuted",
    "C94_history_refuted"
   ],
   "note": "Proved: the text is read back as the section of the header and decides as the terms, for terms with some address of the families left on each restricted side, ports only with protocols, no echo-reply type and plain names, comments and header words. Refuted: excluding all addresses, or giving those of the other family only, means any; exclusions without inclusions and ports without a protocol are dropped; echo-reply opens all of ICMP; markup in a comment makes the text unreadable; a second filter makes printing fail; a generator printed after another one was made carries the other's name."
  },
  {
   "property": "C95",
   "status": "partial",
   "theorems": [
    "C95_conditions_as_documented_partial",
    "C95_direction_required",
    "C95_mixed_list_refuted",
    "C95_routing_refuted",
    "C95_history_refuted"
   ],
   "note": "Proved for known protocols listed once, without ipv6-route, and, for packets that come in on physical interfaces, lists of either extension headers or payload. Refuted: tcp next to hopopt is written with next-header; routing headers are written as payload by a name the documentation does not give; printing a term adds a name to the table of protocols that all generators share. Only the conditions on protocols are modelled; the other lines are those of C33/C59/C88."
  },
  {
   "property": "C96",
   "status": "partial",
   "theorems": [
    "C96_sets_say_what_terms_say_partial",
    "C96_distinct_names_accepted",
    "C96_sctp_ports_refuted",
    "C96_port_zero_refuted",
    "C96_long_names_refuted",
    "C96_codes_refuted",
    "C96_unique_names_refuted"
   ],
   "note": "Proved for terms with known protocols other than all, each once, with ICMP types, with ports of tcp and udp only, without ICMP codes, and for destination ports from 1. Refuted: a code is followed by an empty statement; ports of sctp are not written; a term for all of tcp misses port 0; terms whose names have the same last 27 characters are refused; sets of two filters can have one name and different traffic. The rules of the filter, which refer to the sets, are not modelled."
  },
  {
   "property": "C97",
   "status": "proved",
   "theorems": [
    "C97_options_exact",
    "C97_order_irrelevant"
   ],
   "note": "The empty word, which policy files cannot contain, counts as a direction, as in the code."
  },
  {
   "property": "C98",
   "status": "partial",
   "theorems": [
    "C98_blocks_say_the_side_partial",
    "C98_exclusion_alone_refuted",
    "C98_nested_exclusion_refuted"
   ],
   "note": "For sides whose exclusions are not wider than the addresses they meet; exclusions alone and addresses inside an exclusion are refuted. The other parts of a rule are not modelled."
  }
 ]
}