{
 "C01": {
  "note": "All lists and exclusion lists, both families."
 },
 "C02": {
  "note": "Canonical form, uniqueness and minimal length."
 },
 "C03": {
  "note": "False in general: with an exclusion list and both families a TypeError is possible (refuted by a witness). Proved without an exclusion list and for one family."
 },
 "C04": {
  "note": "False in general (refuted by a witness). Proved: no address becomes matched by collapsing; verdicts unchanged whenever every exclusion that contains a listed network starts at that network's own first address (the only overlap the code looks for)."
 },
 "C07": {
  "note": "collapse_addrs=True is exact for all inputs. collapse_addrs=False is false for overlapping supersets (witness) and exact for pairwise disjoint single-family ones."
 },
 "C08": {
  "note": "Coverage exact for all inputs. Attribution is false when networks are merged (witness): the merged network takes the defining token; proved when token and parent token agree."
 },
 "C12": {
  "note": "False in general: ranges sharing one end port are not joined (witness). Proved when no range ends where another starts."
 },
 "C41": {
  "note": "False in general (witness: 10/8 with 138/8 gives mask 127.0.0.0, which is rejected). Proved when all addresses agree on the top bit."
 },
 "C17": {
  "note": "Refuted: a reference on a line with a comment is not checked. Proved for lines without a comment; for services provided no .net file starts with a continuation line."
 },
 "C18": {
  "note": "For every loaded definitions text without a reference cycle below the token; the address syntax (nacaddr.IP on text) is a universally quantified function. Terminates, and either the exact list or UndefinedAddressError with an undefined token reachable."
 },
 "C19": {
  "note": "As C18, for services; by-protocol lookup exact, protocol names compared without case."
 },
 "C20": {
  "note": "Refuted: two definitions that refer to each other load, and the lookup recurses for every depth. Proved: absence of a cycle is necessary and sufficient."
 },
 "C42": {
  "note": "Soundness in full. Completeness is refuted (references on commented lines are not followed) and proved when references carry no comment."
 },
 "C43": {
  "note": "Exact result, and an exact account of the exceptions."
 },
 "C44": {
  "note": "Round trip from documents to loaded tables."
 },
 "C45": {
  "note": "Refuted: DNS = 53/udp in a tcp+udp term yields port 53 for both."
 },
 "C46": {
  "note": "Refuted for items that do not start with a digit (such as fe80::/10); proved exact for items that do, and for token names starting with a letter."
 },
 "C47": {
  "note": "For a decimal query; names of definitions must be single words."
 },
 "C14": {
  "note": "The reported pairs are exactly the pairs the containment test accepts (in full). Soundness of that test is false: refuted by four witnesses (protocol lists compared the wrong way round, options, fields never compared such as ttl, destinations ignored when there is a source exclusion). Proved for comparable terms."
 },
 "C48": {
  "note": "Meaning preserved in full. Totality is refuted (both families with an exclusion list and optimisation: TypeError) and proved otherwise."
 },
 "C49": {
  "note": "Acceptance characterised exactly. 'Every rejection is a policy error' is refuted (an ICMP code for a type without codes ends in KeyError) and proved otherwise."
 },
 "C50": {
  "note": "Refuted when the exclusions take away a whole list (it then matches anything) and when families are mixed (TypeError); proved otherwise."
 },
 "C51": {
  "note": "For every loaded definitions text and every parsed term."
 },
 "C21": {
  "note": "Refuted in general: exclusions, either-side addresses/ports and many other conditions are ignored (witness). Proved for terms with only conditions the checker looks at: the exact match is the deciding term, the deciding term is always reported, wildcards mean 'some packet'. 'Nothing after an exact match' and independence of filters hold in full. ActionMatch (C21_action_match_partial): the matches it returns are exactly the terms that match for certain, are not preceded by a deciding one and have the action asked for."
 },
 "C52": {
  "note": "Texts with blanks are stripped by int(); underscores and non-ASCII digits are not modelled."
 },
 "C22": {
  "note": "Paths are compared as texts after normalisation; symbolic links are not resolved (the code does not resolve them either). The working directory is absolute."
 },
 "C53": {
  "note": "Protocol check exact; address check sound and exact network by network; completeness refuted (an inner network covered only by two outer networks together is not recognised)."
 },
 "C23": {
  "note": "For every abbreviation table of fixed, non-empty words (both tables in the code are)."
 },
 "C24": {
  "note": "A term without destination ports (any port) is narrowed to the high ports by the same rule; C24_established_matches says so."
 },
 "C25": {
  "note": "Exact acceptance condition proved. Refuted for source_tag, destination_tag, restrict_address_family (only warned about) and ttl 0 (not seen); proved for all other match fields of the term model."
 },
 "C27": {
  "note": "For limits that are not negative (a negative limit slices from the end); line breaks are removed only from lists of comments."
 },
 "C54": {
  "note": "Refuted: a one-letter word that does not fit with a neighbour is dropped. Proved when all words have two letters or more. Line separator newline (the default, used by all callers)."
 },
 "C28": {
  "note": "Exact for terms within what extended access lists can express, for one term and for the outcome of a whole access list (first match, expired and other-family terms, established rewriting). Refuted by four witnesses: exclusion without inclusion, is-fragment beside a protocol, protocol ipv6 where names are printed, the other family's ICMP beside other protocols. Port names of the platform arista are not modelled."
 },
 "C40": {
  "status": "partial",
  "note": "Proved for Cisco access lists, Juniper filters, iptables/speedway tables, nftables rulesets, pcap filters, OpenConfig, SONiC, Kubernetes, Aruba, Cisco ASA and Juniper SRX; GCE: removing expired terms leaves the rules unchanged when each header keeps a term. Cloud Armor and hierarchical policies refuse the keyword. The generators that are not modelled are missing."
 },
 "C56": {
  "note": "Texts as printed by Python's ipaddress, whose algorithm is modelled."
 },
 "C37": {
  "note": "Proved for text outputs, and for whole runs without binary outputs and file-name clashes, with generated texts free of carriage returns. Refuted for binary outputs (SONiC): the file's bytes are compared as a Python bytes literal, so it is rewritten every time."
 },
 "C38": {
  "note": "Proved for every interleaving when no policy fails and no two outputs share a file name. Refuted otherwise: after an error a sequential run writes nothing, a parallel run writes the rest; with equal names the schedule decides."
 },
 "C39": {
  "note": "Exact precedence proved. Refuted for empty configuration files, which raise TypeError instead of setting nothing."
 },
 "C57": {
  "note": "For outputs without file-name clashes and without carriage returns. The state of the disk after a crash: some files written, one possibly cut short."
 },
 "C58": {
  "note": "Proved for outputs without file-name clashes; refuted for pcap, whose suffixes pathlib refuses."
 },
 "C33": {
  "status": "proved",
  "note": "Longest-prefix verdict of every address is kept, unconditionally for valid lists."
 },
 "C34": {
  "status": "partial",
  "note": "The text is read back by an independent reader of Junos configuration (words, statements, blocks, comments). Terms within juniper_term_ok and whole filters decide exactly as the policy. Refuted outside: option or packet length alone, exclusion alone or around an inclusion, established with several protocols, ttl in IPv6, ICMPv6 in a mixed filter. Families inet, inet6 and bridge (mixed headers: C88). Missing: verbatim and filter terms."
 },
 "C59": {
  "status": "partial",
  "note": "Proved when no comment line contains the end-of-comment sign; refuted otherwise (a comment can inject an accepting term)."
 },
 "C31": {
  "status": "partial",
  "note": "The generated text is read back with an independent reader of iptables-restore syntax; each filter decides every packet as the first matching term says. Missing: terms outside ipt_term_ok. The full claim is false: six refutations (full exclusion, ICMP code 0, option none, protocols of both families, ICMPv6 types beside an option, comment ending in a backslash)."
 },
 "C32": {
  "status": "proved",
  "note": "Stated through a reader of the port conditions that refuses more than fifteen places."
 },
 "C60": {
  "status": "partial",
  "note": "Proved: a named default action is the chain's. The rest of the claim is false: default action and nostate of one header leak into later ones (refuted)."
 },
 "C61": {
  "status": "partial",
  "note": "Proved for filters whose names start with different letters; false in general (C61_same_chain_refuted)."
 },
 "C35": {
  "status": "partial",
  "note": "Whole policies, from their text: the chain of every header accepts replies and otherwise decides as the first matching term in force says; restricted to terms whose conditions nftables.py does not drop, the dropped ones are refuted one by one."
 },
 "C62": {
  "status": "partial",
  "note": "Options read exactly as specified and the hook line of every chain read back from the text; negative priorities are silently replaced by 0 (refuted)."
 },
 "C63": {
  "status": "partial",
  "note": "Proved when the headers of a table share no names; with shared names refuted."
 },
 "C36": {
  "status": "partial",
  "note": "The text is read by an independent reader of pcap-filter expressions (and/or equal precedence, left to right). Proved for headers with at most one denying term, one accepting term and then a default deny (and the mirror shape for the inverted filter), with conditions on destination, protocol, ports, ICMP types and TCP flags, any number of headers. False in general; refuted by witnesses: source written as destination, accepts and denies joined by and, exclusions negated twice, accept-rest dropped, order lost, several ICMP codes, icmpv6 types dropped, ::/0 dropped, other options dropped, family not enforced, direction stays for later headers, empty header makes the text unreadable, inverted default deny selects accepted packets."
 },
 "C30": {
  "note": "Proved for every text with plain line ends whose names are defined once per family, and for whole generated configurations (IOS and XR) whose headers have no network name in common: the lists decide as the policy and no duplicates remain. False for Nexus lists, for a name defined twice, and for two headers that use the same network (refutations, the last one on generated text).",
  "status": "partial"
 },
 "C64": {
  "note": "Exact for whole generated configurations under the stated conditions on terms (SpecCiscoRules.v, group_term_ok and group_policy_ok). The claim is false in general: exclusions, options and ICMP types are ignored, groups named by their first network can clash, mixed sides refer to undefined groups, inet6-restricted terms are left out of IPv6 lists (six refutations on generated text).",
  "status": "partial"
 },
 "C65": {
  "note": "Proved for every text that consists of spelled tokens separated by gaps (laid_out).  Texts with stray characters are C66.",
  "status": "proved"
 },
 "C66": {
  "note": "Equivalence between the recursive-descent model of the PLY grammar and an inductive grammar; the LALR tables themselves are not modelled.  Refuted part: characters that belong to no token are skipped silently, so a malformed text can be accepted.",
  "status": "partial"
 },
 "C67": {
  "note": "All keywords of the term and header grammar.",
  "status": "proved"
 },
 "C68": {
  "note": "Shade checking off (with it on, parsing can additionally raise ShadingError).  Restricted to statements whose network names each define at least one network: a name with an empty definition turns the restriction into any (refuted).",
  "status": "partial"
 },
 "C69": {
  "note": "Comments fully; verbatim text except when it ends with a quote, where the text is mangled (refuted).",
  "status": "partial"
 },
 "C70": {
  "note": "date_ordinal models datetime.date.",
  "status": "proved"
 },
 "C71": {
  "status": "partial",
  "note": "Proved for all policies whose terms meet gce_term_ok, rank their terms by priority (well_ranked) and share no network and direction with another header; four refutations: equal priorities lose the order of terms, IPv4-style IPv6 addresses are dropped, icmpv6 from tags is dropped in mixed policies, an exclusion of destinations alone is ignored. Service accounts are outside the theorem."
 },
 "C72": {
  "status": "proved",
  "note": "Every rule of every policy is within the limits; total attributes at most N when the first header states a maximum and all maxima are at most N. Refuted: a later header with a larger maximum lets the total exceed the first."
 },
 "C73": {
  "status": "partial",
  "note": "Proved for one header whose term names do not extend each other behind a dash, with any splitting and families; refuted otherwise (a-v6)."
 },
 "C74": {
  "status": "partial",
  "note": "Proved unless a term has an owner and no comment, or an owner in a mixed policy; refuted there: owners leak to later terms."
 },
 "C75": {
  "status": "partial",
  "note": "Proved when each header names at most one address family; refuted for two."
 },
 "C76": {
  "note": "Composition of C65, C66, C68 and C70 with C35 (nftables), C31 (iptables, speedway) and C36 (pcap). Partial: the policies those theorems leave out, filters with nostate, names that stand for no network (C68), texts with include lines.",
  "status": "partial"
 },
 "C77": {
  "status": "partial",
  "note": "Proved for terms OpenConfig entries can express (oc_term_ok): some address of the family left on each side, exclusions on both sides or neither, no port 0 range, no icmp types, at most one option with fitting protocols. Outside these the claim is refuted: addresses of the other family only and complete exclusion become any, exclusion on one side raises TypeError, port 0 means any, icmp types are dropped, established lets all udp through, only the last option counts, and several family words give an order-dependent result."
 },
 "C78": {
  "status": "partial",
  "note": "Numbering proved in full for one header. Decisions: one header for SONiC, terms without port 0, without single ports and ranges in one list, tcp-established only with protocol tcp, protocol all not used. The rest is refuted: port 0 is any port, tcp-established without protocol matches everything, mixed single ports and ranges, platform-exclude ignored, ipip fails with KeyError, a second header hides the rules of the first."
 },
 "C79": {
  "status": "partial",
  "note": "Limits proved for all policies, numbering for one header. Decisions: one header, terms meant for the platform with addresses of a family of the header. The rest is refuted: addresses of the other family only give a rule for everyone, terms for other platforms are rendered, numbers start again with a second header."
 },
 "C80": {
  "status": "partial",
  "note": "Proved for policies with any number of headers: names distinct within a header, resources accepted by the API server for terms without dots in names, with the three transport protocols, ports from 1 and exclusions inside every address, and permitted traffic equal to accepted traffic when no accepting term follows a denying one. Refuted otherwise: an accepting term after a default deny still opens the pods, a policy whose terms have all expired permits everything, exclusions of the other side are dropped, two headers may give the same name, names with two dots in a row, exclusions outside one of several addresses and protocol numbers give resources the API server refuses."
 },
 "C81": {
  "status": "partial",
  "note": "Proved for any number of headers: numbering; limits of every rule and the name; total charge within the limit of every header unless threat lists are used with the beta interface; decisions for headers that name at most one family and terms without addresses of the other side, targets or threat lists. Refuted: addresses of the other side are dropped, ipip raises KeyError, a threat list with icmpv6 in a mixed policy leaves no rule, threat lists are not counted with the beta interface, headers with different interfaces may give different names, and a header with two families depends on the order in which Python walks a frozen set."
 },
 "C82": {
  "status": "partial",
  "note": "Proved from the text of the policy for any number of headers and terms whose terms keep to addresses, destination ports with tcp or udp (or icmp, gre or esp alone, or no protocol), the user options, and names that differ also in lower case. Refuted: keywords the lists cannot express (source port, icmp type, excluded addresses, platform) are silently ignored because the check of keywords never applies to this generator; tcp without ports gives no rule; of a list with icmp only icmp is written; an action other than accept and deny gives a rule without outcome; a range may be written with its ends swapped; names that differ in case share an alias; headers of other platforms become lists called None."
 },
 "C83": {
  "status": "partial",
  "note": "Proved from the policy to the text and back for any number of headers with different names and terms with addresses and exclusions, ports, ICMP types, the protocols the device knows, logging, owners and comments, including terms for other platforms and expired ones. Refuted: the options for established connections are dropped without a word; exclusions without addresses are ignored; a term with icmpv6 among its protocols gives lines that are no configuration; only the first verbatim line is looked at; headers of other platforms become a list called None; a second header with the same name removes the first; protocols unknown to the device and the action next give rules that are none."
 },
 "C84": {
  "status": "partial",
  "note": "Proved from the policy to the text and back: for any number of headers and zones, with one book per zone or one for the device, and terms with addresses, exclusions, ports, protocols, ICMP types, logging, owners and comments, the text parses and its policies decide as the policy file, provided the names used mean one thing each (stated without reference to the program). The pieces of a large term together match what the term matches and have names of their own. Refuted: eight ICMP types, or two actions, give a text that is no configuration; a term whose addresses are all excluded permits all; options other than those for established connections are dropped; terms of one name in two headers share the name for what exclusions leave; a name that is another one with a number shares its addresses; two headers for the same zones may bring policies of one name; the limit on addresses is not kept by the pieces of a large term. Not covered by the decision theorem: terms that are split, expresspath, vpn tunnels, verbatim terms."
 },
 "C85": {
  "status": "partial",
  "note": "Proved from the policy to the text and back (continued lines, comments, tables, rules, quick, flags and state as pf reads them) for any number of headers and terms with addresses, ports, protocols, flags, ICMP types, interfaces, directions, families, logging and comments, for all packets that open a connection, and for all packets if all headers ask for rules without state. Refuted: excluded addresses widen a rule to all addresses; a term that denies tcp lets packets of established connections through to later terms unless nostate is asked for; nostate goes over to later headers; a comment ending in a backslash takes the rule below it; next is written as pass; ipip ends in an error; terms that have expired still fill the tables. Not covered: protocols pf does not know by name, verbatim terms (the generator ignores them)."
 },
 "C86": {
  "status": "partial",
  "note": "Proved from the policy to the text and back, for any number of headers and terms with addresses, ports, the protocols netsh accepts as written, ICMP types, established and expired terms and terms for other platforms, with headers called in and out, for packets of a family all headers of the direction are for. Refuted: a deny term takes back what an earlier accept term allows (blocks win over order); a header or term for all addresses of one family covers the other as well (any); a term with the other family's ICMP among its protocols is left out as a whole; ports without tcp or udp, protocols such as gre and other header names give commands that are not accepted; flags are ignored."
 },
 "C87": {
  "status": "partial",
  "note": "Proved from the policy to the rules, for inet, inet6 and mixed filters with any number of terms with addresses and exclusions, tcp, udp, ICMP and ICMPv6, ports and types, established and expired terms and terms for other platforms, for all packets but those of 0.0.0.0, with the name, number and scope of the header. Refuted: excluding all addresses, and addresses of the other family only, mean any address; exclusions without inclusions, ports without a protocol and protocols other than these are left out; 0.0.0.0/0 in a mixed filter lets IPv6 through; a destination with 0.0.0.0 and no source is written in a form the interface refuses; a generator printed after another was made carries the other's name."
 },
 "C88": {
  "status": "partial",
  "note": "Proved from the policy to the statements of the configuration, for any number of headers of type inet, inet6, bridge and mixed with their options, and any number of terms with the conditions of C34, with restrictions to a family, inactive and expired terms, for all packets: every filter asked for is there and decides as its terms, there is no other, and names that differ make it the only one. Refuted: in a mixed header a term for icmpv6 alone accepts every IPv6 packet, icmpv6 beside another protocol is lost, hopopt is refused, noverbose before the type is taken for the type, and a mixed header can clash with another name. Not covered: enable_dsmo, verbatim and filter terms."
 },
 "C89": {
  "status": "partial",
  "note": "Proved for any number of headers and terms with tcp, udp and icmp, addresses of both families, at most one range of ports from 1 for each side, names without blanks that give different labels: all commands are read, and the verdicts of the rules of each filter are exactly those of its terms in force that match the packet or its answer. Refuted for all such policies: no rule belongs to the policy the commands create, whose name has -policy added. Refuted by examples: a range of ports from 0 is for all ports, only the last of several ranges is written, terms of the same name in filters with the same first letter share their filters and actions, and protocols by unknown names or one port without tcp or udp give commands that are not accepted. Not covered: which of several verdicts the system takes."
 },
 "C90": {
  "status": "partial",
  "note": "Proved for any number of headers and terms that decide alone on their network and direction, without service accounts: the declared rules decide every packet as the first matching term in force; and for all policies without stated priorities, the declared rules are numbered 1, 2, 3 and so on over all headers. Refuted: the priority that a term states is not used beside addresses although the code says so, and where a term with tags only states one, it is compared with the counted numbers and reorders the terms; descriptions are not cut to 2047 characters; two headers may declare different rules under one name. Not covered: service accounts, and terms that fail as in the refutations of C71."
 },
 "C91": {
  "status": "partial",
  "note": "Proved: files with one field on a line, with any blanks, comments, other fields and quoted texts over several lines, are read as written when every header names a filter that is not the one before; searches report exactly the terms that name a definition containing the port and the address (in definitions of any depth, ANY and RESERVED aside), when some definition contains each; a filter that does not exist is an error. Refuted: positions reported for a named filter are not positions in the policy; ports that no definition contains find all terms; terms for all destinations are not found by destination; two headers in a row with the same filter name share their terms; target lines with only a platform are an error; fields on the line of their term are not read; the last line of a quoted text is read as policy. Not covered: the order in which the positions are listed, and searches by the name of a network."
 },
 "C92": {
  "status": "partial",
  "note": "Proved: the commands run without failure (no set made twice or filled beyond its capacity, no member added twice, none of the wrong family or of length 0), and with those sets the source and destination conditions are met by exactly the addresses of the term, for terms of one family whose names differ in the first 27 (IPv4) or 24 (IPv6) characters; all set names fit. Refuted: terms whose long names begin alike, or with the same name in two filters, make the same set twice; with the option exists they share it and match each other's addresses. Not covered: the rest of the rules (C31 covers iptables.py) and which terms get as far as their addresses."
 },
 "C93": {
  "status": "partial",
  "note": "Proved: the report of an address is exact, shows exactly the matching networks and is ordered by longest prefix; differences, membership, union and services (in either order of arguments) are exact; a definition is said to be within another exactly if each of its networks is within a single network of the other, which is sound. For the report: addresses written with a leading digit, references on lines without comments. Refuted: a network held by two halves is said not to be within them; comparing services always fails; the difference of two definitions lists what they have in common; of several addresses only the last is answered for; addresses that start with a letter are in no definition."
 },
 "C94": {
  "status": "partial",
  "note": "Proved: the text is read back as the section of the header and decides as the terms, for terms with some address of the families left on each restricted side, ports only with protocols, no echo-reply type and plain names, comments and header words. Refuted: excluding all addresses, or giving those of the other family only, means any; exclusions without inclusions and ports without a protocol are dropped; echo-reply opens all of ICMP; markup in a comment makes the text unreadable; a second filter makes printing fail; a generator printed after another one was made carries the other's name."
 },
 "C95": {
  "status": "partial",
  "note": "Proved for known protocols listed once, without ipv6-route, and, for packets that come in on physical interfaces, lists of either extension headers or payload. Refuted: tcp next to hopopt is written with next-header; routing headers are written as payload by a name the documentation does not give; printing a term adds a name to the table of protocols that all generators share. Only the conditions on protocols are modelled; the other lines are those of C33/C59/C88."
 },
 "C96": {
  "status": "partial",
  "note": "Proved for terms with known protocols other than all, each once, with ICMP types, with ports of tcp and udp only, without ICMP codes, and for destination ports from 1. Refuted: a code is followed by an empty statement; ports of sctp are not written; a term for all of tcp misses port 0; terms whose names have the same last 27 characters are refused; sets of two filters can have one name and different traffic. The rules of the filter, which refer to the sets, are not modelled."
 },
 "C97": {
  "status": "proved",
  "note": "The empty word, which policy files cannot contain, counts as a direction, as in the code."
 },
 "C98": {
  "status": "partial",
  "note": "For sides whose exclusions are not wider than the addresses they meet; exclusions alone and addresses inside an exclusion are refuted. The other parts of a rule are not modelled."
 }
}