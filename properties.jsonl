{"id": "C01", "title": "Collapsing preserves the address set", "statement": "Whenever nacaddr.CollapseAddrList returns, an IP address is covered by the returned list iff it is covered by the input list, whatever exclusion list is passed.", "quantifier": "every list of v4/v6 networks, every exclusion list, every IP address of either family", "why_tests_cant": "the number of networks, nesting depth and merge cascades are unbounded; a single wrong merge opens or closes addresses nobody tested", "anchors": ["capirca/lib/nacaddr.py:CollapseAddrList", "capirca/lib/nacaddr.py:_CollapseAddrListInternal", "capirca/lib/nacaddr.py:_SafeToMerge"]}
{"id": "C02", "title": "Collapsing yields the canonical minimal list", "statement": "Without an exclusion list, CollapseAddrList returns prefixes in ascending order, pairwise disjoint, with no two that could be joined into their common parent; two inputs covering the same addresses give the same prefixes, so the result does not depend on order or duplication and collapsing twice changes nothing.", "quantifier": "every pair of lists of networks of both families", "why_tests_cant": "canonicity relates all pairs of inputs with equal coverage", "anchors": ["capirca/lib/nacaddr.py:CollapseAddrList", "capirca/lib/nacaddr.py:_CollapseAddrListInternal"]}
{"id": "C03", "title": "Collapsing never fails", "statement": "CollapseAddrList returns a list for every input (it never raises).", "quantifier": "every list of networks and every exclusion list", "why_tests_cant": "a crash needs a particular interleaving of families and equal network addresses", "anchors": ["capirca/lib/nacaddr.py:_SafeToMerge"]}
{"id": "C04", "title": "Exclusion-aware collapsing does not reverse intent", "statement": "If CollapseAddrList is given the exclusions, then under most-specific-prefix matching (excludes winning ties) every address gets the same verdict from (collapsed list, exclusions) as from (original list, exclusions).", "quantifier": "every address list, exclusion list and IP address", "why_tests_cant": "interaction of three nested prefixes at arbitrary depths", "anchors": ["capirca/lib/nacaddr.py:CollapseAddrList", "capirca/lib/nacaddr.py:_SafeToMerge"]}
{"id": "C05", "title": "Collapsing keeps every comment", "statement": "Every comment of every input network is contained in the comment of a returned network that covers it.", "quantifier": "every list of commented networks", "why_tests_cant": "comments travel through arbitrarily long merge cascades", "anchors": ["capirca/lib/nacaddr.py:_CollapseAddrListInternal", "capirca/lib/nacaddr.py:IPv4.AddComment"]}
{"id": "C06", "title": "Removing an address is exact set difference", "statement": "RemoveAddressFromList(L, x) returns networks covering exactly the addresses covered by L and not by x.", "quantifier": "every list, every network x", "why_tests_cant": "subtraction splits one prefix into up to 128 pieces; every split point matters", "anchors": ["capirca/lib/nacaddr.py:RemoveAddressFromList", "capirca/utils/iputils.py:exclude_address"]}
{"id": "C07", "title": "Excluding a list is exact set difference", "statement": "AddressListExclude(S, E) returns networks covering exactly the addresses covered by S and not by E, for both settings of collapse_addrs.", "quantifier": "every superset list and exclude list, both families", "why_tests_cant": "the two-stack walk depends on sort order and on the pieces pushed back", "anchors": ["capirca/lib/nacaddr.py:AddressListExclude"]}
{"id": "C08", "title": "Token-preserving collapse keeps coverage and attribution", "statement": "CollapseAddrListPreserveTokens returns networks covering exactly the input addresses, and every returned network carries a parent token of some input network.", "quantifier": "every list of token-carrying networks", "why_tests_cant": "grouping, sorting and de-duplication over unbounded groups", "anchors": ["capirca/lib/nacaddr.py:CollapseAddrListPreserveTokens"]}
{"id": "C09", "title": "Single-network exclusion is an exact partition", "statement": "iputils.exclude_address(base, ex) yields pairwise disjoint, valid networks of the same family whose union is base minus ex.", "quantifier": "every pair of networks with ex inside base", "why_tests_cant": "the bit-level range summarisation has one case per bit position of each end point", "anchors": ["capirca/utils/iputils.py:exclude_address"]}
{"id": "C10", "title": "Sorting is by family, address and mask", "statement": "SortAddrList returns a permutation of its input ordered by family, then network address, then prefix length.", "quantifier": "every list of networks", "why_tests_cant": "all permutations", "anchors": ["capirca/lib/nacaddr.py:SortAddrList"]}
{"id": "C11", "title": "Port-list collapsing preserves the port set", "statement": "Policy translation of port lists keeps exactly the same set of ports, and emits ascending ranges.", "quantifier": "every list of well-formed port ranges", "why_tests_cant": "all overlapping/adjacent patterns of unboundedly many ranges", "anchors": ["capirca/lib/policy.py:Term.CollapsePortList"]}
{"id": "C12", "title": "Collapsed port ranges are disjoint and non-adjacent", "statement": "After collapsing, no two emitted port ranges overlap or touch.", "quantifier": "every list of well-formed port ranges", "why_tests_cant": "boundary equality cases", "anchors": ["capirca/lib/policy.py:Term.CollapsePortList"]}
{"id": "C13", "title": "Port containment test is sound", "statement": "If the containment check used by shade detection says one port list is inside another, every port of the first is in the second; on collapsed lists the converse holds too when ranges are separated.", "quantifier": "every pair of range lists", "why_tests_cant": "unbounded lists", "anchors": ["capirca/lib/policy.py:Term.CheckPortIsContained"]}
{"id": "C14", "title": "Shade detection is sound", "statement": "When a policy is rejected or warned because an earlier term shades a later one, every packet matched by the later term is matched by the earlier one.", "quantifier": "every pair of terms and every packet", "why_tests_cant": "quantifies over packets and over every combination of match fields", "anchors": ["capirca/lib/policy.py:Term.__contains__", "capirca/lib/policy.py:Policy._DetectShading"]}
{"id": "C15", "title": "DSM summarisation preserves the address set", "statement": "summarizer.Summarize returns (network, mask) pairs matching exactly the addresses of the input networks.", "quantifier": "every list of networks", "why_tests_cant": "pairing of networks one bit apart is iterated to a fixpoint", "anchors": ["capirca/lib/summarizer.py:Summarize", "capirca/lib/summarizer.py:_SummarizeSameMask"]}
{"id": "C16", "title": "Dotted-quad conversion is exact", "statement": "The dotted-quad text produced for a network and mask denotes the same integers, and out-of-range integers are rejected.", "quantifier": "every 32-bit integer and mask", "why_tests_cant": "2^32 values each", "anchors": ["capirca/lib/summarizer.py:ToDottedQuad", "capirca/lib/summarizer.py:_Int32ToDottedQuad"]}
{"id": "C17", "title": "Undefined tokens are rejected when definitions are loaded", "statement": "If loading definition files succeeds, every token referenced in a definition is itself defined.", "quantifier": "every definitions text", "why_tests_cant": "all texts and all orders of lines", "anchors": ["capirca/lib/naming.py:Naming._ParseLine", "capirca/lib/naming.py:Naming._CheckUnseen"]}
{"id": "C18", "title": "Network lookup returns exactly the flattened definition", "statement": "For acyclic definitions GetNetAddr/GetNet terminates and returns exactly the networks reachable from the token through nested tokens, each labelled with the defining token and the requested token.", "quantifier": "every definition table, every token", "why_tests_cant": "nesting depth is unbounded", "anchors": ["capirca/lib/naming.py:Naming.GetNet"]}
{"id": "C19", "title": "Service lookup returns exactly the flattened definition", "statement": "For acyclic definitions GetService terminates and returns exactly the port/protocol entries reachable from the token; GetServiceByProto returns exactly those of the protocol asked for.", "quantifier": "every definition table, every token and protocol", "why_tests_cant": "nesting depth is unbounded", "anchors": ["capirca/lib/naming.py:Naming.GetService", "capirca/lib/naming.py:Naming.GetServiceByProto"]}
{"id": "C20", "title": "Lookups terminate", "statement": "GetNet, GetService and the parent queries terminate for every definitions text that loads successfully.", "quantifier": "every definition table", "why_tests_cant": "cyclic definitions of every length", "anchors": ["capirca/lib/naming.py:Naming.GetNet", "capirca/lib/naming.py:Naming.GetService", "capirca/lib/naming.py:Naming._GetParents"]}
{"id": "C21", "title": "Checker finds the term that decides a packet", "statement": "AclCheck reports, for a packet and a filter, the first term whose conditions the packet meets, and reports nothing after an exact match.", "quantifier": "every policy and every packet", "why_tests_cant": "first-match over unboundedly many terms", "anchors": ["capirca/lib/aclcheck.py:AclCheck.__init__"]}
{"id": "C22", "title": "Includes stay inside the base directory and terminate", "statement": "Policy includes are only read from below the base directory and expansion terminates with an error when nesting exceeds the limit, even for cyclic includes.", "quantifier": "every policy text, file tree and base directory", "why_tests_cant": "cyclic and hostile file trees", "anchors": ["capirca/lib/policy.py:_Preprocess", "capirca/lib/policy.py:_SubDirectory"]}
{"id": "C23", "title": "Term names never exceed the platform limit", "statement": "FixTermLength returns a name no longer than the limit or raises; without abbreviation or truncation it returns the name unchanged or raises.", "quantifier": "every name, every flag combination, every limit", "why_tests_cant": "all strings", "anchors": ["capirca/lib/aclgenerator.py:ACLGenerator.FixTermLength"]}
{"id": "C24", "title": "Established terms only ever gain the high port range", "statement": "FixHighPorts leaves terms without the established options unchanged, and otherwise leaves destination ports covering exactly the original ports plus 1024-65535 (tcp/udp only) or raises.", "quantifier": "every term", "why_tests_cant": "every protocol/option/port combination", "anchors": ["capirca/lib/aclgenerator.py:ACLGenerator.FixHighPorts"]}
{"id": "C25", "title": "No term feature is silently dropped", "statement": "Building a generator for a policy either raises or every non-empty field of every term rendered for that platform is in the set of fields the platform supports.", "quantifier": "every policy and every supported-token table", "why_tests_cant": "every field combination", "anchors": ["capirca/lib/aclgenerator.py:ACLGenerator.__init__"]}
{"id": "C26", "title": "ICMP type names map to the right family numbers", "statement": "NormalizeIcmpTypes returns the sorted numbers of exactly the named types for the address family or raises when the protocol does not match the family or a name is unknown.", "quantifier": "every list of names, protocol list and family", "why_tests_cant": "all lists", "anchors": ["capirca/lib/aclgenerator.py:Term.NormalizeIcmpTypes"]}
{"id": "C27", "title": "Truncated comments respect the limit", "statement": "TruncateWords never returns more than the requested number of characters plus its two quotes.", "quantifier": "every list of words and limit", "why_tests_cant": "all strings", "anchors": ["capirca/lib/aclgenerator.py:TruncateWords"]}
{"id": "C28", "title": "Cisco extended ACL matches exactly the term", "statement": "The access-list lines emitted for a term match a packet iff the term does (after exclusion).", "quantifier": "every term of the modelled fragment, every packet", "why_tests_cant": "cartesian expansion over unbounded address/port lists", "anchors": ["capirca/lib/cisco.py:Term.__str__", "capirca/lib/cisco.py:Term._TermletToStr"]}
{"id": "C29", "title": "Cisco port normalisation preserves the port set", "statement": "Replacing two-port ranges by two single ports leaves the set of ports unchanged.", "quantifier": "every port list", "why_tests_cant": "all lists", "anchors": ["capirca/lib/cisco.py:Term._FixConsecutivePorts"]}
{"id": "C30", "title": "Removing duplicate object groups keeps every reference valid", "statement": "With remove_duplicate_network_objectgroups, every network group an access list refers to after the removal is defined and has the members that the group named there before the removal had.", "quantifier": "every generated configuration", "why_tests_cant": "duplicates may occur in any number and order", "anchors": ["capirca/lib/cisco.py:Cisco._remove_duplicate_objects", "capirca/lib/cisco.py:Cisco._get_duplicate_object_groups", "capirca/lib/cisco.py:Cisco._replace_object_groups_references"]}
{"id": "C31", "title": "iptables chains match exactly the term", "statement": "The rules emitted for a term apply the term action to a packet iff the term (after exclusion) matches it.", "quantifier": "every term of the modelled fragment, every packet", "why_tests_cant": "choice between exclusion and bail-out encodings depends on list sizes", "anchors": ["capirca/lib/iptables.py:Term.__str__", "capirca/lib/iptables.py:Term._CalculateAddresses"]}
{"id": "C32", "title": "iptables multiport batches respect the kernel limit", "statement": "Splitting ports for multiport matches keeps every port in exactly the emitted statements and never puts more than 15 ports in one.", "quantifier": "every port list", "why_tests_cant": "batch boundary at every length", "anchors": ["capirca/lib/iptables.py:Term._GeneratePortStatement"]}
{"id": "C33", "title": "Juniper prefix minimisation preserves longest-match semantics", "statement": "The minimised include/except lists give every address the same longest-prefix verdict as the original lists.", "quantifier": "every include/exclude list and address", "why_tests_cant": "nested prefixes at arbitrary depth", "anchors": ["capirca/lib/juniper.py:Term._MinimizePrefixes"]}
{"id": "C34", "title": "Juniper terms match no more than they say", "statement": "A rendered Juniper term constrains every match field present in the term.", "quantifier": "every term", "why_tests_cant": "every combination of fields", "anchors": ["capirca/lib/juniper.py:Term.__str__"]}
{"id": "C35", "title": "nftables rules match exactly the term", "statement": "The rules emitted for a term match a packet iff the term (after exclusion) does.", "quantifier": "every term of the modelled fragment, every packet", "why_tests_cant": "statement grouping is per family, protocol and port combination", "anchors": ["capirca/lib/nftables.py:Term.PortsAndProtocols", "capirca/lib/nftables.py:Term.GroupExpressions", "capirca/lib/nftables.py:Term.RulesetGenerator"]}
{"id": "C36", "title": "pcap filter matches exactly the accepted packets", "statement": "The generated pcap expression selects a packet iff the policy accepts it.", "quantifier": "every policy, every packet", "why_tests_cant": "boolean combination of unboundedly many terms", "anchors": ["capirca/lib/pcap.py:Term.__str__", "capirca/lib/pcap.py:PcapFilter.__str__"]}
{"id": "C37", "title": "Unchanged output is not rewritten", "statement": "A file is rewritten iff its new content differs from the old one in a line that is not a repository tag.", "quantifier": "every old/new content", "why_tests_cant": "all texts", "anchors": ["capirca/aclgen.py:FilesUpdated"]}
{"id": "C38", "title": "Sequential and parallel runs write the same files", "statement": "Processing policies with one worker or with several gives the same list of files to write.", "quantifier": "every set of policies, every schedule", "why_tests_cant": "schedules", "anchors": ["capirca/aclgen.py:Run"]}
{"id": "C39", "title": "Configuration precedence", "statement": "A configuration value is taken from the config files if set there, else from the command line, else from the defaults, later config files winning.", "quantifier": "every set of configs", "why_tests_cant": "all combinations", "anchors": ["capirca/utils/config.py:generate_configs"]}
{"id": "C40", "title": "Expired terms are never rendered", "statement": "A term whose expiration date is today or earlier produces no rule.", "quantifier": "every policy and date", "why_tests_cant": "all dates", "anchors": ["capirca/lib/cisco.py:Cisco._TranslatePolicy", "capirca/lib/iptables.py:Iptables._TranslatePolicy", "capirca/lib/juniper.py:Juniper._TranslatePolicy", "capirca/lib/nftables.py:Nftables._TranslatePolicy"]}
{"id": "C41", "title": "Every summarised IPv4 list can be rendered", "statement": "Every (address, mask) pair summarizer.Summarize returns for an IPv4 list can be rendered by ToDottedQuad.", "quantifier": "every list of IPv4 networks", "why_tests_cant": "needs a list whose summary mask has its top bit clear", "anchors": ["capirca/lib/summarizer.py:Summarize", "capirca/lib/summarizer.py:ToDottedQuad"]}
{"id": "C42", "title": "Parent queries list exactly the containing tokens", "statement": "GetServiceParents/GetNetParents name a token iff its flattened definition refers to the queried one, directly or through other tokens.", "quantifier": "every set of definitions, every query", "why_tests_cant": "chains of references of any length", "anchors": ["capirca/lib/naming.py:Naming._GetParents", "capirca/lib/naming.py:Naming.GetServiceParents"]}
{"id": "C43", "title": "Port names translate to the defined ports", "statement": "TranslatePorts(ports, protocols) yields exactly the ranges that the definitions give for a named service and a listed protocol.", "quantifier": "every set of definitions, ports and protocols", "why_tests_cant": "unbounded definitions, all numerals", "anchors": ["capirca/lib/policy.py:TranslatePorts", "capirca/lib/naming.py:Naming.GetServiceByProto"]}
{"id": "C44", "title": "Definition files load to what they say", "statement": "A well-formed pair of definition documents loads successfully, and the tables hold exactly the names in order with exactly the values (and comments) written on their lines and continuation lines.", "quantifier": "every pair of well-formed documents, any number of lines", "why_tests_cant": "all documents, all interleavings of definition, continuation and comment lines", "anchors": ["capirca/lib/naming.py:Naming._ParseLine", "capirca/lib/naming.py:Naming.ParseServiceList"]}
{"id": "C45", "title": "Translated ports belong to their protocol", "statement": "If a term lists several protocols, a port obtained from a named service applies only to the protocols the service is defined for.", "quantifier": "every set of definitions, ports and protocols", "why_tests_cant": "combinations of definitions and protocols", "anchors": ["capirca/lib/policy.py:TranslatePorts", "capirca/lib/policy.py:Policy._TranslateTerms"]}
{"id": "C46", "title": "IP parent queries are exact", "statement": "GetIpParents(address) lists, sorted and without duplicates, exactly the tokens whose flattened definition contains the address.", "quantifier": "every set of definitions, every address", "why_tests_cant": "chains of references of any length", "anchors": ["capirca/lib/naming.py:Naming.GetIpParents"]}
{"id": "C47", "title": "Port parent queries are exact", "statement": "GetPortParents(port, protocol) lists, sorted and without duplicates, exactly the tokens whose flattened definition has an entry covering that port for that protocol.", "quantifier": "every set of definitions, every port number and protocol", "why_tests_cant": "chains of references of any length, all ranges", "anchors": ["capirca/lib/naming.py:Naming.GetPortParents", "capirca/lib/port.py:PPP"]}
{"id": "C48", "title": "Clean-up does not change what a term matches", "statement": "Translating a policy sorts, collapses and merges the address and port lists of a term; a packet matches the term afterwards iff it did before, and the clean-up does not fail.", "quantifier": "every term, every packet, with and without optimisation and address book", "why_tests_cant": "all lists of networks and ports", "anchors": ["capirca/lib/policy.py:Term.AddressCleanup", "capirca/lib/policy.py:Term.CollapsePortList"]}
{"id": "C49", "title": "Terms are accepted iff they are well formed", "statement": "The sanity check accepts a term iff it has an action, ports only with port protocols, layer-3 fields only without ether types, known ICMP types and codes, and TTL and traffic class in range; otherwise it raises a policy error.", "quantifier": "every term", "why_tests_cant": "combinations of all fields", "anchors": ["capirca/lib/policy.py:Term.SanityCheck"]}
{"id": "C50", "title": "Flattening does not change what a term matches", "statement": "FlattenAll replaces address lists and their exclusions by lists without exclusions that match the same packets.", "quantifier": "every term, every packet", "why_tests_cant": "all lists of networks", "anchors": ["capirca/lib/policy.py:Term.FlattenAll"]}
{"id": "C51", "title": "A translated term matches what its text says", "statement": "A term with port names is accepted only if the names define ports for a listed protocol, and then matches exactly the packets its fields and the defined ports allow.", "quantifier": "every set of definitions, every parsed term, every packet", "why_tests_cant": "all definitions and all terms", "anchors": ["capirca/lib/policy.py:Filter._TranslateTerms", "capirca/lib/policy.py:TranslatePorts"]}
{"id": "C52", "title": "Port arguments are validated", "statement": "Port(text) returns the integer the text denotes iff it lies in 0..65535, else raises BadPortRange; a text that is no integer raises BadPortValue.", "quantifier": "every text without blanks", "why_tests_cant": "all integers", "anchors": ["capirca/lib/port.py:Port", "capirca/lib/aclcheck.py:AclCheck.__init__"]}
{"id": "C53", "title": "Containment checks are exact", "statement": "The policy containment helpers answer yes for protocols iff every protocol of the inner list is in the outer one (an empty list meaning any), and for addresses only if every address the inner lists allow is allowed by the outer lists.", "quantifier": "every pair of lists", "why_tests_cant": "all lists of networks", "anchors": ["capirca/lib/policy.py:Term.CheckProtocolIsContained", "capirca/lib/policy.py:Term.CheckAddressIsContained"]}
{"id": "C54", "title": "Wrapped comments keep their text and fit", "statement": "WrapWords breaks comments into lines no longer than the given width and loses no character other than blanks.", "quantifier": "every list of comments, every width", "why_tests_cant": "all texts; the break positions depend on word lengths", "anchors": ["capirca/lib/aclgenerator.py:WrapWords"]}
{"id": "C55", "title": "Only known protocols reach a platform", "statement": "Creating a generator term raises for a protocol that is neither a known name nor a known number, and otherwise keeps every protocol or replaces it by its own number.", "quantifier": "every list of protocols", "why_tests_cant": "all lists of texts", "anchors": ["capirca/lib/aclgenerator.py:Term.__init__", "capirca/lib/aclgenerator.py:ProtocolNameToNumber"]}
{"id": "C56", "title": "Addresses are written as what they are", "statement": "The dotted-quad, colon-hex, prefix-length and wildcard-mask texts written into device configurations denote exactly the addresses of the network they were made from.", "quantifier": "every network of either family", "why_tests_cant": "2^32 and 2^128 addresses, every prefix length, every position of the longest run of zeros", "anchors": ["capirca/lib/cisco.py:Term._GetIpString", "capirca/lib/nacaddr.py:IPv4", "capirca/lib/nacaddr.py:IPv6"]}
{"id": "C57", "title": "An interrupted run is repaired by running again", "statement": "If a run of aclgen is interrupted while writing its files, whatever was written and even if the last file is cut short, running it again leaves every output file with the generated text (up to repository tag lines) and changes no other file.", "quantifier": "every set of policies, every disk, every crash point", "why_tests_cant": "crash points between and within all writes", "anchors": ["capirca/aclgen.py:WriteFiles", "capirca/aclgen.py:_WriteFile", "capirca/aclgen.py:FilesUpdated"]}
{"id": "C58", "title": "Every platform of a policy gets its file", "statement": "After a run every policy has, for each platform named in its headers, a file with the generated text (up to repository tag lines), and no file other than these has changed.", "quantifier": "every set of policies and platforms, every disk", "why_tests_cant": "all combinations of platforms and file contents", "anchors": ["capirca/aclgen.py:RenderFile", "capirca/aclgen.py:RenderACL", "capirca/aclgen.py:Run"]}
{"id": "C59", "title": "Comments do not change a Juniper filter", "statement": "The comments and owner of a policy term do not change what the generated Juniper configuration does: two terms that differ only there read as the same configuration.", "quantifier": "every term, every comment text", "why_tests_cant": "comment text is unbounded and reaches the output unescaped", "anchors": ["capirca/lib/juniper.py:Term.__str__", "capirca/lib/juniper.py:Config.Append"]}
{"id": "C60", "title": "A filter's default action and options are its own", "statement": "In a generated iptables table, the default action of a built-in chain is the one its own header names, and the options nostate and noverbose of one header do not affect the filters of other headers.", "quantifier": "every policy with any number of filters", "why_tests_cant": "state kept across filters shows only in particular sequences of headers", "anchors": ["capirca/lib/iptables.py:Iptables._TranslatePolicy", "capirca/lib/iptables.py:Iptables.__str__"]}
{"id": "C61", "title": "Generated iptables tables can be loaded", "statement": "In the text generated for a policy every chain is created once, before any rule is put into it or jumps to it.", "quantifier": "every policy, both for iptables and speedway", "why_tests_cant": "chain names are derived from filter and term names, which may collide in any combination", "anchors": ["capirca/lib/iptables.py:Term.__init__", "capirca/lib/iptables.py:Term.__str__", "capirca/lib/speedway.py:Term"]}
{"id": "C62", "title": "nftables chains are attached as the header says", "statement": "For each header of a policy rendered for nftables, the family of the table, the hook, the priority, the default policy, the names of table and chain, and whether the chain is attached to a hook at all, are those the options of the header ask for: family by the first word, hook by the second, policy accept exactly when ACCEPT is given, priority by the number given, names by the last value given, defaults otherwise.", "quantifier": "every list of header options and every policy that renders", "why_tests_cant": "Options can appear in any number and order, each shifting the words after it; unit tests cover a handful of orders.", "anchors": ["capirca/lib/nftables.py:Nftables._ProcessHeader", "capirca/lib/nftables.py:Nftables.__str__"]}
{"id": "C63", "title": "nftables rulesets load", "statement": "A ruleset rendered for nftables can be loaded: every chain that a rule calls is defined in the same table, and no chain is defined twice.", "quantifier": "every policy that renders, with any number of headers and terms", "why_tests_cant": "Collisions depend on the names of all headers and terms of a policy together.", "anchors": ["capirca/lib/nftables.py:Nftables._ConfigurationDictionary", "capirca/lib/nftables.py:Nftables.__str__"]}
{"id": "C64", "title": "Access lists with object groups decide as the policy", "statement": "A Cisco configuration generated for object-group filters, read section by section as a device does, with every net-group and port-group name looked up among the group definitions of the same configuration, permits and denies exactly the packets the terms in force do, first match first, for every header of the policy.", "quantifier": "every Cisco class (IOS, XR, Nexus), every date, every policy of object-group headers, every packet of the family", "why_tests_cant": "The names used in the rules and the definitions printed far above them must agree for all combinations of terms and headers; tests compare fixed texts and never resolve a reference.", "anchors": ["capirca/lib/cisco.py:ObjectGroup", "capirca/lib/cisco.py:ObjectGroupTerm", "capirca/lib/cisco.py:Cisco._TranslatePolicy", "capirca/lib/cisco.py:Cisco.__str__", "capirca/lib/ciscoxr.py:CiscoXR", "capirca/lib/cisconx.py:CiscoNX"]}
{"id": "C65", "title": "Layout of a policy does not matter", "statement": "Blanks, line ends and comments between the tokens of a policy file do not change what is parsed: every text made of the same tokens gives the same policy.", "quantifier": "every sequence of tokens, every layout of it", "why_tests_cant": "texts of any length and layout", "anchors": ["capirca/lib/policy.py:t_ignore", "capirca/lib/policy.py:t_STRING", "capirca/lib/policy.py:ParsePolicy"]}
{"id": "C66", "title": "The parser accepts exactly the grammar", "statement": "A sequence of tokens is parsed as a policy iff it is one by the grammar, and then as the one list of headers and terms the grammar gives; anything else is an error.", "quantifier": "every sequence of tokens", "why_tests_cant": "all sequences of tokens", "anchors": ["capirca/lib/policy.py:p_target", "capirca/lib/policy.py:p_terms", "capirca/lib/policy.py:p_term_spec", "capirca/lib/policy.py:ParsePolicy"]}
{"id": "C67", "title": "Statements accumulate", "statement": "A term holds every value of a repeated list keyword in the order of the text, the last value of a single-valued keyword, and the networks its address names stand for; a grammatical term is accepted iff its actions, logging values, dates and names are valid. Headers collect targets, comments and apply-groups.", "quantifier": "every list of statements, every set of definitions", "why_tests_cant": "all combinations and repetitions of keywords", "anchors": ["capirca/lib/policy.py:Term.AddObject", "capirca/lib/policy.py:Header.AddObject"]}
{"id": "C68", "title": "A parsed policy means what its text says", "statement": "For every policy text that parses, each term has the name, action, logging, options, comment and expiration of its text and matches exactly the packets that the statements of the text describe under the given definitions.", "quantifier": "every text, every set of definitions, every packet", "why_tests_cant": "all texts, definitions and packets", "anchors": ["capirca/lib/policy.py:ParsePolicy", "capirca/lib/policy.py:Policy.AddFilter", "capirca/lib/policy.py:Term.AddObject"]}
{"id": "C69", "title": "Quoted texts are kept", "statement": "A comment keeps its lines without their indentation; verbatim text reaches the output as written, with escaped quotes restored.", "quantifier": "every text", "why_tests_cant": "all texts", "anchors": ["capirca/lib/policy.py:VarType", "capirca/lib/policy.py:t_ESCAPEDSTRING", "capirca/lib/policy.py:p_verbatim_spec"]}
{"id": "C70", "title": "Expiration dates follow the calendar", "statement": "An expiration is accepted iff the day exists in the calendar, is compared in calendar order, and the last one given counts.", "quantifier": "every date", "why_tests_cant": "all years, months and days", "anchors": ["capirca/lib/policy.py:p_expiration_spec", "capirca/lib/policy.py:Term.AddObject"]}
{"id": "C71", "title": "GCE firewall rules decide as the policy", "statement": "The firewall rules generated for a header decide every packet of the header's network and direction as the first unexpired matching term does, and as the cloud's implied rule when no term matches.", "quantifier": "every policy and packet", "why_tests_cant": "rules are unordered and picked by priority; every set of terms and every packet", "anchors": ["capirca/lib/gce.py:GCE._TranslatePolicy", "capirca/lib/gce.py:Term.ConvertToDict", "capirca/lib/gcp.py"]}
{"id": "C72", "title": "GCE rules respect the limits of the cloud", "statement": "No generated rule exceeds the cloud's limits on names, descriptions, ranges, tags, accounts and ports, and when the first header states a maximum the attributes of all rules together stay within the largest stated maximum, or generation fails.", "quantifier": "every policy", "why_tests_cant": "all sizes of terms and all sequences of terms", "anchors": ["capirca/lib/gce.py:Term.ConvertToDict", "capirca/lib/gce.py:GCE._TranslatePolicy", "capirca/lib/gcp.py:GetAttributeCount", "capirca/lib/gce.py:GetNextRuleChunk"]}
{"id": "C73", "title": "GCE rule names are unique", "statement": "No two rules of a generated firewall have the same name, also when a term is split into several rules.", "quantifier": "every policy", "why_tests_cant": "all names, splits and address families", "anchors": ["capirca/lib/gce.py:Term.ConvertToDict", "capirca/lib/gce.py:GCE._TranslatePolicy"]}
{"id": "C74", "title": "GCE descriptions belong to their term", "statement": "The description of every rule is the comment and owner of the term it comes from, or the comment of the header when the term has none.", "quantifier": "every policy", "why_tests_cant": "all sequences of terms, because state is shared between them", "anchors": ["capirca/lib/gce.py:GCE._TranslatePolicy", "capirca/lib/gce.py:Term.ConvertToDict"]}
{"id": "C75", "title": "GCE generation is deterministic", "statement": "The same policy gives the same rules in every run of the program.", "quantifier": "every policy, every iteration order of sets", "why_tests_cant": "the iteration order of sets changes between runs", "anchors": ["capirca/lib/gce.py:GCE._TranslatePolicy", "capirca/lib/gce.py:GCE._SUPPORTED_AF"]}
{"id": "C76", "title": "The configuration generated from a policy text decides every packet as the text says", "statement": "For a policy text and its naming definitions, the nftables ruleset, the iptables or speedway table and the pcap filter that are generated from it decide every packet as the first term of the text, in the order and the words of the text, that has not expired on the day of the run and whose statements describe the packet; only the filters whose header names the platform count.", "quantifier": "every text, layout of its tokens, network and service definitions, day, and packet of the families of the filter", "why_tests_cant": "Tests run a handful of policy files through a generator and compare output literally; they never connect the words of the policy to what the rendered rules do to an arbitrary packet.", "anchors": ["capirca/lib/policy.py:ParsePolicy", "capirca/lib/policy.py:Header.FilterOptions", "capirca/lib/aclgenerator.py:ACLGenerator.__init__", "capirca/lib/nftables.py:Nftables._TranslatePolicy", "capirca/lib/iptables.py:Iptables._TranslatePolicy", "capirca/lib/pcap.py:PcapFilter._TranslatePolicy"]}
{"id": "C77", "title": "OpenConfig access lists decide as the policy", "statement": "For every list of OpenConfig filters whose terms use features that OpenConfig ACLs can express, the generated configuration has one access list per filter and address family (named as the filter, with 4 or 6 appended for mixed filters, typed by the family); each entry comes from one term in force, and a packet of the family gets from the list, reading the entries in the order of their sequence-ids, the outcome the policy gives it: the action of the first unexpired term of the filter that matches it, and no outcome when none does. Sequence-ids are unique in the whole configuration.", "quantifier": "all lists of filters, header options, terms with any addresses, exclusions, ports, protocols and options, all dates, all orders in which a set of families may be walked, all packets", "why_tests_cant": "the product of address, port and protocol lists of terms is explored by loops that share one dictionary; that no value sticks from one round to the next holds or fails for combinations of lists that tests sample only sparsely", "anchors": ["capirca/lib/openconfig.py: Term.ConvertToDict, OpenConfig._TranslatePolicy", "capirca/lib/policy.py: Term.FlattenAll, Term.GetAddressOfVersion", "capirca/lib/aclgenerator.py: ACLGenerator.__init__"]}
{"id": "C78", "title": "SONiC tables decide as the policy", "statement": "For a policy with a header for SONiC, the generated ACL_RULE table numbers its rules RULE_10, RULE_20, ... with distinct, falling priorities between 0 and 65526, and gives every packet of a family the header asks for the outcome of the first term in force that matches, and none when there is no such term, whatever the order in which the set of families is walked.", "quantifier": "all policies (any number of terms, addresses, ports, protocols, icmp types), all days, both orders of the families, all packets", "why_tests_cant": "the rules of a term are the product of its lists, built by updating one shared dictionary, and the numbering runs over all terms and families; tests compare a few outputs with stored text", "anchors": ["capirca/lib/sonic.py: Term.ConvertToDict, Sonic._TranslatePolicy", "capirca/lib/aclgenerator.py: Term.NormalizeIcmpTypes", "capirca/lib/policy.py: Term.GetAddressOfVersion"]}
{"id": "C79", "title": "Cloud Armor policies keep the limits and decide as the policy", "statement": "A Cloud Armor policy has at most 200 rules, each with one to five source ranges and a description of at most 64 characters; the rules of a header are numbered 1, 2, ... in the order of the terms, terms with many addresses being split; and every request of a family of the header gets the outcome of the first term that matches, and none when there is no such term.", "quantifier": "all policies (any number of headers, terms, addresses, comments of any length) for the limits; one header, all terms within the named hypotheses and all requests for the decisions", "why_tests_cant": "splitting, truncation and numbering interact for every number of addresses and length of comment; tests look at a few sizes", "anchors": ["capirca/lib/cloudarmor.py: Term.ConvertToDict, CloudArmor._TranslatePolicy, CloudArmor._BuildTokens"]}
{"id": "C80", "title": "Kubernetes network policies are accepted by the API server and permit what the policy accepts", "statement": "For every policy the Kubernetes generator accepts, each resource it writes is one the API server takes (a DNS name, a transport protocol, ports in range with the end not below the start, exceptions strictly inside their block), no two resources of a header share a name, and traffic to (or from) the pods is permitted by the resources exactly if some header for that direction has a first matching term in force that accepts.", "quantifier": "all policies (any number of headers and terms, any addresses, exclusions, ports and protocols), all days, both directions and all packets", "why_tests_cant": "The permitted set is a union over resources, whereas the policy is an ordered list; that the two agree depends on the order of all terms and on address arithmetic for every packet.", "anchors": ["capirca/lib/k8s.py:Term.__init__", "capirca/lib/k8s.py:Term.ConvertToDict", "capirca/lib/k8s.py:Term._validateDirection", "capirca/lib/k8s.py:IsDefaultDeny", "capirca/lib/k8s.py:K8s._TranslatePolicy"]}
{"id": "C81", "title": "Hierarchical firewall policies keep the limits of the cloud and decide as the policy", "statement": "For every policy the generator of Google hierarchical firewall policies accepts, with any number of headers, the rules are numbered 1, 2, ... in the order of the file, every rule keeps the limits of the cloud (ranges, ports, targets, length of the description), the name is one the cloud takes, the rules are charged no more than the limit of each header, and for each direction and family the matching rule with the lowest number decides as the first matching term of the headers for that direction and family.", "quantifier": "all policies (any number of headers and terms, any addresses, ports, protocols, targets and threat lists), both interface versions, all orders in which Python walks the sets of option names, both directions, both families and all packets", "why_tests_cant": "The numbering and the cost run across all headers, terms, families and chunks of 256 addresses; that the rules agree with the policy must hold for every packet and every number of addresses.", "anchors": ["capirca/lib/gcp_hf.py:Term.ConvertToDict", "capirca/lib/gcp_hf.py:Term._ValidateTerm", "capirca/lib/gcp_hf.py:HierarchicalFirewall._TranslatePolicy", "capirca/lib/gcp_hf.py:GetRuleTupleCount", "capirca/lib/gcp.py:IsDefaultDeny", "capirca/lib/gcp.py:IsProjectIDValid", "capirca/lib/gcp.py:IsVPCNameValid"]}
{"id": "C82", "title": "Aruba session access lists decide as the policy", "statement": "For every policy the generator of Aruba session access lists renders, the text is a configuration of the device: one access list for each header, in order and with the name the header gives, every alias a list refers to is defined before it, and the list gives each packet of the header's family the outcome of the first term in force that matches it, and leaves all other packets undecided.", "quantifier": "all policies (any number of headers and terms, any addresses, ports, protocols, options and comments), all dates and all packets of both families", "why_tests_cant": "The rules of a list refer by name to groups of addresses written elsewhere in the text, for all headers together; that the names resolve to the addresses of the term, and that the list then agrees with the policy, must hold for every set of names, every number of addresses and every packet.", "anchors": ["capirca/lib/aruba.py:Term.__str__", "capirca/lib/aruba.py:Term._GenerateNetdest", "capirca/lib/aruba.py:Term._GenerateNetworkOrHostTokens", "capirca/lib/aruba.py:Term._GeneratePortTokens", "capirca/lib/aruba.py:Aruba._TranslatePolicy", "capirca/lib/aruba.py:Aruba.__str__"]}
{"id": "C83", "title": "Cisco ASA access lists decide as the policy", "statement": "For every policy the generator of Cisco ASA access lists renders, the text is a configuration of the device: it has rules only for the lists the headers name, and each of these lists gives every IPv4 packet the outcome of the first term in force that matches it, and leaves all other packets undecided.", "quantifier": "all policies (any number of headers and terms, any addresses, exclusions, ports, protocols, ICMP types, logging, owners and comments), all dates and all IPv4 packets", "why_tests_cant": "Each term is written as the product of its addresses, ports, protocols and types, with names for some of the numbers, and the device executes the text line by line; that the resulting lists agree with the policy must hold for every combination and every packet.", "anchors": ["capirca/lib/ciscoasa.py:Term.__str__", "capirca/lib/ciscoasa.py:Term._TermletToStr", "capirca/lib/cisco.py:PortMap.GetProtocol", "capirca/lib/ciscoasa.py:CiscoASA._BuildTokens", "capirca/lib/ciscoasa.py:CiscoASA._TranslatePolicy", "capirca/lib/ciscoasa.py:CiscoASA.__str__"]}
{"id": "C84", "title": "Juniper SRX security policies decide as the policy", "statement": "For every policy the generator of Juniper SRX configurations renders, the text is a configuration of the device, and between the zones of every header it gives each packet the outcome of the first term in force that matches it, of all headers for these zones, and none if there is no such term; the names in the address book and the applications stand for the addresses, ports and types of the terms that use them.", "quantifier": "all policies (any number of headers and terms, any addresses, exclusions, ports, protocols and ICMP types), all dates and all packets of the families the headers ask for", "why_tests_cant": "The addresses of all terms go into one book per zone or one for the device, the ports and types into shared applications whose names are made up or found again, and large terms are split; that the names still mean what each term meant depends on all terms of all headers at once.", "anchors": ["capirca/lib/junipersrx.py:Term.__str__", "capirca/lib/junipersrx.py:Term._Group", "capirca/lib/junipersrx.py:JuniperSRX._TranslatePolicy", "capirca/lib/junipersrx.py:JuniperSRX._FixLargePolices", "capirca/lib/junipersrx.py:JuniperSRX._BuildAddressBook", "capirca/lib/junipersrx.py:JuniperSRX._BuildPort", "capirca/lib/junipersrx.py:JuniperSRX._GenerateAddressBook", "capirca/lib/junipersrx.py:JuniperSRX._GenerateApplications", "capirca/lib/junipersrx.py:JuniperSRX.__str__"]}
{"id": "C85", "title": "Packet Filter rules decide as the policy", "statement": "For every policy the generator of Packet Filter (pf.conf) rules renders, the text is a configuration, and it gives each packet, on its way in or out, the outcome of the first term in force that matches it, of the terms of all headers for its family and direction, and none if there is no such term; the tables the rules refer to hold the addresses the names in the terms stand for.", "quantifier": "all policies (any number of headers and terms, any addresses, ports, protocols, flags, interfaces and ICMP types), all dates and all packets", "why_tests_cant": "The addresses of all terms of all headers go into tables shared by name, with names that are cut short, the rules are read with lists multiplied out and with flags and state that default to something else than any; that they still mean what each term meant depends on all of the policy at once.", "anchors": ["capirca/lib/packetfilter.py:Term.__str__", "capirca/lib/packetfilter.py:Term._FormatPart", "capirca/lib/packetfilter.py:Term._GenerateAddrStatement", "capirca/lib/packetfilter.py:Term._GeneratePortStatement", "capirca/lib/packetfilter.py:Term._GenerateProtoStatement", "capirca/lib/packetfilter.py:PacketFilter._TranslatePolicy", "capirca/lib/packetfilter.py:PacketFilter.__str__"]}
{"id": "C86", "title": "Windows advanced firewall commands decide as the policy", "statement": "For every policy the generator for the advanced firewall of Windows renders, each line is a label or a command the firewall accepts, and the rules they add treat each packet, on its way in or out, as the policy file says: it is blocked if a term in force for its direction and family denies it, allowed if one accepts it and none denies it, and otherwise left to the defaults; where terms that deny come first, this is the decision of the first term that matches.", "quantifier": "all policies (any number of headers and terms, any addresses, ports, protocols and ICMP types), all dates and all packets", "why_tests_cant": "Each term is multiplied out over addresses and protocols, source and destination change places with the direction, whole families are written as any, and the firewall looks at all rules at once, blocks first; whether this still is what the file says depends on all terms and all packets.", "anchors": ["capirca/lib/windows.py:Term.__str__", "capirca/lib/windows.py:WindowsGenerator._TranslatePolicy", "capirca/lib/windows.py:WindowsGenerator.__str__", "capirca/lib/windows_advfirewall.py:Term._ComposeRule", "capirca/lib/windows_advfirewall.py:Term._HandleIcmpTypes", "capirca/lib/windows_advfirewall.py:Term._CartesianProduct", "capirca/lib/windows_advfirewall.py:Term._ComposePortString"]}
{"id": "C87", "title": "NSX-T policies decide as the policy file", "statement": "For every policy the NSX-T generator renders, the rules of the security policy, read in order, treat each packet as the first term in force that matches it says: allow, drop or reject; the interface accepts the groups of addresses, and the policy carries the name, number and scope of its header.", "quantifier": "all policies (any number of headers and terms, any addresses, ports, protocols and ICMP types), all dates, all packets", "why_tests_cant": "Addresses of both families are mixed, collapsed, cut out and written as text, an empty list means any, and services are listed one by one for each protocol and type; whether this still is what the file says depends on all terms and all packets.", "anchors": ["capirca/lib/nsxt.py:Term.__str__", "capirca/lib/nsxt.py:Term.get_ports", "capirca/lib/nsxt.py:Nsxt._TranslatePolicy", "capirca/lib/nsxt.py:Nsxt._ParseFilterOptions", "capirca/lib/nsxt.py:Nsxt.__str__"]}
{"id": "C88", "title": "Whole Juniper configurations decide as the policy file", "statement": "For every policy the Juniper generator renders, the configuration holds exactly the filters its headers ask for, one for each name and family, two for a header of type mixed, and each filter treats each packet of its family as the first term in force that matches it says.", "quantifier": "all policies (any number of headers of type inet, inet6, bridge and mixed, any number of terms), all dates, all packets", "why_tests_cant": "The two filters of a mixed header are made from the same term objects, which both passes and both renderings change; whether what the first does spoils the second depends on all terms, protocols and options together.", "anchors": ["capirca/lib/juniper.py:Juniper._TranslatePolicy", "capirca/lib/juniper.py:Juniper.__str__", "capirca/lib/juniper.py:Term.__init__", "capirca/lib/juniper.py:Term.__str__"]}
{"id": "C89", "title": "Windows IPsec commands give each filter's rules the verdicts of its terms", "statement": "For every policy the Windows IPsec generator renders, all commands are accepted, every rule belongs to the policy the commands create, and the verdicts a filter's rules have for a packet are those of its terms in force that match the packet or its answer.", "quantifier": "all policies (any number of headers, terms, addresses and ports), all dates, all IPv4 packets", "why_tests_cant": "Lists, actions, filters and rules are separate objects linked by names made of one letter and the name of a term, and each term becomes the product of its addresses, protocols and single ports; whether they say the same as the term depends on all of them at once.", "anchors": ["capirca/lib/windows_ipsec.py:Term", "capirca/lib/windows_ipsec.py:WindowsIPSec", "capirca/lib/windows.py:Term.__str__", "capirca/lib/windows.py:WindowsGenerator"]}
{"id": "C90", "title": "Terraform firewalls decide as the policy says, in the order of its terms", "statement": "For every policy the Terraform generator renders, the firewall rules declared for a header's network and direction give each packet the verdict of the first term in force that matches it, or the verdict of the cloud when there is none; and rules are numbered in the order of the policy.", "quantifier": "all policies (any number of headers, terms, addresses, ports and tags), all dates, all packets of the families of the header", "why_tests_cant": "The order of terms survives only as numbers counted over rules, families, chunks of 256 ranges and headers, and a term may become any number of rules, stored in dictionaries by name; whether the cloud's choice by number gives the first match depends on all of them at once.", "anchors": ["capirca/lib/gce_vpc_tf.py:Term", "capirca/lib/gce_vpc_tf.py:Term.ConvertToDict", "capirca/lib/gce_vpc_tf.py:TerraformGCE", "capirca/lib/gce_vpc_tf.py:GetNextPriority"]}
{"id": "C91", "title": "Policies read without expansion say what the file says, and searches find the terms asked for", "statement": "Reading a policy file with the policy reader gives its filters and terms with the values of their fields; and a search by address and port reports exactly the terms that name a definition which contains them.", "quantifier": "all policy files (any number of lines, filters, terms and fields, any blanks and quoted texts), all definition files, all addresses and ports searched for", "why_tests_cant": "The reader follows the file line by line with flags for headers, terms and quoted texts, and filters are shared objects; the search walks definitions of any depth. Examples cover a few layouts and definitions only.", "anchors": ["capirca/lib/policyreader.py:Policy", "capirca/lib/policyreader.py:Policy.Matches", "capirca/lib/naming.py:Naming.GetIpParents", "capirca/lib/naming.py:Naming.GetServiceParents"]}
{"id": "C92", "title": "Address sets hold, and rules match, exactly the addresses of their terms", "statement": "The set commands written for a policy run without failure, and with the sets they make, the address conditions of a term's rules are met by exactly the addresses the term names in the family of its filter, without its exclusions; set names never exceed 31 characters.", "quantifier": "all lists of terms in filters of either family, with any number of addresses and exclusions, with and without the option exists", "why_tests_cant": "Sets are written apart from the rules that use them, under names cut to a fixed length, and with capacities computed from the number of members; whether the two parts agree depends on all terms of a policy at once.", "anchors": ["capirca/lib/ipset.py:Term._CalculateAddrList", "capirca/lib/ipset.py:Term._GenerateAddressStatement", "capirca/lib/ipset.py:Term._GenerateSetName", "capirca/lib/ipset.py:Ipset._GenerateSetConfig"]}
{"id": "C93", "title": "Looking up definitions reports exactly what they contain", "statement": "Looking up an address reports exactly the definitions that contain it, behind the definitions that contain those, with the networks that matched and longer prefixes first; comparing two addresses splits the reports into common ones and those of one only; asking whether an address is in a definition, whether a definition is within another, for the union of two definitions or for the services of a port answers as the definitions say.", "quantifier": "all definition files that load, all addresses, ports, protocols and pairs of definitions", "why_tests_cant": "Definitions nest to any depth and the answers combine reverse and forward lookups; the reports are used to decide which policies a change affects, and a missing entry is not visible.", "anchors": ["tools/cgrep.py:get_ip_parents", "tools/cgrep.py:get_nets_and_highest_prefix", "tools/cgrep.py:group_diff", "tools/cgrep.py:check_encapsulated", "tools/cgrep.py:compare_tokens", "tools/cgrep.py:compare_ip_token", "tools/cgrep.py:get_services"]}
{"id": "C94", "title": "NSX-V sections decide as the policy file says", "statement": "The section that is written for a policy can be read as XML, carries the name and number of the header whatever policies were generated before, applies each rule to the security group of the header, and the first rule that matches a packet of the families of the header has the action of the first term in force that matches it; terms for established connections are left to the firewall.", "quantifier": "all policies with one filter for the platform, all numbers of terms, addresses, exclusions, protocols, ports and ICMP types, all packets of the families of the header, all generators made before", "why_tests_cant": "Exclusions, families, defaults for empty sides and the layout of the XML interact for any number of terms, and the options of the section are kept in an object that is shared between generators.", "anchors": ["capirca/lib/nsxv.py:Term.__str__", "capirca/lib/nsxv.py:Term._ServiceToString", "capirca/lib/nsxv.py:Nsxv._TranslatePolicy", "capirca/lib/nsxv.py:Nsxv._ParseFilterOptions", "capirca/lib/nsxv.py:Nsxv.__str__"]}
{"id": "C95", "title": "Junos Evo protocol conditions are written as documented", "statement": "In an IPv6 filter with a direction, each protocol of a term, and each excepted one, is written with the keyword and the word the documentation gives for the direction and the kind of interface; a term is left out exactly if ICMP is its only protocol; a filter without a direction is refused.", "quantifier": "all lists of protocols and excepted protocols, all words of the header", "why_tests_cant": "The keyword of a condition is chosen once for all protocols of a term, from the direction, the interface and whether extension headers are among them; the combinations cannot be listed.", "anchors": ["capirca/lib/juniperevo.py:Term.__str__", "capirca/lib/juniperevo.py:Term._Ipv6ProtocolMatch", "capirca/lib/juniper.py:Juniper._TranslatePolicy", "capirca/lib/aclgenerator.py:ProtocolNameToNumber", "doc/generators/juniperevo.md"]}
{"id": "C96", "title": "MS-MPC application sets say what the terms say", "statement": "When the terms of an MS-MPC filter are accepted, the applications written can be read, and the application set a term refers to, whether its own or one shared with another term, is matched exactly by the traffic of the protocols, ports and ICMP types of the term; a filter whose shortened term names differ is accepted.", "quantifier": "all filters, all lists of terms, all packets", "why_tests_cant": "Sets are shared between terms with equal content, named by shortened names, and expanded into products of protocols and ports numbered across a filter; no list of examples covers how names, sharing and numbers combine.", "anchors": ["capirca/lib/junipermsmpc.py:Term.__init__", "capirca/lib/junipermsmpc.py:JuniperMSMPC._BuildPort", "capirca/lib/junipermsmpc.py:JuniperMSMPC._GenerateApplications", "capirca/lib/junipermsmpc.py:JuniperMSMPC._TranslatePolicy"]}
{"id": "C97", "title": "MS-MPC headers are accepted exactly with the documented options", "statement": "A header of an MS-MPC filter is accepted exactly if the options after its name are, in any order, at most one address family, at most one direction and at most one noverbose; the family, the direction and the choice of comments are then those named, or mixed, both directions and with comments.", "quantifier": "all lists of options in all orders", "why_tests_cant": "Options come in any number and order, and an option that is accepted twice or dropped changes the direction or the family of a whole filter.", "anchors": ["capirca/lib/junipermsmpc.py:JuniperMSMPC._TranslatePolicy"]}
{"id": "C98", "title": "MS-MPC address blocks have exactly the addresses of the term", "statement": "In the rule of an address family, the source-address or destination-address block of an MS-MPC term can be read by the device, has no IPv6 prefix of a length from 1 to 15, and has exactly the addresses the term gives minus those it excludes; the rule is left out only if no address of the family is left, and the block only if the term names no addresses.", "quantifier": "all lists of addresses and exclusions of both families", "why_tests_cant": "Short IPv6 prefixes are written as up to 32768 prefixes, for addresses and exclusions alike, and which entry decides depends on the lengths of all the entries that hold an address.", "anchors": ["capirca/lib/junipermsmpc.py:Term.__str__", "capirca/lib/juniper.py:Term._MinimizePrefixes"]}
