#!/usr/bin/env python3
"""Writes /verif/properties.jsonl from the table below (one row per property)."""
import json
P = []
def p(id, title, statement, quantifier, why, anchors):
    P.append(dict(id=id, title=title, statement=statement, quantifier=quantifier,
                  why_tests_cant=why, anchors=anchors))
NA='capirca/lib/nacaddr.py:'; PO='capirca/lib/policy.py:'; IU='capirca/utils/iputils.py:'
SU='capirca/lib/summarizer.py:'; NM='capirca/lib/naming.py:'; AG='capirca/lib/aclgenerator.py:'
AC='capirca/lib/aclcheck.py:'; CI='capirca/lib/cisco.py:'; IT='capirca/lib/iptables.py:'
JU='capirca/lib/juniper.py:'; NF='capirca/lib/nftables.py:'; PC='capirca/lib/pcap.py:'
GE='capirca/aclgen.py:'; PT='capirca/lib/port.py:'; CF='capirca/utils/config.py:'
p('C01','Collapsing preserves the address set',
  'Whenever nacaddr.CollapseAddrList returns, an IP address is covered by the returned list iff it is covered by the input list, whatever exclusion list is passed.',
  'every list of v4/v6 networks, every exclusion list, every IP address of either family',
  'the number of networks, nesting depth and merge cascades are unbounded; a single wrong merge opens or closes addresses nobody tested',
  [NA+'CollapseAddrList',NA+'_CollapseAddrListInternal',NA+'_SafeToMerge'])
p('C02','Collapsing yields the canonical minimal list',
  'Without an exclusion list, CollapseAddrList returns prefixes in ascending order, pairwise disjoint, with no two that could be joined into their common parent; two inputs covering the same addresses give the same prefixes, so the result does not depend on order or duplication and collapsing twice changes nothing.',
  'every pair of lists of networks of both families',
  'canonicity relates all pairs of inputs with equal coverage',
  [NA+'CollapseAddrList',NA+'_CollapseAddrListInternal'])
p('C03','Collapsing never fails',
  'CollapseAddrList returns a list for every input (it never raises).',
  'every list of networks and every exclusion list','a crash needs a particular interleaving of families and equal network addresses',
  [NA+'_SafeToMerge'])
p('C04','Exclusion-aware collapsing does not reverse intent',
  'If CollapseAddrList is given the exclusions, then under most-specific-prefix matching (excludes winning ties) every address gets the same verdict from (collapsed list, exclusions) as from (original list, exclusions).',
  'every address list, exclusion list and IP address','interaction of three nested prefixes at arbitrary depths',
  [NA+'CollapseAddrList',NA+'_SafeToMerge'])
p('C05','Collapsing keeps every comment',
  'Every comment of every input network is contained in the comment of a returned network that covers it.',
  'every list of commented networks','comments travel through arbitrarily long merge cascades',
  [NA+'_CollapseAddrListInternal',NA+'IPv4.AddComment'])
p('C06','Removing an address is exact set difference',
  'RemoveAddressFromList(L, x) returns networks covering exactly the addresses covered by L and not by x.',
  'every list, every network x','subtraction splits one prefix into up to 128 pieces; every split point matters',
  [NA+'RemoveAddressFromList',IU+'exclude_address'])
p('C07','Excluding a list is exact set difference',
  'AddressListExclude(S, E) returns networks covering exactly the addresses covered by S and not by E, for both settings of collapse_addrs.',
  'every superset list and exclude list, both families','the two-stack walk depends on sort order and on the pieces pushed back',
  [NA+'AddressListExclude'])
p('C08','Token-preserving collapse keeps coverage and attribution',
  'CollapseAddrListPreserveTokens returns networks covering exactly the input addresses, and every returned network carries a parent token of some input network.',
  'every list of token-carrying networks','grouping, sorting and de-duplication over unbounded groups',
  [NA+'CollapseAddrListPreserveTokens'])
p('C09','Single-network exclusion is an exact partition',
  'iputils.exclude_address(base, ex) yields pairwise disjoint, valid networks of the same family whose union is base minus ex.',
  'every pair of networks with ex inside base','the bit-level range summarisation has one case per bit position of each end point',
  [IU+'exclude_address'])
p('C10','Sorting is by family, address and mask',
  'SortAddrList returns a permutation of its input ordered by family, then network address, then prefix length.',
  'every list of networks','all permutations',[NA+'SortAddrList'])
p('C11','Port-list collapsing preserves the port set',
  'Policy translation of port lists keeps exactly the same set of ports, and emits ascending ranges.',
  'every list of well-formed port ranges','all overlapping/adjacent patterns of unboundedly many ranges',
  [PO+'Term.CollapsePortList'])
p('C12','Collapsed port ranges are disjoint and non-adjacent',
  'After collapsing, no two emitted port ranges overlap or touch.',
  'every list of well-formed port ranges','boundary equality cases',[PO+'Term.CollapsePortList'])
p('C13','Port containment test is sound',
  'If the containment check used by shade detection says one port list is inside another, every port of the first is in the second; on collapsed lists the converse holds too when ranges are separated.',
  'every pair of range lists','unbounded lists',[PO+'Term.CheckPortIsContained'])
p('C14','Shade detection is sound',
  'When a policy is rejected or warned because an earlier term shades a later one, every packet matched by the later term is matched by the earlier one.',
  'every pair of terms and every packet','quantifies over packets and over every combination of match fields',
  [PO+'Term.__contains__',PO+'Policy._DetectShading'])
p('C15','DSM summarisation preserves the address set',
  'summarizer.Summarize returns (network, mask) pairs matching exactly the addresses of the input networks.',
  'every list of networks','pairing of networks one bit apart is iterated to a fixpoint',
  [SU+'Summarize',SU+'_SummarizeSameMask'])
p('C16','Dotted-quad conversion is exact',
  'The dotted-quad text produced for a network and mask denotes the same integers, and out-of-range integers are rejected.',
  'every 32-bit integer and mask','2^32 values each',[SU+'ToDottedQuad',SU+'_Int32ToDottedQuad'])
p('C17','Undefined tokens are rejected when definitions are loaded',
  'If loading definition files succeeds, every token referenced in a definition is itself defined.',
  'every definitions text','all texts and all orders of lines',
  [NM+'Naming._ParseLine',NM+'Naming._CheckUnseen'])
p('C18','Network lookup returns exactly the flattened definition',
  'For acyclic definitions GetNetAddr/GetNet terminates and returns exactly the networks reachable from the token through nested tokens, each labelled with the defining token and the requested token.',
  'every definition table, every token','nesting depth is unbounded',[NM+'Naming.GetNet'])
p('C19','Service lookup returns exactly the flattened definition',
  'For acyclic definitions GetService terminates and returns exactly the port/protocol entries reachable from the token; GetServiceByProto returns exactly those of the protocol asked for.',
  'every definition table, every token and protocol','nesting depth is unbounded',
  [NM+'Naming.GetService',NM+'Naming.GetServiceByProto'])
p('C20','Lookups terminate',
  'GetNet, GetService and the parent queries terminate for every definitions text that loads successfully.',
  'every definition table','cyclic definitions of every length',[NM+'Naming.GetNet',NM+'Naming.GetService',NM+'Naming._GetParents'])
p('C21','Checker finds the term that decides a packet',
  'AclCheck reports, for a packet and a filter, the first term whose conditions the packet meets, and reports nothing after an exact match.',
  'every policy and every packet','first-match over unboundedly many terms',[AC+'AclCheck.__init__'])
p('C22','Includes stay inside the base directory and terminate',
  'Policy includes are only read from below the base directory and expansion terminates with an error when nesting exceeds the limit, even for cyclic includes.',
  'every policy text, file tree and base directory','cyclic and hostile file trees',
  [PO+'_Preprocess',PO+'_SubDirectory'])
p('C23','Term names never exceed the platform limit',
  'FixTermLength returns a name no longer than the limit or raises; without abbreviation or truncation it returns the name unchanged or raises.',
  'every name, every flag combination, every limit','all strings',[AG+'ACLGenerator.FixTermLength'])
p('C24','Established terms only ever gain the high port range',
  'FixHighPorts leaves terms without the established options unchanged, and otherwise leaves destination ports covering exactly the original ports plus 1024-65535 (tcp/udp only) or raises.',
  'every term','every protocol/option/port combination',[AG+'ACLGenerator.FixHighPorts'])
p('C25','No term feature is silently dropped',
  'Building a generator for a policy either raises or every non-empty field of every term rendered for that platform is in the set of fields the platform supports.',
  'every policy and every supported-token table','every field combination',[AG+'ACLGenerator.__init__'])
p('C26','ICMP type names map to the right family numbers',
  'NormalizeIcmpTypes returns the sorted numbers of exactly the named types for the address family or raises when the protocol does not match the family or a name is unknown.',
  'every list of names, protocol list and family','all lists',[AG+'Term.NormalizeIcmpTypes'])
p('C27','Truncated comments respect the limit',
  'TruncateWords never returns more than the requested number of characters plus its two quotes.',
  'every list of words and limit','all strings',[AG+'TruncateWords'])
p('C28','Cisco extended ACL matches exactly the term',
  'The access-list lines emitted for a term match a packet iff the term does (after exclusion).',
  'every term of the modelled fragment, every packet','cartesian expansion over unbounded address/port lists',
  [CI+'Term.__str__',CI+'Term._TermletToStr'])
p('C29','Cisco port normalisation preserves the port set',
  'Replacing two-port ranges by two single ports leaves the set of ports unchanged.',
  'every port list','all lists',[CI+'Term._FixConsecutivePorts'])
p('C30','Removing duplicate object groups keeps every reference valid',
  'With remove_duplicate_network_objectgroups, every network group an access list refers to after the removal is defined and has the members that the group named there before the removal had.',
  'every generated configuration','duplicates may occur in any number and order',[CI+'Cisco._remove_duplicate_objects',CI+'Cisco._get_duplicate_object_groups',CI+'Cisco._replace_object_groups_references'])
p('C31','iptables chains match exactly the term',
  'The rules emitted for a term apply the term action to a packet iff the term (after exclusion) matches it.',
  'every term of the modelled fragment, every packet','choice between exclusion and bail-out encodings depends on list sizes',
  [IT+'Term.__str__',IT+'Term._CalculateAddresses'])
p('C32','iptables multiport batches respect the kernel limit',
  'Splitting ports for multiport matches keeps every port in exactly the emitted statements and never puts more than 15 ports in one.',
  'every port list','batch boundary at every length',[IT+'Term._GeneratePortStatement'])
p('C33','Juniper prefix minimisation preserves longest-match semantics',
  'The minimised include/except lists give every address the same longest-prefix verdict as the original lists.',
  'every include/exclude list and address','nested prefixes at arbitrary depth',[JU+'Term._MinimizePrefixes'])
p('C34','Juniper terms match no more than they say',
  'A rendered Juniper term constrains every match field present in the term.',
  'every term','every combination of fields',[JU+'Term.__str__'])
p('C35','nftables rules match exactly the term',
  'The rules emitted for a term match a packet iff the term (after exclusion) does.',
  'every term of the modelled fragment, every packet','statement grouping is per family, protocol and port combination',
  [NF+'Term.PortsAndProtocols',NF+'Term.GroupExpressions',NF+'Term.RulesetGenerator'])
p('C36','pcap filter matches exactly the accepted packets',
  'The generated pcap expression selects a packet iff the policy accepts it.',
  'every policy, every packet','boolean combination of unboundedly many terms',[PC+'Term.__str__',PC+'PcapFilter.__str__'])
p('C37','Unchanged output is not rewritten',
  'A file is rewritten iff its new content differs from the old one in a line that is not a repository tag.',
  'every old/new content','all texts',[GE+'FilesUpdated'])
p('C38','Sequential and parallel runs write the same files',
  'Processing policies with one worker or with several gives the same list of files to write.',
  'every set of policies, every schedule','schedules',[GE+'Run'])
p('C39','Configuration precedence',
  'A configuration value is taken from the config files if set there, else from the command line, else from the defaults, later config files winning.',
  'every set of configs','all combinations',[CF+'generate_configs'])
p('C40','Expired terms are never rendered',
  'A term whose expiration date is today or earlier produces no rule.',
  'every policy and date','all dates',[CI+'Cisco._TranslatePolicy',IT+'Iptables._TranslatePolicy',JU+'Juniper._TranslatePolicy',NF+'Nftables._TranslatePolicy'])
p('C41','Every summarised IPv4 list can be rendered',
  'Every (address, mask) pair summarizer.Summarize returns for an IPv4 list can be rendered by ToDottedQuad.',
  'every list of IPv4 networks','needs a list whose summary mask has its top bit clear',[SU+'Summarize',SU+'ToDottedQuad'])
p('C42','Parent queries list exactly the containing tokens',
  'GetServiceParents/GetNetParents name a token iff its flattened definition refers to the queried one, directly or through other tokens.',
  'every set of definitions, every query','chains of references of any length',[NM+'Naming._GetParents',NM+'Naming.GetServiceParents'])
p('C43','Port names translate to the defined ports',
  'TranslatePorts(ports, protocols) yields exactly the ranges that the definitions give for a named service and a listed protocol.',
  'every set of definitions, ports and protocols','unbounded definitions, all numerals',[PO+'TranslatePorts',NM+'Naming.GetServiceByProto'])
p("C44","Definition files load to what they say","A well-formed pair of definition documents loads successfully, and the tables hold exactly the names in order with exactly the values (and comments) written on their lines and continuation lines.","every pair of well-formed documents, any number of lines","all documents, all interleavings of definition, continuation and comment lines",["capirca/lib/naming.py:Naming._ParseLine","capirca/lib/naming.py:Naming.ParseServiceList"])
p("C45","Translated ports belong to their protocol","If a term lists several protocols, a port obtained from a named service applies only to the protocols the service is defined for.","every set of definitions, ports and protocols","combinations of definitions and protocols",["capirca/lib/policy.py:TranslatePorts","capirca/lib/policy.py:Policy._TranslateTerms"])
p("C46","IP parent queries are exact","GetIpParents(address) lists, sorted and without duplicates, exactly the tokens whose flattened definition contains the address.","every set of definitions, every address","chains of references of any length",["capirca/lib/naming.py:Naming.GetIpParents"])
p("C47","Port parent queries are exact","GetPortParents(port, protocol) lists, sorted and without duplicates, exactly the tokens whose flattened definition has an entry covering that port for that protocol.","every set of definitions, every port number and protocol","chains of references of any length, all ranges",["capirca/lib/naming.py:Naming.GetPortParents","capirca/lib/port.py:PPP"])
p("C48","Clean-up does not change what a term matches","Translating a policy sorts, collapses and merges the address and port lists of a term; a packet matches the term afterwards iff it did before, and the clean-up does not fail.","every term, every packet, with and without optimisation and address book","all lists of networks and ports",["capirca/lib/policy.py:Term.AddressCleanup","capirca/lib/policy.py:Term.CollapsePortList"])
p("C49","Terms are accepted iff they are well formed","The sanity check accepts a term iff it has an action, ports only with port protocols, layer-3 fields only without ether types, known ICMP types and codes, and TTL and traffic class in range; otherwise it raises a policy error.","every term","combinations of all fields",["capirca/lib/policy.py:Term.SanityCheck"])
p("C50","Flattening does not change what a term matches","FlattenAll replaces address lists and their exclusions by lists without exclusions that match the same packets.","every term, every packet","all lists of networks",["capirca/lib/policy.py:Term.FlattenAll"])
p("C51","A translated term matches what its text says","A term with port names is accepted only if the names define ports for a listed protocol, and then matches exactly the packets its fields and the defined ports allow.","every set of definitions, every parsed term, every packet","all definitions and all terms",["capirca/lib/policy.py:Filter._TranslateTerms","capirca/lib/policy.py:TranslatePorts"])
p("C52","Port arguments are validated","Port(text) returns the integer the text denotes iff it lies in 0..65535, else raises BadPortRange; a text that is no integer raises BadPortValue.","every text without blanks","all integers",["capirca/lib/port.py:Port","capirca/lib/aclcheck.py:AclCheck.__init__"])
p("C53","Containment checks are exact","The policy containment helpers answer yes for protocols iff every protocol of the inner list is in the outer one (an empty list meaning any), and for addresses only if every address the inner lists allow is allowed by the outer lists.","every pair of lists","all lists of networks",["capirca/lib/policy.py:Term.CheckProtocolIsContained","capirca/lib/policy.py:Term.CheckAddressIsContained"])
p("C54","Wrapped comments keep their text and fit","WrapWords breaks comments into lines no longer than the given width and loses no character other than blanks.","every list of comments, every width","all texts; the break positions depend on word lengths",["capirca/lib/aclgenerator.py:WrapWords"])
p("C55","Only known protocols reach a platform","Creating a generator term raises for a protocol that is neither a known name nor a known number, and otherwise keeps every protocol or replaces it by its own number.","every list of protocols","all lists of texts",["capirca/lib/aclgenerator.py:Term.__init__","capirca/lib/aclgenerator.py:ProtocolNameToNumber"])
p("C56","Addresses are written as what they are","The dotted-quad, colon-hex, prefix-length and wildcard-mask texts written into device configurations denote exactly the addresses of the network they were made from.","every network of either family","2^32 and 2^128 addresses, every prefix length, every position of the longest run of zeros",["capirca/lib/cisco.py:Term._GetIpString","capirca/lib/nacaddr.py:IPv4","capirca/lib/nacaddr.py:IPv6"])
p("C57","An interrupted run is repaired by running again","If a run of aclgen is interrupted while writing its files, whatever was written and even if the last file is cut short, running it again leaves every output file with the generated text (up to repository tag lines) and changes no other file.","every set of policies, every disk, every crash point","crash points between and within all writes",["capirca/aclgen.py:WriteFiles", "capirca/aclgen.py:_WriteFile", "capirca/aclgen.py:FilesUpdated"])
p("C58","Every platform of a policy gets its file","After a run every policy has, for each platform named in its headers, a file with the generated text (up to repository tag lines), and no file other than these has changed.","every set of policies and platforms, every disk","all combinations of platforms and file contents",["capirca/aclgen.py:RenderFile", "capirca/aclgen.py:RenderACL", "capirca/aclgen.py:Run"])
p("C59","Comments do not change a Juniper filter","The comments and owner of a policy term do not change what the generated Juniper configuration does: two terms that differ only there read as the same configuration.","every term, every comment text","comment text is unbounded and reaches the output unescaped",["capirca/lib/juniper.py:Term.__str__", "capirca/lib/juniper.py:Config.Append"])
p("C60","A filter's default action and options are its own","In a generated iptables table, the default action of a built-in chain is the one its own header names, and the options nostate and noverbose of one header do not affect the filters of other headers.","every policy with any number of filters","state kept across filters shows only in particular sequences of headers",["capirca/lib/iptables.py:Iptables._TranslatePolicy", "capirca/lib/iptables.py:Iptables.__str__"])
p("C61","Generated iptables tables can be loaded","In the text generated for a policy every chain is created once, before any rule is put into it or jumps to it.","every policy, both for iptables and speedway","chain names are derived from filter and term names, which may collide in any combination",["capirca/lib/iptables.py:Term.__init__", "capirca/lib/iptables.py:Term.__str__", "capirca/lib/speedway.py:Term"])
p("C62","nftables chains are attached as the header says","For each header of a policy rendered for nftables, the family of the table, the hook, the priority, the default policy, the names of table and chain, and whether the chain is attached to a hook at all, are those the options of the header ask for: family by the first word, hook by the second, policy accept exactly when ACCEPT is given, priority by the number given, names by the last value given, defaults otherwise.","every list of header options and every policy that renders","Options can appear in any number and order, each shifting the words after it; unit tests cover a handful of orders.",["capirca/lib/nftables.py:Nftables._ProcessHeader", "capirca/lib/nftables.py:Nftables.__str__"])
p("C63","nftables rulesets load","A ruleset rendered for nftables can be loaded: every chain that a rule calls is defined in the same table, and no chain is defined twice.","every policy that renders, with any number of headers and terms","Collisions depend on the names of all headers and terms of a policy together.",["capirca/lib/nftables.py:Nftables._ConfigurationDictionary", "capirca/lib/nftables.py:Nftables.__str__"])
p("C64","Access lists with object groups decide as the policy","A Cisco configuration generated for object-group filters, read section by section as a device does, with every net-group and port-group name looked up among the group definitions of the same configuration, permits and denies exactly the packets the terms in force do, first match first, for every header of the policy.","every Cisco class (IOS, XR, Nexus), every date, every policy of object-group headers, every packet of the family","The names used in the rules and the definitions printed far above them must agree for all combinations of terms and headers; tests compare fixed texts and never resolve a reference.",["capirca/lib/cisco.py:ObjectGroup", "capirca/lib/cisco.py:ObjectGroupTerm", "capirca/lib/cisco.py:Cisco._TranslatePolicy", "capirca/lib/cisco.py:Cisco.__str__", "capirca/lib/ciscoxr.py:CiscoXR", "capirca/lib/cisconx.py:CiscoNX"])
p("C65","Layout of a policy does not matter","Blanks, line ends and comments between the tokens of a policy file do not change what is parsed: every text made of the same tokens gives the same policy.","every sequence of tokens, every layout of it","texts of any length and layout",["capirca/lib/policy.py:t_ignore", "capirca/lib/policy.py:t_STRING", "capirca/lib/policy.py:ParsePolicy"])
p("C66","The parser accepts exactly the grammar","A sequence of tokens is parsed as a policy iff it is one by the grammar, and then as the one list of headers and terms the grammar gives; anything else is an error.","every sequence of tokens","all sequences of tokens",["capirca/lib/policy.py:p_target", "capirca/lib/policy.py:p_terms", "capirca/lib/policy.py:p_term_spec", "capirca/lib/policy.py:ParsePolicy"])
p("C67","Statements accumulate","A term holds every value of a repeated list keyword in the order of the text, the last value of a single-valued keyword, and the networks its address names stand for; a grammatical term is accepted iff its actions, logging values, dates and names are valid. Headers collect targets, comments and apply-groups.","every list of statements, every set of definitions","all combinations and repetitions of keywords",["capirca/lib/policy.py:Term.AddObject", "capirca/lib/policy.py:Header.AddObject"])
p("C68","A parsed policy means what its text says","For every policy text that parses, each term has the name, action, logging, options, comment and expiration of its text and matches exactly the packets that the statements of the text describe under the given definitions.","every text, every set of definitions, every packet","all texts, definitions and packets",["capirca/lib/policy.py:ParsePolicy", "capirca/lib/policy.py:Policy.AddFilter", "capirca/lib/policy.py:Term.AddObject"])
p("C69","Quoted texts are kept","A comment keeps its lines without their indentation; verbatim text reaches the output as written, with escaped quotes restored.","every text","all texts",["capirca/lib/policy.py:VarType", "capirca/lib/policy.py:t_ESCAPEDSTRING", "capirca/lib/policy.py:p_verbatim_spec"])
p("C70","Expiration dates follow the calendar","An expiration is accepted iff the day exists in the calendar, is compared in calendar order, and the last one given counts.","every date","all years, months and days",["capirca/lib/policy.py:p_expiration_spec", "capirca/lib/policy.py:Term.AddObject"])
p("C71","GCE firewall rules decide as the policy","The firewall rules generated for a header decide every packet of the header's network and direction as the first unexpired matching term does, and as the cloud's implied rule when no term matches.","every policy and packet","rules are unordered and picked by priority; every set of terms and every packet",["capirca/lib/gce.py:GCE._TranslatePolicy", "capirca/lib/gce.py:Term.ConvertToDict", "capirca/lib/gcp.py"])
p("C72","GCE rules respect the limits of the cloud","No generated rule exceeds the cloud's limits on names, descriptions, ranges, tags, accounts and ports, and when the first header states a maximum the attributes of all rules together stay within the largest stated maximum, or generation fails.","every policy","all sizes of terms and all sequences of terms",["capirca/lib/gce.py:Term.ConvertToDict", "capirca/lib/gce.py:GCE._TranslatePolicy", "capirca/lib/gcp.py:GetAttributeCount", "capirca/lib/gce.py:GetNextRuleChunk"])
p("C73","GCE rule names are unique","No two rules of a generated firewall have the same name, also when a term is split into several rules.","every policy","all names, splits and address families",["capirca/lib/gce.py:Term.ConvertToDict", "capirca/lib/gce.py:GCE._TranslatePolicy"])
p("C74","GCE descriptions belong to their term","The description of every rule is the comment and owner of the term it comes from, or the comment of the header when the term has none.","every policy","all sequences of terms, because state is shared between them",["capirca/lib/gce.py:GCE._TranslatePolicy", "capirca/lib/gce.py:Term.ConvertToDict"])
p("C75","GCE generation is deterministic","The same policy gives the same rules in every run of the program.","every policy, every iteration order of sets","the iteration order of sets changes between runs",["capirca/lib/gce.py:GCE._TranslatePolicy", "capirca/lib/gce.py:GCE._SUPPORTED_AF"])
p("C76","The configuration generated from a policy text decides every packet as the text says","For a policy text and its naming definitions, the nftables ruleset, the iptables or speedway table and the pcap filter that are generated from it decide every packet as the first term of the text, in the order and the words of the text, that has not expired on the day of the run and whose statements describe the packet; only the filters whose header names the platform count.","every text, layout of its tokens, network and service definitions, day, and packet of the families of the filter","Tests run a handful of policy files through a generator and compare output literally; they never connect the words of the policy to what the rendered rules do to an arbitrary packet.",["capirca/lib/policy.py:ParsePolicy", "capirca/lib/policy.py:Header.FilterOptions", "capirca/lib/aclgenerator.py:ACLGenerator.__init__", "capirca/lib/nftables.py:Nftables._TranslatePolicy", "capirca/lib/iptables.py:Iptables._TranslatePolicy", "capirca/lib/pcap.py:PcapFilter._TranslatePolicy"])
p("C77","OpenConfig access lists decide as the policy","For every list of OpenConfig filters whose terms use features that OpenConfig ACLs can express, the generated configuration has one access list per filter and address family (named as the filter, with 4 or 6 appended for mixed filters, typed by the family); each entry comes from one term in force, and a packet of the family gets from the list, reading the entries in the order of their sequence-ids, the outcome the policy gives it: the action of the first unexpired term of the filter that matches it, and no outcome when none does. Sequence-ids are unique in the whole configuration.","all lists of filters, header options, terms with any addresses, exclusions, ports, protocols and options, all dates, all orders in which a set of families may be walked, all packets","the product of address, port and protocol lists of terms is explored by loops that share one dictionary; that no value sticks from one round to the next holds or fails for combinations of lists that tests sample only sparsely",["capirca/lib/openconfig.py: Term.ConvertToDict, OpenConfig._TranslatePolicy", "capirca/lib/policy.py: Term.FlattenAll, Term.GetAddressOfVersion", "capirca/lib/aclgenerator.py: ACLGenerator.__init__"])
p("C78","SONiC tables decide as the policy","For a policy with a header for SONiC, the generated ACL_RULE table numbers its rules RULE_10, RULE_20, ... with distinct, falling priorities between 0 and 65526, and gives every packet of a family the header asks for the outcome of the first term in force that matches, and none when there is no such term, whatever the order in which the set of families is walked.","all policies (any number of terms, addresses, ports, protocols, icmp types), all days, both orders of the families, all packets","the rules of a term are the product of its lists, built by updating one shared dictionary, and the numbering runs over all terms and families; tests compare a few outputs with stored text",["capirca/lib/sonic.py: Term.ConvertToDict, Sonic._TranslatePolicy", "capirca/lib/aclgenerator.py: Term.NormalizeIcmpTypes", "capirca/lib/policy.py: Term.GetAddressOfVersion"])
p("C79","Cloud Armor policies keep the limits and decide as the policy","A Cloud Armor policy has at most 200 rules, each with one to five source ranges and a description of at most 64 characters; the rules of a header are numbered 1, 2, ... in the order of the terms, terms with many addresses being split; and every request of a family of the header gets the outcome of the first term that matches, and none when there is no such term.","all policies (any number of headers, terms, addresses, comments of any length) for the limits; one header, all terms within the named hypotheses and all requests for the decisions","splitting, truncation and numbering interact for every number of addresses and length of comment; tests look at a few sizes",["capirca/lib/cloudarmor.py: Term.ConvertToDict, CloudArmor._TranslatePolicy, CloudArmor._BuildTokens"])
p("C80","Kubernetes network policies are accepted by the API server and permit what the policy accepts","For every policy the Kubernetes generator accepts, each resource it writes is one the API server takes (a DNS name, a transport protocol, ports in range with the end not below the start, exceptions strictly inside their block), no two resources of a header share a name, and traffic to (or from) the pods is permitted by the resources exactly if some header for that direction has a first matching term in force that accepts.","all policies (any number of headers and terms, any addresses, exclusions, ports and protocols), all days, both directions and all packets","The permitted set is a union over resources, whereas the policy is an ordered list; that the two agree depends on the order of all terms and on address arithmetic for every packet.",["capirca/lib/k8s.py:Term.__init__", "capirca/lib/k8s.py:Term.ConvertToDict", "capirca/lib/k8s.py:Term._validateDirection", "capirca/lib/k8s.py:IsDefaultDeny", "capirca/lib/k8s.py:K8s._TranslatePolicy"])
p("C81","Hierarchical firewall policies keep the limits of the cloud and decide as the policy","For every policy the generator of Google hierarchical firewall policies accepts, with any number of headers, the rules are numbered 1, 2, ... in the order of the file, every rule keeps the limits of the cloud (ranges, ports, targets, length of the description), the name is one the cloud takes, the rules are charged no more than the limit of each header, and for each direction and family the matching rule with the lowest number decides as the first matching term of the headers for that direction and family.","all policies (any number of headers and terms, any addresses, ports, protocols, targets and threat lists), both interface versions, all orders in which Python walks the sets of option names, both directions, both families and all packets","The numbering and the cost run across all headers, terms, families and chunks of 256 addresses; that the rules agree with the policy must hold for every packet and every number of addresses.",["capirca/lib/gcp_hf.py:Term.ConvertToDict", "capirca/lib/gcp_hf.py:Term._ValidateTerm", "capirca/lib/gcp_hf.py:HierarchicalFirewall._TranslatePolicy", "capirca/lib/gcp_hf.py:GetRuleTupleCount", "capirca/lib/gcp.py:IsDefaultDeny", "capirca/lib/gcp.py:IsProjectIDValid", "capirca/lib/gcp.py:IsVPCNameValid"])
p("C82","Aruba session access lists decide as the policy","For every policy the generator of Aruba session access lists renders, the text is a configuration of the device: one access list for each header, in order and with the name the header gives, every alias a list refers to is defined before it, and the list gives each packet of the header's family the outcome of the first term in force that matches it, and leaves all other packets undecided.","all policies (any number of headers and terms, any addresses, ports, protocols, options and comments), all dates and all packets of both families","The rules of a list refer by name to groups of addresses written elsewhere in the text, for all headers together; that the names resolve to the addresses of the term, and that the list then agrees with the policy, must hold for every set of names, every number of addresses and every packet.",["capirca/lib/aruba.py:Term.__str__", "capirca/lib/aruba.py:Term._GenerateNetdest", "capirca/lib/aruba.py:Term._GenerateNetworkOrHostTokens", "capirca/lib/aruba.py:Term._GeneratePortTokens", "capirca/lib/aruba.py:Aruba._TranslatePolicy", "capirca/lib/aruba.py:Aruba.__str__"])
p("C83","Cisco ASA access lists decide as the policy","For every policy the generator of Cisco ASA access lists renders, the text is a configuration of the device: it has rules only for the lists the headers name, and each of these lists gives every IPv4 packet the outcome of the first term in force that matches it, and leaves all other packets undecided.","all policies (any number of headers and terms, any addresses, exclusions, ports, protocols, ICMP types, logging, owners and comments), all dates and all IPv4 packets","Each term is written as the product of its addresses, ports, protocols and types, with names for some of the numbers, and the device executes the text line by line; that the resulting lists agree with the policy must hold for every combination and every packet.",["capirca/lib/ciscoasa.py:Term.__str__", "capirca/lib/ciscoasa.py:Term._TermletToStr", "capirca/lib/cisco.py:PortMap.GetProtocol", "capirca/lib/ciscoasa.py:CiscoASA._BuildTokens", "capirca/lib/ciscoasa.py:CiscoASA._TranslatePolicy", "capirca/lib/ciscoasa.py:CiscoASA.__str__"])
p("C84","Juniper SRX security policies decide as the policy","For every policy the generator of Juniper SRX configurations renders, the text is a configuration of the device, and between the zones of every header it gives each packet the outcome of the first term in force that matches it, of all headers for these zones, and none if there is no such term; the names in the address book and the applications stand for the addresses, ports and types of the terms that use them.","all policies (any number of headers and terms, any addresses, exclusions, ports, protocols and ICMP types), all dates and all packets of the families the headers ask for","The addresses of all terms go into one book per zone or one for the device, the ports and types into shared applications whose names are made up or found again, and large terms are split; that the names still mean what each term meant depends on all terms of all headers at once.",["capirca/lib/junipersrx.py:Term.__str__", "capirca/lib/junipersrx.py:Term._Group", "capirca/lib/junipersrx.py:JuniperSRX._TranslatePolicy", "capirca/lib/junipersrx.py:JuniperSRX._FixLargePolices", "capirca/lib/junipersrx.py:JuniperSRX._BuildAddressBook", "capirca/lib/junipersrx.py:JuniperSRX._BuildPort", "capirca/lib/junipersrx.py:JuniperSRX._GenerateAddressBook", "capirca/lib/junipersrx.py:JuniperSRX._GenerateApplications", "capirca/lib/junipersrx.py:JuniperSRX.__str__"])
p("C85","Packet Filter rules decide as the policy","For every policy the generator of Packet Filter (pf.conf) rules renders, the text is a configuration, and it gives each packet, on its way in or out, the outcome of the first term in force that matches it, of the terms of all headers for its family and direction, and none if there is no such term; the tables the rules refer to hold the addresses the names in the terms stand for.","all policies (any number of headers and terms, any addresses, ports, protocols, flags, interfaces and ICMP types), all dates and all packets","The addresses of all terms of all headers go into tables shared by name, with names that are cut short, the rules are read with lists multiplied out and with flags and state that default to something else than any; that they still mean what each term meant depends on all of the policy at once.",["capirca/lib/packetfilter.py:Term.__str__", "capirca/lib/packetfilter.py:Term._FormatPart", "capirca/lib/packetfilter.py:Term._GenerateAddrStatement", "capirca/lib/packetfilter.py:Term._GeneratePortStatement", "capirca/lib/packetfilter.py:Term._GenerateProtoStatement", "capirca/lib/packetfilter.py:PacketFilter._TranslatePolicy", "capirca/lib/packetfilter.py:PacketFilter.__str__"])
p("C86","Windows advanced firewall commands decide as the policy","For every policy the generator for the advanced firewall of Windows renders, each line is a label or a command the firewall accepts, and the rules they add treat each packet, on its way in or out, as the policy file says: it is blocked if a term in force for its direction and family denies it, allowed if one accepts it and none denies it, and otherwise left to the defaults; where terms that deny come first, this is the decision of the first term that matches.","all policies (any number of headers and terms, any addresses, ports, protocols and ICMP types), all dates and all packets","Each term is multiplied out over addresses and protocols, source and destination change places with the direction, whole families are written as any, and the firewall looks at all rules at once, blocks first; whether this still is what the file says depends on all terms and all packets.",["capirca/lib/windows.py:Term.__str__", "capirca/lib/windows.py:WindowsGenerator._TranslatePolicy", "capirca/lib/windows.py:WindowsGenerator.__str__", "capirca/lib/windows_advfirewall.py:Term._ComposeRule", "capirca/lib/windows_advfirewall.py:Term._HandleIcmpTypes", "capirca/lib/windows_advfirewall.py:Term._CartesianProduct", "capirca/lib/windows_advfirewall.py:Term._ComposePortString"])
p("C87","NSX-T policies decide as the policy file","For every policy the NSX-T generator renders, the rules of the security policy, read in order, treat each packet as the first term in force that matches it says: allow, drop or reject; the interface accepts the groups of addresses, and the policy carries the name, number and scope of its header.","all policies (any number of headers and terms, any addresses, ports, protocols and ICMP types), all dates, all packets","Addresses of both families are mixed, collapsed, cut out and written as text, an empty list means any, and services are listed one by one for each protocol and type; whether this still is what the file says depends on all terms and all packets.",["capirca/lib/nsxt.py:Term.__str__", "capirca/lib/nsxt.py:Term.get_ports", "capirca/lib/nsxt.py:Nsxt._TranslatePolicy", "capirca/lib/nsxt.py:Nsxt._ParseFilterOptions", "capirca/lib/nsxt.py:Nsxt.__str__"])
p("C88","Whole Juniper configurations decide as the policy file","For every policy the Juniper generator renders, the configuration holds exactly the filters its headers ask for, one for each name and family, two for a header of type mixed, and each filter treats each packet of its family as the first term in force that matches it says.","all policies (any number of headers of type inet, inet6, bridge and mixed, any number of terms), all dates, all packets","The two filters of a mixed header are made from the same term objects, which both passes and both renderings change; whether what the first does spoils the second depends on all terms, protocols and options together.",["capirca/lib/juniper.py:Juniper._TranslatePolicy", "capirca/lib/juniper.py:Juniper.__str__", "capirca/lib/juniper.py:Term.__init__", "capirca/lib/juniper.py:Term.__str__"])
p("C89","Windows IPsec commands give each filter's rules the verdicts of its terms","For every policy the Windows IPsec generator renders, all commands are accepted, every rule belongs to the policy the commands create, and the verdicts a filter's rules have for a packet are those of its terms in force that match the packet or its answer.","all policies (any number of headers, terms, addresses and ports), all dates, all IPv4 packets","Lists, actions, filters and rules are separate objects linked by names made of one letter and the name of a term, and each term becomes the product of its addresses, protocols and single ports; whether they say the same as the term depends on all of them at once.",["capirca/lib/windows_ipsec.py:Term", "capirca/lib/windows_ipsec.py:WindowsIPSec", "capirca/lib/windows.py:Term.__str__", "capirca/lib/windows.py:WindowsGenerator"])
p("C90","Terraform firewalls decide as the policy says, in the order of its terms","For every policy the Terraform generator renders, the firewall rules declared for a header's network and direction give each packet the verdict of the first term in force that matches it, or the verdict of the cloud when there is none; and rules are numbered in the order of the policy.","all policies (any number of headers, terms, addresses, ports and tags), all dates, all packets of the families of the header","The order of terms survives only as numbers counted over rules, families, chunks of 256 ranges and headers, and a term may become any number of rules, stored in dictionaries by name; whether the cloud's choice by number gives the first match depends on all of them at once.",["capirca/lib/gce_vpc_tf.py:Term", "capirca/lib/gce_vpc_tf.py:Term.ConvertToDict", "capirca/lib/gce_vpc_tf.py:TerraformGCE", "capirca/lib/gce_vpc_tf.py:GetNextPriority"])
p("C91","Policies read without expansion say what the file says, and searches find the terms asked for","Reading a policy file with the policy reader gives its filters and terms with the values of their fields; and a search by address and port reports exactly the terms that name a definition which contains them.","all policy files (any number of lines, filters, terms and fields, any blanks and quoted texts), all definition files, all addresses and ports searched for","The reader follows the file line by line with flags for headers, terms and quoted texts, and filters are shared objects; the search walks definitions of any depth. Examples cover a few layouts and definitions only.",["capirca/lib/policyreader.py:Policy", "capirca/lib/policyreader.py:Policy.Matches", "capirca/lib/naming.py:Naming.GetIpParents", "capirca/lib/naming.py:Naming.GetServiceParents"])
p("C92","Address sets hold, and rules match, exactly the addresses of their terms","The set commands written for a policy run without failure, and with the sets they make, the address conditions of a term's rules are met by exactly the addresses the term names in the family of its filter, without its exclusions; set names never exceed 31 characters.","all lists of terms in filters of either family, with any number of addresses and exclusions, with and without the option exists","Sets are written apart from the rules that use them, under names cut to a fixed length, and with capacities computed from the number of members; whether the two parts agree depends on all terms of a policy at once.",["capirca/lib/ipset.py:Term._CalculateAddrList", "capirca/lib/ipset.py:Term._GenerateAddressStatement", "capirca/lib/ipset.py:Term._GenerateSetName", "capirca/lib/ipset.py:Ipset._GenerateSetConfig"])
p("C93","Looking up definitions reports exactly what they contain","Looking up an address reports exactly the definitions that contain it, behind the definitions that contain those, with the networks that matched and longer prefixes first; comparing two addresses splits the reports into common ones and those of one only; asking whether an address is in a definition, whether a definition is within another, for the union of two definitions or for the services of a port answers as the definitions say.","all definition files that load, all addresses, ports, protocols and pairs of definitions","Definitions nest to any depth and the answers combine reverse and forward lookups; the reports are used to decide which policies a change affects, and a missing entry is not visible.",["tools/cgrep.py:get_ip_parents", "tools/cgrep.py:get_nets_and_highest_prefix", "tools/cgrep.py:group_diff", "tools/cgrep.py:check_encapsulated", "tools/cgrep.py:compare_tokens", "tools/cgrep.py:compare_ip_token", "tools/cgrep.py:get_services"])
p("C94","NSX-V sections decide as the policy file says","The section that is written for a policy can be read as XML, carries the name and number of the header whatever policies were generated before, applies each rule to the security group of the header, and the first rule that matches a packet of the families of the header has the action of the first term in force that matches it; terms for established connections are left to the firewall.","all policies with one filter for the platform, all numbers of terms, addresses, exclusions, protocols, ports and ICMP types, all packets of the families of the header, all generators made before","Exclusions, families, defaults for empty sides and the layout of the XML interact for any number of terms, and the options of the section are kept in an object that is shared between generators.",["capirca/lib/nsxv.py:Term.__str__", "capirca/lib/nsxv.py:Term._ServiceToString", "capirca/lib/nsxv.py:Nsxv._TranslatePolicy", "capirca/lib/nsxv.py:Nsxv._ParseFilterOptions", "capirca/lib/nsxv.py:Nsxv.__str__"])
p("C95","Junos Evo protocol conditions are written as documented","In an IPv6 filter with a direction, each protocol of a term, and each excepted one, is written with the keyword and the word the documentation gives for the direction and the kind of interface; a term is left out exactly if ICMP is its only protocol; a filter without a direction is refused.","all lists of protocols and excepted protocols, all words of the header","The keyword of a condition is chosen once for all protocols of a term, from the direction, the interface and whether extension headers are among them; the combinations cannot be listed.",["capirca/lib/juniperevo.py:Term.__str__", "capirca/lib/juniperevo.py:Term._Ipv6ProtocolMatch", "capirca/lib/juniper.py:Juniper._TranslatePolicy", "capirca/lib/aclgenerator.py:ProtocolNameToNumber", "doc/generators/juniperevo.md"])
p("C96","MS-MPC application sets say what the terms say","When the terms of an MS-MPC filter are accepted, the applications written can be read, and the application set a term refers to, whether its own or one shared with another term, is matched exactly by the traffic of the protocols, ports and ICMP types of the term; a filter whose shortened term names differ is accepted.","all filters, all lists of terms, all packets","Sets are shared between terms with equal content, named by shortened names, and expanded into products of protocols and ports numbered across a filter; no list of examples covers how names, sharing and numbers combine.",["capirca/lib/junipermsmpc.py:Term.__init__", "capirca/lib/junipermsmpc.py:JuniperMSMPC._BuildPort", "capirca/lib/junipermsmpc.py:JuniperMSMPC._GenerateApplications", "capirca/lib/junipermsmpc.py:JuniperMSMPC._TranslatePolicy"])
p("C97","MS-MPC headers are accepted exactly with the documented options","A header of an MS-MPC filter is accepted exactly if the options after its name are, in any order, at most one address family, at most one direction and at most one noverbose; the family, the direction and the choice of comments are then those named, or mixed, both directions and with comments.","all lists of options in all orders","Options come in any number and order, and an option that is accepted twice or dropped changes the direction or the family of a whole filter.",["capirca/lib/junipermsmpc.py:JuniperMSMPC._TranslatePolicy"])
p("C98","MS-MPC address blocks have exactly the addresses of the term","In the rule of an address family, the source-address or destination-address block of an MS-MPC term can be read by the device, has no IPv6 prefix of a length from 1 to 15, and has exactly the addresses the term gives minus those it excludes; the rule is left out only if no address of the family is left, and the block only if the term names no addresses.","all lists of addresses and exclusions of both families","Short IPv6 prefixes are written as up to 32768 prefixes, for addresses and exclusions alike, and which entry decides depends on the lengths of all the entries that hold an address.",["capirca/lib/junipermsmpc.py:Term.__str__", "capirca/lib/juniper.py:Term._MinimizePrefixes"])

import os
with open(os.path.join(os.path.dirname(__file__),'..','properties.jsonl'),'w') as f:
    for r in P: f.write(json.dumps(r)+'\n')
print(len(P))
