{
"C01": "Collapse of nacaddr (sort, stack merge) as a fold; invariant: the stack covers what was read.",
"C02": "Same model; the result is sorted, disjoint and has no two siblings; uniqueness of such lists by induction on block size.",
"C03": "Exceptions as values; case analysis of the only raising branch.",
"C04": "The exclusion check before a merge is modelled; coverage with exclusions compared before and after.",
"C05": "Comments are carried by networks; invariant that every comment occurs in the comment of a covering result.",
"C06": "RemoveAddressFromList through exclude_address and summarize_address_range of Python's ipaddress; bit arithmetic.",
"C07": "AddressListExclude with a work list on fuel; loop invariant: covered = covered so far minus excluded.",
"C08": "Grouping by token, then collapse in each group; permutation and coverage.",
"C09": "iputils.exclude_address; induction on the difference of prefix lengths.",
"C10": "py_sorted as stable insertion; sorted permutation.",
"C11": "CollapsePortList; induction on the sorted list.",
"C12": "Same model; adjacency shown or refuted on the result.",
"C13": "CheckPortIsContained; quantification over ports.",
"C14": "Term.__contains__ and the shading loop; packets as the meaning of terms.",
"C15": "summarizer.Summarize; invariant of the pairing loop over (address, mask) pairs.",
"C16": "Dotted quads; digit arithmetic.",
"C17": "The parser of definition files as a state machine over lines; induction on lines.",
"C18": "GetNet with recursion through tokens on fuel; the flattened definition is an inductive relation.",
"C19": "GetService likewise.",
"C20": "Fuel bound from an acyclic order of tokens; cycles refute it.",
"C21": "aclcheck over translated policies; first match over packets.",
"C22": "_Preprocess and posixpath.normpath over an abstract file tree; induction on depth, normal forms of paths.",
"C23": "FixTermLength; induction on strings.",
"C24": "FixHighPorts; case analysis over options and protocols.",
"C25": "The check of supported keywords and sub-tokens over all attributes of a term.",
"C26": "NormalizeIcmpTypes and the tables of both families.",
"C27": "TruncateWords; induction on words.",
"C28": "cisco.Term and Cisco for extended lists; a line reader word by word; a term's lines against the term's meaning, then first match over the whole list.",
"C29": "_FixConsecutivePorts; set of ports.",
"C30": "The three passes over text (find, remove, replace) against a section reader; then composed with C64 for generated text.",
"C31": "iptables.Term and Iptables; a reader of restore files with chains that call each other.",
"C32": "_GeneratePortStatement; slots of each multiport list.",
"C33": "_MinimizePrefixes; longest-prefix match of lists with except.",
"C34": "juniper.Term and Juniper; a tokenizer and reader of Junos blocks.",
"C35": "nftables.Term and Nftables; a reader of rulesets with sets, chains and hooks.",
"C36": "pcap.Term and PcapFilter; a reader of filter expressions with precedence.",
"C37": "FilesUpdated: comparison line by line without repository tags.",
"C38": "Workers as an arbitrary permutation of completions over the same map.",
"C39": "Merging of defaults, configuration files and flags as maps.",
"C40": "The date test in each modelled translator: rendering with and without expired terms is the same text.",
"C41": "Summarize and ToDottedQuad; masks of the result.",
"C42": "_GetParents over definition tables; reachability as an inductive relation.",
"C43": "Port names through GetServiceByProto.",
"C44": "Definition files as lists of declarations; the state machine reads back what was written.",
"C45": "TranslatePorts per protocol.",
"C46": "GetIpParents; covering networks of tokens.",
"C47": "GetPortParents; port ranges of services.",
"C48": "Term clean-up (collapsing) against the meaning of terms.",
"C49": "SanityCheck as a decision procedure for a stated well-formedness.",
"C50": "FlattenAll against the meaning of terms.",
"C51": "TranslateTerm from names to networks and ports; meaning of the text of a term.",
"C52": "port.Port over texts; int() of a text as a reader of numerals.",
"C53": "CheckProtocolIsContained and CheckAddressIsContained; sets of protocols and addresses.",
"C54": "WrapWords and the regular expression it uses, as a greedy matcher; letters are kept, lines fit.",
"C55": "Term.__init__ and ProtocolNameToNumber over the protocol tables.",
"C56": "Printing of addresses by ipaddress; readers of the usual notations.",
"C57": "Crash between any two writes of a run; a second run over the remaining files.",
"C58": "RenderFile's dispatch over platforms.",
"C59": "Comments of Juniper terms through the tokenizer.",
"C60": "Headers of iptables and speedway filters; default actions, options.",
"C61": "Generated tables through the loader of the reader: chains declared before use, once.",
"C62": "Headers of nftables; base chains with hook, priority and policy.",
"C63": "Names of tables and chains in a generated ruleset.",
"C64": "ObjectGroup, ObjectGroupTerm and the whole of Cisco.__str__; the configuration is read section by section and every reference is looked up.",
"C65": "Model the lexer rule by rule (ModelLex), give spelling and layout rules separately (SpecParse), prove by induction on the layout that the lexer returns the tokens.",
"C66": "Model the productions as a total recursive-descent parser (ModelParse), write the grammar as inductive relations with independent keyword tables (SpecParse), prove soundness and completeness by induction.",
"C67": "Case analysis of AddObject (BuildSteps), then induction over the statements against the lists of what was said under a keyword (SpecSaid).",
"C68": "Compose C65, C66, C67 with the translation theorem C51; text_matches reads packets directly off the statements.",
"C69": "Induction on the text for strip, unescape and splitlines.",
"C70": "Arithmetic: monotonicity of days before year and month.",
"C71": "Model gce.py as functions from terms to rule dictionaries; give rules the reading of the cloud's documentation (SpecGce.v: priority, deny before allow, implied rule); prove rule by rule that a packet is met iff the term asks for it, then that priorities order the terms as the policy.",
"C72": "Invariant of the dictionary built for a term, then of the running attribute count over passes, terms and headers.",
"C73": "The names of a pass are a base name or numbered variants; two bases that do not extend each other have disjoint variants.",
"C74": "Follow the shared comment through the loop over terms.",
"C75": "Make the iteration order of the set a parameter and show that permutations give the same options.",
"C76": "ModelWhole selects the filters of a parsed policy that name a platform and checks their keywords; SpecWhole reads the same off the statements of the text (aimed, text_says). The theorem composes the parser's theorem (what a term of the text means) with the theorem about each generator, by a transfer of first_says along the correspondence of terms.",
"C77": "ModelOpenConfig models ConvertToDict (with the dictionary shared by the nested loops) and _TranslatePolicy; SpecOpenConfig reads the JSON value: what an entry says about a packet, and which outcome the entries give by sequence-id. The loops are handled by one invariant lemma (sweep_spec): after each round the shared keys are those of the current round or never set.",
"C78": "ModelSonic follows sonic.py: the sweep over protocols, icmp types, addresses and ports with the shared dictionary, the test of families, numbering and nesting of headers. SpecSonic reads the table as a switch does (conditions of a rule, highest priority first). Rule list of a term \u2194 its conditions, blocks of terms in order, first match.",
"C79": "ModelCloudArmor follows cloudarmor.py: description, families, chunks of five, numbering, the limit of 200. SpecCloudArmor says how a security policy is applied (lowest number first, star for all). Chunks keep all addresses (shared with C71), blocks of terms in order, first match.",
"C80": "ModelK8s follows k8s.py term by term into the tree of the resources; SpecK8s reads the tree as the API server and the pods do. K8sProofs: one block of resources per term, the rule of a block allows exactly the packets that match its term, and a union over blocks is the first match when no accepting term follows a denying one.",
"C81": "ModelGcpHf follows gcp_hf.py into the tree of the policy; SpecGcpHf reads the tree as the cloud does. GcpHfProofs: each rule of a term for a family says exactly what the term asks of that family. GcpHfPolicy: blocks of rules, one per term of any header, numbered through, so the first match of the blocks is the first match of the terms. GcpHfLimits: limits of each rule, and the cost carried through the headers equals the sum of the charges.",
"C82": "ModelAruba follows aruba.py to the text, including the order in which CPython prints a set of two numbers. SpecAruba reads the text line by line into groups of addresses and access lists, and says what a rule matches. ArubaProofs and ArubaAcl: each rule of a term, read back, matches exactly what the term asks. ArubaRead: the printed text reads back as the sections written. ArubaPolicy: every alias resolves to the addresses of its own term, and the first rule that matches is a rule of the first term that matches.",
"C83": "ModelAsa follows ciscoasa.py and the table of port names of cisco.py to the text. SpecAsa executes the text line by line (clear, remark, extended) and says what a rule matches, with its own table of the device's names. AsaProofs: a printed rule splits into its words and says exactly its conditions; the names printed are names of the numbers meant. AsaPolicy: a term's rules say what the term says, a filter's text replaces its own list only, and the first rule that matches is one of the first term that matches.",
"C84": "ModelSrx follows junipersrx.py to the text, threading the address book and the list of applications through the headers. SpecSrx reads the text with the statement parser of SpecJuniper and says what an address, an address set, an application and an application set mean and what the policies between two zones decide. SrxText and SrxRead: the printed blocks parse. SrxBook and SrxBookText: inserting an address keeps what every name of the book covers, and the printed book says so. SrxApps: an application found again under another term means the same. SrxTerm and SrxPolicy: a printed policy says what its term says given the book and the applications. SrxWhole and SrxDecide: an invariant of the state along terms and headers (later terms do not change what earlier ones mean), then the whole text. SrxLarge: splitting.",
"C85": "ModelPf.v models packetfilter.py function by function; SpecPf.v is a reader of pf.conf (continued lines, braces, comments, tables, the grammar of rules) and pf's way to decide (last rule unless quick; default flags of rules with state). PfText.v to PfTerm.v show that each line is read back as the rule meant, PfPolicy.v that the tables and rules of a whole policy are.",
"C86": "ModelWin.v models windows.py and windows_advfirewall.py function by function; SpecWin.v is a reader of netsh commands (keys, protocols, ports only with tcp and udp) and the firewall's way to decide (blocks win). WinProofs.v shows that each rule is read back as what the term meant, WinPolicy.v that the rules of a whole policy are.",
"C87": "ModelNsx.v models nsxt.py function by function, with the dictionary all generators share; SpecNsx.v says how NSX-T reads groups, services and rules. NsxProofs.v shows that each rule says what the term meant, NsxPolicy.v that the rules of the policy, in order, do.",
"C88": "ModelJunPolicy.v models _TranslatePolicy and __str__ for all headers with the term objects the passes share; SpecJunPolicy.v says which filters a policy asks for. JunPolicy.v shows that each pass selects what ModelJuniper's selection does although an earlier pass and an earlier rendering have changed the objects, and puts the filters one behind the other with the reader of C34.",
"C89": "ModelIpsec.v models windows_ipsec.py on top of the parts of windows.py in ModelWin.v; SpecIpsec.v reads the commands and says what lists, actions, filters and rules mean, with mirrored filters. IpsecProofs.v reads each kind of line and shows that the filters of a term match what the term matches; IpsecPolicy.v links the objects of all terms by their names, which are different because their labels are.",
"C90": "ModelTf.v models gce_vpc_tf.py on top of the shared parts in ModelGce.v; SpecTf.v reads the configuration as the provider documents it. TfRules.v relates each declared rule to the rule that gce.py would write with other keys, so that the matching theorems of C71 carry over; TfPolicy.v and TfDecide.v follow the counter over passes, terms and headers; TfNumbers.v gives the numbering for all policies.",
"C91": "ModelReader.v models policyreader.py, with the shared filter objects as positions in a list of all filters made; SpecReader.v says how lines spell words and what a file of headers and terms says, and which terms a search asks for. ReaderProofs.v follows the flags through quiet lines, headers, terms and files by induction on the layout; ReaderSearch.v takes the contents of definitions from C42 and C46.",
"C92": "ModelIpset.v models ipset.py's address lists, set names, conditions and set commands; SpecIpset.v says what ipset does with commands (creating, adding, refusing) and what a condition says with given sets. IpsetProofs.v runs the commands of one set by induction on its members and takes exclusions from C03; IpsetPolicy.v shows that names are apart and runs all terms.",
"C93": "ModelCgrep.v models the lookups of tools/cgrep.py on the model of naming.py; SpecCgrep.v says which definitions an address has, how a report names them, what is shown with them and which prefix is longest. CgrepProofs.v combines the exact characterisations of GetNet (C18), GetNetParents (C42), GetIpParents (C46) and GetPortParents (C47).",
"C94": "ModelNsxv.v models nsxv.py with the options that its generators share, up to the text handed to the XML parser; SpecNsxv.v reads XML and says when a rule of a section matches a packet. NsxvRead.v proves that texts made of elements are read back, also after runs of spaces are removed; NsxvProofs.v proves that rules match as terms; NsxvPolicy.v puts the section together.",
"C95": "ModelEvo.v models how juniperevo.py chooses keywords and words; SpecEvo.v is the table of doc/generators/juniperevo.md. EvoProofs.v shows that the steps on lists without repetitions act on each protocol alone, and that the lines read as the conditions.",
"C96": "ModelMsmpc.v models how junipermsmpc.py collects, shares and names the application sets of a filter and writes their lines; SpecMsmpc.v says when a packet is of a set of a configuration. MsmpcProofs.v proves by induction over the terms that each refers to an entry with its content under a name used once, that the lines read as nested statements, and that a set is matched if one of the combinations is.",
"C97": "ModelMsmpc.v models the loop over the options; MsmpcOptions.v proves by induction over the options that the loop accepts exactly the permutations of the documented words.",
"C98": "ModelMsmpcAddr.v models the blocks with the expansion into /16 prefixes; MsmpcAddr.v proves that the expansion keeps the addresses and, as it keeps the order of the lengths, the verdict of the longest prefix."
}