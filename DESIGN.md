# Formal model of google/capirca in Rocq

This file is written by tools/gen_design.py from tools/design_head.md, tools/plans.json, the
comments at the head of the theories, properties.jsonl and MANIFEST.json.

## Approach

The Python code in /repo is transcribed, function by function, into total computable
Gallina definitions (`rocq/theories/Model*.v`). Exceptions are values of
`res A := Ok a | Raise e`. Python loops become structural recursion, folds, or
recursion on explicit fuel; running out of fuel is a distinct error which a theorem
excludes. Integers are `Z`, addresses are integers, text is `string` (ASCII bytes).

A separate specification (`rocq/theories/Spec*.v`) says what the code is about: sets of
(family, address) pairs, sets of ports, packets, what a policy term means (SpecPolicy.v),
and, for each target platform, a reader of its configuration language with its own
semantics (SpecCisco.v, SpecCiscoGroup.v, SpecIptables.v, SpecJuniper.v, SpecNft.v,
SpecPcap.v, ...). The readers are written from the documentation of the target languages and
do not use the code that writes the text; a theorem such as "the access list decides as the policy" therefore goes
from terms through the generated text and back through an independent reader.

Property theorems (`rocq/theories/Props*.v`, named `CNN_...`) mention the model's entry points
and the specification only. Properties found false of the code are refuted
(`..._refuted`, with the witness); the strongest true part found is proved
(`..._partial`), and the comment beside it says what is missing. Beside each theorem an
`Example` shows that a concrete case meets its hypotheses.

## Trusted base

- The kernel of Coq 8.16.1. `Print Assumptions` below every property theorem prints
  "Closed under the global context": no theorem uses an axiom, neither of the standard library
  nor of any other library. (A whole-library check such as `coqchk -o` lists
  seven constants of `Coq.ssr.ssrunder`; they are parameters of a module type in the standard
  library's ssreflect files, loaded through `Lia`/`Zify`, and no theorem depends on them.)
- The transcription of Python to Gallina in `Model*.v`. It was made by reading; the code was
  not run.
- The specification: what a packet is, what a term means, and how the target platforms read
  their configurations. Device behaviour itself is outside the model.
- Text is a sequence of bytes; non-ASCII characters are not modelled as such.

## Not modelled

Logging, command-line flags of the tools (except the merge of configuration files, C39),
the discovery of policy files on disk, process pools other than as an arbitrary order of
completion (C38), Python's garbage, recursion limits and performance. Generators without a
Model file are not modelled. Term attributes that ModelTerm.v does not carry are listed at its head.

## How the theorems were tested

`tools/mutate.py` applies one edit at a time to a scratch copy of the model, rebuilds and records
which theorems fail; `seeded/LOG.jsonl` has one line per edit, with the theorems that were
tightened when an edit that falsifies a claim went unnoticed.

## Models

Each definition in these files cites the lines of /repo it models and says what it leaves out.

| file | models |
|---|---|
| ModelAclgen.v | Model of capirca/aclgen.py: which files a run writes, and of capirca/utils/config.py. Not modelled: the discovery of policy files (DescendDirectory), logging, the reading of policy files. The generators are a parameter: the text each of them returns. |
| ModelAruba.v | Aruba session access lists (aruba.py). The class has no attribute _PLATFORM (aruba.py:233-245), so that the check of keywords in aclgenerator.py:276-311 looks for headers of the platform None and finds none: no keyword is ever rejected. Log messages are not modelled. |
| ModelAsa.v | Cisco ASA access lists (ciscoasa.py; PortMap of cisco.py). Not modelled: log messages; the branches for IPv6, because the generator never asks for them (ciscoasa.py:336). |
| ModelCgrep.v | Model of the lookups of tools/cgrep.py. Not modelled: the command line and what is printed around the results. |
| ModelCheck.v | Model of capirca/lib/aclcheck.py and port.py:152-172. |
| ModelCisco.v | Model of capirca/lib/cisco.py: extended access lists for IPv4 and IPv6 (also used for ciscoxr and cisconx, whose classes only change the parameters below and the header lines). Not modelled: the port-name table and the prefix notation for the platform 'arista' (cisco.py:283-441, 526-531, 685-686, 714-716), log messages. |
| ModelCiscoGroup.v | Model of the rest of capirca/lib/cisco.py, ciscoxr.py and cisconx.py: standard access lists, object groups, whole configurations and the removal of duplicate groups. Texts are lists of the strings that the code joins by newlines. Log messages are not modelled; of several errors in one policy, the code may raise another one first, because it checks each term while it selects terms. |
| ModelCloudArmor.v | Cloud Armor security policies (cloudarmor.py). |
| ModelEvo.v | Junos Evo filters (juniperevo.py): what differs from juniper.py, which is the conditions on protocols of a term. The other lines of a term are those of ModelJuniper.v. Not modelled: the test of keywords, and the order of conditions, in which other lines stand between. |
| ModelGce.v | Model of capirca/lib/gce.py and the parts of capirca/lib/gcp.py it uses: Google Compute Engine firewall rules. The output is modelled as the Python value that __str__ (gce.py:589-595) passes to json.dumps. |
| ModelGcpHf.v | Google Cloud hierarchical firewall policies (gcp_hf.py, and gcp.py as far as it uses it). The output is modelled as the Python value that __str__ (gcp.py:65-73) passes to json.dumps. |
| ModelGen.v | Model of the parts of capirca/lib/aclgenerator.py shared by all generators. |
| ModelIP.v | Model of capirca/lib/nacaddr.py, capirca/utils/iputils.py and of the parts of Python's [ipaddress] module they call. |
| ModelInclude.v | Model of the include handling of capirca/lib/policy.py:2887-2972 and of the functions of Python's posixpath it calls. |
| ModelIpsec.v | Windows IP security policies (windows_ipsec.py, windows.py). Not modelled: log messages. The text is given by its lines. |
| ModelIpset.v | Model of ipset.py: the address sets of terms and the address conditions of their rules. The rest of a rule is written by iptables.py (ModelIptables.v). |
| ModelIptables.v | Model of capirca/lib/iptables.py and capirca/lib/speedway.py. Not modelled: the term attribute log_limit, which the record [term] does not carry (absent here), log messages, and rendering the same object a second time. A verbatim term whose lines are all empty gives an empty line here and none in the code. |
| ModelJunPolicy.v | Whole Juniper configurations (juniper.py:968-1108): all headers of a policy, and the term objects that the two filters of a header of type mixed share. Simplified: the second filter of such a header repeats the comment that names the owner (juniper.py:235-236), which is left out; and an option inactive that is given twice is still there, once, in the terms of the first filter. Not modelled: log messages. |
| ModelJuniper.v | Model of capirca/lib/juniper.py. Not modelled: the attributes flexible_match_range, policer, qos, loss_priority, dscp_set and traffic_class_count, which the record [term] does not carry (absent here), log messages, and the attribute interface_type used by a subclass. |
| ModelK8s.v | Kubernetes network policies (k8s.py). |
| ModelLex.v | Model of the lexical analysis of policy files, capirca/lib/policy.py:2018-2167. PLY tries the token functions in the order of their definition (comment, escaped string, quoted string, newline, DSCP range, DSCP, hexadecimal number, number, word), then the bracket tokens, then the literal characters; blanks and tabs are skipped first; a character nothing matches is reported on the standard output and skipped (policy.py:2134-2136). The regular expressions are written out as scanners; none of them needs to backtrack. Texts are ASCII; line numbers are left out. |
| ModelMsmpc.v | MS-MPC applications (junipermsmpc.py): the application sets the terms of a filter need, and their lines. Not modelled: the rules (their address blocks are in ModelMsmpcAddr.v), comments; term.timeout, which is not among the keywords of the platform and therefore never set. |
| ModelMsmpcAddr.v | The addresses of MS-MPC rules (junipermsmpc.py:164-271): one block of a rule, source-address or destination-address. |
| ModelNaming.v | Model of capirca/lib/naming.py: loading and querying definitions. |
| ModelNft.v | Model of capirca/lib/nftables.py. Not modelled: the check of supported keywords (see [field_error] in ModelGen.v), log messages, and Term.__str__ (lines 611-624), which the output does not use. |
| ModelNsx.v | NSX-T security policies (nsxt.py). Not modelled: log messages, and the encoding of the result as JSON text. |
| ModelNsxv.v | NSX-V sections (nsxv.py). Not modelled: log messages, and the parser and pretty printer the text is passed through at the end (nsxv.py:650-652): the text is taken as it is handed to the parser. |
| ModelOpenConfig.v | OpenConfig access lists (openconfig.py). |
| ModelParents.v | Model of the reverse queries of capirca/lib/naming.py: GetIpParents and GetPortParents, with capirca/lib/port.py's PPP. |
| ModelParse.v | Model of the parser of policy files, capirca/lib/policy.py:2173-2875, and of the objects it builds: Term.AddObject (policy.py:1203-1411), Header.AddObject (1807-1828), Target (1909-1914), ParsePolicy (3003-3043). The grammar is parsed by recursive descent; PLY's LALR tables resolve the grammar's conflicts by shifting, which makes every list as long as possible, as here. The tokens are parsed first and the objects built afterwards: for a text with both a syntax error and an error found while building objects the model reports the syntax error, PLY whichever comes first. |
| ModelPcap.v | Model of capirca/lib/pcap.py. Not modelled: the check of supported keywords (see [field_error] in ModelGen.v) and log messages. |
| ModelPf.v | Packet Filter rules (packetfilter.py). Not modelled: log messages. The text is given by its lines: elements that the program joins with line breaks inside are several lines here. |
| ModelPolicy.v | Model of the term handling in capirca/lib/policy.py: flattening, clean-up, sanity checks, containment and shading. |
| ModelPorts.v | Model of the port-list functions of capirca/lib/policy.py and of capirca/lib/port.py. |
| ModelReader.v | Model of capirca/lib/policyreader.py: policies read line by line, and the search for terms by address and port. |
| ModelSonic.v | SONiC access lists (sonic.py). |
| ModelSrx.v | Juniper SRX security policies (junipersrx.py). Not modelled: the attributes timeout, vpn, dscp_set and target_resources, which the record [term] does not carry (absent here), and log messages. Address objects are values: the parts of a large term that has exclusions share their address objects in the program, so that a later part renames those of an earlier one; here they do not. |
| ModelSum.v | Model of capirca/lib/summarizer.py: summarisation with discontinuous masks. |
| ModelTerm.v | Generated by tools/gen_term.py. The policy Term of capirca/lib/policy.py:328-532. One field per attribute set in policy.py:445-528; an attribute whose value None or [] is only ever tested for truth is modelled as the empty list. Not modelled, because no modelled function looks at them: log_limit, log_name, loss_priority, policer, qos, traffic_class_count, dscp_set, flexible_match_range, inactive, vpn, priority, source/target_service_accounts, target_resources, timeout, pan_application, versa_application. |
| ModelText.v | Texts of addresses and networks, as printed by Python's ipaddress module through nacaddr (capirca/lib/nacaddr.py subclasses IPv4Network and IPv6Network and does not override the printing of addresses). |
| ModelTf.v | Model of capirca/lib/gce_vpc_tf.py: Google Compute Engine firewall rules written as a Terraform configuration. The output is modelled as the Python value that __str__ (gce_vpc_tf.py:608-615) passes to json.dumps. What the module takes over from gce.py word for word (IsDefaultDeny, the options of a header, the protocols left out for a family, the slices of addresses, the ports) is taken over from ModelGce.v too. |
| ModelWhole.v | From the text of a policy to a configuration: the filters of a policy that are meant for a platform, the check of their keywords, and the translation. |
| ModelWin.v | Windows firewall commands (windows.py, windows_advfirewall.py). Not modelled: log messages. The text is given by its lines. |

## Specifications

| file | contents |
|---|---|
| SpecAclgen.v | What a run of aclgen is for: every output file holds the generated text. |
| SpecAruba.v | How an Aruba controller reads netdestinations and session access lists, and the policies whose lists decide as their terms do. Nothing here is taken from the code that writes them. |
| SpecAsa.v | How a Cisco ASA reads the lines of its access lists, and the policies whose lists decide as their terms do. Nothing here is taken from the code that writes the lines. |
| SpecBase.v | Specification vocabulary for strings. |
| SpecCgrep.v | Specification vocabulary for looking up definitions: what the reports mean. Definitions mean what SpecNaming.v says, addresses are looked up as SpecParents.v says. |
| SpecCheck.v | What the address checker is asked to find. |
| SpecCisco.v | Reading of extended access-list lines, as a device does: word by word. Independent of the code that writes them. |
| SpecCiscoGroup.v | Reading of Cisco configurations: network groups, port groups and access lists, section by section, as a device reads them. Independent of the code that writes or rewrites them. |
| SpecCiscoRules.v | Meaning of access lists that refer to object groups, and the policies whose lists decide as their terms do. |
| SpecCloudArmor.v | Specification vocabulary for Cloud Armor: how a security policy is applied to a request, and what the policy file asks for. Nothing here is taken from the code that writes the rules. |
| SpecEvo.v | How the conditions of Junos Evo IPv6 filters are to be written: the table of doc/generators/juniperevo.md ("IPv6 Protocol Match"). |
| SpecGce.v | Specification vocabulary for Google Compute Engine firewalls: how the documentation of the cloud reads a list of rules, and how a policy term reads for such a firewall. Nothing here is taken from the code that writes the rules. |
| SpecGcpHf.v | Specification vocabulary for hierarchical firewall policies of the Google cloud: how the cloud reads the rules, its limits, and what the policy asks for. Nothing here is taken from the code that writes the rules. |
| SpecGen.v | Specification vocabulary for the parts shared by all generators. |
| SpecIP.v | Specification vocabulary for networks: which addresses a network covers. Independent of how the code computes (no masks, no bit operations). |
| SpecInclude.v | Where a path leads, and what including files means. |
| SpecIpsec.v | Reading of the commands for IP security policies of Windows, and what the objects they add say. Independent of the code that writes them. |
| SpecIpset.v | Specification vocabulary for address sets: what ipset does with the commands it is given, and what the address conditions of a rule say when those sets exist. Nothing here is taken from the code that writes them. |
| SpecIptables.v | Reading of iptables rules, as iptables-restore does: arguments with quotes, options with their values, chains that call each other. Independent of the code that writes them. |
| SpecJunPolicy.v | What a policy file asks of a Juniper configuration: which filters, and with which terms. Independent of the code that writes it; the text is read as in SpecJuniper. |
| SpecJuniper.v | Reading of Junos configuration text, as a router does: words, statements that end in semicolons, blocks in braces, comments that are skipped. Independent of the code that writes it. |
| SpecK8s.v | Specification vocabulary for Kubernetes network policies: which resources the API server accepts, how they decide, and what the policy asks for. Nothing here is taken from the code that writes the resources. |
| SpecMsmpc.v | What MS-MPC application sets say (C96), read from the lines of a configuration. |
| SpecMsmpcAddr.v | Specification for the addresses of MS-MPC rules: how the device reads an address block. |
| SpecNaming.v | What definition tables mean, independently of the lookup code. |
| SpecNft.v | Reading of an nftables configuration: words, sets, rules, chains, tables, and what a chain does with a packet. Independent of the code that writes it. Every statement is on a line of its own, as in the output of nft list ruleset. |
| SpecNsx.v | How NSX-T reads a security policy, and what the policy file asks for. Independent of the code that writes it. |
| SpecNsxv.v | How NSX-V reads a section, and what the policy file asks for. Independent of the code that writes it: the text is read as XML by a small reader. |
| SpecOpenConfig.v | Specification vocabulary for OpenConfig access lists: how a device reads the tree of the OpenConfig ACL schema, and what the policy asks for. Nothing here is taken from the code that writes the tree. |
| SpecParents.v | Vocabulary for reverse lookups. |
| SpecParse.v | The policy language as its manual describes it (README.md, policy.py:1931-2866): how tokens are spelled, how they may be laid out, and which sequences of tokens make a policy. |
| SpecPcap.v | Reading of pcap filter expressions (pcap-filter(7)), and the policies that can be written as one. |
| SpecPf.v | Reading of pf.conf, as Packet Filter does: tables and rules. Independent of the code that writes them. A rule with lists in braces stands for one rule for each choice from the lists. |
| SpecPolicy.v | What it means for a packet to match a policy term: the reading of the policy language (doc/ and the Term docstring, policy.py:301-373), independent of any code. |
| SpecPorts.v | Specification vocabulary for ports. |
| SpecReader.v | Specification vocabulary for reading policy files line by line and searching them: what a file laid out in the usual way (one field on a line) says, and which terms a search asks for. Nothing here is taken from the code that reads. |
| SpecSaid.v | What the statements of a policy text say, read off the statements themselves. |
| SpecSonic.v | Specification vocabulary for SONiC access lists: how a switch reads the ACL_RULE table of its configuration database, and what the policy asks for. Nothing here is taken from the code that writes the table. |
| SpecSrx.v | Reading of SRX configurations, as the firewall does: address books, applications and the policies between two zones. Independent of the code that writes them. |
| SpecSum.v | Specification vocabulary for (address, mask) pairs and dotted quads. |
| SpecText.v | Reading of addresses written as text: the usual notations, independent of the code that prints them. |
| SpecTf.v | Specification vocabulary for firewalls declared to Terraform (resources of the kind google_compute_firewall): how the documentation of the provider reads such a resource. What a policy asks for is read as for Google Compute Engine (SpecGce.v). Nothing here is taken from the code that writes the configuration. |
| SpecWhole.v | What a policy text asks of a platform, read off the statements. |
| SpecWin.v | Reading of the commands for the advanced firewall of Windows, and its way to decide. Independent of the code that writes them. |

## Properties

For each property: what is modelled, how it is proved, and what the proved theorems leave out. The theorems are listed in MANIFEST.json; all of them are in `Props*.v`, with the examples that meet their hypotheses beside them.

### C01 Collapsing preserves the address set (proved)

Whenever nacaddr.CollapseAddrList returns, an IP address is covered by the returned list iff it is covered by the input list, whatever exclusion list is passed.

Plan: Collapse of nacaddr (sort, stack merge) as a fold; invariant: the stack covers what was read.

Result: All lists and exclusion lists, both families.

Theorems: `C01_collapse_preserves_addresses`, `C01_collapse_result_valid`.

### C02 Collapsing yields the canonical minimal list (proved)

Without an exclusion list, CollapseAddrList returns prefixes in ascending order, pairwise disjoint, with no two that could be joined into their common parent; two inputs covering the same addresses give the same prefixes, so the result does not depend on order or duplication and collapsing twice changes nothing.

Plan: Same model; the result is sorted, disjoint and has no two siblings; uniqueness of such lists by induction on block size.

Result: Canonical form, uniqueness and minimal length.

Theorems: `C02_collapse_canonical`, `C02_collapse_depends_only_on_addresses`, `C02_collapse_shortest`.

### C03 Collapsing never fails (partial)

CollapseAddrList returns a list for every input (it never raises).

Plan: Exceptions as values; case analysis of the only raising branch.

Result: False in general: with an exclusion list and both families a TypeError is possible (refuted by a witness). Proved without an exclusion list and for one family.

Theorems: `C03_collapse_never_raises_refuted`, `C03_collapse_never_raises_partial`.

### C04 Exclusion-aware collapsing does not reverse intent (partial)

If CollapseAddrList is given the exclusions, then under most-specific-prefix matching (excludes winning ties) every address gets the same verdict from (collapsed list, exclusions) as from (original list, exclusions).

Plan: The exclusion check before a merge is modelled; coverage with exclusions compared before and after.

Result: False in general (refuted by a witness). Proved: no address becomes matched by collapsing; verdicts unchanged whenever every exclusion that contains a listed network starts at that network's own first address (the only overlap the code looks for).

Theorems: `C04_collapse_keeps_verdict_refuted`, `C04_collapse_never_widens_partial`, `C04_collapse_keeps_verdict_partial`.

### C05 Collapsing keeps every comment (proved)

Every comment of every input network is contained in the comment of a returned network that covers it.

Plan: Comments are carried by networks; invariant that every comment occurs in the comment of a covering result.

Result: 

Theorems: `C05_collapse_keeps_comments`.

### C06 Removing an address is exact set difference (proved)

RemoveAddressFromList(L, x) returns networks covering exactly the addresses covered by L and not by x.

Plan: RemoveAddressFromList through exclude_address and summarize_address_range of Python's ipaddress; bit arithmetic.

Result: 

Theorems: `C06_remove_address_exact`.

### C07 Excluding a list is exact set difference (partial)

AddressListExclude(S, E) returns networks covering exactly the addresses covered by S and not by E, for both settings of collapse_addrs.

Plan: AddressListExclude with a work list on fuel; loop invariant: covered = covered so far minus excluded.

Result: collapse_addrs=True is exact for all inputs. collapse_addrs=False is false for overlapping supersets (witness) and exact for pairwise disjoint single-family ones.

Theorems: `C07_exclude_list_exact`, `C07_exclude_nocollapse_refuted`, `C07_exclude_nocollapse_partial`.

### C08 Token-preserving collapse keeps coverage and attribution (partial)

CollapseAddrListPreserveTokens returns networks covering exactly the input addresses, and every returned network carries a parent token of some input network.

Plan: Grouping by token, then collapse in each group; permutation and coverage.

Result: Coverage exact for all inputs. Attribution is false when networks are merged (witness): the merged network takes the defining token; proved when token and parent token agree.

Theorems: `C08_preserve_tokens_coverage`, `C08_preserve_tokens_attribution_refuted`, `C08_preserve_tokens_attribution_partial`, `C08_is_super_net_sound`, `C08_is_super_net_complete`.

### C09 Single-network exclusion is an exact partition (proved)

iputils.exclude_address(base, ex) yields pairwise disjoint, valid networks of the same family whose union is base minus ex.

Plan: iputils.exclude_address; induction on the difference of prefix lengths.

Result: 

Theorems: `C09_exclude_address_partition`, `C09_exclude_address_outside_raises`.

### C10 Sorting is by family, address and mask (proved)

SortAddrList returns a permutation of its input ordered by family, then network address, then prefix length.

Plan: py_sorted as stable insertion; sorted permutation.

Result: 

Theorems: `C10_sort_addr_list`.

### C11 Port-list collapsing preserves the port set (proved)

Policy translation of port lists keeps exactly the same set of ports, and emits ascending ranges.

Plan: CollapsePortList; induction on the sorted list.

Result: 

Theorems: `C11_collapse_ports_same_set`, `C11_collapse_ports_ascending`.

### C12 Collapsed port ranges are disjoint and non-adjacent (partial)

After collapsing, no two emitted port ranges overlap or touch.

Plan: Same model; adjacency shown or refuted on the result.

Result: False in general: ranges sharing one end port are not joined (witness). Proved when no range ends where another starts.

Theorems: `C12_collapsed_ranges_disjoint_refuted`, `C12_collapsed_ranges_separated_partial`.

### C13 Port containment test is sound (proved)

If the containment check used by shade detection says one port list is inside another, every port of the first is in the second; on collapsed lists the converse holds too when ranges are separated.

Plan: CheckPortIsContained; quantification over ports.

Result: 

Theorems: `C13_port_containment_sound`, `C13_port_containment_complete_when_separated`.

### C14 Shade detection is sound (partial)

When a policy is rejected or warned because an earlier term shades a later one, every packet matched by the later term is matched by the earlier one.

Plan: Term.__contains__ and the shading loop; packets as the meaning of terms.

Result: The reported pairs are exactly the pairs the containment test accepts (in full). Soundness of that test is false: refuted by four witnesses (protocol lists compared the wrong way round, options, fields never compared such as ttl, destinations ignored when there is a source exclusion). Proved for comparable terms.

Theorems: `C14_shading_reports_contained_pairs`, `C14_shading_verdict`, `C14_shading_sound_refuted`, `C14_shading_sound_options_refuted`, `C14_shading_sound_ttl_refuted`, `C14_shading_sound_exclusion_refuted`, `C14_shading_sound_partial`, `C14_rejected_policy_has_dead_term_partial`.

### C15 DSM summarisation preserves the address set (proved)

summarizer.Summarize returns (network, mask) pairs matching exactly the addresses of the input networks.

Plan: summarizer.Summarize; invariant of the pairing loop over (address, mask) pairs.

Result: 

Theorems: `C15_summarize_same_addresses`, `C15_summarize_keeps_comments`, `C15_summarize_sorted_and_short`.

### C16 Dotted-quad conversion is exact (proved)

The dotted-quad text produced for a network and mask denotes the same integers, and out-of-range integers are rejected.

Plan: Dotted quads; digit arithmetic.

Result: 

Theorems: `C16_dotted_quad_exact`, `C16_dotted_quad_accepts`, `C16_prefixlen_text`.

### C17 Undefined tokens are rejected when definitions are loaded (partial)

If loading definition files succeeds, every token referenced in a definition is itself defined.

Plan: The parser of definition files as a state machine over lines; induction on lines.

Result: Refuted: a reference on a line with a comment is not checked. Proved for lines without a comment; for services provided no .net file starts with a continuation line.

Theorems: `C17_undefined_rejected_refuted`, `C17_undefined_networks_rejected_partial`, `C17_undefined_services_rejected_partial`.

### C18 Network lookup returns exactly the flattened definition (proved)

For acyclic definitions GetNetAddr/GetNet terminates and returns exactly the networks reachable from the token through nested tokens, each labelled with the defining token and the requested token.

Plan: GetNet with recursion through tokens on fuel; the flattened definition is an inductive relation.

Result: For every loaded definitions text without a reference cycle below the token; the address syntax (nacaddr.IP on text) is a universally quantified function. Terminates, and either the exact list or UndefinedAddressError with an undefined token reachable.

Theorems: `C18_get_net_exact`.

### C19 Service lookup returns exactly the flattened definition (proved)

For acyclic definitions GetService terminates and returns exactly the port/protocol entries reachable from the token; GetServiceByProto returns exactly those of the protocol asked for.

Plan: GetService likewise.

Result: As C18, for services; by-protocol lookup exact, protocol names compared without case.

Theorems: `C19_get_service_exact`, `C19_by_proto_exact`.

### C20 Lookups terminate (partial)

GetNet, GetService and the parent queries terminate for every definitions text that loads successfully.

Plan: Fuel bound from an acyclic order of tokens; cycles refute it.

Result: Refuted: two definitions that refer to each other load, and the lookup recurses for every depth. Proved: absence of a cycle is necessary and sufficient.

Theorems: `C20_lookup_terminates_refuted`, `C20_get_net_terminates_partial`, `C20_get_service_terminates_partial`, `C20_parents_terminate_partial`.

### C21 Checker finds the term that decides a packet (partial)

AclCheck reports, for a packet and a filter, the first term whose conditions the packet meets, and reports nothing after an exact match.

Plan: aclcheck over translated policies; first match over packets.

Result: Refuted in general: exclusions, either-side addresses/ports and many other conditions are ignored (witness). Proved for terms with only conditions the checker looks at: the exact match is the deciding term, the deciding term is always reported, wildcards mean 'some packet'. 'Nothing after an exact match' and independence of filters hold in full. ActionMatch (C21_action_match_partial): the matches it returns are exactly the terms that match for certain, are not preceded by a deciding one and have the action asked for.

Theorems: `C21_exact_match_partial`, `C21_exact_match_is_deciding_term_partial`, `C21_deciding_term_reported_partial`, `C21_exact_match_is_last`, `C21_action_match_partial`, `C21_wildcards_partial`, `C21_filters_are_independent`, `C21_exact_match_refuted`.

### C22 Includes stay inside the base directory and terminate (proved)

Policy includes are only read from below the base directory and expansion terminates with an error when nesting exceeds the limit, even for cyclic includes.

Plan: _Preprocess and posixpath.normpath over an abstract file tree; induction on depth, normal forms of paths.

Result: Paths are compared as texts after normalisation; symbolic links are not resolved (the code does not resolve them either). The working directory is absolute.

Theorems: `C22_reads_stay_inside`, `C22_outside_files_do_not_matter`, `C22_expansion_exact`, `C22_cycles_end_in_an_error`, `C22_errors`, `C22_include_lines`.

### C23 Term names never exceed the platform limit (proved)

FixTermLength returns a name no longer than the limit or raises; without abbreviation or truncation it returns the name unchanged or raises.

Plan: FixTermLength; induction on strings.

Result: For every abbreviation table of fixed, non-empty words (both tables in the code are).

Theorems: `C23_name_fits`, `C23_short_names_unchanged`, `C23_error`, `C23_only_truncated`, `C23_abbreviates_as_needed`, `C23_abbreviates_if_possible`.

### C24 Established terms only ever gain the high port range (proved)

FixHighPorts leaves terms without the established options unchanged, and otherwise leaves destination ports covering exactly the original ports plus 1024-65535 (tcp/udp only) or raises.

Plan: FixHighPorts; case analysis over options and protocols.

Result: A term without destination ports (any port) is narrowed to the high ports by the same rule; C24_established_matches says so.

Theorems: `C24_established_gains_high_ports`, `C24_established_matches`, `C24_other_terms_unchanged`, `C24_stateful_platforms`, `C24_errors`.

### C25 No term feature is silently dropped (partial)

Building a generator for a policy either raises or every non-empty field of every term rendered for that platform is in the set of fields the platform supports.

Plan: The check of supported keywords and sub-tokens over all attributes of a term.

Result: Exact acceptance condition proved. Refuted for source_tag, destination_tag, restrict_address_family (only warned about) and ttl 0 (not seen); proved for all other match fields of the term model.

Theorems: `C25_accepted_iff_keywords_known`, `C25_error`, `C25_no_condition_dropped_refuted`, `C25_no_condition_dropped_partial`, `C25_keywords_on_the_list`.

### C26 ICMP type names map to the right family numbers (proved)

NormalizeIcmpTypes returns the sorted numbers of exactly the named types for the address family or raises when the protocol does not match the family or a name is unknown.

Plan: NormalizeIcmpTypes and the tables of both families.

Result: 

Theorems: `C26_icmp_types_exact`, `C26_no_types`, `C26_errors`.

### C27 Truncated comments respect the limit (proved)

TruncateWords never returns more than the requested number of characters plus its two quotes.

Plan: TruncateWords; induction on words.

Result: For limits that are not negative (a negative limit slices from the end); line breaks are removed only from lists of comments.

Theorems: `C27_limit_respected`, `C27_one_quoted_line`, `C27_short_texts_unchanged`.

### C28 Cisco extended ACL matches exactly the term (partial)

The access-list lines emitted for a term match a packet iff the term does (after exclusion).

Plan: cisco.Term and Cisco for extended lists; a line reader word by word; a term's lines against the term's meaning, then first match over the whole list.

Result: Exact for terms within what extended access lists can express, for one term and for the outcome of a whole access list (first match, expired and other-family terms, established rewriting). Refuted by four witnesses: exclusion without inclusion, is-fragment beside a protocol, protocol ipv6 where names are printed, the other family's ICMP beside other protocols. Port names of the platform arista are not modelled.

Theorems: `C28_term_lines_exact_partial`, `C28_access_list_decides_as_policy_partial`, `C28_exclusion_alone_refuted`, `C28_fragment_option_refuted`, `C28_protocol_ipv6_refuted`, `C28_other_icmp_refuted`, `C28_established_tcp_udp_partial`.

### C29 Cisco port normalisation preserves the port set (proved)

Replacing two-port ranges by two single ports leaves the set of ports unchanged.

Plan: _FixConsecutivePorts; set of ports.

Result: 

Theorems: `C29_ports_unchanged`, `C29_no_two_port_range`.

### C30 Removing duplicate object groups keeps every reference valid (partial)

With remove_duplicate_network_objectgroups, every network group an access list refers to after the removal is defined and has the members that the group named there before the removal had.

Plan: The three passes over text (find, remove, replace) against a section reader; then composed with C64 for generated text.

Result: Proved for every text with plain line ends whose names are defined once per family, and for whole generated configurations (IOS and XR) whose headers have no network name in common: the lists decide as the policy and no duplicates remain. False for Nexus lists, for a name defined twice, and for two headers that use the same network (refutations, the last one on generated text).

Theorems: `C30_references_keep_members_partial`, `C30_defined_twice_refuted`, `C30_nexus_refuted`, `C30_generated_lists_decide_partial`, `C30_shared_network_refuted`.

### C31 iptables chains match exactly the term (partial)

The rules emitted for a term apply the term action to a packet iff the term (after exclusion) matches it.

Plan: iptables.Term and Iptables; a reader of restore files with chains that call each other.

Result: The generated text is read back with an independent reader of iptables-restore syntax; each filter decides every packet as the first matching term says. Missing: terms outside ipt_term_ok. The full claim is false: six refutations (full exclusion, ICMP code 0, option none, protocols of both families, ICMPv6 types beside an option, comment ending in a backslash).

Theorems: `C31_table_decides_as_policy_partial`, `C31_full_exclusion_refuted`, `C31_icmp_code_zero_refuted`, `C31_option_none_refuted`, `C31_mixed_families_refuted`, `C31_icmpv6_types_refuted`, `C31_comment_backslash_refuted`.

### C32 iptables multiport batches respect the kernel limit (proved)

Splitting ports for multiport matches keeps every port in exactly the emitted statements and never puts more than 15 ports in one.

Plan: _GeneratePortStatement; slots of each multiport list.

Result: Stated through a reader of the port conditions that refuses more than fifteen places.

Theorems: `C32_batches_exact`, `C32_batches_match`.

### C33 Juniper prefix minimisation preserves longest-match semantics (proved)

The minimised include/except lists give every address the same longest-prefix verdict as the original lists.

Plan: _MinimizePrefixes; longest-prefix match of lists with except.

Result: Longest-prefix verdict of every address is kept, unconditionally for valid lists.

Theorems: `C33_minimize_keeps_verdicts`, `C33_minimize_only_removes`.

### C34 Juniper terms match no more than they say (partial)

A rendered Juniper term constrains every match field present in the term.

Plan: juniper.Term and Juniper; a tokenizer and reader of Junos blocks.

Result: The text is read back by an independent reader of Junos configuration (words, statements, blocks, comments). Terms within juniper_term_ok and whole filters decide exactly as the policy. Refuted outside: option or packet length alone, exclusion alone or around an inclusion, established with several protocols, ttl in IPv6, ICMPv6 in a mixed filter. Families inet, inet6 and bridge (mixed headers: C88). Missing: verbatim and filter terms.

Theorems: `C34_term_exact_partial`, `C34_filter_exact_partial`, `C34_option_alone_refuted`, `C34_packet_length_alone_refuted`, `C34_exclusion_alone_refuted`, `C34_nested_exclusion_refuted`, `C34_established_refuted`, `C34_ttl_refuted`, `C34_mixed_icmpv6_refuted`.

### C35 nftables rules match exactly the term (partial)

The rules emitted for a term match a packet iff the term (after exclusion) does.

Plan: nftables.Term and Nftables; a reader of rulesets with sets, chains and hooks.

Result: Whole policies, from their text: the chain of every header accepts replies and otherwise decides as the first matching term in force says; restricted to terms whose conditions nftables.py does not drop, the dropped ones are refuted one by one.

Theorems: `C35_ruleset_decides_as_policy_partial`, `C35_ports_dropped_refuted`, `C35_interface_first_rule_only_refuted`, `C35_full_exclusion_refuted`, `C35_exclusion_alone_refuted`, `C35_icmp_both_families_refuted`, `C35_header_comment_escapes_refuted`, `C35_reserved_name_refuted`.

### C36 pcap filter matches exactly the accepted packets (partial)

The generated pcap expression selects a packet iff the policy accepts it.

Plan: pcap.Term and PcapFilter; a reader of filter expressions with precedence.

Result: The text is read by an independent reader of pcap-filter expressions (and/or equal precedence, left to right). Proved for headers with at most one denying term, one accepting term and then a default deny (and the mirror shape for the inverted filter), with conditions on destination, protocol, ports, ICMP types and TCP flags, any number of headers. False in general; refuted by witnesses: source written as destination, accepts and denies joined by and, exclusions negated twice, accept-rest dropped, order lost, several ICMP codes, icmpv6 types dropped, ::/0 dropped, other options dropped, family not enforced, direction stays for later headers, empty header makes the text unreadable, inverted default deny selects accepted packets.

Theorems: `C36_filter_selects_accepted_partial`, `C36_inverted_selects_denied_partial`, `C36_source_is_destination_refuted`, `C36_accepts_intersected_refuted`, `C36_denies_intersected_refuted`, `C36_exclusion_negated_twice_refuted`, `C36_accept_rest_refuted`, `C36_order_lost_refuted`, `C36_icmp_codes_refuted`, `C36_icmpv6_types_refuted`, `C36_all_addresses_refuted`, `C36_options_dropped_refuted`, `C36_family_not_enforced_refuted`, `C36_direction_stays_refuted`, `C36_empty_header_refuted`, `C36_inverted_default_refuted`.

### C37 Unchanged output is not rewritten (partial)

A file is rewritten iff its new content differs from the old one in a line that is not a repository tag.

Plan: FilesUpdated: comparison line by line without repository tags.

Result: Proved for text outputs, and for whole runs without binary outputs and file-name clashes, with generated texts free of carriage returns. Refuted for binary outputs (SONiC): the file's bytes are compared as a Python bytes literal, so it is rewritten every time.

Theorems: `C37_text_rewritten_iff_changed`, `C37_missing_file_written`, `C37_second_run_writes_nothing_partial`, `C37_binary_always_rewritten_refuted`.

### C38 Sequential and parallel runs write the same files (partial)

Processing policies with one worker or with several gives the same list of files to write.

Plan: Workers as an arbitrary permutation of completions over the same map.

Result: Proved for every interleaving when no policy fails and no two outputs share a file name. Refuted otherwise: after an error a sequential run writes nothing, a parallel run writes the rest; with equal names the schedule decides.

Theorems: `C38_parallel_run_writes_the_same_partial`, `C38_error_refuted`, `C38_same_name_refuted`.

### C39 Configuration precedence (partial)

A configuration value is taken from the config files if set there, else from the command line, else from the defaults, later config files winning.

Plan: Merging of defaults, configuration files and flags as maps.

Result: Exact precedence proved. Refuted for empty configuration files, which raise TypeError instead of setting nothing.

Theorems: `C39_precedence`, `C39_succeeds_partial`, `C39_empty_file_refuted`.

### C40 Expired terms are never rendered (partial)

A term whose expiration date is today or earlier produces no rule.

Plan: The date test in each modelled translator: rendering with and without expired terms is the same text.

Result: Proved for Cisco access lists, Juniper filters, iptables/speedway tables, nftables rulesets, pcap filters, OpenConfig, SONiC, Kubernetes, Aruba, Cisco ASA and Juniper SRX; GCE: removing expired terms leaves the rules unchanged when each header keeps a term. Cloud Armor and hierarchical policies refuse the keyword. The generators that are not modelled are missing.

Theorems: `C40_cisco_expired_not_rendered`, `C40_expired_never_rendered_aruba`, `C40_expired_never_rendered_asa`, `C40_expired_never_rendered_sonic`, `C40_expired_never_rendered_k8s`, `C40_expired_never_rendered_openconfig`, `C40_gce_expired_dropped`, `C40_iptables_expired_not_rendered`, `C40_juniper_expired_not_rendered`, `C40_expired_never_rendered_nftables`, `C40_expired_never_rendered_pcap`, `C40_srx_expired_not_rendered`.

### C41 Every summarised IPv4 list can be rendered (partial)

Every (address, mask) pair summarizer.Summarize returns for an IPv4 list can be rendered by ToDottedQuad.

Plan: Summarize and ToDottedQuad; masks of the result.

Result: False in general (witness: 10/8 with 138/8 gives mask 127.0.0.0, which is rejected). Proved when all addresses agree on the top bit.

Theorems: `C41_summaries_renderable_refuted`, `C41_summaries_renderable_partial`.

### C42 Parent queries list exactly the containing tokens (partial)

GetServiceParents/GetNetParents name a token iff its flattened definition refers to the queried one, directly or through other tokens.

Plan: _GetParents over definition tables; reachability as an inductive relation.

Result: Soundness in full. Completeness is refuted (references on commented lines are not followed) and proved when references carry no comment.

Theorems: `C42_parents_sound`, `C42_parents_complete_refuted`, `C42_parents_complete_partial`.

### C43 Port names translate to the defined ports (proved)

TranslatePorts(ports, protocols) yields exactly the ranges that the definitions give for a named service and a listed protocol.

Plan: Port names through GetServiceByProto.

Result: Exact result, and an exact account of the exceptions.

Theorems: `C43_translate_ports_exact`, `C43_translate_ports_fails`.

### C44 Definition files load to what they say (proved)

A well-formed pair of definition documents loads successfully, and the tables hold exactly the names in order with exactly the values (and comments) written on their lines and continuation lines.

Plan: Definition files as lists of declarations; the state machine reads back what was written.

Result: Round trip from documents to loaded tables.

Theorems: `C44_documents_load_to_their_meaning`.

### C45 Translated ports belong to their protocol (partial)

If a term lists several protocols, a port obtained from a named service applies only to the protocols the service is defined for.

Plan: TranslatePorts per protocol.

Result: Refuted: DNS = 53/udp in a tcp+udp term yields port 53 for both.

Theorems: `C45_port_protocol_pairing_refuted`.

### C46 IP parent queries are exact (partial)

GetIpParents(address) lists, sorted and without duplicates, exactly the tokens whose flattened definition contains the address.

Plan: GetIpParents; covering networks of tokens.

Result: Refuted for items that do not start with a digit (such as fe80::/10); proved exact for items that do, and for token names starting with a letter.

Theorems: `C46_ip_parents_complete_refuted`, `C46_ip_parents_partial`, `C46_ip_parents_terminate_partial`.

### C47 Port parent queries are exact (proved)

GetPortParents(port, protocol) lists, sorted and without duplicates, exactly the tokens whose flattened definition has an entry covering that port for that protocol.

Plan: GetPortParents; port ranges of services.

Result: For a decimal query; names of definitions must be single words.

Theorems: `C47_port_parents_exact`.

### C48 Clean-up does not change what a term matches (partial)

Translating a policy sorts, collapses and merges the address and port lists of a term; a packet matches the term afterwards iff it did before, and the clean-up does not fail.

Plan: Term clean-up (collapsing) against the meaning of terms.

Result: Meaning preserved in full. Totality is refuted (both families with an exclusion list and optimisation: TypeError) and proved otherwise.

Theorems: `C48_cleanup_preserves_matching`, `C48_cleanup_total_refuted`, `C48_cleanup_total_partial`.

### C49 Terms are accepted iff they are well formed (partial)

The sanity check accepts a term iff it has an action, ports only with port protocols, layer-3 fields only without ether types, known ICMP types and codes, and TTL and traffic class in range; otherwise it raises a policy error.

Plan: SanityCheck as a decision procedure for a stated well-formedness.

Result: Acceptance characterised exactly. 'Every rejection is a policy error' is refuted (an ICMP code for a type without codes ends in KeyError) and proved otherwise.

Theorems: `C49_sanity_check_exact`, `C49_rejections_are_policy_errors_refuted`, `C49_rejections_are_policy_errors_partial`.

### C50 Flattening does not change what a term matches (partial)

FlattenAll replaces address lists and their exclusions by lists without exclusions that match the same packets.

Plan: FlattenAll against the meaning of terms.

Result: Refuted when the exclusions take away a whole list (it then matches anything) and when families are mixed (TypeError); proved otherwise.

Theorems: `C50_flattening_preserves_matching_refuted`, `C50_flattening_preserves_matching_partial`, `C50_flattening_total_refuted`.

### C51 A translated term matches what its text says (proved)

A term with port names is accepted only if the names define ports for a listed protocol, and then matches exactly the packets its fields and the defined ports allow.

Plan: TranslateTerm from names to networks and ports; meaning of the text of a term.

Result: For every loaded definitions text and every parsed term.

Theorems: `C51_translated_term_matches_its_text`, `C51_ports_need_a_protocol`.

### C52 Port arguments are validated (proved)

Port(text) returns the integer the text denotes iff it lies in 0..65535, else raises BadPortRange; a text that is no integer raises BadPortValue.

Plan: port.Port over texts; int() of a text as a reader of numerals.

Result: Texts with blanks are stripped by int(); underscores and non-ASCII digits are not modelled.

Theorems: `C52_port_accepted`, `C52_port_rejected`.

### C53 Containment checks are exact (partial)

The policy containment helpers answer yes for protocols iff every protocol of the inner list is in the outer one (an empty list meaning any), and for addresses only if every address the inner lists allow is allowed by the outer lists.

Plan: CheckProtocolIsContained and CheckAddressIsContained; sets of protocols and addresses.

Result: Protocol check exact; address check sound and exact network by network; completeness refuted (an inner network covered only by two outer networks together is not recognised).

Theorems: `C53_protocol_containment_exact`, `C53_address_containment_sound`, `C53_address_containment_networkwise`, `C53_address_containment_complete_refuted`.

### C54 Wrapped comments keep their text and fit (partial)

WrapWords breaks comments into lines no longer than the given width and loses no character other than blanks.

Plan: WrapWords and the regular expression it uses, as a greedy matcher; letters are kept, lines fit.

Result: Refuted: a one-letter word that does not fit with a neighbour is dropped. Proved when all words have two letters or more. Line separator newline (the default, used by all callers).

Theorems: `C54_lines_fit`, `C54_no_text_lost_refuted`, `C54_no_text_lost_partial`.

### C55 Only known protocols reach a platform (proved)

Creating a generator term raises for a protocol that is neither a known name nor a known number, and otherwise keeps every protocol or replaces it by its own number.

Plan: Term.__init__ and ProtocolNameToNumber over the protocol tables.

Result: 

Theorems: `C55_protocols_known`.

### C56 Addresses are written as what they are (proved)

The dotted-quad, colon-hex, prefix-length and wildcard-mask texts written into device configurations denote exactly the addresses of the network they were made from.

Plan: Printing of addresses by ipaddress; readers of the usual notations.

Result: Texts as printed by Python's ipaddress, whose algorithm is modelled.

Theorems: `C56_address_text`, `C56_prefix_text`, `C56_wildcard_text`.

### C57 An interrupted run is repaired by running again (proved)

If a run of aclgen is interrupted while writing its files, whatever was written and even if the last file is cut short, running it again leaves every output file with the generated text (up to repository tag lines) and changes no other file.

Plan: Crash between any two writes of a run; a second run over the remaining files.

Result: For outputs without file-name clashes and without carriage returns. The state of the disk after a crash: some files written, one possibly cut short.

Theorems: `C57_crash_repaired`.

### C58 Every platform of a policy gets its file (partial)

After a run every policy has, for each platform named in its headers, a file with the generated text (up to repository tag lines), and no file other than these has changed.

Plan: RenderFile's dispatch over platforms.

Result: Proved for outputs without file-name clashes; refuted for pcap, whose suffixes pathlib refuses.

Theorems: `C58_outputs_written_partial`, `C58_rendering_succeeds_partial`, `C58_pcap_fails_refuted`, `C58_shaded_policy_passed_over`, `C58_parse_error_ends_run`.

### C59 Comments do not change a Juniper filter (partial)

The comments and owner of a policy term do not change what the generated Juniper configuration does: two terms that differ only there read as the same configuration.

Plan: Comments of Juniper terms through the tokenizer.

Result: Proved when no comment line contains the end-of-comment sign; refuted otherwise (a comment can inject an accepting term).

Theorems: `C59_comments_inert_partial`, `C59_comment_injects_refuted`.

### C60 A filter's default action and options are its own (partial)

In a generated iptables table, the default action of a built-in chain is the one its own header names, and the options nostate and noverbose of one header do not affect the filters of other headers.

Plan: Headers of iptables and speedway filters; default actions, options.

Result: Proved: a named default action is the chain's. The rest of the claim is false: default action and nostate of one header leak into later ones (refuted).

Theorems: `C60_named_default_partial`, `C60_default_leaks_refuted`, `C60_nostate_leaks_refuted`.

### C61 Generated iptables tables can be loaded (partial)

In the text generated for a policy every chain is created once, before any rule is put into it or jumps to it.

Plan: Generated tables through the loader of the reader: chains declared before use, once.

Result: Proved for filters whose names start with different letters; false in general (C61_same_chain_refuted).

Theorems: `C61_tables_load_partial`, `C61_same_chain_refuted`.

### C62 nftables chains are attached as the header says (partial)

For each header of a policy rendered for nftables, the family of the table, the hook, the priority, the default policy, the names of table and chain, and whether the chain is attached to a hook at all, are those the options of the header ask for: family by the first word, hook by the second, policy accept exactly when ACCEPT is given, priority by the number given, names by the last value given, defaults otherwise.

Plan: Headers of nftables; base chains with hook, priority and policy.

Result: Options read exactly as specified and the hook line of every chain read back from the text; negative priorities are silently replaced by 0 (refuted).

Theorems: `C62_header_options`, `C62_chain_attached`, `C62_negative_priority_refuted`.

### C63 nftables rulesets load (partial)

A ruleset rendered for nftables can be loaded: every chain that a rule calls is defined in the same table, and no chain is defined twice.

Plan: Names of tables and chains in a generated ruleset.

Result: Proved when the headers of a table share no names; with shared names refuted.

Theorems: `C63_ruleset_loads_partial`, `C63_same_term_name_refuted`, `C63_headers_collide_refuted`.

### C64 Access lists with object groups decide as the policy (partial)

A Cisco configuration generated for object-group filters, read section by section as a device does, with every net-group and port-group name looked up among the group definitions of the same configuration, permits and denies exactly the packets the terms in force do, first match first, for every header of the policy.

Plan: ObjectGroup, ObjectGroupTerm and the whole of Cisco.__str__; the configuration is read section by section and every reference is looked up.

Result: Exact for whole generated configurations under the stated conditions on terms (SpecCiscoRules.v, group_term_ok and group_policy_ok). The claim is false in general: exclusions, options and ICMP types are ignored, groups named by their first network can clash, mixed sides refer to undefined groups, inet6-restricted terms are left out of IPv6 lists (six refutations on generated text).

Theorems: `C64_group_lists_decide_partial`, `C64_shared_name_refuted`, `C64_exclusion_refuted`, `C64_established_refuted`, `C64_icmp_type_refuted`, `C64_mixed_side_refuted`, `C64_restricted_refuted`.

### C65 Layout of a policy does not matter (proved)

Blanks, line ends and comments between the tokens of a policy file do not change what is parsed: every text made of the same tokens gives the same policy.

Plan: Model the lexer rule by rule (ModelLex), give spelling and layout rules separately (SpecParse), prove by induction on the layout that the lexer returns the tokens.

Result: Proved for every text that consists of spelled tokens separated by gaps (laid_out).  Texts with stray characters are C66.

Theorems: `C65_layout_is_free`, `C65_layouts_agree`.

### C66 The parser accepts exactly the grammar (partial)

A sequence of tokens is parsed as a policy iff it is one by the grammar, and then as the one list of headers and terms the grammar gives; anything else is an error.

Plan: Model the productions as a total recursive-descent parser (ModelParse), write the grammar as inductive relations with independent keyword tables (SpecParse), prove soundness and completeness by induction.

Result: Equivalence between the recursive-descent model of the PLY grammar and an inductive grammar; the LALR tables themselves are not modelled.  Refuted part: characters that belong to no token are skipped silently, so a malformed text can be accepted.

Theorems: `C66_grammar_exact`, `C66_grammar_unambiguous`, `C66_every_text_has_tokens`, `C66_stray_characters_refuted`.

### C67 Statements accumulate (proved)

A term holds every value of a repeated list keyword in the order of the text, the last value of a single-valued keyword, and the networks its address names stand for; a grammatical term is accepted iff its actions, logging values, dates and names are valid. Headers collect targets, comments and apply-groups.

Plan: Case analysis of AddObject (BuildSteps), then induction over the statements against the lists of what was said under a keyword (SpecSaid).

Result: All keywords of the term and header grammar.

Theorems: `C67_repeated_keywords_accumulate`, `C67_single_keywords_last_wins`, `C67_addresses_looked_up`, `C67_other_keywords`, `C67_accepted_iff`, `C67_header_collects`.

### C68 A parsed policy means what its text says (partial)

For every policy text that parses, each term has the name, action, logging, options, comment and expiration of its text and matches exactly the packets that the statements of the text describe under the given definitions.

Plan: Compose C65, C66, C67 with the translation theorem C51; text_matches reads packets directly off the statements.

Result: Shade checking off (with it on, parsing can additionally raise ShadingError).  Restricted to statements whose network names each define at least one network: a name with an empty definition turns the restriction into any (refuted).

Theorems: `C68_parsed_text_means_what_it_says`, `C68_empty_definition_matches_all_refuted`.

### C69 Quoted texts are kept (partial)

A comment keeps its lines without their indentation; verbatim text reaches the output as written, with escaped quotes restored.

Plan: Induction on the text for strip, unescape and splitlines.

Result: Comments fully; verbatim text except when it ends with a quote, where the text is mangled (refuted).

Theorems: `C69_comment_lines`, `C69_verbatim_text_kept_partial`, `C69_escaped_text_is_one_token`, `C69_final_quote_refuted`.

### C70 Expiration dates follow the calendar (proved)

An expiration is accepted iff the day exists in the calendar, is compared in calendar order, and the last one given counts.

Plan: Arithmetic: monotonicity of days before year and month.

Result: date_ordinal models datetime.date.

Theorems: `C70_dates_exist`, `C70_dates_ordered`, `C70_expiration_read`.

### C71 GCE firewall rules decide as the policy (partial)

The firewall rules generated for a header decide every packet of the header's network and direction as the first unexpired matching term does, and as the cloud's implied rule when no term matches.

Plan: Model gce.py as functions from terms to rule dictionaries; give rules the reading of the cloud's documentation (SpecGce.v: priority, deny before allow, implied rule); prove rule by rule that a packet is met iff the term asks for it, then that priorities order the terms as the policy.

Result: Proved for all policies whose terms meet gce_term_ok, rank their terms by priority (well_ranked) and share no network and direction with another header; four refutations: equal priorities lose the order of terms, IPv4-style IPv6 addresses are dropped, icmpv6 from tags is dropped in mixed policies, an exclusion of destinations alone is ignored. Service accounts are outside the theorem.

Theorems: `C71_firewall_decides_as_policy_partial`, `C71_firewall_unique`, `C71_order_of_terms_lost_refuted`, `C71_ipv4_style_addresses_dropped_refuted`, `C71_icmpv6_from_tags_dropped_refuted`, `C71_destination_exclude_ignored_refuted`.

### C72 GCE rules respect the limits of the cloud (proved)

No generated rule exceeds the cloud's limits on names, descriptions, ranges, tags, accounts and ports, and when the first header states a maximum the attributes of all rules together stay within the largest stated maximum, or generation fails.

Plan: Invariant of the dictionary built for a term, then of the running attribute count over passes, terms and headers.

Result: Every rule of every policy is within the limits; total attributes at most N when the first header states a maximum and all maxima are at most N. Refuted: a later header with a larger maximum lets the total exceed the first.

Theorems: `C72_rules_within_limits`, `C72_quota_kept`, `C72_first_quota_exceeded_refuted`.

### C73 GCE rule names are unique (partial)

No two rules of a generated firewall have the same name, also when a term is split into several rules.

Plan: The names of a pass are a base name or numbered variants; two bases that do not extend each other have disjoint variants.

Result: Proved for one header whose term names do not extend each other behind a dash, with any splitting and families; refuted otherwise (a-v6).

Theorems: `C73_names_unique_partial`, `C73_names_clash_refuted`.

### C74 GCE descriptions belong to their term (partial)

The description of every rule is the comment and owner of the term it comes from, or the comment of the header when the term has none.

Plan: Follow the shared comment through the loop over terms.

Result: Proved unless a term has an owner and no comment, or an owner in a mixed policy; refuted there: owners leak to later terms.

Theorems: `C74_described_partial`, `C74_owner_of_another_term_refuted`.

### C75 GCE generation is deterministic (partial)

The same policy gives the same rules in every run of the program.

Plan: Make the iteration order of the set a parameter and show that permutations give the same options.

Result: Proved when each header names at most one address family; refuted for two.

Theorems: `C75_same_rules_every_run_partial`, `C75_runs_differ_refuted`.

### C76 The configuration generated from a policy text decides every packet as the text says (partial)

For a policy text and its naming definitions, the nftables ruleset, the iptables or speedway table and the pcap filter that are generated from it decide every packet as the first term of the text, in the order and the words of the text, that has not expired on the day of the run and whose statements describe the packet; only the filters whose header names the platform count.

Plan: ModelWhole selects the filters of a parsed policy that name a platform and checks their keywords; SpecWhole reads the same off the statements of the text (aimed, text_says). The theorem composes the parser's theorem (what a term of the text means) with the theorem about each generator, by a transfer of first_says along the correspondence of terms.

Result: Composition of C65, C66, C68 and C70 with C35 (nftables), C31 (iptables, speedway) and C36 (pcap). Partial: the policies those theorems leave out, filters with nostate, names that stand for no network (C68), texts with include lines.

Theorems: `C76_text_to_nftables_partial`, `C76_text_to_iptables_partial`, `C76_text_to_pcap_partial`.

### C77 OpenConfig access lists decide as the policy (partial)

For every list of OpenConfig filters whose terms use features that OpenConfig ACLs can express, the generated configuration has one access list per filter and address family (named as the filter, with 4 or 6 appended for mixed filters, typed by the family); each entry comes from one term in force, and a packet of the family gets from the list, reading the entries in the order of their sequence-ids, the outcome the policy gives it: the action of the first unexpired term of the filter that matches it, and no outcome when none does. Sequence-ids are unique in the whole configuration.

Plan: ModelOpenConfig models ConvertToDict (with the dictionary shared by the nested loops) and _TranslatePolicy; SpecOpenConfig reads the JSON value: what an entry says about a packet, and which outcome the entries give by sequence-id. The loops are handled by one invariant lemma (sweep_spec): after each round the shared keys are those of the current round or never set.

Result: Proved for terms OpenConfig entries can express (oc_term_ok): some address of the family left on each side, exclusions on both sides or neither, no port 0 range, no icmp types, at most one option with fitting protocols. Outside these the claim is refuted: addresses of the other family only and complete exclusion become any, exclusion on one side raises TypeError, port 0 means any, icmp types are dropped, established lets all udp through, only the last option counts, and several family words give an order-dependent result.

Theorems: `C77_access_lists`, `C77_entries_from_terms`, `C77_lists_decide_as_policy_partial`, `C77_other_family_refuted`, `C77_all_excluded_refuted`, `C77_one_sided_exclusion_refuted`, `C77_port_zero_refuted`, `C77_icmp_type_refuted`, `C77_udp_established_refuted`, `C77_last_option_refuted`, `C77_families_order_refuted`.

### C78 SONiC tables decide as the policy (partial)

For a policy with a header for SONiC, the generated ACL_RULE table numbers its rules RULE_10, RULE_20, ... with distinct, falling priorities between 0 and 65526, and gives every packet of a family the header asks for the outcome of the first term in force that matches, and none when there is no such term, whatever the order in which the set of families is walked.

Plan: ModelSonic follows sonic.py: the sweep over protocols, icmp types, addresses and ports with the shared dictionary, the test of families, numbering and nesting of headers. SpecSonic reads the table as a switch does (conditions of a rule, highest priority first). Rule list of a term ↔ its conditions, blocks of terms in order, first match.

Result: Numbering proved in full for one header. Decisions: one header for SONiC, terms without port 0, without single ports and ranges in one list, tcp-established only with protocol tcp, protocol all not used. The rest is refuted: port 0 is any port, tcp-established without protocol matches everything, mixed single ports and ranges, platform-exclude ignored, ipip fails with KeyError, a second header hides the rules of the first.

Theorems: `C78_rules_numbered`, `C78_table_decides_as_policy_partial`, `C78_port_zero_refuted`, `C78_established_alone_refuted`, `C78_platform_exclude_refuted`, `C78_mixed_ports_refuted`, `C78_second_header_refuted`, `C78_ipip_refuted`.

### C79 Cloud Armor policies keep the limits and decide as the policy (partial)

A Cloud Armor policy has at most 200 rules, each with one to five source ranges and a description of at most 64 characters; the rules of a header are numbered 1, 2, ... in the order of the terms, terms with many addresses being split; and every request of a family of the header gets the outcome of the first term that matches, and none when there is no such term.

Plan: ModelCloudArmor follows cloudarmor.py: description, families, chunks of five, numbering, the limit of 200. SpecCloudArmor says how a security policy is applied (lowest number first, star for all). Chunks keep all addresses (shared with C71), blocks of terms in order, first match.

Result: Limits proved for all policies, numbering for one header. Decisions: one header, terms meant for the platform with addresses of a family of the header. The rest is refuted: addresses of the other family only give a rule for everyone, terms for other platforms are rendered, numbers start again with a second header.

Theorems: `C79_limits`, `C79_priorities`, `C79_rules_decide_as_policy_partial`, `C79_other_family_refuted`, `C79_platform_refuted`, `C79_second_header_refuted`.

### C80 Kubernetes network policies are accepted by the API server and permit what the policy accepts (partial)

For every policy the Kubernetes generator accepts, each resource it writes is one the API server takes (a DNS name, a transport protocol, ports in range with the end not below the start, exceptions strictly inside their block), no two resources of a header share a name, and traffic to (or from) the pods is permitted by the resources exactly if some header for that direction has a first matching term in force that accepts.

Plan: ModelK8s follows k8s.py term by term into the tree of the resources; SpecK8s reads the tree as the API server and the pods do. K8sProofs: one block of resources per term, the rule of a block allows exactly the packets that match its term, and a union over blocks is the first match when no accepting term follows a denying one.

Result: Proved for policies with any number of headers: names distinct within a header, resources accepted by the API server for terms without dots in names, with the three transport protocols, ports from 1 and exclusions inside every address, and permitted traffic equal to accepted traffic when no accepting term follows a denying one. Refuted otherwise: an accepting term after a default deny still opens the pods, a policy whose terms have all expired permits everything, exclusions of the other side are dropped, two headers may give the same name, names with two dots in a row, exclusions outside one of several addresses and protocol numbers give resources the API server refuses.

Theorems: `C80_names_distinct`, `C80_resources_accepted_partial`, `C80_permits_as_policy_partial`, `C80_order_refuted`, `C80_expired_refuted`, `C80_far_exclusion_refuted`, `C80_two_headers_refuted`, `C80_dots_refuted`, `C80_exclusions_refuted`, `C80_number_refuted`.

### C81 Hierarchical firewall policies keep the limits of the cloud and decide as the policy (partial)

For every policy the generator of Google hierarchical firewall policies accepts, with any number of headers, the rules are numbered 1, 2, ... in the order of the file, every rule keeps the limits of the cloud (ranges, ports, targets, length of the description), the name is one the cloud takes, the rules are charged no more than the limit of each header, and for each direction and family the matching rule with the lowest number decides as the first matching term of the headers for that direction and family.

Plan: ModelGcpHf follows gcp_hf.py into the tree of the policy; SpecGcpHf reads the tree as the cloud does. GcpHfProofs: each rule of a term for a family says exactly what the term asks of that family. GcpHfPolicy: blocks of rules, one per term of any header, numbered through, so the first match of the blocks is the first match of the terms. GcpHfLimits: limits of each rule, and the cost carried through the headers equals the sum of the charges.

Result: Proved for any number of headers: numbering; limits of every rule and the name; total charge within the limit of every header unless threat lists are used with the beta interface; decisions for headers that name at most one family and terms without addresses of the other side, targets or threat lists. Refuted: addresses of the other side are dropped, ipip raises KeyError, a threat list with icmpv6 in a mixed policy leaves no rule, threat lists are not counted with the beta interface, headers with different interfaces may give different names, and a header with two families depends on the order in which Python walks a frozen set.

Theorems: `C81_priorities`, `C81_limits_partial`, `C81_rules_decide_as_policy_partial`, `C81_far_address_refuted`, `C81_ipip_refuted`, `C81_threat_list_dropped_refuted`, `C81_beta_cost_refuted`, `C81_one_name_refuted`, `C81_two_families_refuted`.

### C82 Aruba session access lists decide as the policy (partial)

For every policy the generator of Aruba session access lists renders, the text is a configuration of the device: one access list for each header, in order and with the name the header gives, every alias a list refers to is defined before it, and the list gives each packet of the header's family the outcome of the first term in force that matches it, and leaves all other packets undecided.

Plan: ModelAruba follows aruba.py to the text, including the order in which CPython prints a set of two numbers. SpecAruba reads the text line by line into groups of addresses and access lists, and says what a rule matches. ArubaProofs and ArubaAcl: each rule of a term, read back, matches exactly what the term asks. ArubaRead: the printed text reads back as the sections written. ArubaPolicy: every alias resolves to the addresses of its own term, and the first rule that matches is a rule of the first term that matches.

Result: Proved from the text of the policy for any number of headers and terms whose terms keep to addresses, destination ports with tcp or udp (or icmp, gre or esp alone, or no protocol), the user options, and names that differ also in lower case. Refuted: keywords the lists cannot express (source port, icmp type, excluded addresses, platform) are silently ignored because the check of keywords never applies to this generator; tcp without ports gives no rule; of a list with icmp only icmp is written; an action other than accept and deny gives a rule without outcome; a range may be written with its ends swapped; names that differ in case share an alias; headers of other platforms become lists called None.

Theorems: `C82_lists_decide_as_policy_partial`, `C82_source_port_refuted`, `C82_icmp_type_refuted`, `C82_exclude_refuted`, `C82_platform_refuted`, `C82_no_ports_refuted`, `C82_one_protocol_refuted`, `C82_range_refuted`, `C82_names_refuted`, `C82_other_header_refuted`.

### C83 Cisco ASA access lists decide as the policy (partial)

For every policy the generator of Cisco ASA access lists renders, the text is a configuration of the device: it has rules only for the lists the headers name, and each of these lists gives every IPv4 packet the outcome of the first term in force that matches it, and leaves all other packets undecided.

Plan: ModelAsa follows ciscoasa.py and the table of port names of cisco.py to the text. SpecAsa executes the text line by line (clear, remark, extended) and says what a rule matches, with its own table of the device's names. AsaProofs: a printed rule splits into its words and says exactly its conditions; the names printed are names of the numbers meant. AsaPolicy: a term's rules say what the term says, a filter's text replaces its own list only, and the first rule that matches is one of the first term that matches.

Result: Proved from the policy to the text and back for any number of headers with different names and terms with addresses and exclusions, ports, ICMP types, the protocols the device knows, logging, owners and comments, including terms for other platforms and expired ones. Refuted: the options for established connections are dropped without a word; exclusions without addresses are ignored; a term with icmpv6 among its protocols gives lines that are no configuration; only the first verbatim line is looked at; headers of other platforms become a list called None; a second header with the same name removes the first; protocols unknown to the device and the action next give rules that are none.

Theorems: `C83_lists_decide_as_policy_partial`, `C83_established_refuted`, `C83_exclude_refuted`, `C83_icmpv6_refuted`, `C83_verbatim_refuted`, `C83_other_header_refuted`, `C83_same_name_refuted`, `C83_protocol_refuted`, `C83_next_refuted`.

### C84 Juniper SRX security policies decide as the policy (partial)

For every policy the generator of Juniper SRX configurations renders, the text is a configuration of the device, and between the zones of every header it gives each packet the outcome of the first term in force that matches it, of all headers for these zones, and none if there is no such term; the names in the address book and the applications stand for the addresses, ports and types of the terms that use them.

Plan: ModelSrx follows junipersrx.py to the text, threading the address book and the list of applications through the headers. SpecSrx reads the text with the statement parser of SpecJuniper and says what an address, an address set, an application and an application set mean and what the policies between two zones decide. SrxText and SrxRead: the printed blocks parse. SrxBook and SrxBookText: inserting an address keeps what every name of the book covers, and the printed book says so. SrxApps: an application found again under another term means the same. SrxTerm and SrxPolicy: a printed policy says what its term says given the book and the applications. SrxWhole and SrxDecide: an invariant of the state along terms and headers (later terms do not change what earlier ones mean), then the whole text. SrxLarge: splitting.

Result: Proved from the policy to the text and back: for any number of headers and zones, with one book per zone or one for the device, and terms with addresses, exclusions, ports, protocols, ICMP types, logging, owners and comments, the text parses and its policies decide as the policy file, provided the names used mean one thing each (stated without reference to the program). The pieces of a large term together match what the term matches and have names of their own. Refuted: eight ICMP types, or two actions, give a text that is no configuration; a term whose addresses are all excluded permits all; options other than those for established connections are dropped; terms of one name in two headers share the name for what exclusions leave; a name that is another one with a number shares its addresses; two headers for the same zones may bring policies of one name; the limit on addresses is not kept by the pieces of a large term. Not covered by the decision theorem: terms that are split, expresspath, vpn tunnels, verbatim terms.

Theorems: `C84_zones_decide_as_policy_partial`, `C84_eight_icmp_types_refuted`, `C84_two_actions_refuted`, `C84_all_excluded_refuted`, `C84_options_refuted`, `C84_shared_exclusion_refuted`, `C84_numbered_name_refuted`, `C84_policy_names_refuted`, `C84_large_terms_split_exactly`, `C84_large_limit_refuted`.

### C85 Packet Filter rules decide as the policy (partial)

For every policy the generator of Packet Filter (pf.conf) rules renders, the text is a configuration, and it gives each packet, on its way in or out, the outcome of the first term in force that matches it, of the terms of all headers for its family and direction, and none if there is no such term; the tables the rules refer to hold the addresses the names in the terms stand for.

Plan: ModelPf.v models packetfilter.py function by function; SpecPf.v is a reader of pf.conf (continued lines, braces, comments, tables, the grammar of rules) and pf's way to decide (last rule unless quick; default flags of rules with state). PfText.v to PfTerm.v show that each line is read back as the rule meant, PfPolicy.v that the tables and rules of a whole policy are.

Result: Proved from the policy to the text and back (continued lines, comments, tables, rules, quick, flags and state as pf reads them) for any number of headers and terms with addresses, ports, protocols, flags, ICMP types, interfaces, directions, families, logging and comments, for all packets that open a connection, and for all packets if all headers ask for rules without state. Refuted: excluded addresses widen a rule to all addresses; a term that denies tcp lets packets of established connections through to later terms unless nostate is asked for; nostate goes over to later headers; a comment ending in a backslash takes the rule below it; next is written as pass; ipip ends in an error; terms that have expired still fill the tables. Not covered: protocols pf does not know by name, verbatim terms (the generator ignores them).

Theorems: `C85_rules_decide_as_policy_partial`, `C85_exclude_refuted`, `C85_stateful_refuted`, `C85_nostate_refuted`, `C85_comment_refuted`, `C85_next_refuted`, `C85_ipip_refuted`, `C85_expired_table_refuted`.

### C86 Windows advanced firewall commands decide as the policy (partial)

For every policy the generator for the advanced firewall of Windows renders, each line is a label or a command the firewall accepts, and the rules they add treat each packet, on its way in or out, as the policy file says: it is blocked if a term in force for its direction and family denies it, allowed if one accepts it and none denies it, and otherwise left to the defaults; where terms that deny come first, this is the decision of the first term that matches.

Plan: ModelWin.v models windows.py and windows_advfirewall.py function by function; SpecWin.v is a reader of netsh commands (keys, protocols, ports only with tcp and udp) and the firewall's way to decide (blocks win). WinProofs.v shows that each rule is read back as what the term meant, WinPolicy.v that the rules of a whole policy are.

Result: Proved from the policy to the text and back, for any number of headers and terms with addresses, ports, the protocols netsh accepts as written, ICMP types, established and expired terms and terms for other platforms, with headers called in and out, for packets of a family all headers of the direction are for. Refuted: a deny term takes back what an earlier accept term allows (blocks win over order); a header or term for all addresses of one family covers the other as well (any); a term with the other family's ICMP among its protocols is left out as a whole; ports without tcp or udp, protocols such as gre and other header names give commands that are not accepted; flags are ignored.

Theorems: `C86_rules_decide_as_policy_partial`, `C86_rules_decide_in_order_partial`, `C86_order_refuted`, `C86_family_refuted`, `C86_everything_refuted`, `C86_other_icmp_refuted`, `C86_commands_refuted`, `C86_flags_refuted`.

### C87 NSX-T policies decide as the policy file (partial)

For every policy the NSX-T generator renders, the rules of the security policy, read in order, treat each packet as the first term in force that matches it says: allow, drop or reject; the interface accepts the groups of addresses, and the policy carries the name, number and scope of its header.

Plan: ModelNsx.v models nsxt.py function by function, with the dictionary all generators share; SpecNsx.v says how NSX-T reads groups, services and rules. NsxProofs.v shows that each rule says what the term meant, NsxPolicy.v that the rules of the policy, in order, do.

Result: Proved from the policy to the rules, for inet, inet6 and mixed filters with any number of terms with addresses and exclusions, tcp, udp, ICMP and ICMPv6, ports and types, established and expired terms and terms for other platforms, for all packets but those of 0.0.0.0, with the name, number and scope of the header. Refuted: excluding all addresses, and addresses of the other family only, mean any address; exclusions without inclusions, ports without a protocol and protocols other than these are left out; 0.0.0.0/0 in a mixed filter lets IPv6 through; a destination with 0.0.0.0 and no source is written in a form the interface refuses; a generator printed after another was made carries the other's name.

Theorems: `C87_rules_decide_as_policy_partial`, `C87_policy_of_header`, `C87_excluded_refuted`, `C87_other_family_refuted`, `C87_all_mixed_refuted`, `C87_protocol_refuted`, `C87_ports_refuted`, `C87_exclusion_refuted`, `C87_zero_refuted`, `C87_history_refuted`.

### C88 Whole Juniper configurations decide as the policy file (partial)

For every policy the Juniper generator renders, the configuration holds exactly the filters its headers ask for, one for each name and family, two for a header of type mixed, and each filter treats each packet of its family as the first term in force that matches it says.

Plan: ModelJunPolicy.v models _TranslatePolicy and __str__ for all headers with the term objects the passes share; SpecJunPolicy.v says which filters a policy asks for. JunPolicy.v shows that each pass selects what ModelJuniper's selection does although an earlier pass and an earlier rendering have changed the objects, and puts the filters one behind the other with the reader of C34.

Result: Proved from the policy to the statements of the configuration, for any number of headers of type inet, inet6, bridge and mixed with their options, and any number of terms with the conditions of C34, with restrictions to a family, inactive and expired terms, for all packets: every filter asked for is there and decides as its terms, there is no other, and names that differ make it the only one. Refuted: in a mixed header a term for icmpv6 alone accepts every IPv6 packet, icmpv6 beside another protocol is lost, hopopt is refused, noverbose before the type is taken for the type, and a mixed header can clash with another name. Not covered: enable_dsmo, verbatim and filter terms.

Theorems: `C88_configuration_decides_partial`, `C88_mixed_icmpv6_opens_refuted`, `C88_mixed_icmpv6_lost_refuted`, `C88_mixed_hopopt_refused`, `C88_noverbose_first_refused`, `C88_names_clash_refuted`.

### C89 Windows IPsec commands give each filter's rules the verdicts of its terms (partial)

For every policy the Windows IPsec generator renders, all commands are accepted, every rule belongs to the policy the commands create, and the verdicts a filter's rules have for a packet are those of its terms in force that match the packet or its answer.

Plan: ModelIpsec.v models windows_ipsec.py on top of the parts of windows.py in ModelWin.v; SpecIpsec.v reads the commands and says what lists, actions, filters and rules mean, with mirrored filters. IpsecProofs.v reads each kind of line and shows that the filters of a term match what the term matches; IpsecPolicy.v links the objects of all terms by their names, which are different because their labels are.

Result: Proved for any number of headers and terms with tcp, udp and icmp, addresses of both families, at most one range of ports from 1 for each side, names without blanks that give different labels: all commands are read, and the verdicts of the rules of each filter are exactly those of its terms in force that match the packet or its answer. Refuted for all such policies: no rule belongs to the policy the commands create, whose name has -policy added. Refuted by examples: a range of ports from 0 is for all ports, only the last of several ranges is written, terms of the same name in filters with the same first letter share their filters and actions, and protocols by unknown names or one port without tcp or udp give commands that are not accepted. Not covered: which of several verdicts the system takes.

Theorems: `C89_rules_have_verdicts_partial`, `C89_rules_without_policy_refuted`, `C89_port_zero_refuted`, `C89_port_ranges_refuted`, `C89_names_clash_refuted`, `C89_commands_refuted`.

### C90 Terraform firewalls decide as the policy says, in the order of its terms (partial)

For every policy the Terraform generator renders, the firewall rules declared for a header's network and direction give each packet the verdict of the first term in force that matches it, or the verdict of the cloud when there is none; and rules are numbered in the order of the policy.

Plan: ModelTf.v models gce_vpc_tf.py on top of the shared parts in ModelGce.v; SpecTf.v reads the configuration as the provider documents it. TfRules.v relates each declared rule to the rule that gce.py would write with other keys, so that the matching theorems of C71 carry over; TfPolicy.v and TfDecide.v follow the counter over passes, terms and headers; TfNumbers.v gives the numbering for all policies.

Result: Proved for any number of headers and terms that decide alone on their network and direction, without service accounts: the declared rules decide every packet as the first matching term in force; and for all policies without stated priorities, the declared rules are numbered 1, 2, 3 and so on over all headers. Refuted: the priority that a term states is not used beside addresses although the code says so, and where a term with tags only states one, it is compared with the counted numbers and reorders the terms; descriptions are not cut to 2047 characters; two headers may declare different rules under one name. Not covered: service accounts, and terms that fail as in the refutations of C71.

Theorems: `C90_terraform_decides_as_policy_partial`, `C90_firewall_unique`, `C90_numbered_in_order`, `C90_stated_priority_ignored_refuted`, `C90_stated_priority_reorders_refuted`, `C90_description_not_cut_refuted`, `C90_name_declared_twice_refuted`.

### C91 Policies read without expansion say what the file says, and searches find the terms asked for (partial)

Reading a policy file with the policy reader gives its filters and terms with the values of their fields; and a search by address and port reports exactly the terms that name a definition which contains them.

Plan: ModelReader.v models policyreader.py, with the shared filter objects as positions in a list of all filters made; SpecReader.v says how lines spell words and what a file of headers and terms says, and which terms a search asks for. ReaderProofs.v follows the flags through quiet lines, headers, terms and files by induction on the layout; ReaderSearch.v takes the contents of definitions from C42 and C46.

Result: Proved: files with one field on a line, with any blanks, comments, other fields and quoted texts over several lines, are read as written when every header names a filter that is not the one before; searches report exactly the terms that name a definition containing the port and the address (in definitions of any depth, ANY and RESERVED aside), when some definition contains each; a filter that does not exist is an error. Refuted: positions reported for a named filter are not positions in the policy; ports that no definition contains find all terms; terms for all destinations are not found by destination; two headers in a row with the same filter name share their terms; target lines with only a platform are an error; fields on the line of their term are not read; the last line of a quoted text is read as policy. Not covered: the order in which the positions are listed, and searches by the name of a network.

Theorems: `C91_reads_file_partial`, `C91_search_exact_partial`, `C91_search_in_filter_partial`, `C91_unknown_filter`, `C91_filter_position_refuted`, `C91_unknown_port_finds_all_refuted`, `C91_terms_for_all_missed_refuted`, `C91_same_name_shared_refuted`, `C91_short_target_refuted`, `C91_one_line_term_refuted`, `C91_text_read_as_policy_refuted`.

### C92 Address sets hold, and rules match, exactly the addresses of their terms (partial)

The set commands written for a policy run without failure, and with the sets they make, the address conditions of a term's rules are met by exactly the addresses the term names in the family of its filter, without its exclusions; set names never exceed 31 characters.

Plan: ModelIpset.v models ipset.py's address lists, set names, conditions and set commands; SpecIpset.v says what ipset does with commands (creating, adding, refusing) and what a condition says with given sets. IpsetProofs.v runs the commands of one set by induction on its members and takes exclusions from C03; IpsetPolicy.v shows that names are apart and runs all terms.

Result: Proved: the commands run without failure (no set made twice or filled beyond its capacity, no member added twice, none of the wrong family or of length 0), and with those sets the source and destination conditions are met by exactly the addresses of the term, for terms of one family whose names differ in the first 27 (IPv4) or 24 (IPv6) characters; all set names fit. Refuted: terms whose long names begin alike, or with the same name in two filters, make the same set twice; with the option exists they share it and match each other's addresses. Not covered: the rest of the rules (C31 covers iptables.py) and which terms get as far as their addresses.

Theorems: `C92_sets_match_as_terms_partial`, `C92_set_names_fit`, `C92_long_names_refuted`, `C92_merged_sets_refuted`, `C92_two_filters_refuted`.

### C93 Looking up definitions reports exactly what they contain (partial)

Looking up an address reports exactly the definitions that contain it, behind the definitions that contain those, with the networks that matched and longer prefixes first; comparing two addresses splits the reports into common ones and those of one only; asking whether an address is in a definition, whether a definition is within another, for the union of two definitions or for the services of a port answers as the definitions say.

Plan: ModelCgrep.v models the lookups of tools/cgrep.py on the model of naming.py; SpecCgrep.v says which definitions an address has, how a report names them, what is shown with them and which prefix is longest. CgrepProofs.v combines the exact characterisations of GetNet (C18), GetNetParents (C42), GetIpParents (C46) and GetPortParents (C47).

Result: Proved: the report of an address is exact, shows exactly the matching networks and is ordered by longest prefix; differences, membership, union and services (in either order of arguments) are exact; a definition is said to be within another exactly if each of its networks is within a single network of the other, which is sound. For the report: addresses written with a leading digit, references on lines without comments. Refuted: a network held by two halves is said not to be within them; comparing services always fails; the difference of two definitions lists what they have in common; of several addresses only the last is answered for; addresses that start with a letter are in no definition.

Theorems: `C93_report_exact_partial`, `C93_group_diff_exact_partial`, `C93_membership_exact`, `C93_encapsulated_partial`, `C93_union_exact`, `C93_services_exact`, `C93_encapsulated_halves_refuted`, `C93_services_compared_refuted`, `C93_difference_refuted`, `C93_last_address_refuted`, `C93_letters_refuted`.

### C94 NSX-V sections decide as the policy file says (partial)

The section that is written for a policy can be read as XML, carries the name and number of the header whatever policies were generated before, applies each rule to the security group of the header, and the first rule that matches a packet of the families of the header has the action of the first term in force that matches it; terms for established connections are left to the firewall.

Plan: ModelNsxv.v models nsxv.py with the options that its generators share, up to the text handed to the XML parser; SpecNsxv.v reads XML and says when a rule of a section matches a packet. NsxvRead.v proves that texts made of elements are read back, also after runs of spaces are removed; NsxvProofs.v proves that rules match as terms; NsxvPolicy.v puts the section together.

Result: Proved: the text is read back as the section of the header and decides as the terms, for terms with some address of the families left on each restricted side, ports only with protocols, no echo-reply type and plain names, comments and header words. Refuted: excluding all addresses, or giving those of the other family only, means any; exclusions without inclusions and ports without a protocol are dropped; echo-reply opens all of ICMP; markup in a comment makes the text unreadable; a second filter makes printing fail; a generator printed after another one was made carries the other's name.

Theorems: `C94_section_decides_as_policy_partial`, `C94_excluded_refuted`, `C94_other_family_refuted`, `C94_ports_refuted`, `C94_exclusion_refuted`, `C94_echo_reply_refuted`, `C94_markup_refuted`, `C94_two_filters_refuted`, `C94_history_refuted`.

### C95 Junos Evo protocol conditions are written as documented (partial)

In an IPv6 filter with a direction, each protocol of a term, and each excepted one, is written with the keyword and the word the documentation gives for the direction and the kind of interface; a term is left out exactly if ICMP is its only protocol; a filter without a direction is refused.

Plan: ModelEvo.v models how juniperevo.py chooses keywords and words; SpecEvo.v is the table of doc/generators/juniperevo.md. EvoProofs.v shows that the steps on lists without repetitions act on each protocol alone, and that the lines read as the conditions.

Result: Proved for known protocols listed once, without ipv6-route, and, for packets that come in on physical interfaces, lists of either extension headers or payload. Refuted: tcp next to hopopt is written with next-header; routing headers are written as payload by a name the documentation does not give; printing a term adds a name to the table of protocols that all generators share. Only the conditions on protocols are modelled; the other lines are those of C33/C59/C88.

Theorems: `C95_conditions_as_documented_partial`, `C95_direction_required`, `C95_mixed_list_refuted`, `C95_routing_refuted`, `C95_history_refuted`.

### C96 MS-MPC application sets say what the terms say (partial)

When the terms of an MS-MPC filter are accepted, the applications written can be read, and the application set a term refers to, whether its own or one shared with another term, is matched exactly by the traffic of the protocols, ports and ICMP types of the term; a filter whose shortened term names differ is accepted.

Plan: ModelMsmpc.v models how junipermsmpc.py collects, shares and names the application sets of a filter and writes their lines; SpecMsmpc.v says when a packet is of a set of a configuration. MsmpcProofs.v proves by induction over the terms that each refers to an entry with its content under a name used once, that the lines read as nested statements, and that a set is matched if one of the combinations is.

Result: Proved for terms with known protocols other than all, each once, with ICMP types, with ports of tcp and udp only, without ICMP codes, and for destination ports from 1. Refuted: a code is followed by an empty statement; ports of sctp are not written; a term for all of tcp misses port 0; terms whose names have the same last 27 characters are refused; sets of two filters can have one name and different traffic. The rules of the filter, which refer to the sets, are not modelled.

Theorems: `C96_sets_say_what_terms_say_partial`, `C96_distinct_names_accepted`, `C96_sctp_ports_refuted`, `C96_port_zero_refuted`, `C96_long_names_refuted`, `C96_codes_refuted`, `C96_unique_names_refuted`.

### C97 MS-MPC headers are accepted exactly with the documented options (proved)

A header of an MS-MPC filter is accepted exactly if the options after its name are, in any order, at most one address family, at most one direction and at most one noverbose; the family, the direction and the choice of comments are then those named, or mixed, both directions and with comments.

Plan: ModelMsmpc.v models the loop over the options; MsmpcOptions.v proves by induction over the options that the loop accepts exactly the permutations of the documented words.

Result: The empty word, which policy files cannot contain, counts as a direction, as in the code.

Theorems: `C97_options_exact`, `C97_order_irrelevant`.

### C98 MS-MPC address blocks have exactly the addresses of the term (partial)

In the rule of an address family, the source-address or destination-address block of an MS-MPC term can be read by the device, has no IPv6 prefix of a length from 1 to 15, and has exactly the addresses the term gives minus those it excludes; the rule is left out only if no address of the family is left, and the block only if the term names no addresses.

Plan: ModelMsmpcAddr.v models the blocks with the expansion into /16 prefixes; MsmpcAddr.v proves that the expansion keeps the addresses and, as it keeps the order of the lengths, the verdict of the longest prefix.

Result: For sides whose exclusions are not wider than the addresses they meet; exclusions alone and addresses inside an exclusion are refuted. The other parts of a rule are not modelled.

Theorems: `C98_blocks_say_the_side_partial`, `C98_exclusion_alone_refuted`, `C98_nested_exclusion_refuted`.
