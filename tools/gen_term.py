#!/usr/bin/env python3
"""Writes rocq/theories/ModelTerm.v: the policy Term as a record, with one setter per field."""
F = """name:string:name
action:list string:action
address:list net:address
address_exclude:list net:address_exclude
source_address:list net:source_address
source_address_exclude:list net:source_address_exclude
destination_address:list net:destination_address
destination_address_exclude:list net:destination_address_exclude
port:list prange:port
source_port:list prange:source_port
destination_port:list prange:destination_port
protocol:list string:protocol
protocol_except:list string:protocol_except
option:list string:option
source_prefix:list string:source_prefix
source_prefix_except:list string:source_prefix_except
destination_prefix:list string:destination_prefix
destination_prefix_except:list string:destination_prefix_except
source_tag:list string:source_tag
destination_tag:list string:destination_tag
precedence:list string:precedence
forwarding_class:list string:forwarding_class
forwarding_class_except:list string:forwarding_class_except
icmp_type:list string:icmp_type
icmp_code:list Z:icmp_code
ether_type:list string:ether_type
traffic_type:list string:traffic_type
dscp_match:list string:dscp_match
dscp_except:list string:dscp_except
fragment_offset:option string:fragment_offset
hop_limit:option string:hop_limit
packet_length:option string:packet_length
ttl:option Z:ttl
traffic_class:option Z:traffic_class
platform:list string:platform
platform_exclude:list string:platform_exclude
source_zone:list string:source_zone
destination_zone:list string:destination_zone
source_interface:option string:source_interface
destination_interface:option string:destination_interface
restrict_address_family:option string:restrict_address_family
verbatim:list (string * string):verbatim (platform, text)
next_ip:list net:next_ip
next_interface:option string:next_interface
next_hop_group:option string:next_hop_group
encapsulate:option string:encapsulate
decapsulate:option string:decapsulate
port_mirror:option string:port_mirror
routing_instance:option string:routing_instance
filter_term:option string:filter_term
logging:list string:logging
counter:option string:counter
comment:list string:comment
owner:option string:owner
expiration:option Z:expiration, as a day number
stateless_reply:bool:stateless_reply
translated:bool:translated
flattened:bool:flattened
flattened_addr:list net:flattened_addr
flattened_saddr:list net:flattened_saddr
flattened_daddr:list net:flattened_daddr""".split('\n')
F = [f.split(':', 2) for f in F]
# where policy.py first assigns each attribute
LINES = {'name': 445, 'action': 447, 'address': 448, 'address_exclude': 449, 'source_address': 477, 'source_address_exclude': 478, 'destination_address': 454, 'destination_address_exclude': 455, 'port': 468, 'source_port': 479, 'destination_port': 456, 'protocol': 470, 'protocol_except': 471, 'option': 465, 'source_prefix': 480, 'source_prefix_except': 500, 'destination_prefix': 457, 'destination_prefix_except': 501, 'source_tag': 511, 'destination_tag': 512, 'precedence': 469, 'forwarding_class': 459, 'forwarding_class_except': 460, 'icmp_type': 487, 'icmp_code': 488, 'ether_type': 489, 'traffic_type': 491, 'dscp_match': 494, 'dscp_except': 495, 'fragment_offset': 485, 'hop_limit': 486, 'packet_length': 484, 'ttl': 481, 'traffic_class': 473, 'platform': 519, 'platform_exclude': 520, 'source_zone': 508, 'destination_zone': 507, 'source_interface': 517, 'destination_interface': 518, 'restrict_address_family': 450, 'verbatim': 482, 'next_ip': 496, 'next_interface': 497, 'next_hop_group': 498, 'encapsulate': 503, 'decapsulate': 504, 'port_mirror': 505, 'routing_instance': 476, 'filter_term': 458, 'logging': 461, 'counter': 452, 'comment': 451, 'owner': 466, 'expiration': 453, 'stateless_reply': 528, 'translated': 492, 'flattened': 524, 'flattened_addr': 525, 'flattened_saddr': 526, 'flattened_daddr': 527}
def default(t):
    if t.startswith('list'): return '[]'
    if t.startswith('option'): return 'None'
    return 'false' if t == 'bool' else 'n'
o = ['''(** Generated by tools/gen_term.py.  The policy Term of capirca/lib/policy.py:328-532.

    One field per attribute set in policy.py:445-528; an attribute whose value None or []
    is only ever tested for truth is modelled as the empty list.  Not modelled, because no
    modelled function looks at them: log_limit, log_name, loss_priority, policer, qos,
    traffic_class_count, dscp_set, flexible_match_range, inactive, vpn, priority,
    source/target_service_accounts, target_resources, timeout, pan_application,
    versa_application. *)
From Verif Require Export ModelPorts ModelNaming.

(** policy.py:328-532 *)
Record term := mkTerm {''']
o.append(';\n'.join('  t_%s : %s' % (n, t) for n, t, _ in F) + ' }.\n')
o.append('(** policy.py:444-532: a term just created. *)')
o.append('Definition blank (n : string) : term := mkTerm\n  ' + ' '.join(default(t) for _, t, _ in F) + '.\n')
for n, t, _ in F:
    o.append('(** term.%s = v (policy.py:%d) *)' % (n, LINES[n]))
    o.append('Definition set_%s (v : %s) (t : term) : term := mkTerm\n  %s.' % (n, t,
        ' '.join('v' if m == n else '(t_%s t)' % m for m, _, _ in F)))
import os
open(os.path.join(os.path.dirname(os.path.abspath(__file__)), '../rocq/theories/ModelTerm.v'), 'w').write('\n'.join(o) + '\n')
