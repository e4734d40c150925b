(** The addresses of MS-MPC rules (junipermsmpc.py:164-271): one block of a rule, source-address or
    destination-address. *)
From Verif Require Export ModelJuniper.
Local Open Scope string_scope.
Local Open Scope list_scope.
Local Open Scope Z_scope.

(** ipaddress [subnets(new_prefix=k)] (Python 3 standard library): every prefix of length k in the network, in order *)
Definition subnets (k : Z) (n : net) : list net :=
  map (fun j => plain (nver n) (naddr n + Z.of_nat j * 2 ^ (width (nver n) - k)) k) (seq 0 (Z.to_nat (2 ^ (k - nlen n)))).
(** junipermsmpc.py:214-216 (and 229-231, 247-249, 262-264): IPv6 prefixes shorter than /16, other than ::/0,
    are written as their /16 prefixes. *)
Definition ms_expand (n : net) : list net :=
  if ver_eqb (nver n) V6 && (0 <? nlen n) && (nlen n <? 16) then subnets 16 n else [n].
(** junipermsmpc.py:218-222 (and 233-237, 251-255, 266-270): the word for a prefix.  The comparison with
    0::0/0 and 0.0.0.0/0 is by address and length, of the same family. *)
Definition ms_address (n : net) : string :=
  if net_eqb n (plain V6 0 0) then "any-ipv6" else if net_eqb n (plain V4 0 0) then "any-ipv4" else prefixlen_text n.
(** junipermsmpc.py:211-222 and 226-237: the lines of an address, after its comment, which is that of
    juniper.py:760-800 and without the indentation of exclusions *)
Definition ms_address_lines (c : juniper_cfg) (except : bool) (n : net) : list string :=
  address_comment c false (ntext n) ++ map (fun m => append (ms_address m) (if except then " except;" else ";")) (ms_expand n).
(** junipermsmpc.py:164-182 and 208-238 (241-271 for the destination): the block of one side in the rule for the
    family [v], [key] being source-address or destination-address, for the addresses and exclusions of the term.
    None: the rule is left out (176-182), because the term has addresses but none of the family is left. *)
Definition ms_side (c : juniper_cfg) (key : string) (v : ver) (inc exc : list net) : option (list string) :=
  let (i, e) := minimize_prefixes (address_of_version inc (Some v)) (address_of_version exc (Some v)) in
  if negb (some i) && some inc && negb (some e) then None
  else if some i || some e then
    Some ([append key " {"] ++ flat_map (ms_address_lines c false) i ++ flat_map (ms_address_lines c true) e ++ ["}"])
  else Some [].
