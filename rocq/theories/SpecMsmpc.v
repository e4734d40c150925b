(** What MS-MPC application sets say (C96), read from the lines of a configuration. *)
From Coq Require Export Permutation.
From Verif Require Export ModelMsmpc SpecSrx SpecJuniper.
Local Open Scope string_scope.
Local Open Scope list_scope.
Local Open Scope Z_scope.

(** The names of protocols the statement of an application knows (the page junipermsmpc.py:39-40 refers to);
    other protocols have to be numbers. *)
Definition device_protocols : list string :=
  ["ah"; "egp"; "esp"; "gre"; "icmp"; "icmp6"; "igmp"; "ipip"; "node"; "ospf"; "pim"; "rsvp"; "sctp"; "tcp"; "udp"].
Definition device_word (w : string) : Prop := numeral_value w <> None \/ In w device_protocols.
(** A statement of an application holds.  The helper of the protocol and the time a session may rest do not
    restrict the packets. *)
Definition ms_holds (p : packet) (s : stmt) : Prop :=
  match s with
  | Leaf [k; w] =>
      if str_in k ["application-protocol"; "inactivity-timeout"] then True
      else if String.eqb k "icmp6-type" then exists n, numeral_value w = Some n /\ In (p_icmp_type p, n) icmp_type6
      else if String.eqb k "protocol" then device_word w /\ holds V4 p s
      else holds V4 p s
  | _ => False
  end.
(** A packet is of the application set: all statements hold of an application the set lists. *)
Definition set_matches (conf : list stmt) (name : string) (p : packet) : Prop :=
  exists defs members m body, In (Block ["applications"] defs) conf /\ In (Block ["application-set"; name] members) defs /\
    In (Leaf ["application"; m]) members /\ In (Block ["application"; m] body) defs /\ forall s, In s body -> ms_holds p s.
(** The protocol, the ports and the ICMP type of the packet are those of the term. *)
Definition of_term (t : term) (p : packet) : Prop :=
  In (p_proto p) (t_protocol t) /\ ports_match (t_source_port t) (p_sport p) /\ ports_match (t_destination_port t) (p_dport p) /\
  (t_icmp_type t = [] \/ In (p_icmp_type p) (t_icmp_type t)).
(** Terms without protocols and ports, which refer to no application set. *)
Definition ms_any (t : term) : Prop :=
  t_protocol t = [] /\ t_source_port t = [] /\ t_destination_port t = [] /\ t_icmp_type t = [] /\ forall_char plain_char (t_name t) = true.
(** Terms the first theorem speaks about: protocols of the table, each once; ports of tcp and udp only; no ICMP codes. *)
Record ms_term_ok (t : term) : Prop := {
  mo_some : t_protocol t <> [];
  mo_once : NoDup (t_protocol t);
  mo_known : forall q, In q (t_protocol t) -> In q (map fst proto_map);
  mo_all : forall q, In q (t_protocol t) -> q <> "all";
  mo_ports : (exists q, In q (t_protocol t) /\ q <> "tcp" /\ q <> "udp") -> t_source_port t = [] /\ t_destination_port t = [];
  mo_sport : forall r, In r (t_source_port t) -> 0 <= fst r /\ 0 <= snd r;
  mo_dport : forall r, In r (t_destination_port t) -> 0 <= fst r /\ 0 <= snd r;
  mo_codes : t_icmp_code t = [];
  mo_name : forall_char plain_char (t_name t) = true }.
(** The terms of the filter that count: replies of stateless terms and established traffic are left to the
    sessions of the device, and a term ends with the day it expires. *)
Definition rendered (today : Z) (t : term) : bool :=
  negb (t_stateless_reply t) && negb (str_in "established" (t_option t) || str_in "tcp-established" (t_option t)) && negb (expired today t).
(** Traffic: TCP and UDP have a destination port from 1 to 65535. *)
Definition real_ports (p : packet) : Prop := p_proto p = "tcp" \/ p_proto p = "udp" -> 1 <= p_dport p <= 65535.

(** ** Options of the header (C97) *)
(** In some order: at most one family, at most one direction, at most one noverbose, and nothing else. *)
Definition documented_options (opts : list string) (af dir : string) (noverbose : bool) : Prop := exists a d n,
  Permutation opts (a ++ d ++ n) /\
  (a = [] /\ af = "mixed" \/ a = [af] /\ In af ["inet"; "inet6"; "mixed"]) /\
  (d = [] /\ dir = "input-output" \/ d = [""] /\ dir = "input-output" \/ d = ["ingress"] /\ dir = "input" \/ d = ["egress"] /\ dir = "output") /\
  (n = [] /\ noverbose = false \/ n = ["noverbose"] /\ noverbose = true).
