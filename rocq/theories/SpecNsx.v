(** How NSX-T reads a security policy, and what the policy file asks for.  Independent of the code that
    writes it. *)
From Verif Require Export ModelNsx SpecOpenConfig SpecText.
From Verif Require Import SpecGce.
Local Open Scope string_scope.
Local Open Scope list_scope.
Local Open Scope Z_scope.

(** ** Rules *)

Definition given (key : string) (r : json) (P : json -> Prop) : Prop := if_given (path [key] r) P.
Definition texts (j : json) (P : string -> Prop) : Prop := exists l s, j = JList l /\ In (JStr s) l /\ P s.
(** One of the texts of the list under the key. *)
Definition one_of_texts (key : string) (r : json) (P : string -> Prop) : Prop := exists j, path [key] r = Some j /\ texts j P.
Definition is_text (key : string) (r : json) (s : string) : Prop := path [key] r = Some (JStr s).
Definition group_says (x : ipaddr) (s : string) : Prop := s = "ANY" \/ range_has x s.
Definition family_says (v : ver) (s : string) : Prop :=
  (s = "IPV4" /\ v = V4) \/ (s = "IPV6" /\ v = V6) \/ s = "IPV4_IPV6".
(** A service: a kind of ICMP, possibly with a type, or TCP or UDP, possibly with ports. *)
Definition entry_says (p : packet) (e : json) : Prop :=
  (is_text "resource_type" e "ICMPTypeServiceEntry" /\
   ((is_text "protocol" e "ICMPv4" /\ p_proto p = "icmp" /\ given "icmp_type" e (fun j => exists n, j = JNum n /\ In (p_icmp_type p, n) icmp_type4)) \/
    (is_text "protocol" e "ICMPv6" /\ p_proto p = "icmpv6" /\ given "icmp_type" e (fun j => exists n, j = JNum n /\ In (p_icmp_type p, n) icmp_type6)))) \/
  (is_text "resource_type" e "L4PortSetServiceEntry" /\
   ((is_text "l4_protocol" e "TCP" /\ p_proto p = "tcp") \/ (is_text "l4_protocol" e "UDP" /\ p_proto p = "udp")) /\
   given "source_ports" e (fun j => texts j (fun s => in_text_range s (p_sport p))) /\
   given "destination_ports" e (fun j => texts j (fun s => in_text_range s (p_dport p)))).
(** No entries mean any service. *)
Definition service_says (p : packet) (r : json) : Prop :=
  given "service_entries" r (fun j => exists l, j = JList l /\ (l = [] \/ exists e, In e l /\ entry_says p e)).
Definition nsx_rule_says (p : packet) (r : json) (outcome : string) : Prop :=
  is_text "resource_type" r "Rule" /\ is_text "action" r outcome /\ is_text "direction" r "IN_OUT" /\
  path ["profiles"] r = Some (JList [JStr "ANY"]) /\ path ["scope"] r = Some (JList [JStr "ANY"]) /\ path ["services"] r = Some (JList [JStr "ANY"]) /\
  one_of_texts "source_groups" r (group_says (p_src p)) /\ one_of_texts "destination_groups" r (group_says (p_dst p)) /\
  (exists s, is_text "ip_protocol" r s /\ family_says (fst (p_src p)) s) /\ service_says p r.
Definition nsx_rules (j : json) (l : list json) : Prop := path ["rules"] j = Some (JList l).
(** The first rule that matches decides. *)
Definition nsx_decides (j : json) (p : packet) (outcome : string) : Prop :=
  exists l, nsx_rules j l /\ first_says (nsx_rule_says p) l outcome.
(** The interface takes no groups of addresses with 0.0.0.0 (https://github.com/google/capirca/issues/348). *)
Definition nsx_accepted (j : json) : Prop :=
  forall l r key s, nsx_rules j l -> In r l -> In key ["source_groups"; "destination_groups"] ->
    one_of_texts key r (eq s) -> ~ range_has (V4, 0) s.

(** ** What the policy file asks for *)

Notation nsx_header := (option (list string) * list string)%type (only parsing).
(** The one header for the platform, with the options NAME KIND .... *)
Definition nsx_asks (fs : list (nsx_header * list term)) (name kind : string) (more : list string) (terms : list term) : Prop :=
  exists before comment after, fs = before ++ ((Some (name :: kind :: more), comment), terms) :: after /\ forall f, In f (before ++ after) -> fst (fst f) = None.
(** The word after securitygroup. *)
Fixpoint group_word (opts : list string) : option string :=
  match opts with [] => None | x :: rest => if String.eqb x "securitygroup" then hd_error rest else group_word rest end.
Definition nsx_versions (kind : string) : list ver :=
  if String.eqb kind "inet" then [V4] else if String.eqb kind "inet6" then [V6] else if String.eqb kind "mixed" then [V4; V6] else [].
Definition nsx_verdict (a : string) : option string :=
  if String.eqb a "accept" then Some "ALLOW" else if String.eqb a "deny" then Some "DROP"
  else if str_in a ["reject"; "reject-with-tcp-rst"] then Some "REJECT" else None.
(** Replies to connections that are allowed are allowed anyway, so that terms for established connections
    are not looked at. *)
Definition not_established (t : term) : Prop := ~ In "established" (t_option t) /\ ~ In "tcp-established" (t_option t).
Definition nsx_term_says (today : Z) (p : packet) (t : term) (outcome : string) : Prop :=
  in_force today t /\ meant_for "nsxt" t /\ not_established t /\ term_matches t p /\ exists a r, t_action t = a :: r /\ nsx_verdict a = Some outcome.

(** ** Policies that can be rendered exactly *)

(** Addresses of a side: none at all, or at least one of the families of the filter, 0.0.0.0 apart, is
    left; a filter of both families does not name all addresses of IPv4. *)
Definition nsx_side_ok (vs : list ver) (inc exc : list net) : Prop :=
  valid_list inc /\ valid_list exc /\
  ((inc = [] /\ exc = []) \/
   (inc <> [] /\ (exists x, In (fst x) vs /\ 0 <= snd x < 2 ^ width (fst x) /\ x <> (V4, 0) /\ side_matches inc exc x) /\
    (vs = [V4; V6] -> forall n, In n inc -> nver n = V4 -> nlen n <> 0))).
Record nsx_term_ok (vs : list ver) (t : term) : Prop := {
  nx_src : nsx_side_ok vs (t_source_address t) (t_source_address_exclude t);
  nx_dst : nsx_side_ok vs (t_destination_address t) (t_destination_address_exclude t);
  (* left in the destinations when the sources are all addresses *)
  nx_zero : forall n, In n (t_destination_address t) -> nver n = V4 -> naddr n = 0 -> nlen n = 0;
  nx_protocol : forall q, In q (t_protocol t) -> In q ["tcp"; "udp"; "icmp"; "icmpv6"];
  (* terms with the ICMP of another family are left out as a whole *)
  nx_icmp4 : vs = [V4] -> In "icmpv6" (t_protocol t) -> t_protocol t = ["icmpv6"];
  nx_icmp6 : vs = [V6] -> In "icmp" (t_protocol t) -> t_protocol t = ["icmp"];
  nx_icmp : vs = [V4; V6] -> In "icmpv6" (t_protocol t) -> ~ In "icmp" (t_protocol t);
  nx_ports : (t_source_port t <> [] \/ t_destination_port t <> []) -> t_protocol t <> [] /\ forall q, In q (t_protocol t) -> In q ["tcp"; "udp"];
  nx_types : t_icmp_type t <> [] -> t_protocol t <> [];
  nx_range : forall r, In r (t_source_port t ++ t_destination_port t) -> 0 <= fst r /\ 0 <= snd r;
  (* others are refused *)
  nx_option : t_option t = [];
  (* only warned about, or not seen, by the check of supported keywords *)
  nx_warned : t_restrict_address_family t = None /\ t_source_tag t = [] /\ t_destination_tag t = [] /\ t_ttl t <> Some 0 /\
    t_source_interface t <> Some "" /\ t_destination_interface t <> Some "" }.
Definition nsx_terms_ok (today : Z) (kind : string) (terms : list term) : Prop :=
  forall t, In t terms -> in_force today t -> meant_for "nsxt" t -> not_established t -> nsx_term_ok (nsx_versions kind) t.
Record nsx_traffic (kind : string) (p : packet) : Prop := {
  nq_family : fst (p_src p) = fst (p_dst p) /\ In (fst (p_src p)) (nsx_versions kind);
  nq_src : 0 <= snd (p_src p) < 2 ^ width (fst (p_src p)) /\ p_src p <> (V4, 0);
  nq_dst : 0 <= snd (p_dst p) < 2 ^ width (fst (p_dst p)) /\ p_dst p <> (V4, 0);
  nq_icmp : p_proto p <> if ver_eqb (fst (p_src p)) V4 then "icmpv6" else "icmp";
  nq_platform : p_platform p = "nsxt" }.
