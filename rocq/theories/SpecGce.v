(** Specification vocabulary for Google Compute Engine firewalls: how the documentation of the
    cloud reads a list of rules, and how a policy term reads for such a firewall.  Nothing
    here is taken from the code that writes the rules. *)
From Verif Require Export ModelGce SpecCisco SpecText SpecGen.
Local Open Scope string_scope.
Local Open Scope list_scope.
Local Open Scope Z_scope.

(** ** Reading rules *)

Definition rule_dict : Type := list (string * json).
(** One of the texts listed under a key. *)
Definition lists (r : rule_dict) (key : string) (P : string -> Prop) : Prop :=
  exists l s, assoc key r = Some (JList l) /\ In (JStr s) l /\ P s.
Definition silent (r : rule_dict) (key : string) : Prop := assoc key r = None.

(** address/length contains the address *)
Definition range_has (x : ipaddr) (s : string) : Prop := prefix_says (fst x) s (snd x).
(** A rule for incoming traffic with ranges and tags is met by either. *)
Definition from_ok (r : rule_dict) (p : packet) : Prop :=
  (silent r "sourceRanges" /\ silent r "sourceTags") \/
  lists r "sourceRanges" (range_has (p_src p)) \/ lists r "sourceTags" (p_src_tag p).
Definition to_ok (r : rule_dict) (p : packet) : Prop :=
  silent r "destinationRanges" \/ lists r "destinationRanges" (range_has (p_dst p)).
(** The instances a rule is for: the receivers of incoming, the senders of outgoing traffic. *)
Definition target_ok (direction : string) (r : rule_dict) (p : packet) : Prop :=
  silent r "targetTags" \/
  lists r "targetTags" (if String.eqb direction "INGRESS" then p_dst_tag p else p_src_tag p).

(** A protocol by name, by number, or all of them. *)
Definition protocol_says (x : json) (p : packet) : Prop :=
  match x with
  | JStr s => s = "all" \/ s = p_proto p \/ exists n, numeral_value s = Some n /\ In (p_proto p, n) proto_map
  | JNum n => In (p_proto p, n) proto_map
  | _ => False
  end.
Definition entry_says (e : json) (p : packet) : Prop :=
  exists d x, e = JDict d /\ assoc "IPProtocol" d = Some x /\ protocol_says x p /\
    (silent d "ports" \/ lists d "ports" (fun s => in_text_range s (p_dport p))).
Definition verdict_key (verdict : string) : option string :=
  if String.eqb verdict "accept" then Some "allowed" else if String.eqb verdict "deny" then Some "denied" else None.
(** The rule is about the packet and asks for the verdict. *)
Definition rule_says (direction : string) (r : rule_dict) (p : packet) (verdict : string) : Prop :=
  assoc "direction" r = Some (JStr direction) /\ from_ok r p /\ to_ok r p /\ target_ok direction r p /\
  exists key l e, verdict_key verdict = Some key /\ assoc key r = Some (JList l) /\ In e l /\ entry_says e p.
(** Smaller numbers come first; a rule without a number has 1000. *)
Definition priority_value (o : option json) : option Z :=
  match o with None => Some 1000 | Some (JNum n) => Some n | Some (JStr s) => numeral_value s | Some _ => None end.
Definition rule_priority (r : rule_dict) : option Z := priority_value (assoc "priority" r).
Definition in_network (network : string) (r : rule_dict) : Prop :=
  assoc "network" r = if is_empty network then None else Some (JStr network).
(** What happens to traffic that no rule is about. *)
Definition implied (direction : string) : string := if String.eqb direction "EGRESS" then "accept" else "deny".
(** The firewall of a network: the first rule by priority decides, among rules with the same
    priority those that deny. *)
Definition firewall_decides (rules : list rule_dict) (network direction : string) (p : packet) (verdict : string) : Prop :=
  (exists r n, In r rules /\ in_network network r /\ rule_says direction r p verdict /\ rule_priority r = Some n /\
     forall r' v' n', In r' rules -> in_network network r' -> rule_says direction r' p v' -> rule_priority r' = Some n' ->
       n < n' \/ (n = n' /\ (verdict = "deny" \/ v' = "accept"))) \/
  ((forall r v, In r rules -> in_network network r -> ~ rule_says direction r p v) /\ verdict = implied direction).

(** ** Reading policies *)

(** On incoming traffic, source addresses and source tags are alternatives: such a term
    stands for two terms. *)
Definition alternatives (direction : string) (t : term) : list term :=
  if String.eqb direction "INGRESS" && some (t_source_address t) && some (t_source_tag t)
  then [set_source_tag [] t; set_source_address [] (set_source_address_exclude [] t)] else [t].
Definition gce_matches (direction : string) (t : term) (p : packet) : Prop :=
  exists t', In t' (alternatives direction t) /\ term_matches t' p.
(** The term that decides: the first one in force that matches. *)
Definition policy_decides (today : Z) (direction : string) (gs : list gce_term) (p : packet) (verdict : string) : Prop :=
  first_says (fun g v => in_force today (g_term g) /\ gce_matches direction (g_term g) p /\ t_action (g_term g) = [v]) gs verdict \/
  ((forall g, In g gs -> in_force today (g_term g) -> ~ gce_matches direction (g_term g) p) /\ verdict = implied direction).
(** The priority of each term: what it says, but 65534 for a last term that denies everything. *)
Fixpoint ranked (gs : list gce_term) : list (gce_term * option Z) :=
  match gs with
  | [] => []
  | [g] => [(g, if is_default_deny g then Some 65534 else priority_value (g_priority g))]
  | g :: rest => (g, priority_value (g_priority g)) :: ranked rest
  end.
(** Of two terms that ask for different things the first one has the smaller number, or the
    same number and denies. *)
Definition well_ranked (today : Z) (gs : list gce_term) : Prop :=
  (forall g o, In (g, o) (ranked gs) -> exists n, o = Some n) /\
  forall a g n b g' n' c, ranked gs = a ++ (g, Some n) :: b ++ (g', Some n') :: c ->
    in_force today (g_term g) -> in_force today (g_term g') ->
    t_action (g_term g) <> t_action (g_term g') -> n < n' \/ (n = n' /\ t_action (g_term g) = ["deny"]).

(** IPv6 addresses that stand for IPv4 ones: ::a.b.c.d, ::ffff:a.b.c.d, 2002::/16 *)
Definition ipv4_style (x : Z) : Prop :=
  0 < x < 2 ^ 32 \/ 65535 * 2 ^ 32 <= x < 65536 * 2 ^ 32 \/ 8194 * 2 ^ 112 <= x < 8195 * 2 ^ 112.
Definition no_ipv4_style (inc exc : list net) : Prop :=
  (exc = [] /\ forall n, In n inc -> nver n = V6 -> ~ ipv4_style (naddr n)) \/
  (forall x, covered inc (V6, x) -> ~ ipv4_style x).

Record gce_term_ok (i : gce_info) (g : gce_term) : Prop := {
  gt_action : exists a, t_action (g_term g) = [a];
  gt_accounts : g_source_accounts g = [] /\ g_target_accounts g = [];
  gt_reply : t_stateless_reply (g_term g) = false;
  (* only warned about, or not seen, by the check of supported keywords *)
  gt_family : t_restrict_address_family (g_term g) = None;
  gt_ttl : t_ttl (g_term g) <> Some 0;
  (* never empty texts in a policy file *)
  gt_texts : ~ In "" (t_source_tag (g_term g) ++ t_destination_tag (g_term g)) /\
    t_packet_length (g_term g) <> Some "" /\ t_hop_limit (g_term g) <> Some "" /\ t_fragment_offset (g_term g) <> Some "" /\
    t_source_interface (g_term g) <> Some "" /\ t_destination_interface (g_term g) <> Some "";
  gt_protocol : forall q, In q (t_protocol (g_term g)) -> In q (map fst proto_map) /\ q <> "all";
  gt_ports : forall r, In r (t_destination_port (g_term g)) -> 0 <= fst r <= snd r;
  gt_src : subtractable (t_source_address (g_term g)) (t_source_address_exclude (g_term g)) /\
    no_ipv4_style (t_source_address (g_term g)) (t_source_address_exclude (g_term g));
  gt_dst : subtractable (t_destination_address (g_term g)) (t_destination_address_exclude (g_term g)) /\
    no_ipv4_style (t_destination_address (g_term g)) (t_destination_address_exclude (g_term g));
  (* no exclusion without addresses to exclude from *)
  gt_exclude : t_destination_address (g_term g) = [] -> t_destination_address_exclude (g_term g) = [];
  (* source tags on incoming traffic: alone, or beside addresses of every family *)
  gt_tags : gi_direction i = "INGRESS" -> t_source_tag (g_term g) <> [] ->
    (t_source_address (g_term g) = [] /\ (gi_af i = "mixed" -> ~ In "icmpv6" (t_protocol (g_term g)))) \/
    (forall v, In v (gce_families (gi_af i)) -> exists x, covered (t_source_address (g_term g)) (v, x) /\
       ~ covered (t_source_address_exclude (g_term g)) (v, x)) }.

(** Packets of a family of the header, with protocols that the family has. *)
Definition gce_traffic (i : gce_info) (p : packet) : Prop :=
  (exists v, In v (gce_families (gi_af i)) /\ fst (p_src p) = v /\ fst (p_dst p) = v /\
     0 <= snd (p_src p) < 2 ^ width v /\ 0 <= snd (p_dst p) < 2 ^ width v /\
     ~ In (p_proto p) (match v with V4 => ["icmpv6"] | V6 => ["icmp"; "igmp"] end)) /\
  In (p_proto p) (map fst proto_map) /\ p_proto p <> "all" /\ p_platform p = "gce" /\
  (forall s, p_src_tag p s \/ ~ p_src_tag p s) /\ (forall s, p_dst_tag p s \/ ~ p_dst_tag p s).

(** The orders in which Python may walk the set of address families. *)
Definition walk (order : list string) : Prop := Permutation order ["inet"; "inet6"; "mixed"].
(** The header is the only one of its network and direction. *)
Definition own_firewall (order : list string) (before after : list (gce_header * list gce_term)) (i : gce_info) : Prop :=
  forall h gs, In (h, gs) (before ++ after) ->
    gi_network (gce_options order (gh_options h)) <> gi_network i \/
    gi_direction (gce_options order (gh_options h)) <> gi_direction i.

(** ** Limits of the cloud *)
Definition at_most (n : nat) (r : rule_dict) (key : string) : Prop :=
  forall l, assoc key r = Some (JList l) -> (List.length l <= n)%nat.
Definition text_at_most (n : Z) (r : rule_dict) (key : string) : Prop :=
  exists s, assoc key r = Some (JStr s) /\ slen s <= n.
Record within_limits (r : rule_dict) : Prop := {
  wl_name : text_at_most 63 r "name";
  wl_description : text_at_most 2047 r "description";
  wl_ranges : at_most 256 r "sourceRanges" /\ at_most 256 r "destinationRanges" /\
    (silent r "sourceRanges" \/ silent r "destinationRanges");
  wl_tags : at_most 30 r "sourceTags" /\ at_most 70 r "targetTags";
  wl_accounts : at_most 10 r "sourceServiceAccounts" /\ at_most 10 r "targetServiceAccounts" /\
    ((silent r "sourceServiceAccounts" /\ silent r "targetServiceAccounts") \/ (silent r "sourceTags" /\ silent r "targetTags"));
  (* allowed or denied, not both, and not empty; at most 256 ports for a protocol *)
  wl_entries : exists key other l, ((key = "allowed" /\ other = "denied") \/ (key = "denied" /\ other = "allowed")) /\
    assoc key r = Some (JList l) /\ l <> [] /\ silent r other /\
    forall e, In e l -> exists d, e = JDict d /\ at_most 256 d "ports" }.

(** The attributes of a rule that count against the quota of a project: ranges, tags, accounts,
    protocols and ports. *)
Definition items (r : rule_dict) (key : string) : Z := match assoc key r with Some (JList l) => Zlen l | _ => 0 end.
Definition entry_size (e : json) : Z := match e with JDict d => 1 + items d "ports" | _ => 0 end.
Definition entries_size (r : rule_dict) (key : string) : Z :=
  match assoc key r with Some (JList l) => fold_right (fun e n => entry_size e + n) 0 l | _ => 0 end.
Definition rule_size (r : rule_dict) : Z :=
  items r "sourceRanges" + items r "destinationRanges" + items r "sourceTags" + items r "targetTags" +
  items r "sourceServiceAccounts" + items r "targetServiceAccounts" + entries_size r "allowed" + entries_size r "denied".
Definition total_size (rules : list rule_dict) : Z := fold_right (fun r n => rule_size r + n) 0 rules.

(** ** Names and descriptions *)
Definition name_of (r : rule_dict) : option json := assoc "name" r.
(** One name is the other with something behind a dash. *)
Definition extends (longer shorter : string) : Prop := exists s, longer = append shorter (append "-" s).
(** The description of a term's rules: its comment or else that of the header, and the owner. *)
Definition described (h : gce_header) (t : term) : string :=
  slice_to (join " " ((if some (t_comment t) then t_comment t else gh_comment h) ++ owner_line (t_owner t))) 2047.
