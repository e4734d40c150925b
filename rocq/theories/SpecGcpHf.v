(** Specification vocabulary for hierarchical firewall policies of the Google cloud: how the cloud
    reads the rules, its limits, and what the policy asks for.  Nothing here is taken from the code
    that writes the rules. *)
From Verif Require Export ModelGcpHf SpecK8s.
Local Open Scope string_scope.
Local Open Scope list_scope.
Local Open Scope Z_scope.

(** ** Reading rules *)

Definition hf_word (w : way) : string := match w with Ingress => "INGRESS" | Egress => "EGRESS" end.
(** The conditions stand under match, in the older version of the interface one level deeper. *)
Definition conditions (r c : json) : Prop :=
  (path ["match"; "config"] r = Some c /\ path ["match"; "versionedExpr"] r = Some (JStr "FIREWALL")) \/
  (path ["match"; "config"] r = None /\ path ["match"] r = Some c).
Definition ranges_say (o : option json) (x : ipaddr) : Prop := if_given o (fun j => exists l s, j = JList l /\ In (JStr s) l /\ range_has x s).
(** a protocol by name, by number in a text, or all of them; then the ports *)
Definition layer4_says (p : packet) (e : json) : Prop :=
  (exists s, path ["ipProtocol"] e = Some (JStr s) /\ (s = "all" \/ s = p_proto p \/ exists n, numeral_value s = Some n /\ In (p_proto p, n) proto_map)) /\
  if_given (path ["ports"] e) (fun j => exists l s, j = JList l /\ In (JStr s) l /\ in_text_range s (p_dport p)).
(** a rule for every network *)
Definition hf_matches (w : way) (r : json) (p : packet) : Prop :=
  path ["direction"] r = Some (JStr (hf_word w)) /\ path ["targetResources"] r = None /\
  exists c l e, conditions r c /\ ranges_say (path ["srcIpRanges"] c) (p_src p) /\ ranges_say (path ["destIpRanges"] c) (p_dst p) /\
    path ["layer4Configs"] c = Some (JList l) /\ In e l /\ layer4_says p e.
Definition hf_says (w : way) (r : json) (p : packet) (outcome : string) : Prop := hf_matches w r p /\ path ["action"] r = Some (JStr outcome).
(** The rule with the lowest number decides; rules with the same number must agree. *)
Definition hf_decides (w : way) (rules : list json) (p : packet) (outcome : string) : Prop :=
  exists r n, In r rules /\ hf_says w r p outcome /\ path ["priority"] r = Some (JNum n) /\
    forall r' o' n', In r' rules -> hf_says w r' p o' -> path ["priority"] r' = Some (JNum n') -> n' <= n -> o' = outcome.
Definition rules_of (policy : json) (rules : list json) : Prop := path ["rules"] policy = Some (JList rules).

(** ** Limits of the cloud *)

Definition at_most_in (n : nat) (keys : list string) (j : json) : Prop := forall l, path keys j = Some (JList l) -> (List.length l <= n)%nat.
Record hf_within (r : json) : Prop := {
  hw_targets : at_most_in 256 ["targetResources"] r;
  hw_ranges : forall c, conditions r c -> at_most_in 256 ["srcIpRanges"] c /\ at_most_in 256 ["destIpRanges"] c;
  hw_ports : forall c l e, conditions r c -> path ["layer4Configs"] c = Some (JList l) -> In e l -> at_most_in 256 ["ports"] e;
  hw_description : forall s, path ["description"] r = Some (JStr s) -> (String.length s <= 64)%nat }.
(** The number of elements of a list under a path, none if there is no list. *)
Definition counted (keys : list string) (j : json) : Z := match path keys j with Some (JList l) => Zlen l | _ => 0 end.
Definition summed (f : json -> Z) (l : list json) : Z := fold_right (fun e n => f e + n) 0 l.
(** What a rule is charged: its ranges, threat lists and targets, and one for each protocol and port. *)
Definition charge (r : json) (n : Z) : Prop :=
  exists c l, conditions r c /\ path ["layer4Configs"] c = Some (JList l) /\
    n = counted ["srcIpRanges"] c + counted ["destIpRanges"] c + counted ["targetResources"] r
        + (counted ["match"; "srcThreatIntelligences"] r + counted ["match"; "destThreatIntelligences"] r)
        + summed (fun e => 1 + counted ["ports"] e) l.
(** The first number among the options of a header is the most its rules may be charged, 100 if there is none. *)
Definition limit_of (options : list string) (n : Z) : Prop :=
  (exists l1 s l2, options = l1 ++ s :: l2 /\ numeral_value s = Some n /\ forall x, In x l1 -> numeral_value x = None) \/
  ((forall x, In x options -> numeral_value x = None) /\ n = 100).
(** a lower-case letter, then letters, digits and dashes, no dash at the end, at most 63 characters *)
Definition rfc1035 (s : string) : Prop :=
  (String.length s <= 63)%nat /\ dns_label s /\ exists c rest, s = String c rest /\ In c (list_ascii_of_string "abcdefghijklmnopqrstuvwxyz").

(** ** What the policy asks for *)

Definition hf_outcome (action outcome : string) : Prop :=
  (action = "accept" /\ outcome = "allow") \/ (action = "deny" /\ outcome = "deny") \/ (action = "next" /\ outcome = "goto_next").
Definition family_words : list string := ["inet"; "inet6"; "mixed"].
(** a term without threat lists *)
Definition no_prefix (h : hf_term) : Prop := t_source_prefix (h_term h) = [] /\ t_destination_prefix (h_term h) = [].
(** A header names one family at most, inet when it names none. *)
Definition one_family_word (options : list string) : Prop := forall a b, In a family_words -> In b family_words -> In a options -> In b options -> a = b.
Definition header_has (options : list string) (v : ver) : Prop :=
  In "mixed" options \/ match v with V4 => ~ In "inet6" options | V6 => In "inet6" options end.
(** All terms in the order of the file, each with the options of its header. *)
Definition all_terms (fs : list (list string * list hf_term)) : list (list string * hf_term) :=
  flat_map (fun f => map (fun h => (fst f, h)) (snd f)) fs.
(** The first term that matches, of the headers for the direction and the family of the packet, decides. *)
Definition hf_policy_decides (w : way) (v : ver) (fs : list (list string * list hf_term)) (p : packet) (outcome : string) : Prop :=
  first_says (fun ot o => header_way (fst ot) w /\ header_has (fst ot) v /\ term_matches (h_term (snd ot)) p /\
                          exists a r, t_action (h_term (snd ot)) = a :: r /\ hf_outcome a o) (all_terms fs) outcome.
Definition far_addresses (w : way) (t : term) : list net := match w with Ingress => t_destination_address t | Egress => t_source_address t end.
Record hf_term_ok (w : way) (h : hf_term) : Prop := {
  ht_reply : t_stateless_reply (h_term h) = false;
  ht_addresses : valid_list (fst (near_side w (h_term h)));
  ht_style : forall n, In n (fst (near_side w (h_term h))) -> nver n = V6 -> ~ ipv4_style (naddr n);
  (* not looked at *)
  ht_far : far_addresses w (h_term h) = [];
  ht_targets : h_targets h = [];
  (* threat lists and addresses are alternatives in the cloud *)
  ht_prefix : t_source_prefix (h_term h) = [] /\ t_destination_prefix (h_term h) = [];
  ht_protocol : forall q, In q (t_protocol (h_term h)) -> In q (map fst proto_map) /\ q <> "all";
  (* the policy reader refuses ports without a protocol *)
  ht_ports : (t_destination_port (h_term h) <> [] -> t_protocol (h_term h) <> []) /\ forall r, In r (t_destination_port (h_term h)) -> 0 <= fst r <= snd r;
  (* only warned about, or not seen, by the check of supported keywords *)
  ht_warned : t_restrict_address_family (h_term h) = None /\ t_ttl (h_term h) <> Some 0;
  (* never empty texts in a policy file *)
  ht_texts : t_source_interface (h_term h) <> Some "" /\ t_destination_interface (h_term h) <> Some "" }.
Record hf_traffic (v : ver) (p : packet) : Prop := {
  hq_family : fst (p_src p) = v /\ fst (p_dst p) = v /\ addressable (p_src p) /\ addressable (p_dst p);
  hq_proto : In (p_proto p) (map fst proto_map) /\ p_proto p <> "all" /\ ~ In (p_proto p) (match v with V4 => ["icmpv6"] | V6 => ["icmp"; "igmp"] end);
  hq_platform : p_platform p = "gcp_hf" }.
