(** Specification vocabulary for firewalls declared to Terraform (resources of the kind
    google_compute_firewall): how the documentation of the provider reads such a resource.  What
    a policy asks for is read as for Google Compute Engine (SpecGce.v).  Nothing here is taken
    from the code that writes the configuration. *)
From Verif Require Export ModelTf SpecGce.
Local Open Scope string_scope.
Local Open Scope list_scope.
Local Open Scope Z_scope.

(** ** Reading the configuration *)

(** The configuration declares a firewall rule under a name. *)
Definition declares (out : json) (name : string) (r : rule_dict) : Prop :=
  exists top kinds blocks d, out = JDict top /\ assoc "resource" top = Some (JDict kinds) /\
    assoc "google_compute_firewall" kinds = Some (JList blocks) /\ In (JDict d) blocks /\ assoc name d = Some (JDict r).

Definition tf_from_ok (r : rule_dict) (p : packet) : Prop :=
  (silent r "source_ranges" /\ silent r "source_tags") \/
  lists r "source_ranges" (range_has (p_src p)) \/ lists r "source_tags" (p_src_tag p).
Definition tf_to_ok (r : rule_dict) (p : packet) : Prop :=
  silent r "destination_ranges" \/ lists r "destination_ranges" (range_has (p_dst p)).
Definition tf_target_ok (direction : string) (r : rule_dict) (p : packet) : Prop :=
  silent r "target_tags" \/
  lists r "target_tags" (if String.eqb direction "INGRESS" then p_dst_tag p else p_src_tag p).
Definition tf_entry_says (e : json) (p : packet) : Prop :=
  exists d x, e = JDict d /\ assoc "protocol" d = Some x /\ protocol_says x p /\
    (silent d "ports" \/ lists d "ports" (fun s => in_text_range s (p_dport p))).
Definition tf_verdict_key (verdict : string) : option string :=
  if String.eqb verdict "accept" then Some "allow" else if String.eqb verdict "deny" then Some "deny" else None.
(** The rule is about the packet and asks for the verdict. *)
Definition tf_rule_says (direction : string) (r : rule_dict) (p : packet) (verdict : string) : Prop :=
  assoc "direction" r = Some (JStr direction) /\ tf_from_ok r p /\ tf_to_ok r p /\ tf_target_ok direction r p /\
  exists key l e, tf_verdict_key verdict = Some key /\ assoc key r = Some (JList l) /\ In e l /\ tf_entry_says e p.
(** The firewall of a network: a rule asks for the verdict and every rule that asks for another
    one has a larger priority number, or the same number while the verdict is to deny; traffic
    that no rule is about has the verdict of the cloud. *)
Definition tf_decides (out : json) (network direction : string) (p : packet) (verdict : string) : Prop :=
  (exists name r n, declares out name r /\ in_network network r /\ tf_rule_says direction r p verdict /\ rule_priority r = Some n /\
     forall name' r' v' n', declares out name' r' -> in_network network r' -> tf_rule_says direction r' p v' -> v' <> verdict ->
       rule_priority r' = Some n' -> n < n' \/ (n = n' /\ verdict = "deny")) \/
  ((forall name r v, declares out name r -> in_network network r -> ~ tf_rule_says direction r p v) /\ verdict = implied direction).

(** ** Reading policies *)

(** Packets of a family of the header, with protocols that the family has. *)
Definition tf_traffic (i : gce_info) (p : packet) : Prop :=
  (exists v, In v (gce_families (gi_af i)) /\ fst (p_src p) = v /\ fst (p_dst p) = v /\
     0 <= snd (p_src p) < 2 ^ width v /\ 0 <= snd (p_dst p) < 2 ^ width v /\
     ~ In (p_proto p) (match v with V4 => ["icmpv6"] | V6 => ["icmp"; "igmp"] end)) /\
  In (p_proto p) (map fst proto_map) /\ p_proto p <> "all" /\ p_platform p = "gce_vpc_tf" /\
  (forall s, p_src_tag p s \/ ~ p_src_tag p s) /\ (forall s, p_dst_tag p s \/ ~ p_dst_tag p s).
(** A priority of its own only beside addresses, where it is not used. *)
Definition no_own_priority (g : gce_term) : Prop :=
  g_priority g = None \/ t_source_address (g_term g) <> [] \/ t_destination_address (g_term g) <> [].
