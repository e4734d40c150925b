(** Specification vocabulary for Cloud Armor: how a security policy is applied to a request, and
    what the policy file asks for.  Nothing here is taken from the code that writes the rules. *)
From Verif Require Export ModelCloudArmor SpecOpenConfig.
Local Open Scope string_scope.
Local Open Scope list_scope.
Local Open Scope Z_scope.

Definition ranges_of (r : json) (l : list json) : Prop := path ["match"; "config"; "srcIpRanges"] r = Some (JList l).
(** A rule is met by the requests from its ranges; the star stands for all. *)
Definition ca_matches (r : json) (p : packet) : Prop :=
  path ["match"; "versionedExpr"] r = Some (JStr "SRC_IPS_V1") /\
  exists l s, ranges_of r l /\ In (JStr s) l /\ (s = "*" \/ range_has (p_src p) s).
(** Rules in preview are not enforced. *)
Definition ca_says (r : json) (p : packet) (outcome : string) : Prop :=
  ca_matches r p /\ path ["preview"] r = Some (JBool false) /\ path ["action"] r = Some (JStr outcome).
(** The rule with the lowest number decides; rules with the same number must agree. *)
Definition ca_decides (rules : list json) (p : packet) (outcome : string) : Prop :=
  exists r n, In r rules /\ ca_says r p outcome /\ path ["priority"] r = Some (JNum n) /\
    forall r' o' n', In r' rules -> ca_says r' p o' -> path ["priority"] r' = Some (JNum n') -> n' <= n -> o' = outcome.

Definition ca_outcome (action outcome : string) : Prop :=
  (action = "accept" /\ outcome = "allow") \/ (action = "deny" /\ outcome = "deny(404)").
(** The first term in force that matches decides. *)
Definition ca_policy_decides (today : Z) (terms : list term) (p : packet) (outcome : string) : Prop :=
  first_says (fun t o => in_force today t /\ term_matches t p /\ exists a r, t_action t = a :: r /\ ca_outcome a o) terms outcome.

(** The family of a header: the first option, inet when there is none. *)
Definition header_family (options : list string) (family : string) : Prop :=
  (forall o, In o options -> o = "noverbose") /\ family = "inet" \/
  exists rest, family <> "noverbose" /\ (options = family :: rest \/ options = "noverbose" :: family :: rest).
Definition ca_wants (v : ver) (family : string) : Prop :=
  family = "mixed" \/ family = match v with V4 => "inet" | V6 => "inet6" end.
Record ca_term_ok (family : string) (t : term) : Prop := {
  ct_addresses : valid_list (t_source_address t);
  (* addresses of a family of the header, if any *)
  ct_present : t_source_address t = [] \/ exists n, In n (t_source_address t) /\ ca_wants (nver n) family;
  (* not looked at by the generator *)
  ct_platform : meant_for "cloudarmor" t;
  (* only warned about, or not seen, by the check of supported keywords *)
  ct_warned : t_restrict_address_family t = None /\ t_source_tag t = [] /\ t_destination_tag t = [] /\ t_ttl t <> Some 0;
  (* never empty texts in a policy file *)
  ct_texts : t_source_interface t <> Some "" /\ t_destination_interface t <> Some "" }.
Record ca_traffic (v : ver) (p : packet) : Prop := {
  cq_src : fst (p_src p) = v /\ 0 <= snd (p_src p) < 2 ^ width v;
  cq_platform : p_platform p = "cloudarmor" }.
