(** What the statements of a policy text say, read off the statements themselves. *)
From Verif Require Export SpecParse.
Local Open Scope string_scope.
Local Open Scope list_scope.
Local Open Scope Z_scope.

(** ** What is said under a keyword *)

(** the values given after [k::], in the order of the text *)
Definition said (k : string) (l : list stmt) : list value :=
  map snd (filter (fun s => String.eqb (fst s) k) l).
(** the words of a value; a range a - b is one word *)
Definition value_words (v : value) : list string :=
  match v with
  | VList l => l
  | VText s => [s]
  | VRange a None => [a]
  | VRange a (Some b) => [(a ++ "-" ++ b)%string]
  | _ => []
  end.
Definition value_numbers (v : value) : list Z := match v with VInts l => l | _ => [] end.
Definition value_pairs (v : value) : list (string * string) :=
  match v with VPair a b => [(a, b)] | VPairs l => l | _ => [] end.
Definition words_said (k : string) (l : list stmt) : list string := flat_map value_words (said k l).
Definition numbers_said (k : string) (l : list stmt) : list Z := flat_map value_numbers (said k l).
Definition pairs_said (k : string) (l : list stmt) : list (string * string) := flat_map value_pairs (said k l).
Fixpoint last_of {A} (l : list A) : option A :=
  match l with [] => None | [a] => Some a | _ :: l' => last_of l' end.

(** ** The attributes a keyword sets *)

(** keywords that may be repeated: every value counts *)
Definition collected : list (string * (pterm -> list string)) :=
  [("protocol", fun p => t_protocol (p_term p)); ("protocol-except", fun p => t_protocol_except (p_term p));
   ("option", fun p => t_option (p_term p)); ("source-prefix", fun p => t_source_prefix (p_term p));
   ("source-prefix-except", fun p => t_source_prefix_except (p_term p));
   ("destination-prefix", fun p => t_destination_prefix (p_term p));
   ("destination-prefix-except", fun p => t_destination_prefix_except (p_term p));
   ("ether-type", fun p => t_ether_type (p_term p)); ("traffic-type", fun p => t_traffic_type (p_term p));
   ("forwarding-class", fun p => t_forwarding_class (p_term p));
   ("forwarding-class-except", fun p => t_forwarding_class_except (p_term p));
   ("platform", fun p => t_platform (p_term p)); ("platform-exclude", fun p => t_platform_exclude (p_term p));
   ("dscp-match", fun p => t_dscp_match (p_term p)); ("dscp-except", fun p => t_dscp_except (p_term p));
   ("source-tag", fun p => t_source_tag (p_term p)); ("destination-tag", fun p => t_destination_tag (p_term p));
   ("source-zone", fun p => t_source_zone (p_term p)); ("destination-zone", fun p => t_destination_zone (p_term p));
   ("icmp-type", fun p => t_icmp_type (p_term p)); ("action", fun p => t_action (p_term p));
   ("logging", fun p => t_logging (p_term p));
   ("port", fun p => r_port (p_raw p)); ("source-port", fun p => r_source_port (p_raw p));
   ("destination-port", fun p => r_destination_port (p_raw p));
   ("source-service-accounts", fun p => x_source_service_accounts (p_extra p));
   ("target-service-accounts", fun p => x_target_service_accounts (p_extra p));
   ("pan-application", fun p => x_pan_application (p_extra p));
   ("versa-application", fun p => x_versa_application (p_extra p))].
(** keywords that hold one value: the last one counts *)
Definition settled : list (string * (pterm -> option string)) :=
  [("restrict-address-family", fun p => t_restrict_address_family (p_term p));
   ("owner", fun p => t_owner (p_term p)); ("routing-instance", fun p => t_routing_instance (p_term p));
   ("next-interface", fun p => t_next_interface (p_term p));
   ("next-hop-group", fun p => t_next_hop_group (p_term p)); ("counter", fun p => t_counter (p_term p));
   ("encapsulate", fun p => t_encapsulate (p_term p)); ("decapsulate", fun p => t_decapsulate (p_term p));
   ("port-mirror", fun p => t_port_mirror (p_term p));
   ("source-interface", fun p => t_source_interface (p_term p));
   ("destination-interface", fun p => t_destination_interface (p_term p));
   ("filter-term", fun p => t_filter_term (p_term p));
   ("packet-length", fun p => t_packet_length (p_term p));
   ("fragment-offset", fun p => t_fragment_offset (p_term p)); ("hop-limit", fun p => t_hop_limit (p_term p));
   ("loss-priority", fun p => x_loss_priority (p_extra p)); ("policer", fun p => x_policer (p_extra p));
   ("qos", fun p => x_qos (p_extra p)); ("traffic-class-count", fun p => x_traffic_class_count (p_extra p));
   ("dscp-set", fun p => x_dscp_set (p_extra p)); ("priority", fun p => x_priority (p_extra p));
   ("timeout", fun p => x_timeout (p_extra p))].
(** keywords followed by names of networks *)
Definition networks : list (string * (pterm -> list net)) :=
  [("source-address", fun p => t_source_address (p_term p));
   ("destination-address", fun p => t_destination_address (p_term p));
   ("address", fun p => t_address (p_term p));
   ("source-exclude", fun p => t_source_address_exclude (p_term p));
   ("destination-exclude", fun p => t_destination_address_exclude (p_term p));
   ("address-exclude", fun p => t_address_exclude (p_term p))].
(** keywords followed by pairs *)
Definition paired : list (string * (pterm -> list (string * string))) :=
  [("flexible-match-range", fun p => x_flexible_match_range (p_extra p));
   ("target-resources", fun p => x_target_resources (p_extra p))].
Definition one_pair : list (string * (pterm -> option (string * string))) :=
  [("log-limit", fun p => x_log_limit (p_extra p)); ("vpn", fun p => x_vpn (p_extra p))].

(** ** Dates *)

Definition leap_year (y : Z) : Prop := (4 | y) /\ (~ (100 | y) \/ (400 | y)).
(** the day exists in the calendar *)
Definition calendar_day (y m d : Z) : Prop :=
  1 <= y <= 9999 /\ 1 <= m <= 12 /\ 1 <= d <= 31 /\
  (m = 4 \/ m = 6 \/ m = 9 \/ m = 11 -> d <= 30) /\
  (m = 2 -> d <= 29 /\ (~ leap_year y -> d <= 28)).
Definition earlier_day (a b : Z * Z * Z) : Prop :=
  let '(y, m, d) := a in let '(y', m', d') := b in
  y < y' \/ (y = y' /\ (m < m' \/ (m = m' /\ d < d'))).

(** ** Acceptable statements *)

Section Text.
  (** the definition of a network name *)
  Context (lookup : string -> res (list net)).

  Definition found (n : string) : Prop := exists nets, lookup n = Ok nets.
  Definition fits (s : stmt) : Prop :=
    match snd s with
    | VList l => In (fst s) (map fst networks) -> Forall found l
    | VText v =>
        (fst s = "next-ip" -> found v) /\
        (fst s = "action" -> In v ["accept"; "deny"; "reject"; "reject-with-tcp-rst"; "next"; "count"]) /\
        (fst s = "logging" -> In v ["true"; "True"; "syslog"; "local"; "disable"; "log-both"]) /\
        (fst s = "ttl" \/ fst s = "traffic-class" -> exists n, numeral_value v = Some n)
    | VInts l => fst s = "icmp-code" -> l <> []
    | VDate y m d => calendar_day y m d
    | _ => True
    end.

  (** ** What a term of the text matches *)

  Context (services : table) (l : list stmt).

  (** the address lies in a network that a name after [k::] stands for *)
  Definition named (k : string) (x : ipaddr) : Prop :=
    exists name nets, In name (words_said k l) /\ lookup name = Ok nets /\ covered nets x.
  Definition text_side (inc exc : string) (x : ipaddr) : Prop :=
    (words_said inc l = [] \/ named inc x) /\ ~ named exc x.
  Definition text_addresses (p : packet) : Prop :=
    ((words_said "address" l = [] /\ words_said "address-exclude" l = []) \/
     text_side "address" "address-exclude" (p_src p) \/ text_side "address" "address-exclude" (p_dst p)) /\
    text_side "source-address" "source-exclude" (p_src p) /\
    text_side "destination-address" "destination-exclude" (p_dst p).
  Definition text_port (k : string) (n : Z) : Prop :=
    named_ports services (words_said k l) (words_said "protocol" l) n.
  Definition text_ports (p : packet) : Prop :=
    (text_port "port" (p_sport p) \/ text_port "port" (p_dport p)) /\
    text_port "source-port" (p_sport p) /\ text_port "destination-port" (p_dport p).
  (** one of the values, if there are any; none of the values *)
  Definition one_of (k : string) (P : string -> Prop) : Prop := any_or (words_said k l) P.
  Definition no_one_of (k : string) (P : string -> Prop) : Prop := none_of (words_said k l) P.
  Definition text_number (k : string) (n : Z) : Prop := text_range (last_of (words_said k l)) n.
  Definition text_one (k : string) (s : string) : Prop := opt_eq (last_of (words_said k l)) s.

  Definition text_matches (p : packet) : Prop :=
    text_addresses p /\ text_ports p /\
    (one_of "protocol" (eq (p_proto p)) /\ no_one_of "protocol-except" (eq (p_proto p))) /\
    (one_of "source-prefix" (p_src_prefix p) /\ no_one_of "source-prefix-except" (p_src_prefix p) /\
     one_of "destination-prefix" (p_dst_prefix p) /\ no_one_of "destination-prefix-except" (p_dst_prefix p) /\
     one_of "source-tag" (p_src_tag p) /\ one_of "destination-tag" (p_dst_tag p)) /\
    ((forall o, In o (words_said "option" l) -> p_option p o) /\
     (forall v, last_of (said "precedence" l) = Some v ->
        any_or (value_numbers v) (fun n => p_precedence p = dec n)) /\
     one_of "forwarding-class" (eq (p_class p)) /\ no_one_of "forwarding-class-except" (eq (p_class p))) /\
    (text_number "fragment-offset" (p_fragment p) /\ text_number "hop-limit" (p_hops p) /\
     text_number "packet-length" (p_length p) /\
     (forall w, last_of (words_said "ttl" l) = Some w -> numeral_value w = Some (p_ttl p))) /\
    (one_of "icmp-type" (eq (p_icmp_type p)) /\ any_or (numbers_said "icmp-code" l) (eq (p_icmp_code p))) /\
    (one_of "platform" (eq (p_platform p)) /\ no_one_of "platform-exclude" (eq (p_platform p)) /\
     one_of "source-zone" (eq (p_src_zone p)) /\ one_of "destination-zone" (eq (p_dst_zone p))) /\
    (one_of "ether-type" (eq (p_ether p)) /\ one_of "traffic-type" (eq (p_traffic p)) /\
     one_of "dscp-match" (eq (p_dscp p)) /\ no_one_of "dscp-except" (eq (p_dscp p)) /\
     text_one "source-interface" (p_src_if p) /\ text_one "destination-interface" (p_dst_if p) /\
     text_one "restrict-address-family" (p_family p)).
End Text.

(** Every name the statements use for networks stands for at least one network. *)
Definition names_nonempty (lookup : string -> res (list net)) (l : list stmt) : Prop :=
  forall k name, In k (map fst networks) -> In name (words_said k l) -> lookup name <> Ok [].

(** ** Headers and whole texts *)

(** target:: PLATFORM OPTION ... *)
Definition target_of (v : value) : list (string * list string) :=
  match v with VList (n :: o) => [(n, o)] | _ => [] end.
(** A comment as its lines without indentation. *)
Definition unquoted (w s : string) : Prop := w = in_quotes s /\ has_char """" s = false.
Definition header_reads (l : list stmt) (h : option header) : Prop :=
  match h with
  | None => l = []
  | Some h =>
      l <> [] /\
      h_targets h = flat_map target_of (said "target" l) /\
      h_comment h = map comment_value (words_said "comment" l) /\
      h_apply_groups h = words_said "apply-groups" l /\
      h_apply_groups_except h = words_said "apply-groups-except" l
  end.

(** What a term of the policy keeps of its text. *)
Definition term_reads (lookup : string -> res (list net)) (services : table) (x : term_text) (t : term * extras) : Prop :=
  let l := snd x in
  t_name (fst t) = fst x /\ acceptable (fst t) /\
  t_action (fst t) = words_said "action" l /\ t_logging (fst t) = words_said "logging" l /\
  t_option (fst t) = words_said "option" l /\
  t_comment (fst t) = map comment_value (words_said "comment" l) /\
  (forall n, t_expiration (fst t) = Some n <->
     exists y m d, last_of (said "expiration" l) = Some (VDate y m d) /\ date_ordinal y m d = Ok n) /\
  (names_nonempty lookup l -> forall p, term_matches (fst t) p <-> text_matches lookup services l p).

(** Text as it is written between quotes. *)
Fixpoint escape (s : string) : string :=
  match s with
  | EmptyString => ""
  | String c s' => if Ascii.eqb c """" then String "\" (String """" (escape s')) else String c (escape s')
  end.
