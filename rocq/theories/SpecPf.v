(** Reading of pf.conf, as Packet Filter does: tables and rules.  Independent of the code that writes
    them.  A rule with lists in braces stands for one rule for each choice from the lists. *)
From Verif Require Export ModelPf SpecAsa SpecJuniper.
Local Open Scope string_scope.
Local Open Scope list_scope.
Local Open Scope Z_scope.

(** ** Lines and words *)

Definition backslash : ascii := "092".
(** A backslash at the end of a line: the rest goes on in the next one. *)
Fixpoint goes_on (s : string) : bool :=
  match s with EmptyString => false | String c EmptyString => Ascii.eqb c backslash | String _ r => goes_on r end.
Fixpoint all_but_last (s : string) : string :=
  match s with EmptyString => "" | String _ EmptyString => "" | String c r => String c (all_but_last r) end.
Fixpoint whole_lines (before : string) (lines : list string) : list string :=
  match lines with
  | [] => if is_empty before then [] else [before]
  | l :: r => if goes_on l then whole_lines (before ++ all_but_last l ++ " ")%string r else (before ++ l)%string :: whole_lines "" r
  end.
(** Braces and the sign for comments are words of their own, commas count as blanks. *)
Fixpoint spread (s : string) : string :=
  match s with
  | EmptyString => ""
  | String c r =>
      if str_in (String c "") ["{"; "}"; "#"] then String " " (String c (String " " (spread r)))
      else if Ascii.eqb c "," then String " " (spread r)
      else String c (spread r)
  end.
(** A comment ends with its line. *)
Fixpoint uncomment (ws : list string) : list string :=
  match ws with [] => [] | w :: r => if String.eqb w "#" then [] else w :: uncomment r end.
Definition pf_words (line : string) : list string := uncomment (split_ws (spread line)).

(** ** Rules *)

Record pf_rule := mkPfRule {
  pr_action : string; pr_dir : option string; pr_quick : bool; pr_if : option string; pr_family : option string;
  pr_proto : option (list string); pr_src : list string; pr_sport : option (list string); pr_dst : list string; pr_dport : option (list string);
  pr_flags : option string; pr_types : option (list string); pr_types6 : option (list string); pr_state : option string }.
(** One of these words, if it is there. *)
Definition take (ks ws : list string) : option string * list string :=
  match ws with w :: r => if str_in w ks then (Some w, r) else (None, ws) | [] => (None, []) end.
(** A word after a keyword. *)
Definition take_after (k : string) (ws : list string) : option string * list string :=
  match ws with w :: x :: r => if String.eqb w k then (Some x, r) else (None, ws) | _ => (None, ws) end.
Fixpoint upto (ws : list string) : option (list string * list string) :=
  match ws with
  | [] => None
  | w :: r => if String.eqb w "}" then Some ([], r) else match upto r with Some (l, r') => Some (w :: l, r') | None => None end
  end.
(** A list in braces after a keyword; None: no list where there has to be one. *)
Definition take_list (k : string) (ws : list string) : option (option (list string) * list string) :=
  match ws with
  | w :: r =>
      if String.eqb w k then
        match r with
        | b :: r' => if String.eqb b "{" then match upto r' with Some (l, r'') => Some (Some l, r'') | None => None end else None
        | [] => None
        end
      else Some (None, ws)
  | [] => Some (None, [])
  end.
Definition read_action (ws : list string) : option (string * list string) :=
  match ws with
  | a :: r =>
      if String.eqb a "pass" then Some ("pass", r)
      else if String.eqb a "block" then
        match r with
        | b :: r' => if String.eqb b "drop" then Some ("block drop", r') else if String.eqb b "return" then Some ("block return", r') else None
        | [] => None
        end
      else None
  | [] => None
  end.
Definition read_state (ws : list string) : option (option string) :=
  match ws with
  | [] => Some None
  | [a; b] => if String.eqb b "state" && str_in a ["keep"; "no"] then Some (Some a) else None
  | _ => None
  end.
Definition read_rule (ws : list string) : option pf_rule :=
  match read_action ws with
  | None => None
  | Some (action, ws) =>
      let (dir, ws) := take ["in"; "out"] ws in
      let (quick, ws) := take ["quick"] ws in
      let (log, ws) := take ["log"] ws in
      let (on, ws) := take_after "on" ws in
      let (family, ws) := take ["inet"; "inet6"] ws in
      match take_list "proto" ws with
      | None => None
      | Some (proto, ws) =>
          match take_list "from" ws with
          | Some (Some src, ws) =>
              match take_list "port" ws with
              | None => None
              | Some (sport, ws) =>
                  match take_list "to" ws with
                  | Some (Some dst, ws) =>
                      match take_list "port" ws with
                      | None => None
                      | Some (dport, ws) =>
                          let (flags, ws) := take_after "flags" ws in
                          match take_list "icmp-type" ws with
                          | None => None
                          | Some (types, ws) =>
                              match take_list "icmp6-type" ws with
                              | None => None
                              | Some (types6, ws) =>
                                  match read_state ws with
                                  | None => None
                                  | Some state =>
                                      Some (mkPfRule action dir (match quick with Some _ => true | None => false end) on family proto
                                              src sport dst dport flags types types6 state)
                                  end
                              end
                          end
                      end
                  | _ => None
                  end
              end
          | _ => None
          end
      end
  end.

(** ** Configurations *)

(** The tables, each with its words, and the rules in their order. *)
Notation pf_conf := (list (string * list string) * list pf_rule)%type (only parsing).
Definition read_table (ws : list string) : option (string * list string) :=
  match ws with
  | a :: name :: b :: r =>
      if String.eqb a "table" && String.eqb b "{" then match upto r with Some (l, []) => Some (name, l) | _ => None end else None
  | _ => None
  end.
Fixpoint read_lines (lines : list (list string)) : option pf_conf :=
  match lines with
  | [] => Some ([], [])
  | ws :: rest =>
      match read_lines rest with
      | None => None
      | Some (tables, rules) =>
          match ws with
          | [] => Some (tables, rules)
          | w :: _ =>
              if String.eqb w "table" then match read_table ws with Some t => Some (t :: tables, rules) | None => None end
              else match read_rule ws with Some r => Some (tables, r :: rules) | None => None end
          end
      end
  end.
Definition pf_read (lines : list string) : option pf_conf := read_lines (map pf_words (whole_lines "" lines)).

(** ** What a rule says *)

Definition table_holds (tables : list (string * list string)) (name : string) (x : ipaddr) : Prop :=
  exists l w, In (name, l) tables /\ In w l /\ prefix_says (fst x) w (snd x).
Definition host_says (tables : list (string * list string)) (x : ipaddr) (w : string) : Prop :=
  w = "any" \/ (starts_with "<" w = true /\ table_holds tables w x) \/ (exists n, w = ("!" ++ n)%string /\ ~ table_holds tables n x).
Definition port_says (x : Z) (w : string) : Prop :=
  numeral_value w = Some x \/ exists a b lo hi, w = (a ++ ":" ++ b)%string /\ numeral_value a = Some lo /\ numeral_value b = Some hi /\ lo <= x <= hi.
(** The protocols known by name (/etc/protocols). *)
Definition pf_known : list string :=
  ["icmp"; "igmp"; "ggp"; "tcp"; "egp"; "igp"; "udp"; "rdp"; "ipv6"; "ipv6-route"; "rsvp"; "gre"; "esp"; "ah"; "ipv6-nonxt"; "ipv6-opts";
   "ospf"; "pim"; "vrrp"; "l2tp"; "sctp"; "udplite"].
Definition proto_says (p : packet) (w : string) : Prop := (In w pf_known /\ p_proto p = w) \/ (w = "ipv6-icmp" /\ p_proto p = "icmpv6").
Definition some_says (o : option (list string)) (P : string -> Prop) : Prop := forall l, o = Some l -> exists w, In w l /\ P w.
(** set/looked at: the flags of the second text that are set are those of the first *)
Definition flag_letters : list (ascii * string) :=
  [("S"%char, "syn"); ("A"%char, "ack"); ("F"%char, "fin"); ("R"%char, "rst"); ("U"%char, "urg"); ("P"%char, "psh")].
Definition flags_say (p : packet) (w : string) : Prop :=
  exists set mask, w = (set ++ "/" ++ mask)%string /\ has_char "/" set = false /\
    forall c name, In (c, name) flag_letters -> has_char c mask = true -> (p_option p name <-> has_char c set = true).
(** Rules that create state look at the first packet of a connection only, if they do not say otherwise. *)
Definition effective_flags (r : pf_rule) : option string :=
  match pr_flags r with
  | Some w => Some w
  | None => if String.eqb (pr_action r) "pass" then match pr_state r with Some "no" => None | _ => Some "S/SA" end else None
  end.
Definition type_in (table : list (string * Z)) (p : packet) (w : string) : Prop := exists n, numeral_value w = Some n /\ In (p_icmp_type p, n) table.
(** The rule applies to a packet on its way in or out. *)
Definition rule_applies (tables : list (string * list string)) (d : string) (p : packet) (r : pf_rule) : Prop :=
  (forall w, pr_dir r = Some w -> w = d) /\
  (forall i, pr_if r = Some i -> i = if String.eqb d "in" then p_src_if p else p_dst_if p) /\
  (forall f, pr_family r = Some f -> fst (p_src p) = if String.eqb f "inet6" then V6 else V4) /\
  some_says (pr_proto r) (proto_says p) /\
  (exists w, In w (pr_src r) /\ host_says tables (p_src p) w) /\ some_says (pr_sport r) (port_says (p_sport p)) /\
  (exists w, In w (pr_dst r) /\ host_says tables (p_dst p) w) /\ some_says (pr_dport r) (port_says (p_dport p)) /\
  (forall w, effective_flags r = Some w -> p_proto p = "tcp" -> flags_say p w) /\
  some_says (pr_types r) (type_in icmp_type4 p) /\ some_says (pr_types6 r) (type_in icmp_type6 p).
(** The last rule that applies decides, but a rule with the word quick ends the search. *)
Definition pf_decides (conf : pf_conf) (d : string) (p : packet) (outcome : string) : Prop :=
  exists before r after, snd conf = before ++ r :: after /\ rule_applies (fst conf) d p r /\ pr_action r = outcome /\
    (forall y, In y before -> pr_quick y = true -> rule_applies (fst conf) d p y -> pr_action y = outcome) /\
    (pr_quick r = true \/ forall y, In y after -> rule_applies (fst conf) d p y -> pr_action y = outcome).

(** ** What the policy file asks for *)

Definition pf_verdict (action : string) : option string :=
  if String.eqb action "accept" then Some "pass" else if String.eqb action "deny" then Some "block drop"
  else if String.eqb action "reject" then Some "block return" else None.
(** The families that the options of a header ask for. *)
Definition family_wanted (opts : list string) (v : ver) : Prop :=
  In "mixed" opts \/ (if str_in "inet6" opts then v = V6 else v = V4).
(** A term for an interface is for packets that come in or go out there; others are for those of the header. *)
Definition direction_wanted (opts : list string) (t : term) (d : string) : Prop :=
  match t_source_interface t, t_destination_interface t with
  | Some _, _ => d = "in"
  | None, Some _ => d = "out"
  | None, None => if str_in "in" opts then d = "in" else if str_in "out" opts then d = "out" else True
  end.
Notation pf_header := (option (list string) * list string)%type (only parsing).
Definition pf_asks (h : pf_header) (name : string) (opts : list string) : Prop := fst h = Some (name :: opts).
(** A term with its header says something about a packet. *)
Definition pf_term_says (today : Z) (d : string) (p : packet) (x : pf_header * term) (outcome : string) : Prop :=
  let (h, t) := x in
  exists name opts a more, pf_asks h name opts /\ family_wanted opts (fst (p_src p)) /\ direction_wanted opts t d /\
    in_force today t /\ meant_for "packetfilter" t /\ term_matches t p /\ t_action t = a :: more /\ pf_verdict a = Some outcome.
Definition all_terms (fs : list (pf_header * list term)) : list (pf_header * term) := flat_map (fun f => map (pair (fst f)) (snd f)) fs.

(** ** Policies that can be rendered exactly *)

(** A word that cannot be taken for anything else. *)
Definition pf_char (c : ascii) : bool := negb (is_ws c || str_in (String c "") ["{"; "}"; "#"; ","; "\"]).
Definition pf_word (s : string) : Prop := s <> "" /\ forall_char pf_char s = true.
(** No line of the comments ends in a backslash. *)
Definition closed_comments (l : list string) : Prop := forall line, In line l -> has_char backslash line = false.
(** Each name stands for the same addresses wherever it is used. *)
Definition pf_side_settled (D : string -> ipaddr -> Prop) (l : list net) : Prop :=
  forall n x, In n l -> (D (pf_short n) x <-> exists m, In m l /\ pf_short m = pf_short n /\ covers m x).
Record pf_term_ok (t : term) : Prop := {
  fo_name : pf_word (t_name t);
  fo_action : exists a more, t_action t = a :: more /\ a <> "next";
  (* exclusions: see the refutation *)
  fo_exclude : t_source_address_exclude t = [] /\ t_destination_address_exclude t = [];
  fo_protocol : forall q, In q (t_protocol t) -> q = "icmpv6" \/ In q pf_known;
  fo_ports : forall r, In r (t_source_port t ++ t_destination_port t) -> 0 <= fst r /\ 0 <= snd r;
  fo_option : t_option t <> [] -> t_protocol t = ["tcp"];
  fo_interface : (forall i, t_source_interface t = Some i \/ t_destination_interface t = Some i -> pf_word i);
  fo_comments : closed_comments (t_comment t);
  fo_verbatim : t_verbatim t = [];
  fo_warned : t_restrict_address_family t = None /\ t_source_tag t = [] /\ t_destination_tag t = [] /\ t_ttl t <> Some 0 }.
Record pf_policy_ok (today : Z) (D : string -> ipaddr -> Prop) (fs : list (pf_header * list term)) : Prop := {
  po_headers : forall h terms, In (h, terms) fs -> fst h <> None -> exists name opts, pf_asks h name opts /\ pf_word name /\ closed_comments (snd h);
  po_terms : forall h terms t, In (h, terms) fs -> fst h <> None -> In t terms -> in_force today t -> meant_for "packetfilter" t -> pf_term_ok t;
  (* also terms that are not rendered give their addresses to the tables *)
  po_names : forall h terms t l, In (h, terms) fs -> fst h <> None -> In t terms -> In l [t_source_address t; t_destination_address t] ->
    valid_list l /\ (forall n, In n l -> pf_word (nptoken n)) /\ pf_side_settled D l }.
(** Packets of one family; words for flags mean the same; the platform. *)
Record pf_traffic (p : packet) : Prop := {
  pt_family : fst (p_src p) = fst (p_dst p);
  pt_src : 0 <= snd (p_src p) < 2 ^ width (fst (p_src p));
  pt_dst : 0 <= snd (p_dst p) < 2 ^ width (fst (p_dst p));
  pt_established : (p_option p "established" <-> p_option p "ack") /\ (p_option p "tcp-established" <-> p_option p "ack");
  pt_all : p_option p "all" <-> forall f, In f ["syn"; "ack"; "fin"; "rst"; "urg"; "psh"] -> p_option p f;
  pt_platform : p_platform p = "packetfilter" }.
(** The packet opens a connection, as far as its protocol has connections. *)
Definition opens (p : packet) : Prop := p_proto p = "tcp" -> p_option p "syn" /\ ~ p_option p "ack".
(** All headers ask for rules without state. *)
Definition stateless (fs : list (pf_header * list term)) : Prop := forall h terms name opts, In (h, terms) fs -> pf_asks h name opts -> In "nostate" opts.
