(** How a Cisco ASA reads the lines of its access lists, and the policies whose lists decide as
    their terms do.  Nothing here is taken from the code that writes the lines. *)
From Verif Require Export ModelAsa SpecAruba.
Local Open Scope string_scope.
Local Open Scope list_scope.
Local Open Scope Z_scope.

(** ** Lines *)

(** The rules of all lists, in order, each with the name of its list.  A list is emptied by
    'clear configure access-list NAME'; remarks and blank lines do nothing.  Nothing else is a
    configuration. *)
Notation asa_rules := (list (string * list string)) (only parsing).
Definition without (name : string) (rs : asa_rules) : asa_rules := filter (fun r => negb (String.eqb (fst r) name)) rs.
Definition asa_step (rs : asa_rules) (ws : list string) : option asa_rules :=
  match ws with
  | [] => Some rs
  | a :: b :: c :: rest =>
      if String.eqb a "access-list" then
        if String.eqb c "remark" then Some rs else if String.eqb c "extended" then Some (rs ++ [(b, rest)]) else None
      else if String.eqb a "clear" && String.eqb b "configure" && String.eqb c "access-list" then
        match rest with [name] => Some (without name rs) | _ => None end
      else None
  | _ => None
  end.
Fixpoint asa_run (rs : asa_rules) (lines : list (list string)) : option asa_rules :=
  match lines with
  | [] => Some rs
  | ws :: rest => match asa_step rs ws with Some rs' => asa_run rs' rest | None => None end
  end.
(** What a device without access lists has after the text. *)
Definition asa_config (text : string) : option asa_rules := asa_run [] (map split_ws (split_char newline text)).
Definition asa_list (rs : asa_rules) (name : string) : list (list string) :=
  flat_map (fun r => if String.eqb (fst r) name then [snd r] else []) rs.

(** ** Rules *)

(** The words for ports (Cisco ASA configuration guide, addresses, protocols and ports). *)
Definition tcp_names : list (string * Z) :=
  [("aol", 5190); ("bgp", 179); ("chargen", 19); ("cifs", 3020); ("citrix-ica", 1494); ("cmd", 514); ("ctiqbe", 2748); ("daytime", 13);
   ("discard", 9); ("domain", 53); ("echo", 7); ("exec", 512); ("finger", 79); ("ftp", 21); ("ftp-data", 20); ("gopher", 70); ("h323", 1720);
   ("hostname", 101); ("http", 80); ("https", 443); ("ident", 113); ("imap4", 143); ("irc", 194); ("kerberos", 750); ("klogin", 543);
   ("kshell", 544); ("ldap", 389); ("ldaps", 636); ("login", 513); ("lotusnotes", 1352); ("lpd", 515); ("netbios-ssn", 139); ("nfs", 2049);
   ("nntp", 119); ("pcanywhere-data", 5631); ("pim-auto-rp", 496); ("pop2", 109); ("pop3", 110); ("pptp", 1723); ("rsh", 514); ("rtsp", 554);
   ("sip", 5060); ("smtp", 25); ("sqlnet", 1521); ("ssh", 22); ("sunrpc", 111); ("tacacs", 49); ("talk", 517); ("telnet", 23); ("uucp", 540);
   ("whois", 43); ("www", 80)].
Definition udp_names : list (string * Z) :=
  [("biff", 512); ("bootpc", 68); ("bootps", 67); ("cifs", 3020); ("discard", 9); ("dnsix", 195); ("domain", 53); ("echo", 7); ("http", 80);
   ("isakmp", 500); ("kerberos", 750); ("mobile-ip", 434); ("nameserver", 42); ("netbios-dgm", 138); ("netbios-ns", 137); ("nfs", 2049);
   ("ntp", 123); ("pcanywhere-status", 5632); ("pim-auto-rp", 496); ("radius", 1645); ("radius-acct", 1646); ("rip", 520);
   ("secureid-udp", 5510); ("sip", 5060); ("snmp", 161); ("snmptrap", 162); ("sunrpc", 111); ("syslog", 514); ("tacacs", 49); ("talk", 517);
   ("tftp", 69); ("time", 37); ("who", 513); ("www", 80); ("xdmcp", 177)].
Definition icmp_names : list (string * Z) :=
  [("alternate-address", 6); ("conversion-error", 31); ("echo", 8); ("echo-reply", 0); ("information-reply", 16); ("information-request", 15);
   ("mask-reply", 18); ("mask-request", 17); ("mobile-redirect", 32); ("parameter-problem", 12); ("redirect", 5); ("router-advertisement", 9);
   ("router-solicitation", 10); ("source-quench", 4); ("time-exceeded", 11); ("timestamp-reply", 14); ("timestamp-request", 13);
   ("traceroute", 30); ("unreachable", 3)].
(** A number or one of the words. *)
Definition named_value (table : list (string * Z)) (w : string) : option Z :=
  match numeral_value w with Some n => Some n | None => assoc w table end.
Definition port_words (proto : string) : list (string * Z) :=
  if String.eqb proto "tcp" then tcp_names else if String.eqb proto "udp" then udp_names else [].
(** The protocols the device knows by name. *)
Definition asa_protocols : list string := ["ah"; "eigrp"; "esp"; "gre"; "icmp"; "igmp"; "ospf"; "pim"; "sctp"; "tcp"; "udp"].
Definition with_ports : list string := ["tcp"; "udp"; "sctp"].
(** any, host A, or A and the mask of the network: bits set in the mask count *)
Definition asa_read_address (ws : list string) : option ((Z -> Prop) * list string) :=
  match ws with
  | w :: r =>
      if String.eqb w "any" then Some (fun _ => True, r)
      else match r with
           | b :: r' => if String.eqb w "host" then Some (fun x => ip_value V4 b = Some x, r') else Some (mask_says w b, r')
           | [] => None
           end
  | [] => None
  end.
(** A condition on ports, where the protocol has ports. *)
Definition asa_read_port (proto : string) (ws : list string) : (Z -> Prop) * list string :=
  if negb (str_in proto with_ports) then (fun _ => True, ws)
  else
    match ws with
    | w :: a :: r =>
        if String.eqb w "eq" then (fun x => named_value (port_words proto) a = Some x, r)
        else match r with
             | b :: r' => if String.eqb w "range"
                          then (fun x => exists lo hi, named_value (port_words proto) a = Some lo /\ named_value (port_words proto) b = Some hi /\ lo <= x <= hi, r')
                          else (fun _ => True, ws)
             | [] => (fun _ => True, ws)
             end
    | _ => (fun _ => True, ws)
    end.
(** The type of ICMP messages. *)
Definition asa_read_type (proto : string) (ws : list string) : (packet -> Prop) * list string :=
  match ws with
  | w :: r => match (if String.eqb proto "icmp" then named_value icmp_names w else None) with
              | Some n => (fun p => In (p_icmp_type p, n) icmp_type4, r)
              | None => (fun _ => True, ws)
              end
  | [] => (fun _ => True, ws)
  end.
(** The rule applies to an IPv4 packet and gives the outcome. *)
Definition asa_rule_says (p : packet) (ws : list string) (outcome : string) : Prop :=
  match ws with
  | action :: proto :: ws =>
      match asa_read_address ws with
      | None => False
      | Some (src, ws) =>
          let (sport, ws) := asa_read_port proto ws in
          match asa_read_address ws with
          | None => False
          | Some (dst, ws) =>
              let (dport, ws) := asa_read_port proto ws in
              let (type, ws) := asa_read_type proto ws in
              action = outcome /\ In outcome ["permit"; "deny"] /\
              (proto = "ip" \/ In proto asa_protocols /\ p_proto p = proto) /\
              src (snd (p_src p)) /\ sport (p_sport p) /\ dst (snd (p_dst p)) /\ dport (p_dport p) /\ type p /\
              In ws [[]; ["log"]; ["log"; "disable"]]
          end
      end
  | _ => False
  end.
Definition asa_list_decides (rules : list (list string)) (p : packet) (outcome : string) : Prop := first_says (asa_rule_says p) rules outcome.

(** ** Policies *)

Record asa_term_ok (t : term) : Prop := {
  st_name : one_word (t_name t);
  st_action : exists a r, t_action t = a :: r /\ a <> "next";
  (* networks are networks; exclusions come with inclusions *)
  st_src : valid_list (t_source_address t) /\ valid_list (t_source_address_exclude t) /\ (t_source_address t = [] -> t_source_address_exclude t = []);
  st_dst : valid_list (t_destination_address t) /\ valid_list (t_destination_address_exclude t) /\ (t_destination_address t = [] -> t_destination_address_exclude t = []);
  (* protocols the device knows, and ports only with those that have them *)
  st_protocol : forall q, In q (t_protocol t) -> In q asa_protocols;
  st_ports : t_source_port t ++ t_destination_port t <> [] -> t_protocol t <> [] /\ forall q, In q (t_protocol t) -> In q with_ports;
  st_numbers : forall r, In r (t_source_port t ++ t_destination_port t) -> 0 <= fst r /\ 0 <= snd r;
  (* dropped without a word, see the refutations *)
  st_option : t_option t = [];
  st_verbatim : t_verbatim t = [];
  (* only warned about, or not seen, by the check of supported keywords *)
  st_warned : t_restrict_address_family t = None /\ t_source_tag t = [] /\ t_destination_tag t = [] /\ t_ttl t <> Some 0;
  (* never empty texts in a policy file *)
  st_texts : t_source_interface t <> Some "" /\ t_destination_interface t <> Some "" }.
(** The header asks for a list with this name. *)
Definition asa_asks (f : asa_header * list term) (name : string) : Prop := exists rest, fst (fst f) = Some (name :: rest).
Definition asa_policy_ok (today : Z) (fs : list (asa_header * list term)) : Prop :=
  (forall f, In f fs -> (exists name, asa_asks f name /\ one_word name) /\ forall t, In t (snd f) -> in_force today t -> meant_for "ciscoasa" t -> asa_term_ok t) /\
  (* no name is used twice *)
  (forall fa f fb f' fc name, fs = fa ++ f :: fb ++ f' :: fc -> asa_asks f name -> ~ asa_asks f' name).
Definition asa_traffic (p : packet) : Prop :=
  fst (p_src p) = V4 /\ 0 <= snd (p_src p) < 2 ^ 32 /\ fst (p_dst p) = V4 /\ 0 <= snd (p_dst p) < 2 ^ 32 /\ p_platform p = "ciscoasa".
