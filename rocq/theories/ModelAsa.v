(** Cisco ASA access lists (ciscoasa.py; PortMap of cisco.py).  Not modelled: log messages; the
    branches for IPv6, because the generator never asks for them (ciscoasa.py:336). *)
From Verif Require Export ModelAruba.
Local Open Scope string_scope.
Local Open Scope list_scope.
Local Open Scope Z_scope.

(** cisco.py:286-323, 375-388 _CISCO_PORTS_TCP *)
Definition asa_tcp : list (Z * string) :=
  [(5190, "aol"); (1494, "citrix-ica"); (2748, "ctiqbe"); (1720, "h323"); (101, "hostname"); (143, "imap4"); (750,
   "kerberos"); (1352, "lotusnotes"); (139, "netbios-ssn"); (5631, "pcanywhere-data"); (1521, "sqlnet"); (179, "bgp"); (19,
   "chargen"); (514, "cmd"); (13, "daytime"); (9, "discard"); (53, "domain"); (7, "echo"); (512, "exec"); (79, "finger");
   (21, "ftp"); (20, "ftp-data"); (70, "gopher"); (443, "https"); (113, "ident"); (194, "irc"); (543, "klogin"); (544,
   "kshell"); (389, "ldap"); (636, "ldaps"); (513, "login"); (515, "lpd"); (2049, "nfs"); (119, "nntp"); (496,
   "pim-auto-rp"); (109, "pop2"); (110, "pop3"); (1723, "pptp"); (25, "smtp"); (22, "ssh"); (111, "sunrpc"); (49,
   "tacacs"); (517, "talk"); (23, "telnet"); (540, "uucp"); (43, "whois"); (80, "www")].
(** cisco.py:324-351, 389-396 _CISCO_PORTS_UDP *)
Definition asa_udp : list (Z * string) :=
  [(750, "kerberos"); (5632, "pcanywhere-status"); (1645, "radius"); (1646, "radius-acct"); (5510, "secureid-udp"); (512,
   "biff"); (68, "bootpc"); (67, "bootps"); (9, "discard"); (195, "dnsix"); (53, "domain"); (7, "echo"); (500, "isakmp");
   (434, "mobile-ip"); (42, "nameserver"); (138, "netbios-dgm"); (137, "netbios-ns"); (2049, "nfs"); (123, "ntp"); (496,
   "pim-auto-rp"); (520, "rip"); (161, "snmp"); (162, "snmptrap"); (111, "sunrpc"); (514, "syslog"); (49, "tacacs"); (517,
   "talk"); (69, "tftp"); (37, "time"); (513, "who"); (177, "xdmcp")].
(** cisco.py:352-372 _TYPES_ICMP *)
Definition asa_icmp : list (Z * string) :=
  [(6, "alternate-address"); (31, "conversion-error"); (8, "echo"); (0, "echo-reply"); (16, "information-reply"); (15,
   "information-request"); (18, "mask-reply"); (17, "mask-request"); (32, "mobile-redirect"); (12, "parameter-problem");
   (5, "redirect"); (9, "router-advertisement"); (10, "router-solicitation"); (4, "source-quench"); (11, "time-exceeded");
   (14, "timestamp-reply"); (13, "timestamp-request"); (30, "traceroute"); (3, "unreachable")].
(** cisco.py:425-442 PortMap.GetProtocol for the platform cisco *)
Fixpoint zassoc {A} (n : Z) (l : list (Z * A)) : option A :=
  match l with [] => None | (m, x) :: r => if n =? m then Some x else zassoc n r end.
(** cisco.py:425-441: the table of a protocol *)
Definition asa_table (proto : string) : list (Z * string) :=
  if String.eqb proto "tcp" then asa_tcp else if String.eqb proto "udp" then asa_udp else if String.eqb proto "icmp" then asa_icmp else [].
(** cisco.py:425-441 *)
Definition get_protocol (n : Z) (proto : string) : string :=
  match zassoc n (asa_table proto) with Some s => s | None => dec n end.

(** ciscoasa.py:112-137: the addresses of a side; None is 'any' *)
Definition asa_addresses (inc exc : list net) : res (list (option net)) :=
  if some inc then
    let a := address_of_version inc (Some V4) in
    let e := address_of_version exc (Some V4) in
    let! a := (if some e then address_list_exclude a e true else Ok a) in
    Ok (map Some a)
  else Ok [None].
(** ciscoasa.py:219-233: an address and its mask, or a host *)
Definition asa_address (a : option net) : string :=
  match a with
  | None => "any"
  | Some n => if 1 <? num_addresses n
              then (addr_text (nver n) (naddr n) ++ " " ++ addr_text (nver n) (netmask n))%string
              else ("host " ++ addr_text (nver n) (naddr n))%string
  end.
(** ciscoasa.py:250-265; None is the empty tuple *)
Definition asa_port (proto : string) (p : option prange) : string :=
  match p with
  | None => ""
  | Some (lo, hi) =>
      if lo =? hi then (" eq " ++ get_protocol lo proto)%string
      else (" range " ++ get_protocol lo proto ++ " " ++ get_protocol hi proto)%string
  end.
(** re.sub(r'\s+', ' ', x): runs of whitespace become one space *)
Fixpoint squeeze (inside : bool) (s : string) : string :=
  match s with
  | EmptyString => ""
  | String c r => if is_ws c then (if inside then squeeze true r else String " " (squeeze true r)) else String c (squeeze false r)
  end.
(** ciscoasa.py:201-289 _TermletToStr.  Simplified: the options never contain 'established', because
    the test for it compares texts with the number 6 (ciscoasa.py:141-147), so that its removal for
    udp (ciscoasa.py:270-273) is left out. *)
Definition asa_line (name action proto : string) (saddr : option net) (sport : option prange) (daddr : option net) (dport : option prange)
  (ty : option Z) (opts : list string) : string :=
  rstrip (squeeze false ("access-list " ++ name ++ " extended  " ++
    join " " [action; proto; asa_address saddr; asa_port proto sport; asa_address daddr; asa_port proto dport;
              match ty with Some n => get_protocol n "icmp" | None => "" end; join " " opts]))%string.
(** ciscoasa.py:157-161 *)
Definition asa_options (t : term) : list string :=
  if some (t_logging t) then "log" :: (if str_in "disable" (t_logging t) then ["disable"] else []) else [].
(** ciscoasa.py:157-161, the list or its default *)
Definition or_none {A} (l : list A) : list (option A) := match l with [] => [None] | _ => map Some l end.
(** ciscoasa.py:69-199 Term.__str__; the addresses are of the right family, so that do_output is
    always true.  Of the lines of verbatim only the first is looked at: the return is in the loop. *)
Definition asa_remark (name text : string) : string := ("access-list " ++ name ++ " remark " ++ text)%string.
(** ciscoasa.py:69-199 *)
Definition asa_term (name : string) (t : term) : res string :=
  if (some (t_platform t) && negb (str_in "ciscoasa" (t_platform t)))
     || (some (t_platform_exclude t) && str_in "ciscoasa" (t_platform_exclude t)) then Ok ""
  else if str_in "icmpv6" (t_protocol t) then
    Ok (join lf [lf; ("remark Term " ++ t_name t)%string; "remark not rendered due to protocol/AF mismatch."])
  else
    let comments := t_comment t ++ match t_owner t with Some o => if is_empty o then [] else [("Owner: " ++ o)%string] | None => [] end in
    let head := lf :: asa_remark name (t_name t)
                :: flat_map (fun comment => map (fun line => asa_remark name (slice_to line 100)) (split_char newline comment)) comments in
    match t_verbatim t with
    | (platform, text) :: _ => Ok (join lf (head ++ if String.eqb platform "ciscoasa" then [text] else []))
    | [] =>
        let protocol := match t_protocol t with [] => ["ip"] | l => l end in
        let! src := asa_addresses (t_source_address t) (t_source_address_exclude t) in
        let! dst := asa_addresses (t_destination_address t) (t_destination_address_exclude t) in
        let! types := if some (t_icmp_type t)
                      then let! r := normalize_icmp_types (t_icmp_type t) (t_protocol t) (AfNum 4) in
                           Ok (match r with Some l => map Some l | None => [None] end)
                      else Ok [None] in
        match t_action t with
        | [] => Raise (Exn "IndexError")
        | act :: _ =>
            let action := match assoc act cisco_actions with Some w => w | None => "None" end in
            Ok (join lf (head ++
              flat_map (fun sa => flat_map (fun da => flat_map (fun sp => flat_map (fun dp => flat_map (fun proto =>
                map (fun ty => asa_line name action proto sa sp da dp ty (asa_options t)) types)
                protocol) (or_none (t_destination_port t))) (or_none (t_source_port t))) dst) src))
        end
    end.

(** A header: its options for ciscoasa (None where it has no such target) and its comments. *)
Notation asa_header := (option (list string) * list string)%type (only parsing).
(** policy.py:1849-1865 FilterName; None is printed as the word None *)
Definition asa_name (h : asa_header) : string :=
  match fst h with Some (n :: _) => n | _ => "None" end.
(** ciscoasa.py:299-314 _BuildTokens *)
Definition asa_tokens : tokens := mkTokens
  (supported default_tokens ++ ["logging"; "owner"])
  [("option", ["established"; "tcp-established"]); ("action", ["accept"; "deny"; "reject"; "next"; "reject-with-tcp-rst"]);
   ("icmp_type", map fst icmp_type4 ++ map fst icmp_type6)].
(** ciscoasa.py:316-362 _TranslatePolicy and __str__; headers for other platforms are not left out *)
Definition asa_filter (today : Z) (f : asa_header * list term) : res (list string) :=
  let name := asa_name (fst f) in
  let! terms := mapM (asa_term name) (filter (fun t => negb (expired today t)) (snd f)) in
  Ok ((("clear configure access-list " ++ name)%string :: add_repository_tags (asa_remark name "") true true true false)
      ++ flat_map (fun comment => map (asa_remark name) (split_char newline comment)) (snd (fst f)) ++ terms).
(** ciscoasa.py:316-362 *)
Definition asa_text (today : Z) (fs : list (asa_header * list term)) : res string :=
  let! _ := check_tokens "ciscoasa" asa_tokens (map (fun f => (match fst (fst f) with Some _ => ["ciscoasa"] | None => [] end, snd f)) fs) in
  let! l := mapM (asa_filter today) fs in
  Ok (join lf (concat l)).
