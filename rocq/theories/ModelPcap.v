(** Model of capirca/lib/pcap.py. Not modelled: the check of supported keywords (see
    [field_error] in ModelGen.v) and log messages. *)
From Verif Require Export ModelGen ModelText ModelCisco.
Local Open Scope string_scope.
Local Open Scope list_scope.
Local Open Scope Z_scope.

(** str.strip(' ') *)
Fixpoint lstrip_blanks (s : string) : string :=
  match s with String c s' => if Ascii.eqb c " " then lstrip_blanks s' else s | EmptyString => "" end.
(** from the right (pcap.py:214-235) *)
Fixpoint rstrip_blanks (s : string) : string :=
  match s with
  | EmptyString => ""
  | String c s' => let r := rstrip_blanks s' in if Ascii.eqb c " " && is_empty r then "" else String c r
  end.
(** from both sides (pcap.py:214-235) *)
Definition strip_blanks (s : string) : string := rstrip_blanks (lstrip_blanks s).
(** pcap.py:214-235 JoinConditionals *)
Definition join_conditionals (l : list string) (op : string) : string :=
  let l := filter nonempty l in
  let l := map strip_blanks (filter (fun x => nonempty (strip x)) l) in
  if some l then append "(" (append (join (append " " (append op " ")) l) ")") else "".

(** pcap.py:59-68 _TCP_FLAGS_TABLE *)
Definition pcap_flags : list (string * string) :=
  [("syn", "tcp-syn"); ("ack", "tcp-ack"); ("fin", "tcp-fin"); ("rst", "tcp-rst"); ("urg", "tcp-urg"); ("psh", "tcp-push");
   ("all", "(tcp-syn|tcp-ack|tcp-fin|tcp-rst|tcp-urg|tcp-push)"); ("none", "(tcp-syn&tcp-ack&tcp-fin&tcp-rst&tcp-urg&tcp-push)")].
(** pcap.py:70-86 _PROTO_TABLE *)
Definition pcap_protocols : list (string * string) :=
  [("ah", "proto \ah"); ("esp", "proto \esp"); ("icmp", "proto \icmp"); ("icmpv6", "icmp6"); ("ip", "proto \ip"); ("ip6", "ip6");
   ("igmp", "proto \igmp"); ("igrp", "igrp"); ("pim", "proto \pim"); ("tcp", "proto \tcp"); ("udp", "proto \udp"); ("vrrp", "proto 112");
   ("hopopt", "ip6 protochain 0")].

(** The family of a filter ('inet', 'inet6' or 'mixed') and its direction. *)
Record pcap_cfg := mkPcap { pc_af : string; pc_direction : string }.
(** pcap.py:200-211 _CheckAddressAf; [None] is ['any'] *)
Definition pcap_addrs (af : string) (l : list net) : res (option (list net)) :=
  if negb (some l) then Ok None
  else if String.eqb af "mixed" then Ok (Some l)
  else let! n := normalize_af (AfName af) in Ok (Some (filter (fun a => ver_num (nver a) =? n) l)).
(** pcap.py:237-257 _GenerateAddrStatement *)
Definition addr_conditions (addrs : option (list net)) (excl : list net) : string :=
  let ok n := negb (String.eqb (prefixlen_text n) "::/0") in
  let inc := match addrs with None => [] | Some l => map (fun n => append "dst net " (prefixlen_text n)) (filter ok l) end in
  if some excl then
    if forallb ok excl then
      join_conditionals [join_conditionals inc "or"; join_conditionals (map (fun n => append "not dst net " (prefixlen_text n)) excl) "or"] "and not"
    else ""
  else join_conditionals inc "or".
(** pcap.py:259-261 _GenerateProtoStatement *)
Fixpoint proto_texts_of (l : list string) : res (list string) :=
  match l with
  | [] => Ok []
  | p :: r =>
      match assoc p pcap_protocols with
      | None => Raise (Exn "KeyError")
      | Some s => let! more := proto_texts_of r in Ok (s :: more)
      end
  end.
(** pcap.py:259-261 *)
Definition proto_conditions (l : list string) : res string := let! ts := proto_texts_of l in Ok (join_conditionals ts "or").
(** pcap.py:263-274 _GeneratePortStatement *)
Definition port_condition (direction : string) (r : prange) : string :=
  if fst r =? snd r then append direction (append " port " (dec (fst r)))
  else append direction (append " portrange " (append (dec (fst r)) (append "-" (dec (snd r))))).
(** pcap.py:263-274 *)
Definition port_conditions (ports : list prange) (direction : string) : string := join_conditionals (map (port_condition direction) ports) "or".
(** pcap.py:276-295 _GenerateTcpOptions: an option stands for the flags whose names it begins with *)
Definition option_flags (o : string) : list string :=
  if String.eqb o "tcp-established" then ["tcp-ack"] else map snd (filter (fun f => starts_with (fst f) o) pcap_flags).
(** pcap.py:276-295 *)
Definition flag_conditions (options : list string) : string :=
  let flags := flat_map option_flags options in
  if some flags then append "(tcp[tcpflags] & (" (append (join "|" flags) (append ") == (" (append (join "|" flags) "))"))) else "".
(** pcap.py:297-307 _GenerateIcmpType *)
Definition icmp_conditions (types codes : list Z) : string :=
  if some types then
    let codes := if some codes then map (fun c => append " and icmp[icmpcode] == " (dec c)) codes else [""] in
    join_conditionals (flat_map (fun y => map (fun x => append "icmp[icmptype] == " (append (dec x) y)) types) codes) "or"
  else "".
(** pcap.py:108-198 Term.__str__ *)
Definition pcap_term (c : pcap_cfg) (t : term) : res string :=
  if negb (active_on "pcap" t) then Ok ""
  else
    match t_action t with
    | [] => Raise (Exn "IndexError")
    | a :: _ =>
        if negb (str_in a ["accept"; "deny"; "reject"; "next"]) then Raise (Exn "UnsupportedFilterError")
        else
          let! src := pcap_addrs (pc_af c) (t_source_address t) in
          match src with
          | Some [] => Ok ""
          | _ =>
              let! dst := pcap_addrs (pc_af c) (t_destination_address t) in
              match dst with
              | Some [] => Ok ""
              | _ =>
                  if some (t_protocol_except t) then Raise (Exn "UnsupportedFilterError")
                  else
                    let! protos := proto_conditions (t_protocol t) in
                    let! icmp :=
                      if some (t_icmp_type t) then
                        if list_str_eqb (t_protocol t) ["icmp"] || list_str_eqb (t_protocol t) ["icmpv6"] then
                          let! types := normalize_icmp_types (t_icmp_type t) (t_protocol t)
                                          (AfName (if list_str_eqb (t_protocol t) ["icmp"] then "inet" else "inet6")) in
                          Ok (if str_in "icmp" (t_protocol t)
                              then [icmp_conditions (match types with Some l => l | None => [] end) (t_icmp_code t)] else [])
                        else Raise (Exn "UnsupportedFilterError")
                      else Ok [] in
                    let cond := join_conditionals
                      ([addr_conditions src (t_source_address_exclude t); addr_conditions dst (t_destination_address_exclude t); protos;
                        port_conditions (t_source_port t) "src"; port_conditions (t_destination_port t) "dst"]
                       ++ icmp ++ (if str_in "tcp" (t_protocol t) then [flag_conditions (t_option t)] else [])) "and" in
                    let cond :=
                      if nonempty cond then
                        if String.eqb (pc_direction c) "in" then join_conditionals ["dst net localhost"; cond] "and"
                        else if String.eqb (pc_direction c) "out" then join_conditionals ["src net localhost"; cond] "and"
                        else cond
                      else cond in
                    Ok (append cond (String newline ""))
              end
          end
    end.
(** pcap.py:369-439 _TranslatePolicy: the options of a header and the direction, which stays
    from one header to the next. [options] are those after the name of the filter. *)
Definition pcap_direction (old : string) (options : list string) : string :=
  if str_in "in" options then "in" else if str_in "out" options then "out" else old.
(** pcap.py:398-408 *)
Definition pcap_family (options : list string) : res string :=
  match filter (fun f => str_in f options) ["inet"; "inet6"; "mixed"] with
  | [] => Ok "mixed"
  | [f] => Ok f
  | _ => Raise (Exn "UnsupportedFilterError")
  end.
(** pcap.py:410-439: the terms that are kept, by action. term_names stays empty, so names can
    repeat. *)
Fixpoint pcap_select (today : Z) (terms : list term) : res (list term * list term) :=
  match terms with
  | [] => Ok ([], [])
  | t :: rest =>
      if expired today t then pcap_select today rest
      else
        match t_action t with
        | [] => Raise (Exn "IndexError")
        | a :: _ =>
            let! more := pcap_select today rest in
            if String.eqb a "accept" then Ok (t :: fst more, snd more)
            else if String.eqb a "deny" || String.eqb a "reject" then Ok (fst more, t :: snd more)
            else Ok more
        end
  end.
(** pcap.py:369-439 *)
Fixpoint pcap_translate (today : Z) (direction : string) (fs : list (list string * list term)) : res (list (pcap_cfg * (list term * list term))) :=
  match fs with
  | [] => Ok []
  | (options, terms) :: rest =>
      if existsb (fun o => negb (str_in o ["inet"; "inet6"; "mixed"; "in"; "out"])) options then Raise (Exn "UnsupportedTargetOptionError")
      else
        let direction := pcap_direction direction options in
        let! af := pcap_family options in
        let! ts := pcap_select today terms in
        let! more := pcap_translate today direction rest in
        Ok ((mkPcap af direction, ts) :: more)
  end.
(** pcap.py:441-469 __str__ *)
Fixpoint pcap_terms (c : pcap_cfg) (ts : list term) : res (list string) :=
  match ts with
  | [] => Ok []
  | t :: rest =>
      let! s := pcap_term c t in
      let! more := pcap_terms c rest in
      Ok (if nonempty s then s :: more else more)
  end.
(** pcap.py:441-469: the terms of one kind *)
Definition pcap_clause (c : pcap_cfg) (ts : list term) : res string := let! l := pcap_terms c ts in Ok (join_conditionals l "and").
(** pcap.py:441-469: header by header *)
Fixpoint pcap_targets (invert : bool) (l : list (pcap_cfg * (list term * list term))) : res (list string) :=
  match l with
  | [] => Ok []
  | (c, (accepts, denies)) :: rest =>
      let! a := pcap_clause c accepts in
      let! d := pcap_clause c denies in
      let! more := pcap_targets invert rest in
      Ok (join_conditionals (if invert then [d; a] else [a; d]) "and not" :: more)
  end.
(** pcap.py:441-469 *)
Definition pcap_filter (invert : bool) (today : Z) (fs : list (list string * list term)) : res string :=
  let! es := pcap_translate today "" fs in
  let! ts := pcap_targets invert es in
  Ok (append (join (append (String newline "") (append "or" (String newline ""))) ts) (String newline "")).
