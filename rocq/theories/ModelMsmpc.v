(** MS-MPC applications (junipermsmpc.py): the application sets the terms of a filter need, and their lines.
    Not modelled: the rules (their address blocks are in ModelMsmpcAddr.v), comments; term.timeout, which
    is not among the keywords of the platform and therefore never set. *)
From Verif Require Export ModelJuniper ModelSrx.
Local Open Scope string_scope.
Local Open Scope list_scope.
Local Open Scope Z_scope.

(** junipermsmpc.py:41-55 _SUPPORTED_PROTOCOL_NAMES *)
Definition ms_names : list string :=
  ["ah"; "egp"; "esp"; "gre"; "icmp"; "icmpv6"; "igmp"; "ipip"; "ospf"; "pim"; "rsvp"; "sctp"; "tcp"; "udp"].
(** aclgenerator.py:121-132 (ipip becomes a number) and junipermsmpc.py:66-69, for a protocol of the table *)
Definition ms_word (q : string) : string :=
  if String.eqb q "ipip" then "4"
  else if str_in q ms_names then q
  else match assoc q proto_map with Some n => dec n | None => q end.
(** junipermsmpc.py:570-574: protocol[protocol.index('icmpv6')] = 'icmp6' *)
Fixpoint ms_icmp6 (l : list string) : list string :=
  match l with [] => [] | q :: r => if String.eqb q "icmpv6" then "icmp6" :: r else q :: ms_icmp6 r end.
(** junipermsmpc.py:580-587 new_application_set *)
Record ms_app := { ms_sport : list string; ms_dport : list string; ms_protocol : list string; ms_types : list Z; ms_codes : list Z }.
(** == of lists and of entries, all(item in ...) (junipermsmpc.py:590-592) *)
Fixpoint same_list {A} (eqb : A -> A -> bool) (a b : list A) : bool :=
  match a, b with [], [] => true | x :: a', y :: b' => eqb x y && same_list eqb a' b' | _, _ => false end.
(** all(item in application_set.items()) (junipermsmpc.py:590-592) *)
Definition ms_same (a b : ms_app) : bool :=
  same_list String.eqb (ms_sport a) (ms_sport b) && same_list String.eqb (ms_dport a) (ms_dport b) &&
  same_list String.eqb (ms_protocol a) (ms_protocol b) && same_list Z.eqb (ms_types a) (ms_types b) && same_list Z.eqb (ms_codes a) (ms_codes b).
(** junipermsmpc.py:523-525 modified_term_name: MAX_IDENTIFIER_LEN is 55 *)
Definition ms_name (filter term : string) : string :=
  (substring 0 27 filter ++ substring (String.length term - 27) 27 term)%string.
(** junipermsmpc.py:560-564: the address family for the ICMP types *)
Definition ms_af (ps : list string) : afval :=
  AfName (match ps with
          | q :: _ => if String.eqb q "icmp" then "inet" else if String.eqb q "icmpv6" then "inet6" else "unknown_af_icmp"
          | [] => "unknown_af_icmp" end).
(** junipermsmpc.py:553-587: what the term needs.  The ports are those of policy.py, pairs of numbers. *)
Definition ms_app_of (t : term) : res ms_app :=
  let! _ := juniper_init (map PName (t_protocol t)) in
  let ps := map ms_word (t_protocol t) in
  let! types := normalize_icmp_types (t_icmp_type t) ps (ms_af ps) in
  let dports := if (str_in "udp" ps || str_in "tcp" ps) && negb (some (t_source_port t)) && negb (some (t_destination_port t))
                then [(1, 65535)] else t_destination_port t in
  Ok {| ms_sport := map port_text (t_source_port t); ms_dport := map port_text dports; ms_protocol := ms_icmp6 ps;
        ms_types := match types with Some l => l | None => [] end; ms_codes := t_icmp_code t |}.
(** junipermsmpc.py:589-600: an application set with the same content, unless one of the name with other
    content comes first (an entry has a name and the new one has not: they always differ) *)
Fixpoint ms_find (n : string) (a : ms_app) (l : list (string * ms_app)) : res (option string) :=
  match l with
  | [] => Ok None
  | (m, b) :: r => if ms_same a b then Ok (Some m)
                   else if String.eqb n m then Raise (Exn "ConflictingApplicationSetsError") else ms_find n a r
  end.
(** junipermsmpc.py:514-604: the application sets, and the terms rendered with the name each refers to *)
Fixpoint ms_terms (today : Z) (filter : string) (seen : list string) (apps : list (string * ms_app)) (terms : list term) : res (list (string * ms_app) * list (term * string)) :=
  match terms with
  | [] => Ok (apps, [])
  | t :: rest =>
      if t_stateless_reply t then ms_terms today filter seen apps rest
      else if str_in "established" (t_option t) || str_in "tcp-established" (t_option t) then ms_terms today filter seen apps rest
      else if str_in (t_name t) seen then Raise (Exn "JuniperMSMPCFilterError")
      else if expired today t then ms_terms today filter (t_name t :: seen) apps rest
      else
        let! a := ms_app_of t in
        let n := ms_name filter (t_name t) in
        let! found := ms_find n a apps in
        match found with
        | Some m => let! r := ms_terms today filter (t_name t :: seen) apps rest in Ok (fst r, (t, m) :: snd r)
        | None => let! r := ms_terms today filter (t_name t :: seen) (apps ++ [(n, a)]) rest in Ok (fst r, (t, n) :: snd r)
        end
  end.

(** junipermsmpc.py:430-438 chunks.  'udp' in proto is a search in the text; of the words only tcp and udp
    contain one of the two, so it is modelled as equality. *)
Definition ms_ported (q : option string) : bool :=
  match q with Some w => String.eqb w "udp" || String.eqb w "tcp" | None => false end.
(** one chunk, if the value is not empty (junipermsmpc.py:431-436) *)
Definition ms_line (k : string) (o : option string) : list string := match o with Some w => [(k ++ " " ++ w ++ ";")%string] | None => [] end.
(** junipermsmpc.py:430-436 *)
Definition ms_chunks (q s d : option string) : list string :=
  ms_line "protocol" q ++ (if ms_ported q then ms_line "source-port" s ++ ms_line "destination-port" d else []).
(** junipermsmpc.py:424-446: the chunks that are not empty, with their numbers *)
Definition ms_parts (a : ms_app) : list (Z * list string) :=
  numbered 1 (filter (fun c => some c)
    (flat_map (fun q => flat_map (fun s => map (ms_chunks q s) (or_blank (ms_dport a))) (or_blank (ms_sport a))) (or_blank (ms_protocol a)))).
(** junipermsmpc.py:406-421: the parts with ICMP types *)
Definition ms_icmp_parts (a : ms_app) : list (Z * list string) :=
  numbered 1 (flat_map (fun c => map (fun q =>
    (if String.eqb q "icmp" then ["application-protocol icmp;"] else [])
    ++ [("protocol " ++ q ++ ";")%string; (q ++ "-type " ++ dec c ++ ";")%string]
    ++ (if some (ms_codes a) then [(q ++ "-code " ++ group (map dec (ms_codes a)) ++ ";")%string] else [])
    ++ ["inactivity-timeout 60;"]) (ms_protocol a)) (ms_types a)).
(** junipermsmpc.py:394, 423: which of the two *)
Definition ms_all (a : ms_app) : list (Z * list string) := if some (ms_types a) then ms_icmp_parts a else ms_parts a.
(** junipermsmpc.py:409-421, 439-446: the applications *)
Definition ms_defs (na : string * ms_app) : list string :=
  flat_map (fun kc => [("application " ++ fst na ++ "-app" ++ dec (fst kc) ++ " {")%string] ++ snd kc ++ ["}"]) (ms_all (snd na)).
(** junipermsmpc.py:400-404, 425, 440, 447: the set *)
Definition ms_set (na : string * ms_app) : list string :=
  [("application-set " ++ fst na ++ "-app {")%string]
  ++ map (fun kc => ("application " ++ fst na ++ "-app" ++ dec (fst kc) ++ ";")%string) (ms_all (snd na)) ++ ["}"].
(** junipermsmpc.py:392: anything to write *)
Definition ms_content (a : ms_app) : bool := some (ms_protocol a) || some (ms_sport a) || some (ms_dport a) || some (ms_types a).
(** junipermsmpc.py:382-462 _GenerateApplications; equal entries do not occur twice *)
Definition ms_applications (apps : list (string * ms_app)) : list string :=
  let l := filter (fun na => ms_content (snd na)) (py_sorted (fun x y => str_leb (fst x) (fst y)) apps) in
  if some l then ["applications {"] ++ flat_map ms_defs l ++ flat_map ms_set l ++ ["}"] else [].

(** ** Options of the header *)
(** junipermsmpc.py:324 _SUPPORTED_AF *)
Definition ms_families : list string := ["inet"; "inet6"; "mixed"].
(** junipermsmpc.py:327-331 _SUPPORTED_DIRECTION *)
Definition ms_directions : list (string * string) := [("", "input-output"); ("ingress", "input"); ("egress", "output")].
(** junipermsmpc.py:483-506: the loop over the options *)
Fixpoint ms_loop (af dir : option string) (opts : list string) : res (option string * option string) :=
  match opts with
  | [] => Ok (af, dir)
  | o :: rest =>
      if str_in o ms_families
      then match af with None => ms_loop (Some o) dir rest | Some _ => Raise (Exn "ConflictingTargetOptionsError") end
      else match assoc o ms_directions with
           | Some d => match dir with None => ms_loop af (Some d) rest | Some _ => Raise (Exn "ConflictingTargetOptionsError") end
           | None => Raise (Exn "UnsupportedHeaderError")
           end
  end.
(** list.remove: the first occurrence (junipermsmpc.py:471, 481) *)
Fixpoint ms_remove (x : string) (l : list string) : list string :=
  match l with [] => [] | y :: r => if String.eqb x y then r else y :: ms_remove x r end.
(** junipermsmpc.py:474-511: the family, the direction and whether comments are left out, from the options
    after the name of the filter *)
Definition ms_options (opts : list string) : res (string * string * bool) :=
  let noverbose := str_in "noverbose" opts in
  let! r := ms_loop None None (if noverbose then ms_remove "noverbose" opts else opts) in
  Ok (match fst r with Some a => a | None => "mixed" end, match snd r with Some d => d | None => "input-output" end, noverbose).
