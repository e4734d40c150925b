(** Junos Evo filters (juniperevo.py): what differs from juniper.py, which is the conditions on protocols
    of a term.  The other lines of a term are those of ModelJuniper.v.  Not modelled: the test of keywords,
    and the order of conditions, in which other lines stand between. *)
From Verif Require Export ModelJuniper.
Local Open Scope string_scope.
Local Open Scope list_scope.
Local Open Scope Z_scope.

(** juniperevo.py:61 extension_headers *)
Definition evo_headers : list string := ["hop-by-hop"; "fragment"].
(** juniperevo.py:64: PROTO_MAP after a term was printed; it is the table all generators share *)
Definition evo_shared (m : list (string * Z)) : list (string * Z) := m ++ [("hop-by-hop", 0)].
(** aclgenerator.py:121-132 Term.__init__ for the platform, with the shared table as it is *)
Definition evo_accepts (m : list (string * Z)) (ps : list pval) : bool :=
  forallb (fun p => match p with
                    | PName s => match assoc s m with
                                 | Some _ => true
                                 | None => str_in s (map (fun kv => dec (snd kv)) proto_map) end
                    | PNum n => str_in (dec n) (map (fun kv => dec (snd kv)) proto_map) end) ps.
(** juniper.py:989-993: the direction, from the words after the name *)
Definition evo_direction (opts : list string) : option string :=
  if str_in "ingress" opts then Some "ingress" else if str_in "egress" opts then Some "egress" else None.
(** juniper.py:994-998: the kind of interface; juniperevo.py:76-77 makes physical the default *)
Definition evo_interface (opts : list string) : string :=
  if str_in "physical" opts then "physical" else if str_in "loopback" opts then "loopback" else "physical".
(** aclgenerator.py:522-541 ProtocolNameToNumber with the headers above, which are in the table *)
Definition evo_number (p : pval) : pval :=
  match p with
  | PName s => if str_in s evo_headers then match assoc s (evo_shared proto_map) with Some n => PNum n | None => p end else p
  | PNum _ => p
  end.
(** any(header in protocols for header in extension_headers) (juniperevo.py:82-83, 87-88) *)
Definition evo_any (l : list pval) : bool := existsb (fun h => existsb (pval_is h) l) evo_headers.
(** juniperevo.py:47-114 _Ipv6ProtocolMatch: the keywords of the two conditions and the protocols *)
Definition evo_match (opts : list string) (ps es : list pval) : res ((string * string) * (list pval * list pval)) :=
  let payload := ("payload-protocol"%string, "payload-protocol-except"%string) in
  match evo_direction opts with
  | None => Raise (Exn "FilterDirectionError")
  | Some d =>
      if String.eqb d "ingress" then
        if String.eqb (evo_interface opts) "physical" then
          Ok ((if evo_any ps then "next-header"%string else fst payload, if evo_any es then "next-header-except"%string else snd payload), (ps, es))
        else Ok (payload, (map evo_number ps, map evo_number es))
      else Ok (payload, (map evo_number ps, map evo_number es))
  end.
(** The conditions on protocols of a term of an inet6 filter: juniper.py:175-193 __init__, juniperevo.py:40-45,
    juniper.py:214-230 (icmp is dropped), 503-520.  None: the term is left out. *)
Definition evo_lines (opts protocols excepts : list string) : res (option (list string)) :=
  let! ps := juniper_init (map PName protocols) in
  let es := replace_first "hopopt" "hop-by-hop" (map PName excepts) in
  let! (keys, (ps, es)) := evo_match opts ps es in
  let ps' := remove_pval "icmp" ps in
  if negb (some ps') && some ps then Ok None
  else Ok (Some (group_line (fst keys) (map pval_text (replace_first "icmpv6" "icmp6" ps'))
                 ++ group_line (snd keys) (map pval_text (replace_first "icmpv6" "icmp6" es)))).
