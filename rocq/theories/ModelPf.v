(** Packet Filter rules (packetfilter.py).  Not modelled: log messages.  The text is given by its lines:
    elements that the program joins with line breaks inside are several lines here. *)
From Verif Require Export ModelAsa ModelSrx.
Local Open Scope string_scope.
Local Open Scope list_scope.
Local Open Scope Z_scope.

(** ** A term *)

(** packetfilter.py:51-56 _ACTION_TABLE *)
Definition pf_actions : list (string * string) := [("accept", "pass"); ("deny", "block drop"); ("reject", "block return"); ("next", "pass")].
(** packetfilter.py:77-86 _TCP_FLAGS_TABLE *)
Definition pf_flag_table : list (string * string) :=
  [("syn", "S"); ("ack", "A"); ("fin", "F"); ("rst", "R"); ("urg", "U"); ("psh", "P"); ("all", "SAFRUP"); ("none", "NONE")].
(** packetfilter.py:355, 364, 478, 497: the name of a table *)
Definition pf_short (n : net) : string := slice_to (nptoken n) 31.
(** packetfilter.py:257-268 _CheckAddressAf for a list that is not empty *)
Definition pf_of_family (af : string) (l : list net) : list net :=
  if String.eqb af "mixed" then l else filter (fun n => ver_eqb (nver n) (if String.eqb af "inet6" then V6 else V4)) l.
(** packetfilter.py:154-174, 257-268, 347-365: one side; None: no address of the family *)
Definition pf_side (af : string) (inc exc : list net) : option string :=
  let out := map (fun n => "!<" ++ pf_short n ++ ">")%string exc in
  let said l := Some ("{ " ++ join ", " (sorted_set (l ++ out)) ++ " }")%string in
  if some inc then
    let l := pf_of_family af inc in
    if some l then said (map (fun n => "<" ++ pf_short n ++ ">")%string l) else None
  else said ["any"].
(** OrderedDict.fromkeys *)
Fixpoint first_seen (seen l : list string) : list string :=
  match l with [] => [] | x :: r => if str_in x seen then first_seen seen r else x :: first_seen (x :: seen) r end.
(** packetfilter.py:367-375 _GeneratePortStatement *)
Definition pf_port (r : prange) : string := if fst r =? snd r then dec (fst r) else (dec (fst r) ++ ":" ++ dec (snd r))%string.
(** packetfilter.py:367-375 *)
Definition pf_ports (l : list prange) : string := ("{ " ++ join " " (first_seen [] (map pf_port l)) ++ " }")%string.
(** packetfilter.py:333-345 _GenerateProtoStatement *)
Definition pf_protocols_line (ps : list pval) : res string :=
  if existsb (pval_is "hopopt") ps then Raise (Exn "UnsupportedProtoError")
  else
    let! l := mapM (fun q => match q with
                             | PName s => Ok (if String.eqb s "icmpv6" then "ipv6-icmp" else s)
                             | PNum _ => Raise (Exn "TypeError")
                             end) ps in
    Ok ("proto { " ++ join " " l ++ " }")%string.
(** packetfilter.py:197-205: the flags that options ask for *)
Definition pf_option_flags (opts : list string) : list string :=
  flat_map (fun o => flat_map (fun f => if starts_with (fst f) o then [snd f] else []) pf_flag_table) opts.
(** packetfilter.py:207-222: established connections *)
Fixpoint pf_established (ps : list string) (flags opts : list string) : res (list string) :=
  match opts with
  | [] => Ok flags
  | o :: r =>
      if str_in o ["established"; "tcp-established"] then
        if some flags then Raise (Exn "UnsupportedFilterError")
        else pf_established ps (if negb (some ps) || str_in "tcp" ps then ["A"] else flags) r
      else pf_established ps flags r
  end.
(** packetfilter.py:194-236: the flags that have to be set, and those that are looked at *)
Definition pf_flags (stateful : bool) (ps : list string) (opts : list string) : res (list string * list string) :=
  let flags := pf_option_flags opts in
  if some flags && negb (list_str_eqb ps ["tcp"]) then Raise (Exn "UnsupportedFilterError")
  else
    let! flags := pf_established ps flags opts in
    Ok (if (negb (some ps) || list_str_eqb ps ["tcp"]) && stateful && negb (some flags) then (["S"], ["S"; "A"]) else (flags, flags)).
(** packetfilter.py:183-192: the ICMP types *)
Definition pf_types (t : term) (ps : list string) : res (option (list Z)) :=
  if some (t_icmp_type t) then
    if list_str_eqb ps ["icmp"] then normalize_icmp_types (t_icmp_type t) ps (AfName "inet")
    else if list_str_eqb ps ["icmpv6"] then normalize_icmp_types (t_icmp_type t) ps (AfName "inet6")
    else Raise (Exn "UnsupportedFilterError")
  else Ok None.
(** A term with what the loop over the terms has found out for it (packetfilter.py:540-541). *)
Record pf_entry := mkPfEntry { pe_stateful : bool; pe_af : string; pe_dir : string; pe_if : option string; pe_term : term; pe_protocol : list pval }.
(** packetfilter.py:311-321, for one of the two keywords *)
Definition pf_type_words (key proto : string) (ps : list string) (types : option (list Z)) : list string :=
  match types with
  | Some l => if str_in proto ps && some l then [(key ++ " { " ++ join ", " (map dec l) ++ " }")%string] else []
  | None => []
  end.
(** packetfilter.py:270-331 _FormatPart *)
Definition pf_line (e : pf_entry) (act action src dst proto : string) (flags : list string * list string) (types : option (list Z)) : string :=
  let t := pe_term e in
  let ps := map pval_text (pe_protocol e) in
  join " " ([action]
    ++ (if is_empty (pe_dir e) then [] else [pe_dir e])
    ++ (if String.eqb act "next" then [] else ["quick"])
    ++ (if some (t_logging t) then ["log"] else [])
    ++ (match pe_if e with Some i => [("on " ++ i)%string] | None => [] end)
    ++ (if String.eqb (pe_af e) "mixed" then [] else [pe_af e])
    ++ (if some ps then [proto] else [])
    ++ [("from " ++ src)%string] ++ (if some (t_source_port t) then [("port " ++ pf_ports (t_source_port t))%string] else [])
    ++ [("to " ++ dst)%string] ++ (if some (t_destination_port t) then [("port " ++ pf_ports (t_destination_port t))%string] else [])
    ++ (if some (fst flags) && some (snd flags) then ["flags"; (join "" (fst flags) ++ "/" ++ join "" (snd flags))%string] else [])
    ++ pf_type_words "icmp-type" "icmp" ps types ++ pf_type_words "icmp6-type" "icmpv6" ps types
    ++ (if negb (pe_stateful e) then ["no state"] else if str_in act ["accept"; "next"] then ["keep state"] else [])).
(** packetfilter.py:114-255 Term.__str__: the lines *)
Definition pf_term (e : pf_entry) : res (list string) :=
  let t := pe_term e in
  let ps := map pval_text (pe_protocol e) in
  if (some (t_platform t) && negb (str_in "packetfilter" (t_platform t)))
     || (some (t_platform_exclude t) && str_in "packetfilter" (t_platform_exclude t)) then Ok []
  else
    match t_action t with
    | [] => Raise (Exn "IndexError")
    | act :: _ =>
        match assoc act pf_actions with
        | None => Raise (Exn "UnsupportedFilterError")
        | Some action =>
            match pf_side (pe_af e) (t_source_address t) (t_source_address_exclude t) with
            | None => Ok []
            | Some src =>
                match pf_side (pe_af e) (t_destination_address t) (t_destination_address_exclude t) with
                | None => Ok []
                | Some dst =>
                    let! types := pf_types t ps in
                    let! flags := pf_flags (pe_stateful e) ps (t_option t) in
                    let! proto := (if some ps then pf_protocols_line (pe_protocol e) else Ok "") in
                    let comments := wrap_words (t_comment t) 80 lf in
                    Ok (["" ; ("# term " ++ t_name t)%string]
                        ++ (match comments with c :: _ => if is_empty c then [] else map (fun l => "# " ++ l)%string comments | [] => [] end)
                        ++ [pf_line e act action src dst proto flags types])
                end
            end
        end
    end.

(** ** Tables *)

(** The names of the tables with their addresses, and the long names behind the short ones. *)
Notation pf_book := (list (string * list net) * list (string * string))%type (only parsing).
(** packetfilter.py:477-494, 496-513: one address *)
Definition pf_add (st : pf_book) (a : net) : res pf_book :=
  let (book, long) := st in
  let n := pf_short a in
  match assoc n long with
  | Some m => if String.eqb m (nptoken a)
              then Ok (update n [] (fun l => if existsb (net_eqb a) l then l else l ++ [a]) book, long)
              else Raise (Exn "DuplicateShortenedTableNameError")
  | None => Ok (update n [] (fun l => if existsb (net_eqb a) l then l else l ++ [a]) book, long ++ [(n, nptoken a)])
  end.
(** for a in l *)
Fixpoint foldM {A B} (f : A -> B -> res A) (l : list B) (a : A) : res A :=
  match l with [] => Ok a | b :: r => let! a := f a b in foldM f r a end.
(** packetfilter.py:551-554: the lines of a table; entries are separated by a comma, a backslash and a line break *)
Fixpoint pf_table_lines (before : string) (l : list string) : list string :=
  match l with
  | [] => [(before ++ "}")%string]
  | [e] => [(before ++ e ++ "}")%string]
  | e :: r => (before ++ e ++ ",\")%string :: pf_table_lines "" r
  end.
(** packetfilter.py:550-554 *)
Definition pf_table (x : string * list net) : list string :=
  pf_table_lines ("table <" ++ fst x ++ "> {")%string
    (map prefixlen_text (py_sorted key_leb (filter (fun n => ver_eqb (nver n) V4) (snd x)) ++ py_sorted key_leb (filter (fun n => ver_eqb (nver n) V6) (snd x)))).

(** ** Headers *)

(** packetfilter.py:424-425 *)
Definition pf_families : list string := ["inet"; "inet6"; "mixed"].
(** packetfilter.py:454-464: the address family of a header *)
Definition pf_family (opts : list string) : res string :=
  match filter (fun f => str_in f opts) pf_families with
  | [] => Ok "inet"
  | [f] => Ok f
  | _ => Raise (Exn "UnsupportedFilterError")
  end.
(** packetfilter.py:449-452 *)
Definition pf_direction (opts : list string) : string := if str_in "in" opts then "in" else if str_in "out" opts then "out" else "".
(** packetfilter.py:470-541: the loop over the terms *)
Fixpoint pf_terms (today : Z) (stateful : bool) (af dir : string) (seen : list string) (st : pf_book) (terms : list term) : res (pf_book * list pf_entry) :=
  match terms with
  | [] => Ok (st, [])
  | t :: rest =>
      let! n := fix_term_length abbreviation_table (t_name t) false false cisco_name_limit in
      if str_in n seen then Raise (Exn "DuplicateTermError")
      else
        let! st := foldM pf_add (t_source_address t ++ t_destination_address t) st in
        if expired today t then pf_terms today stateful af dir (n :: seen) st rest
        else if given (t_destination_interface t) && given (t_source_interface t) then Raise (Exn "Error")
        else
          let '(d, i) := if given (t_destination_interface t) then ("out", t_destination_interface t)
                         else if given (t_source_interface t) then ("in", t_source_interface t) else (dir, None) in
          let! ps := term_protocols ["ipip"] (t_protocol t) in
          let! (st, more) := pf_terms today stateful af dir (n :: seen) st rest in
          Ok (st, mkPfEntry stateful af d i (set_name n t) ps :: more)
  end.
(** packetfilter.py:417-543 _TranslatePolicy: a header that asks for stateless rules does so for all that
    follow it *)
Fixpoint pf_filters (today : Z) (stateful : bool) (st : pf_book) (fs : list ((option (list string) * list string) * list term))
  : res (pf_book * list (string * list string * string * list pf_entry)) :=
  match fs with
  | [] => Ok (st, [])
  | (h, terms) :: rest =>
      match fst h with
      | None => pf_filters today stateful st rest
      | Some all =>
          let opts := tl all in
          if negb (forallb (fun o => str_in o (pf_families ++ ["in"; "out"; "nostate"])) opts) then Raise (Exn "UnsupportedTargetOptionError")
          else
            let stateful := if str_in "nostate" opts then false else stateful in
            let! af := pf_family opts in
            let! (st, entries) := pf_terms today stateful af (pf_direction opts) [] st terms in
            let! (st, more) := pf_filters today stateful st rest in
            Ok (st, (asa_name h, snd h, af, entries) :: more)
      end
  end.
(** packetfilter.py:556-576: the lines of a header *)
Definition pf_filter_lines (x : string * list string * string * list pf_entry) : res (list string) :=
  let '(name, comment, af, entries) := x in
  let! l := mapM pf_term entries in
  let comments := wrap_words comment 70 lf in
  Ok ([("# Packetfilter " ++ name ++ " Policy")%string]
      ++ (match comments with c :: _ => if is_empty c then [] else map (fun l => "# " ++ l)%string comments ++ ["#"] | [] => [] end)
      ++ add_repository_tags "# " true true true false ++ [("# " ++ af)%string] ++ concat l ++ [""]).
(** packetfilter.py:392-415 _BuildTokens *)
Definition pf_tokens : tokens := mkTokens
  (supported default_tokens ++ ["logging"; "destination_interface"; "source_interface"])
  [("action", ["accept"; "deny"; "reject"; "next"]);
   ("option", ["established"; "tcp-established"; "syn"; "ack"; "fin"; "rst"; "urg"; "psh"; "all"]);
   ("icmp_type", map fst icmp_type4 ++ map fst icmp_type6)].
(** packetfilter.py:545-578 __str__, the lines, for a policy given by its headers and terms *)
Definition pf_text (today : Z) (fs : list ((option (list string) * list string) * list term)) : res (list string) :=
  let! _ := check_tokens "packetfilter" pf_tokens (map (fun f => (match fst (fst f) with Some _ => ["packetfilter"] | None => [] end, snd f)) fs) in
  let! (st, filters) := pf_filters today true ([], []) fs in
  let! l := mapM pf_filter_lines filters in
  Ok (flat_map pf_table (py_sorted (fun x y => str_leb (fst x) (fst y)) (fst st)) ++ concat l).
