(** Windows firewall commands (windows.py, windows_advfirewall.py).  Not modelled: log messages.  The
    text is given by its lines. *)
From Verif Require Export ModelAsa.
From Verif Require ModelJuniper.
Local Open Scope string_scope.
Local Open Scope list_scope.
Local Open Scope Z_scope.

(** ** What the generators for Windows share *)

(** windows.py:294-314: the terms of a header that are rendered; terms for established connections are not *)
Fixpoint win_terms (today : Z) (seen : list string) (terms : list term) : res (list term) :=
  match terms with
  | [] => Ok []
  | t :: rest =>
      if str_in (t_name t) seen then Raise (Exn "DuplicateTermError")
      else
        let! more := win_terms today (t_name t :: seen) rest in
        Ok (if expired today t || str_in "established" (t_option t) || str_in "tcp-established" (t_option t) then more else t :: more)
  end.
(** windows.py:270-280: the address family of a header *)
Definition win_family (afs opts : list string) : res string :=
  match filter (fun f => str_in f opts) afs with
  | [] => Ok "inet"
  | [f] => Ok f
  | _ => Raise (Exn "UnsupportedFilterError")
  end.
(** windows.py:282-292: do the options of a header, its name among them, ask for a default action *)
Definition win_default (all : list string) : bool :=
  match all with _ :: _ :: _ => existsb (fun o => str_in o ["permit"; "block"]) all | _ => false end.
(** windows.py:245-317 _TranslatePolicy: the name, comment, family and terms of each header, and whether
    a default action has been asked for so far; a name that is missing fails once there is a term for it *)
Fixpoint win_filters (today : Z) (afs : list string) (default : bool) (fs : list ((option (list string) * list string) * list term))
  : res (list ((string * list string) * (string * bool) * list term)) :=
  match fs with
  | [] => Ok []
  | (h, terms) :: rest =>
      match fst h with
      | None => win_filters today afs default rest
      | Some all =>
          if negb (forallb (fun o => str_in o (["permit"; "block"] ++ afs)) (tl all)) then Raise (Exn "UnsupportedTargetOptionError")
          else
            let! af := win_family afs (tl all) in
            let default := default || win_default all in
            let! l := win_terms today [] terms in
            if some l && negb (some all) then Raise (Exn "TypeError")
            else
              let! more := win_filters today afs default rest in
              Ok (((asa_name h, snd h), (af, default), l) :: more)
      end
  end.
(** windows.py:319-355 __str__: the lines of a header *)
Definition win_filter_lines (pretty : string) (term_lines : string -> string -> term -> res (list string))
    (x : (string * list string) * (string * bool) * list term) : res (list string) :=
  let '((name, comment), (af, default), terms) := x in
  let comments := wrap_words comment 70 lf in
  if default then Raise (Exn "UnsupportedTargetOptionError")
  else
    let! l := mapM (term_lines af name) terms in
    Ok ([(": " ++ pretty ++ " " ++ name ++ " Policy")%string]
        ++ (match comments with c :: _ => if is_empty c then [] else map (fun l => ": " ++ l)%string comments ++ [":"] | [] => [] end)
        ++ add_repository_tags ": " true true true false ++ [(": " ++ af)%string] ++ concat l).
(** windows.py:230-243 _BuildTokens *)
Definition win_tokens : tokens := mkTokens
  (filter (fun s => negb (String.eqb s "verbatim")) (supported default_tokens))
  [("action", ["accept"; "deny"]); ("icmp_type", map fst icmp_type4 ++ map fst icmp_type6)].

(** ** Rules of the advanced firewall *)

(** windows_advfirewall.py:135-146 _ComposePortString *)
Definition adv_ports (l : list prange) : string :=
  join "," (map ModelJuniper.port_text l).
(** windows_advfirewall.py:51-73 _HandleIcmpTypes: the protocols, with the types of ICMP *)
Definition adv_protocols (af : string) (types protocols : list string) : res (list string) :=
  let! l := (if some types then
               let! l := normalize_icmp_types types protocols (AfName af) in
               Ok (match l with
                   | Some l => map (fun n => (if String.eqb af "inet6" then "icmpv6" else "icmpv4") ++ ":" ++ dec n ++ ",any")%string l
                   | None => protocols
                   end)
             else Ok protocols) in
  Ok (map (fun q => if String.eqb q "icmp" then "icmpv4" else q) l).
(** windows_advfirewall.py:103-111: an address; all addresses of a family are any *)
Definition adv_address (n : net) : string := if nlen n =? 0 then "any" else prefixlen_text n.
(** windows_advfirewall.py:118-126: protocols that have to be given by their numbers *)
Definition adv_number (q : string) : string :=
  if String.eqb q "vrrp" then "112" else if String.eqb q "ah" then "51" else if String.eqb q "hopopt" then "0" else q.
(** windows_advfirewall.py:45-49 _ACTION_TABLE *)
Definition adv_actions : list (string * string) := [("accept", "allow"); ("deny", "block"); ("reject", "block")].
(** windows_advfirewall.py:90-133 _ComposeRule *)
Definition adv_rule (dir name : string) (src dst : net) (proto sport dport action : string) : string :=
  let (from, to) := if String.eqb (lower dir) "in" then ("remote", "local") else ("local", "remote") in
  ("netsh advfirewall firewall add rule name=" ++ slice_to dir 1 ++ "_" ++ name ++ " enable=yes interfacetype=any " ++
    join " " ([("dir=" ++ dir)%string; (from ++ "ip=" ++ adv_address src)%string; (to ++ "ip=" ++ adv_address dst)%string]
      ++ (if is_empty sport then [] else [(from ++ "port=" ++ sport)%string])
      ++ (if is_empty dport then [] else [(to ++ "port=" ++ dport)%string])
      ++ (if is_empty proto then [] else [("protocol=" ++ adv_number proto)%string])
      ++ [("action=" ++ action)%string]))%string.
(** windows.py:64-149 Term.__str__ and windows_advfirewall.py:79-88 _CartesianProduct; the test for ports
    without tcp and udp (windows.py:127-138) never holds, because the ports are one text each *)
Definition adv_term (af dir : string) (t : term) : res (list string) :=
  if (some (t_platform t) && negb (str_in "windows_advfirewall" (t_platform t)))
     || (some (t_platform_exclude t) && str_in "windows_advfirewall" (t_platform_exclude t)) then Ok []
  else if (String.eqb af "inet6" && str_in "icmp" (t_protocol t)) || (String.eqb af "inet" && str_in "icmpv6" (t_protocol t)) then Ok []
  else
    match t_action t with
    | [] => Raise (Exn "IndexError")
    | act :: more =>
        if String.eqb act "next" then Ok []
        else if some more then Raise (Exn "UnsupportedFilterError")
        else if some (t_source_address_exclude t) || some (t_destination_address_exclude t) then Raise (Exn "UnsupportedFilterError")
        else
          let all := if String.eqb af "inet6" then mkNet V6 0 0 "" "" "" else mkNet V4 0 0 "" "" "" in
          let src := if some (t_source_address t) then t_source_address t else [all] in
          let dst := if some (t_destination_address t) then t_destination_address t else [all] in
          let! protocols := adv_protocols af (t_icmp_type t) (if some (t_protocol t) then t_protocol t else ["any"]) in
          match assoc act adv_actions with
          | None => Raise (Exn "KeyError")
          | Some action =>
              Ok (flat_map (fun s => flat_map (fun d => map (fun q =>
                adv_rule dir (t_name t) s d q (adv_ports (t_source_port t)) (adv_ports (t_destination_port t)) action) protocols) dst) src)
          end
    end.
(** windows.py:319-355 __str__ for windows_advfirewall.py:149-153 WindowsAdvFirewall: the lines *)
Definition adv_text (today : Z) (fs : list ((option (list string) * list string) * list term)) : res (list string) :=
  let! _ := check_tokens "windows_advfirewall" win_tokens (map (fun f => (match fst (fst f) with Some _ => ["windows_advfirewall"] | None => [] end, snd f)) fs) in
  let! filters := win_filters today ["inet"; "inet6"] false fs in
  let! l := mapM (win_filter_lines "Windows_advfirewall" adv_term) filters in
  Ok (concat l ++ [""]).
