(** Windows IP security policies (windows_ipsec.py, windows.py).  Not modelled: log messages.  The text is
    given by its lines. *)
From Verif Require Export ModelWin.
Local Open Scope string_scope.
Local Open Scope list_scope.
Local Open Scope Z_scope.

(** windows_ipsec.py:29 CMD_PREFIX *)
Definition ips_add (s : string) : string := ("netsh ipsec static add " ++ s)%string.
(** windows.py:62: the name of a term *)
Definition ips_name (filter name : string) : string := (slice_to filter 1 ++ "_" ++ name)%string.
(** windows_ipsec.py:120-126 _CollapsePortTuples: the ports of the last range; None stands for the text that
    is empty *)
Definition ips_ports (l : list prange) : list (option Z) :=
  fold_left (fun _ r => map (fun i => Some (fst r + Z.of_nat i)) (seq 0 (Z.to_nat (snd r + 1 - fst r)))) l [None].
(** windows_ipsec.py:143-155: an address *)
Definition ips_address (dir : string) (n : net) : string :=
  if nlen n =? 0 then (dir ++ "addr=any ")%string
  else (dir ++ "addr=" ++ addr_text (nver n) (naddr n) ++ " " ++ dir ++ "mask=" ++ dec (nlen n))%string.
(** windows_ipsec.py:157-160: a port; none for the port 0 *)
Definition ips_port (dir : string) (o : option Z) : list string :=
  match o with Some n => if n =? 0 then [] else [(dir ++ "port=" ++ dec n)%string] | None => [] end.
(** windows_ipsec.py:138-168 _ComposeFilter *)
Definition ips_filter (name : string) (src dst : net) (proto : string) (sport dport : option Z) : string :=
  ips_add ("filter filterlist=" ++ name ++ "-list mirrored=yes " ++
    join " " ([ips_address "src" src; ips_address "dst" dst] ++ ips_port "src" sport ++ ips_port "dst" dport
      ++ (if is_empty proto then [] else [("protocol=" ++ proto)%string])))%string.
(** windows_ipsec.py:89-92 _HandlePreRule, 128-136: the list and the action of a term *)
Definition ips_pre (name action : string) : list string :=
  [ips_add ("filterlist name=" ++ name ++ "-list "); ips_add ("filteraction name=" ++ name ++ "-action action=" ++ action)]%string.
(** windows_ipsec.py:71-75 _ACTION_TABLE *)
Definition ips_actions : list (string * string) := [("accept", "permit"); ("deny", "block"); ("reject", "block")].
(** windows.py:64-149 Term.__str__ with windows_ipsec.py:77-118: the lines of a term, if there are any; the list and the
    action are written before and after the filters *)
Definition ips_term (af filter : string) (t : term) : res (option (list string)) :=
  if (some (t_platform t) && negb (str_in "windows_ipsec" (t_platform t)))
     || (some (t_platform_exclude t) && str_in "windows_ipsec" (t_platform_exclude t)) then Ok None
  else if (String.eqb af "inet6" && str_in "icmp" (t_protocol t)) || (String.eqb af "inet" && str_in "icmpv6" (t_protocol t)) then Ok None
  else
    match t_action t with
    | [] => Raise (Exn "IndexError")
    | act :: more =>
        if String.eqb act "next" then Ok None
        else if some more then Raise (Exn "UnsupportedFilterError")
        else if some (t_source_address_exclude t) || some (t_destination_address_exclude t) then Raise (Exn "UnsupportedFilterError")
        else
          let all := if String.eqb af "inet6" then mkNet V6 0 0 "" "" "" else mkNet V4 0 0 "" "" "" in
          let src := if some (t_source_address t) then t_source_address t else [all] in
          let dst := if some (t_destination_address t) then t_destination_address t else [all] in
          let protocols := if some (t_protocol t) then t_protocol t else ["any"] in
          let sports := ips_ports (t_source_port t) in
          let dports := ips_ports (t_destination_port t) in
          if negb (forallb (fun q => str_in q ["tcp"; "udp"]) protocols) && (some (tl sports) || some (tl dports)) then Raise (Exn "UnsupportedFilterError")
          else if some (t_icmp_type t) then Raise (Exn "UnsupportedFilterError")
          else
            match assoc act ips_actions with
            | None => Raise (Exn "KeyError")
            | Some action =>
                let name := ips_name filter (t_name t) in
                let v4 := List.filter (fun n => ver_eqb (nver n) V4) in
                Ok (Some (ips_pre name action
                  ++ flat_map (fun s => flat_map (fun d => flat_map (fun q => flat_map (fun sp => map (fun dp =>
                       ips_filter name s d q sp dp) dports) sports) protocols) (v4 dst)) (v4 src)
                  ++ ips_pre name action))
            end
    end.
(** windows_ipsec.py:170-175 ComposeRule, 206-208 _HandleTermFooter *)
Definition ips_rule (filter name : string) : string :=
  ips_add ("rule name=" ++ ips_name filter name ++ "-rule policy=" ++ filter ++ " filterlist=" ++ ips_name filter name
    ++ "-list filteraction=" ++ ips_name filter name ++ "-action ")%string.
(** windows.py:347-352: a term with its rule *)
Definition ips_term_lines (af filter : string) (t : term) : res (list string) :=
  let! l := ips_term af filter t in
  Ok (match l with Some l => l ++ [ips_rule filter (t_name t); ""] | None => [] end).
(** windows.py:319-353 __str__ with windows_ipsec.py:201-204 _HandlePolicyHeader: the lines of a header; a name
    that is missing fails *)
Definition ips_filter_lines (x : list string * ((string * list string) * (string * bool) * list term)) : res (list string) :=
  let '(all, ((name, comment), (af, default), terms)) := x in
  let comments := wrap_words comment 70 lf in
  if negb (some all) then Raise (Exn "TypeError")
  else if default then Raise (Exn "UnsupportedTargetOptionError")
  else
    let! l := mapM (ips_term_lines af name) terms in
    Ok ([(": Windows_ipsec " ++ name ++ " Policy")%string; ips_add ("policy name=" ++ name ++ "-policy assign=yes")%string; ""]
        ++ (match comments with c :: _ => if is_empty c then [] else map (fun l => ": " ++ l)%string comments ++ [":"] | [] => [] end)
        ++ add_repository_tags ": " true true true false ++ [(": " ++ af)%string] ++ concat l).
(** windows_ipsec.py:189-199 _BuildTokens *)
Definition ips_tokens : tokens := mkTokens
  (filter (fun s => negb (String.eqb s "icmp_type")) (supported win_tokens)) [("action", ["accept"; "deny"])].
(** windows.py:319-355 __str__ for windows_ipsec.py:178-208 WindowsIPSec: the lines *)
Definition ips_text (today : Z) (fs : list ((option (list string) * list string) * list term)) : res (list string) :=
  let! _ := check_tokens "windows_ipsec" ips_tokens (map (fun f => (match fst (fst f) with Some _ => ["windows_ipsec"] | None => [] end, snd f)) fs) in
  let! filters := win_filters today ["inet"] false fs in
  let! l := mapM ips_filter_lines (combine (flat_map (fun f => match fst (fst f) with Some all => [all] | None => [] end) fs) filters) in
  Ok (concat l ++ [""]).
