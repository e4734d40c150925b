(** SONiC access lists (sonic.py). *)
From Verif Require Export ModelOpenConfig ModelJuniper.
Local Open Scope string_scope.
Local Open Scope list_scope.
Local Open Scope Z_scope.

(** The part of the dictionary that the loops of sonic.py:111-141 assign to; for ports the keys
    with and without _RANGE.  Simplified: the keys of a rule are written in a fixed order. *)
Definition port_keys : Type := option string * option string.
(** sonic.py:111-141 *)
Record sn_ace := mkSn { sa_proto : option string; sa_flags : bool; sa_icmp : option string; sa_src : option string; sa_dst : option string;
  sa_sport : port_keys; sa_dport : port_keys }.
(** sonic.py:114-119 *)
Definition sn_proto (flags : bool) (q : option pval) (a : sn_ace) : res sn_ace :=
  let! n := match q with
            | None => Ok (sa_proto a)
            | Some (PName s) => match assoc s proto_map with Some n => Ok (Some (dec n)) | None => Raise (Exn "KeyError") end
            | Some (PNum _) => Raise (Exn "KeyError")
            end in
  Ok (mkSn n (if pnamed "tcp" q && flags then true else sa_flags a) (sa_icmp a) (sa_src a) (sa_dst a) (sa_sport a) (sa_dport a)).
(** sonic.py:120-122 *)
Definition sn_icmp (x : option Z) (a : sn_ace) : sn_ace :=
  match x with None => a | Some n => mkSn (sa_proto a) (sa_flags a) (Some (dec n)) (sa_src a) (sa_dst a) (sa_sport a) (sa_dport a) end.
(** sonic.py:123-128 *)
Definition sn_src (x : option net) (a : sn_ace) : sn_ace :=
  match x with None => a | Some n => mkSn (sa_proto a) (sa_flags a) (sa_icmp a) (Some (prefixlen_text n)) (sa_dst a) (sa_sport a) (sa_dport a) end.
(** sonic.py:126-128 *)
Definition sn_dst (x : option net) (a : sn_ace) : sn_ace :=
  match x with None => a | Some n => mkSn (sa_proto a) (sa_flags a) (sa_icmp a) (sa_src a) (Some (prefixlen_text n)) (sa_sport a) (sa_dport a) end.
(** sonic.py:129-134 and 135-140: the range 0-0 stands for any *)
Definition sn_port (r : prange) (k : port_keys) : port_keys :=
  if (fst r =? snd r) && (snd r =? 0) then k
  else if fst r =? snd r then (Some (dec (fst r)), snd k) else (fst k, Some (append (dec (fst r)) (append "-" (dec (snd r))))).
(** sonic.py:129-134 *)
Definition sn_sport (r : prange) (a : sn_ace) : sn_ace := mkSn (sa_proto a) (sa_flags a) (sa_icmp a) (sa_src a) (sa_dst a) (sn_port r (sa_sport a)) (sa_dport a).
(** sonic.py:135-140 *)
Definition sn_dport (r : prange) (a : sn_ace) : sn_ace := mkSn (sa_proto a) (sa_flags a) (sa_icmp a) (sa_src a) (sa_dst a) (sa_sport a) (sn_port r (sa_dport a)).
(** sonic.py:111-141: nothing set yet *)
Definition sn_start : sn_ace := mkSn None false None None None (None, None) (None, None).
(** sonic.py:110-142: the rules of a term; the dictionary is shared by all of them *)
Definition sn_rules (t : term) (flags : bool) (types : list Z) (saddrs daddrs : list net) (ps : list pval) : res (list sn_ace) :=
  let! (_, rules) :=
    sweep (fun q a =>
      let! a := sn_proto flags q a in
      sweep (fun i a =>
        let a := sn_icmp i a in
        sweep (fun s a =>
          let a := sn_src s a in
          sweep (fun d a =>
            let a := sn_dst d a in
            sweep (fun sp a =>
              let a := sn_sport sp a in
              sweep (fun dp a =>
                let a := sn_dport dp a in
                Ok (a, [a])) (or_zero (t_destination_port t)) a)
              (or_zero (t_source_port t)) a)
            (or_any daddrs) a)
          (or_any saddrs) a)
        (or_any types) a)
      (or_any ps) sn_start in
  Ok rules.

(** sonic.py:144-168 _HasBothAddressFamiliesIPs, false when it returns False; the list as
    GetAddressOfVersion sees it *)
Definition sn_usable (v : ver) (l : list net) : bool :=
  let own := address_of_version l (Some v) in
  let other := address_of_version l (Some (match v with V4 => V6 | V6 => V4 end)) in
  negb (negb (some own) && some other).
(** sonic.py:33 *)
Definition sn_actions : list (string * string) := [("accept", "FORWARD"); ("deny", "DROP")].
(** AF_MAP (aclgenerator.py:100-103) *)
Definition ver_number (v : ver) : Z := match v with V4 => 4 | V6 => 6 end.
(** protocol == [w] (sonic.py:111-121) *)
Definition is_protocol (w : string) (ps : list pval) : bool := match ps with [PName s] => String.eqb s w | _ => false end.
(** sonic.py:45-142 ConvertToDict: what is written for each packet action *)
Definition sn_term (v : ver) (x : term * list pval) : res (string * list sn_ace) :=
  let t := fst x in
  match t_action t with
  | [] => Ok ("", [])
  | act :: _ =>
      if some (t_platform t) && negb (str_in "sonic" (t_platform t)) then Ok ("", [])
      else
        match assoc act sn_actions with
        | None => Raise (Exn "KeyError")
        | Some action =>
            if is_protocol "icmp" (snd x) && ver_eqb v V6 then Ok ("", [])
            else if is_protocol "icmpv6" (snd x) && ver_eqb v V4 then Ok ("", [])
            else
              let! types := if some (t_icmp_type t) then normalize_icmp_types (t_icmp_type t) (map pval_text (snd x)) (AfNum (ver_number v)) else Ok None in
              let! s := oc_side v t (t_source_address t) (t_source_address_exclude t) in
              if negb (sn_usable v (t_source_address t)) then Ok ("", [])
              else
                let! d := oc_side v t (t_destination_address t) (t_destination_address_exclude t) in
                if negb (sn_usable v (t_destination_address t)) then Ok ("", [])
                else
                  let! rs := sn_rules t (str_in "tcp-established" (t_option t)) (match types with Some l => l | None => [] end) s d (snd x) in
                  Ok (action, rs)
        end
  end.
(** The finished rule (sonic.py:111-141, 262). *)
Definition sn_json (v : ver) (action : string) (a : sn_ace) (priority : Z) : json :=
  let six := match v with V4 => "" | V6 => "V6" end in
  JDict ([("PACKET_ACTION", JStr action)]
         ++ opt_entry "IP_PROTOCOL" JStr (sa_proto a)
         ++ opt_entry "TCP_FLAGS" (fun l => JList l) (if sa_flags a then Some [JStr "0x10/0x10"; JStr "0x4/0x4"] else None)
         ++ opt_entry (match v with V4 => "ICMP_TYPE" | V6 => "ICMPV6_TYPE" end) JStr (sa_icmp a)
         ++ opt_entry (append "SRC_IP" six) JStr (sa_src a) ++ opt_entry (append "DST_IP" six) JStr (sa_dst a)
         ++ opt_entry "L4_SRC_PORT" JStr (fst (sa_sport a)) ++ opt_entry "L4_SRC_PORT_RANGE" JStr (snd (sa_sport a))
         ++ opt_entry "L4_DST_PORT" JStr (fst (sa_dport a)) ++ opt_entry "L4_DST_PORT_RANGE" JStr (snd (sa_dport a))
         ++ [("PRIORITY", JStr (dec priority))]).
(** sonic.py:254-263: [k] rules were written before *)
Fixpoint sn_number (name : string) (v : ver) (action : string) (k : Z) (rs : list sn_ace) : res (Z * list (string * json)) :=
  match rs with
  | [] => Ok (k, [])
  | a :: rest =>
      let counter := 10 * (k + 1) in
      let priority := 65536 - 10 * (k + 1) in
      if priority <? 0 then Raise (Exn "Error")
      else
        let! (k, more) := sn_number name v action (k + 1) rest in
        Ok (k, (append name (append "|RULE_" (dec counter)), sn_json v action a priority) :: more)
  end.
(** sonic.py:252-263: a term, for each family *)
Fixpoint sn_each (name : string) (vs : list ver) (k : Z) (x : term * list pval) : res (Z * list (string * json)) :=
  match vs with
  | [] => Ok (k, [])
  | v :: rest =>
      let! x := oc_init x in
      let! (action, rs) := sn_term v x in
      let! (k, es) := sn_number name v action k rs in
      let! (k, more) := sn_each name rest k x in
      Ok (k, es ++ more)
  end.
(** sonic.py:241-263 *)
Fixpoint sn_terms (name : string) (vs : list ver) (today k : Z) (ts : list term) : res (Z * list (string * json)) :=
  match ts with
  | [] => Ok (k, [])
  | t :: rest =>
      let! (k, es) := if expired today t then Ok (k, []) else sn_each name vs k (t, map PName (t_protocol t)) in
      let! (k, more) := sn_terms name vs today k rest in
      Ok (k, es ++ more)
  end.
(** sonic.py:227-234: the set of families, walked in the order [order] *)
Definition sn_families (order : list ver) (options : list string) : list ver :=
  filter (fun v => str_in "mixed" options || str_in (match v with V4 => "inet" | V6 => "inet6" end) options) order.
(** sonic.py:213-265; the numbers of the rules go on from one header to the next, so that all
    keys are new.  Simplified: the set of families is walked in the same order for all headers. *)
Fixpoint sn_filters (order : list ver) (today k : Z) (d : list (string * json)) (fs : list (list string * list term)) : res (list (string * json)) :=
  match fs with
  | [] => Ok d
  | (options, terms) :: rest =>
      match options with
      | [] => Raise (Exn "Error")
      | name :: _ =>
          match sn_families order options with
          | [] => sn_filters order today k d rest
          | vs => let! (k, es) := sn_terms name vs today k terms in
                  sn_filters order today k [("ACL_RULE", JDict (d ++ es))] rest
          end
      end
  end.
(** sonic.py:185-205 *)
Definition sn_tokens : tokens := mkTokens
  (filter (fun s => negb (str_in s ["verbatim"; "stateless_reply"; "platform_exclude"; "platform"; "source_address_exclude"; "destination_address_exclude"]))
     (supported default_tokens))
  [("option", ["tcp-established"]); ("action", ["accept"; "deny"]); ("icmp_type", map fst icmp_type4 ++ map fst icmp_type6)].
(** sonic.py:207-265 *)
Definition sn_policy (order : list ver) (today : Z) (fs : list (list string * list term)) : res json :=
  let! _ := check_tokens "sonic" sn_tokens (map (fun f => (["sonic"], snd f)) fs) in
  let! d := sn_filters order today 0 [] fs in
  Ok (JDict d).
