(** Model of capirca/lib/aclcheck.py and port.py:152-172. *)
From Verif Require Export ModelPolicy.
Local Open Scope string_scope.
Local Open Scope list_scope.
Local Open Scope Z_scope.

(** Python int(text): blanks around, an optional sign, decimal digits.  Simplified:
    underscores between digits and non-ASCII digits are rejected here. *)
Definition py_int_signed (s : string) : res Z :=
  match strip s with
  | String "-" r => let! n := py_int r in Ok (- n)
  | String "+" r => py_int r
  | r => py_int r
  end.
(** port.py:151-171 Port on a text *)
Definition port_of_text (s : string) : res Z :=
  match py_int_signed s with
  | Ok n => port_check n
  | Raise _ => Raise (Exn "BadPortValue")
  end.

(** What is asked; None stands for the text 'any'.  aclcheck.py:64-105: the protocol stays
    a text, also when it is 'any'. *)
Record query := mkQuery {
  q_src : option net; q_dst : option net; q_sport : option Z; q_dport : option Z; q_proto : string }.

(** aclcheck.py:74-105, the arguments of AclCheck.  [parse_ip] is nacaddr.IP, None when it
    raises ValueError. *)
Definition port_argument (s : string) : res (option Z) :=
  if String.eqb s "any" then Ok None else let! n := port_of_text s in Ok (Some n).
(** aclcheck.py:92-105 *)
Definition address_argument (parse_ip : string -> option net) (s : string) : res (option net) :=
  if String.eqb s "any" then Ok None
  else match parse_ip s with Some n => Ok (Some n) | None => Raise (Exn "AddressError") end.
(** aclcheck.py:74-105 *)
Definition make_query (parse_ip : string -> option net) (src dst sport dport proto : string) : res query :=
  let! sp := port_argument sport in
  let! dp := port_argument dport in
  let! s := address_argument parse_ip src in
  let! d := address_argument parse_ip dst in
  Ok (mkQuery s d sp dp proto).

(** aclcheck.py:234-250 _AddrInside *)
Definition addr_inside (addr : option net) (addresses : list net) : bool :=
  match addr with
  | None => true
  | Some a => if some addresses then existsb (fun ip => subnet_of a ip) addresses else true
  end.
(** aclcheck.py:252-265 _PortInside *)
Definition port_inside (myport : option Z) (ports : list prange) : bool :=
  match myport with
  | None => true
  | Some n => some (filter (fun x => (fst x <=? n) && (n <=? snd x)) ports)
  end.
(** aclcheck.py:212-232 _PossibleMatch *)
Definition possible_match (t : term) : list string :=
  (if str_in "first-fragment" (t_option t) then ["first-frag"] else []) ++
  (if given (t_fragment_offset t) then ["frag-offset"] else []) ++
  (if given (t_packet_length t) then ["packet-length"] else []) ++
  (if str_in "established" (t_option t) then ["est"] else []) ++
  (if str_in "tcp-established" (t_option t) && str_in "tcp" (t_protocol t) then ["tcp-est"] else []).

(** aclcheck.py:268-287 Match; qos is not modelled. *)
Record matched := mkMatch { m_filter : string; m_term : string; m_possibles : list string; m_action : string }.

(** aclcheck.py:115-146: does the loop body reach _PossibleMatch *)
Definition term_considered (q : query) (t : term) : bool :=
  addr_inside (q_src q) (t_source_address t)
  && addr_inside (q_dst q) (t_destination_address t)
  && negb (match q_sport q with None => false | Some _ => true end
           && some (t_source_port t) && negb (port_inside (q_sport q) (t_source_port t)))
  && negb (match q_dport q with None => false | Some _ => true end
           && some (t_destination_port t) && negb (port_inside (q_dport q) (t_destination_port t)))
  && negb (negb (String.eqb (q_proto q) "any") && some (t_protocol t)
           && negb (str_in (q_proto q) (t_protocol t)))
  && negb (some (t_protocol_except t) && str_in (q_proto q) (t_protocol_except t))
  && some (t_action t).

(** aclcheck.py:112-163: the loop over the terms of one filter, giving (matches, exact_matches). *)
Fixpoint check_terms (q : query) (filtername : string) (ts : list term) : list matched * list matched :=
  match ts with
  | [] => ([], [])
  | t :: ts' =>
      if term_considered q t then
        let possible := possible_match t in
        let m := mkMatch filtername (t_name t) possible (hd "" (t_action t)) in
        if some possible || str_in "next" (t_action t) then
          let r := check_terms q filtername ts' in (m :: fst r, snd r)
        else ([m], [mkMatch filtername (t_name t) [] (hd "" (t_action t))])
      else check_terms q filtername ts'
  end.

(** A header as far as the checker looks at it: the targets, each with its options. *)
Definition header : Type := list (string * list string).
(** aclcheck.py:113 header.target[0].options[0] *)
Definition filter_name (h : header) : res string :=
  match h with
  | (_, o :: _) :: _ => Ok o
  | _ => Raise (Exn "IndexError")
  end.
(** aclcheck.py:107-163 *)
Fixpoint check_policy (q : query) (filters : list (header * list term)) : res (list matched * list matched) :=
  match filters with
  | [] => Ok ([], [])
  | (h, ts) :: fs =>
      let! n := filter_name h in
      let r := check_terms q n ts in
      let! s := check_policy q fs in
      Ok (fst r ++ fst s, snd r ++ snd s)
  end.
(** aclcheck.py:165-181 Matches, ExactMatches are the two lists; 170-178 ActionMatch; an
    action is never the empty text. *)
Definition action_match (action : string) (l : list matched) : list matched :=
  filter (fun m => nonempty (m_action m) && negb (some (m_possibles m))
                   && (String.eqb action "any" || substring_of action (m_action m))) l.
