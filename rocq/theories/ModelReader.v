(** Model of capirca/lib/policyreader.py: policies read line by line, and the search for terms
    by address and port. *)
From Verif Require Export ModelParents.
Local Open Scope string_scope.
Local Open Scope list_scope.

(** policyreader.py:59-70 Term *)
Record rterm := mkRterm {
  rt_name : string; rt_source : list string; rt_destination : list string; rt_sport : list string;
  rt_dport : list string; rt_action : list string; rt_option : list string; rt_protocol : list string }.
(** policyreader.py:62-70 *)
Definition rterm_new (name : string) : rterm := mkRterm name [] [] [] [] [] [] [].
(** policyreader.py:42-47 Filter *)
Record rfilter := mkRfilter { rf_name : string; rf_terms : list rterm }.
(** policyreader.py:103-108: the variables of the loop.  Filters are objects that the policy
    lists by reference, and the same one may be listed twice: [rs_made] has all filters made
    before the current one, in order, and [rs_listed] their positions in self.filter.  The
    variable indent is never used and left out. *)
Record rstate := mkRstate {
  rs_header : bool; rs_term : bool; rs_string : bool;
  rs_made : list rfilter; rs_filter : rfilter; rs_listed : list nat; rs_current : rterm }.
(** policyreader.py:103-108 *)
Definition rs_init : rstate := mkRstate false false false [] (mkRfilter "" []) [] (rterm_new "").

(** policyreader.py:128-141: list.extend on the field that the first word names *)
Definition add_field (w : string) (vs : list string) (t : rterm) : rterm :=
  let '(mkRterm n s d sp dp a o p) := t in
  if String.eqb w "source-address::" then mkRterm n (s ++ vs) d sp dp a o p
  else if String.eqb w "destination-address::" then mkRterm n s (d ++ vs) sp dp a o p
  else if String.eqb w "source-port::" then mkRterm n s d (sp ++ vs) dp a o p
  else if String.eqb w "destination-port::" then mkRterm n s d sp (dp ++ vs) a o p
  else if String.eqb w "action::" then mkRterm n s d sp dp (a ++ vs) o p
  else if String.eqb w "protocol::" then mkRterm n s d sp dp a o (p ++ vs)
  else if String.eqb w "option::" then mkRterm n s d sp dp a (o ++ vs) p
  else t.
(** policyreader.py:119-120 *)
Definition see_header (w : string) (st : rstate) : rstate :=
  if String.eqb w "header" then mkRstate true (rs_term st) (rs_string st) (rs_made st) (rs_filter st) (rs_listed st) (rs_current st) else st.
(** policyreader.py:121-123 *)
Definition see_term (w : string) (rest : list string) (st : rstate) : res rstate :=
  if String.eqb w "term" then
    match rest with
    | n :: _ => Ok (mkRstate (rs_header st) true (rs_string st) (rs_made st) (rs_filter st) (rs_listed st) (rterm_new n))
    | [] => Raise (Exn "IndexError")
    end
  else Ok st.
(** policyreader.py:124-126 *)
Definition see_target (w : string) (rest : list string) (st : rstate) : res rstate :=
  if rs_header st && String.eqb w "target::" then
    match rest with
    | _ :: n :: _ =>
        Ok (if String.eqb (rf_name (rs_filter st)) n then st
            else mkRstate (rs_header st) (rs_term st) (rs_string st) (rs_made st ++ [rs_filter st]) (mkRfilter n []) (rs_listed st) (rs_current st))
    | _ => Raise (Exn "IndexError")
    end
  else Ok st.
(** policyreader.py:127-141 *)
Definition see_field (w : string) (rest : list string) (st : rstate) : rstate :=
  if rs_term st
  then mkRstate (rs_header st) (rs_term st) (rs_string st) (rs_made st) (rs_filter st) (rs_listed st) (add_field w rest (rs_current st))
  else st.
(** policyreader.py:118-141 *)
Definition see_words (words : list string) (st : rstate) : res rstate :=
  match words with
  | [] => Ok st
  | w :: rest =>
      let! st := see_term w rest (see_header w st) in
      let! st := see_target w rest st in
      Ok (see_field w rest st)
  end.
(** policyreader.py:143-150 *)
Definition see_close (words : list string) (st : rstate) : rstate :=
  if str_in "}" words then
    let listed := if rs_header st then rs_listed st ++ [List.length (rs_made st)] else rs_listed st in
    let filt := if rs_term st then mkRfilter (rf_name (rs_filter st)) (rf_terms (rs_filter st) ++ [rs_current st]) else rs_filter st in
    mkRstate false false (rs_string st) (rs_made st) filt listed (rs_current st)
  else st.
(** the character that starts and ends texts *)
Definition dquote : ascii := """".
(** policyreader.py:110-150: one line *)
Definition read_line (line : string) (st : rstate) : res rstate :=
  let words := split_ws (strip line) in
  let inside := if Nat.odd (List.length (split_char dquote line) + 1) then negb (rs_string st) else rs_string st in
  let st := mkRstate (rs_header st) (rs_term st) inside (rs_made st) (rs_filter st) (rs_listed st) (rs_current st) in
  if inside then Ok st else let! st := see_words words st in Ok (see_close words st).
(** policyreader.py:110-150 *)
Fixpoint read_lines (lines : list string) (st : rstate) : res rstate :=
  match lines with
  | [] => Ok st
  | l :: lines' => let! st := read_line l st in read_lines lines' st
  end.
(** self.filter when all lines are read (policyreader.py:96, 146) *)
Definition filters_of (st : rstate) : list rfilter :=
  map (fun k => nth k (rs_made st ++ [rs_filter st]) (rs_filter st)) (rs_listed st).
(** policyreader.py:88-150 Policy.__init__, of the lines of the file *)
Definition read_policy (lines : list string) : res (list rfilter) :=
  let! st := read_lines lines rs_init in Ok (filters_of st).

(** list.remove: the first one; None is ValueError *)
Fixpoint remove_first (s : string) (l : list string) : option (list string) :=
  match l with
  | [] => None
  | x :: l' => if String.eqb x s then Some l' else option_map (cons x) (remove_first s l')
  end.
(** policyreader.py:196-200, 203-207 *)
Definition drop_any (l : list string) : list string :=
  match remove_first "ANY" l with
  | Some l' => match remove_first "RESERVED" l' with Some l'' => l'' | None => l' end
  | None => l
  end.
(** naming.py:168-174: a query by address or by name; a text that does not parse is ValueError *)
Definition address_parents (fuel : nat) (parse_ip : string -> option net) (t : table) (q : string) : res (list string) :=
  if digit_first q then
    match parse_ip q with Some n => ip_parents fuel parse_ip t n | None => Raise (Exn "ValueError") end
  else token_parents fuel t q.
(** policyreader.py:190-207: what was not asked for is the empty text *)
Definition port_tokens (fuel : nat) (t : table) (q : string) : res (list string) :=
  if is_empty q then Ok [] else get_parents fuel t q.
(** policyreader.py:194-207 *)
Definition address_tokens (fuel : nat) (parse_ip : string -> option net) (t : table) (q : string) : res (list string) :=
  if is_empty q then Ok [] else let! l := address_parents fuel parse_ip t q in Ok (drop_any l).
(** policyreader.py:224-247: one of the four tests *)
Definition wanted (parents listed : list string) : bool :=
  match parents with [] => true | _ => existsb (fun token => str_in token listed) parents end.
(** policyreader.py:208-215 *)
Definition pick_filters (fs : list rfilter) (name : string) : res (list rfilter) :=
  if is_empty name then Ok fs
  else match rev (filter (fun f => String.eqb name (rf_name f)) fs) with
       | f :: _ => Ok [f]
       | [] => Raise (Exn "InvalidFilterError")
       end.
(** enumerate(l) *)
Definition numbered_list {A} (l : list A) : list (nat * A) := combine (seq 0 (List.length l)) l.
(** policyreader.py:217-252: the order in which a set of positions is listed is not modelled, they
    are listed in ascending order here *)
Definition found_terms (dps sps ds ss : list string) (fs : list rfilter) : list (nat * nat) :=
  flat_map (fun e => map (fun x => (fst e, fst x))
    (filter (fun x => wanted dps (rt_dport (snd x)) && wanted sps (rt_sport (snd x)) && wanted ds (rt_destination (snd x)) && wanted ss (rt_source (snd x)))
       (numbered_list (rf_terms (snd e))))) (numbered_list fs).
(** policyreader.py:155-252 Matches *)
Definition reader_matches (fuel : nat) (parse_ip : string -> option net) (services networks : table) (fs : list rfilter)
  (src dst dport sport filtername : string) : res (list (nat * nat)) :=
  let! dps := port_tokens fuel services dport in
  let! sps := port_tokens fuel services sport in
  let! ds := address_tokens fuel parse_ip networks dst in
  let! ss := address_tokens fuel parse_ip networks src in
  let! fl := pick_filters fs filtername in
  Ok (found_terms dps sps ds ss fl).
