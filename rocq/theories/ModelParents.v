(** Model of the reverse queries of capirca/lib/naming.py: GetIpParents and
    GetPortParents, with capirca/lib/port.py's PPP. *)
From Verif Require Export ModelNaming.
Local Open Scope string_scope.

(** s[:1].isalpha(), s[:1].isdigit() *)
Definition alpha_first (s : string) : bool := match s with String c _ => is_alpha c | "" => false end.
(** s[:1].isdigit() (naming.py:172, 179) *)
Definition digit_first (s : string) : bool := match s with String c _ => is_digit c | "" => false end.

(** naming.py:188-194: tokens listing another token, once per item *)
Definition token_bases (t : table) (q : string) : list string :=
  concat (map (fun e => concat (map (fun i =>
    let v := item_value i in
    if alpha_first v && String.eqb v q then [fst e] else []) (snd e))) t).
(** naming.py:174-187: tokens listing a network that contains [q], once per item *)
Definition ip_bases (parse_ip : string -> option net) (t : table) (q : net) : list string :=
  concat (map (fun e => concat (map (fun i =>
    let v := item_value i in
    if digit_first v then
      match parse_ip v with
      | Some n => if supernet_of n q then [fst e] else []
      | None => []
      end
    else []) (snd e))) t).

(** naming.py:198-206, the loop over all tokens for one base parent; the boolean is [done] *)
Fixpoint nested_scan (get : string -> res (list string)) (bp : string) (l : table) (rp : list string)
  (done : bool) : res (list string * bool) :=
  match l with
  | [] => Ok (rp, done)
  | e :: l' =>
      if str_in bp (map item_value (snd e)) && alpha_first bp then
        if str_in bp rp then nested_scan get bp l' rp true
        else let! sub := get bp in nested_scan get bp l' (rp ++ [bp] ++ sub)%list true
      else nested_scan get bp l' rp done
  end.
(** naming.py:195-210 *)
Fixpoint nested_each (get : string -> res (list string)) (t : table) (bps rp : list string)
  : res (list string) :=
  match bps with
  | [] => Ok rp
  | bp :: bps' =>
      let! p := nested_scan get bp t rp false in
      let rp' := fst p in
      nested_each get t bps'
        (if negb (snd p) && alpha_first bp && negb (str_in bp rp') then (rp' ++ [bp])%list else rp')
  end.
(** naming.py:158-211 GetIpParents on a token name.  A query whose first character is a
    digit is parsed as an address instead; see [ip_parents]. *)
Fixpoint token_parents (fuel : nat) (t : table) (q : string) : res (list string) :=
  match fuel with
  | O => Raise OutOfFuel
  | S fuel' =>
      let! l := nested_each (token_parents fuel' t) t (token_bases t q) [] in
      Ok (sorted_set l)
  end.
(** naming.py:158-211 GetIpParents on an address *)
Definition ip_parents (fuel : nat) (parse_ip : string -> option net) (t : table) (q : net)
  : res (list string) :=
  let! l := nested_each (token_parents fuel t) t (ip_bases parse_ip t q) [] in
  Ok (sorted_set l).

(** port.py:46-63 PPP: None when the text names another service *)
Definition ppp (service : string) : option (string * string) :=
  match split_char "/" (item_value service) with
  | p :: q :: _ => Some (p, q)
  | _ => None
  end.
(** the except clause of port.py:46-63 *)
Definition to_opt {A} (r : res A) : option A := match r with Ok a => Some a | Raise _ => None end.
(** port.py:65-77 is_range, is_single_port: an empty port text is neither *)
Definition is_range (p : string) : bool := nonempty p && has_char "-" p.
(** port.py:72-77 *)
Definition is_single_port (p : string) : bool := nonempty p && negb (has_char "-" p).
(** port.py:141-149 __eq__ of a single port; a failed int() gives False *)
Definition ppp_eq (p q : string) (given : option (string * string)) : bool :=
  match given with
  | Some (gp, gq) =>
      match to_opt (py_int p), to_opt (py_int gp) with
      | Some a, Some b => (a =? b)%Z && String.eqb q gq
      | _, _ => false
      end
  | None => false
  end.
(** port.py:97-103 __contains__ of a range; any failure becomes InvalidRange.  The
    protocol is compared only if the port is in the range. *)
Definition ppp_contains (p q : string) (given : option (string * string)) : res bool :=
  match split_char "-" p, given with
  | a :: b :: _, Some (gp, gq) =>
      match to_opt (py_int a), to_opt (py_int gp), to_opt (py_int b) with
      | Some lo, Some n, Some hi => Ok ((lo <=? n)%Z && (n <=? hi)%Z && String.eqb q gq)
      | Some lo, Some n, None => if (lo <=? n)%Z then Raise (Exn "InvalidRange") else Ok false
      | _, _, _ => Raise (Exn "InvalidRange")
      end
  | _, _ => Raise (Exn "InvalidRange")
  end.
(** naming.py:383-387, 399-403: does the item match the given pair *)
Definition ppp_match (given : option (string * string)) (x : string) : res bool :=
  match ppp x with
  | Some (p, q) =>
      if is_single_port p && ppp_eq p q given then Ok true
      else if is_range p then ppp_contains p q given
      else Ok false
  | None => Ok false
  end.
(** naming.py:396-403 *)
Fixpoint any_match (given : option (string * string)) (l : list string) : res bool :=
  match l with
  | [] => Ok false
  | x :: l' => let! b := ppp_match given x in let! r := any_match given l' in Ok (b || r)
  end.
(** port.py:46-63 nested (naming.py:390) *)
Definition is_nested (x : string) : bool := match ppp x with Some _ => false | None => true end.

(** naming.py:379-392: tokens with a matching item of their own *)
Fixpoint direct_matches (given : option (string * string)) (t : table) : res (list string) :=
  match t with
  | [] => Ok []
  | e :: t' =>
      let! b := any_match given (snd e) in
      let! r := direct_matches given t' in
      Ok (if b then fst e :: r else r)
  end.
(** naming.py:395-403: tokens with nested services, through GetService *)
Fixpoint nested_matches (fuel : nat) (t : table) (given : option (string * string)) (bps : list string)
  : res (list string) :=
  match bps with
  | [] => Ok []
  | bp :: bps' =>
      let! l := get_service fuel t bp in
      let! b := any_match given l in
      let! r := nested_matches fuel t given bps' in
      Ok (if b then bp :: r else r)
  end.
(** naming.py:357-408 GetPortParents *)
Definition get_port_parents (fuel : nat) (t : table) (query proto : string) : res (list string) :=
  let given := ppp (query ++ "/" ++ proto) in
  let! m1 := direct_matches given t in
  let! m2 := nested_matches fuel t given (map fst (filter (fun e => existsb is_nested (snd e)) t)) in
  match (m1 ++ m2)%list with
  | [] => Raise (Exn "UndefinedPortError")
  | m => Ok (sorted_set m)
  end.
