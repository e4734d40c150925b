(** Model of capirca/lib/naming.py: loading and querying definitions. *)
From Verif Require Export PyStr ModelIP.

(** A dictionary name -> unit.items, in insertion order (naming.py:97-111, 128-129). *)
Definition table : Type := list (string * list string).
(** dict.get (naming.py:340, 477) *)
Fixpoint lookup (k : string) (t : table) : option (list string) :=
  match t with
  | [] => None
  | (k', v) :: t' => if String.eqb k k' then Some v else lookup k t'
  end.
(** k in dict (naming.py:335, 474) *)
Definition defined (k : string) (t : table) : bool :=
  match lookup k t with Some _ => true | None => false end.
(** unit.items.append(x) on the unit stored under [k]. *)
Fixpoint add_item (k x : string) (t : table) : table :=
  match t with
  | [] => []
  | (k', v) :: t' => if String.eqb k k' then (k', v ++ [x]) :: t' else (k', v) :: add_item k x t'
  end.

(** the definition type (naming.py:581) *)
Inductive kind := Services | Networks.

(** The mutable fields of Naming (naming.py:125-131).  [n_unit] is self.unit: the
    table it lives in and its name; it is None until the first definition. *)
Record nstate := mkN {
  n_services : table;
  n_networks : table;
  n_unseen_services : list string;
  n_unseen_networks : list string;
  n_cur : string;                      (* current_symbol; None is modelled as "" *)
  n_unit : option (kind * string) }.
(** naming.py:125-131 *)
Definition n_init : nstate := mkN [] [] [] [] "" None.

(** naming.py:132-134, the two regular expressions, on text without newline. *)
Definition is_word (c : ascii) : bool := is_alpha c || is_digit c || Ascii.eqb c "_".
(** naming.py:132-134, the class of characters *)
Definition word_or_dash (c : ascii) : bool := is_word c || Ascii.eqb c "-".
(** truth of a text (naming.py:585) *)
Definition nonempty (s : string) : bool := negb (is_empty s).
(** naming.py:132-134 token_re *)
Definition token_re (s : string) : bool := nonempty s && forall_char word_or_dash s.
(** naming.py:132-134, the class of digits *)
Definition digits (s : string) : bool := nonempty s && forall_char is_digit s.
(** naming.py:132-134 port_re *)
Definition port_re (s : string) : bool :=
  token_re s ||
  match split_char "/" s with
  | [a; b] =>
      (digits a || match split_char "-" a with [x; y] => digits x && digits y | _ => false end)
      && nonempty b && forall_char is_word b
  | _ => false
  end.

(** naming.py:642: a value that looks like a token *)
Definition token_like (v : string) : bool :=
  match v with
  | EmptyString => false
  | String c _ => is_alpha c && negb (has_char ":" v)
  end.

(** naming.py:637-640 *)
Definition append_to_unit (st : nstate) (x : string) : nstate :=
  match n_unit st with
  | Some (Services, k) => mkN (add_item k x (n_services st)) (n_networks st)
      (n_unseen_services st) (n_unseen_networks st) (n_cur st) (n_unit st)
  | Some (Networks, k) => mkN (n_services st) (add_item k x (n_networks st))
      (n_unseen_services st) (n_unseen_networks st) (n_cur st) (n_unit st)
  | None => st      (* not reachable with a non-empty current symbol *)
  end.

(** naming.py:642-652 *)
Definition note_unseen (k : kind) (v : string) (st : nstate) : nstate :=
  match k with
  | Services =>
      if defined v (n_services st) || str_in v (n_unseen_services st) then st
      else mkN (n_services st) (n_networks st) (n_unseen_services st ++ [v]) (n_unseen_networks st)
             (n_cur st) (n_unit st)
  | Networks =>
      if defined v (n_networks st) || str_in v (n_unseen_networks st) then st
      else mkN (n_services st) (n_networks st) (n_unseen_services st) (n_unseen_networks st ++ [v])
             (n_cur st) (n_unit st)
  end.

(** naming.py:632-652, one value of a line *)
Definition add_value (k : kind) (comment : string) (st : nstate) (v : string) : nstate :=
  if is_empty (n_cur st) then st
  else if nonempty comment then append_to_unit st (append v (append " # " comment))
  else
    let st' := append_to_unit st v in
    if token_like v then note_unseen k v st' else st'.

(** dict.pop (naming.py:620-625) *)
Definition remove_str (s : string) (l : list string) : list string :=
  filter (fun x => negb (String.eqb s x)) l.

(** naming.py:590-631: the part of a line left of and around '=' *)
Definition start_definition (k : kind) (sym value : string) (st : nstate) : res nstate :=
  match k with
  | Services =>
      if negb (forallb port_re (split_ws (strip value))) then Raise (Exn "NamingSyntaxError")
      else if defined sym (n_services st) then Raise (Exn "NamespaceCollisionError")
      else Ok (mkN (n_services st ++ [(sym, [])]) (n_networks st)
                 (remove_str sym (n_unseen_services st)) (n_unseen_networks st) sym (Some (Services, sym)))
  | Networks =>
      if defined sym (n_networks st) then Raise (Exn "NamespaceCollisionError")
      else Ok (mkN (n_services st) (n_networks st ++ [(sym, [])])
                 (n_unseen_services st) (remove_str sym (n_unseen_networks st)) sym (Some (Networks, sym)))
  end.

(** naming.py:564-652 _ParseLine; the definition type is one of the two, so
    UnexpectedDefinitionTypeError cannot occur.  The log message for an
    unrecommended name (naming.py:595-596) is not modelled. *)
Definition parse_line (k : kind) (st : nstate) (raw : string) : res nstate :=
  let line := strip raw in
  if is_empty line || starts_with "#" line then Ok st
  else
    let comment := if has_char "#" line then after_char "#" line else ""%string in
    let body := before_char "#" line in
    match split_char "=" body with
    | sym :: value :: _ =>
        let! st' := start_definition k (strip sym) value st in
        Ok (fold_left (add_value k comment) (split_ws value) st')
    | [value] => Ok (fold_left (add_value k comment) (split_ws value) st)
    | [] => Ok st      (* split never returns an empty list *)
    end.

(** naming.py:535-562: the lines in turn *)
Fixpoint parse_lines (k : kind) (st : nstate) (lines : list string) : res nstate :=
  match lines with
  | [] => Ok st
  | l :: ls => let! st' := parse_line k st l in parse_lines k st' ls
  end.

(** naming.py:125-156: loading a directory; the lines of all .svc files, then of all
    .net files.  File system errors (NoDefinitionsError) are not modelled. *)
Definition load (svc net : list string) : res nstate :=
  let! st := parse_lines Services n_init svc in
  match n_unseen_services st with
  | _ :: _ => Raise (Exn "UndefinedServiceError")
  | [] =>
      let! st' := parse_lines Networks st net in
      match n_unseen_networks st' with
      | _ :: _ => Raise (Exn "UndefinedAddressError")
      | [] => Ok st'
      end
  end.

(** The value and comment parts of a stored item (naming.py:342, 478-484). *)
Definition item_value (i : string) : string := strip (before_char "#" i).
(** naming.py:478-491 *)
Definition item_comment (i : string) : string :=
  if has_char "#" i then lstrip (after_char "#" i) else ""%string.

(** naming.py:333-334, 472-473: query.split('#')[0].split()[0] *)
Definition query_token (q : string) : res string :=
  match split_ws (before_char "#" q) with
  | w :: _ => Ok w
  | [] => Raise (Exn "IndexError")
  end.

(** A network read by nacaddr.IP(text, strict=False), relabelled. *)
Definition label (text token : string) (n : net) : net :=
  mkNet (nver n) (naddr n) (nlen n) text token (nptoken n).
(** naming.py:498-499 *)
Definition set_parent (p : string) (n : net) : net :=
  mkNet (nver n) (naddr n) (nlen n) (ntext n) (ntoken n) p.

Section Lookup.
  (** nacaddr.IP(text, strict=False): None when it raises ValueError.  The text
      syntax of addresses is not modelled; every result below holds for every
      such function. *)
  Context (parse_ip : string -> option net).

  (** naming.py:453-500 GetNet.  The recursion depth is bounded by [fuel]. *)
  Fixpoint get_net (fuel : nat) (t : table) (query : string) : res (list net) :=
    match fuel with
    | O => Raise OutOfFuel
    | S fuel' =>
        let! token := query_token query in
        match lookup token t with
        | None => Raise (Exn "UndefinedAddressError")
        | Some items =>
            let! parts := mapM (fun i =>
              let v := item_value i in
              if token_re v then get_net fuel' t v
              else match parse_ip v with
                   | Some n => Ok [label (item_comment i) token n]
                   | None => get_net fuel' t v
                   end) items in
            Ok (map (set_parent token) (concat parts))
        end
    end.

  (** naming.py:275-295 _GetChildren for networks *)
  Definition get_children (t : table) (query : string) : list string :=
    match lookup query t with
    | Some items => filter (fun c => match parse_ip c with Some _ => false | None => true end)
                      (map item_value items)
    | None => []
    end.
End Lookup.

(** naming.py:340-354: the loop of GetService over the items with already_done and
    the expandset (kept as a list; only its set matters).  [get] is the recursive call. *)
Fixpoint expand_items (get : string -> res (list string)) (items done acc : list string)
  : res (list string) :=
  match items with
  | [] => Ok acc
  | i :: items' =>
      let s := item_value i in
      if has_char "/" s then expand_items get items' done (acc ++ [s])
      else if str_in s done then expand_items get items' done acc
      else let! sub := get s in expand_items get items' (s :: done) (acc ++ sub)
  end.

(** naming.py:317-355 GetService; [fuel] bounds the recursion depth. *)
Fixpoint get_service (fuel : nat) (t : table) (query : string) : res (list string) :=
  match fuel with
  | O => Raise OutOfFuel
  | S fuel' =>
      let! name := query_token query in
      match lookup name t with
      | None => Raise (Exn "UndefinedServiceError")
      | Some items =>
          let! all := expand_items (get_service fuel' t) items [name] [] in
          Ok (sorted_set all)
      end
  end.

(** naming.py:410-437 GetServiceByProto *)
Definition get_service_by_proto (fuel : nat) (t : table) (query proto : string) : res (list string) :=
  let! name := query_token query in
  if negb (defined name t) then Raise (Exn "UndefinedServiceError")
  else
    let! l := get_service fuel t name in
    Ok (sorted_set (concat (map (fun s =>
      match split_char "/" s with
      | p :: q :: _ => if String.eqb (upper q) (upper proto) then [p] else []
      | _ => []
      end) l))).

(** naming.py:254-257, the inner loop of _GetParents for one base parent [bp]; the test
    compares [bp] with the raw items (comment included), as the code does. *)
Fixpoint parents_scan (get : string -> res (list string)) (bp : string) (l : table)
  (rp : list string) : res (list string) :=
  match l with
  | [] => Ok rp
  | e :: l' =>
      if str_in bp (snd e) && negb (str_in bp rp) then
        let! sub := get bp in parents_scan get bp l' (rp ++ [bp] ++ sub)
      else parents_scan get bp l' rp
  end.
(** naming.py:252-259, the outer loop *)
Fixpoint parents_each (get : string -> res (list string)) (t : table) (bps rp : list string)
  : res (list string) :=
  match bps with
  | [] => Ok rp
  | bp :: bps' =>
      let! rp' := parents_scan get bp t rp in
      parents_each get t bps' (if str_in bp rp' then rp' else rp' ++ [bp])
  end.
(** naming.py:246-249: tokens that list [query] directly *)
Definition direct_parents (t : table) (query : string) : list string :=
  map fst (filter (fun e => str_in query (map item_value (snd e))) t).
(** naming.py:233-260 _GetParents *)
Fixpoint get_parents (fuel : nat) (t : table) (query : string) : res (list string) :=
  match fuel with
  | O => Raise OutOfFuel
  | S fuel' => parents_each (get_parents fuel' t) t (direct_parents t query) []
  end.

(** policy.py:146-182 TranslatePorts: int() of the digits of each entry; a text that
    is not a plain decimal numeral raises ValueError (Python also accepts signs and
    underscores, which the service syntax cannot contain on a validated line). *)
Definition digit_of (c : ascii) : Z := Z.of_nat (nat_of_ascii c) - 48.
(** int() of digits (policy.py:177-181) *)
Fixpoint int_digits (s : string) (acc : Z) : Z :=
  match s with EmptyString => acc | String c s' => int_digits s' (acc * 10 + digit_of c)%Z end.
(** int(text) (policy.py:177-181) *)
Definition py_int (s : string) : res Z :=
  if digits s then Ok (int_digits s 0%Z) else Raise (Exn "ValueError").
(** policy.py:177-181 *)
Definition port_pair (x : string) : res (Z * Z) :=
  match split_char "-" x with
  | [a] => let! n := py_int a in Ok (n, n)
  | a :: b :: _ => let! n := py_int a in let! m := py_int b in Ok (n, m)
  | [] => Raise (Exn "IndexError")
  end.
(** policy.py:146-182 *)
Definition translate_ports (fuel : nat) (t : table) (ports protocols : list string) : res (list (Z * Z)) :=
  let! parts := mapM (fun proto => mapM (fun port =>
      let! l := get_service_by_proto fuel t port proto in mapM port_pair l) ports) protocols in
  Ok (concat (map (@concat _) parts)).
