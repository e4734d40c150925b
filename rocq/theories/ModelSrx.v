(** Juniper SRX security policies (junipersrx.py).  Not modelled: the attributes timeout, vpn, dscp_set
    and target_resources, which the record [term] does not carry (absent here), and log messages.
    Address objects are values: the parts of a large term that has exclusions share their address
    objects in the program, so that a later part renames those of an earlier one; here they do not. *)
From Verif Require Export ModelJuniper ModelNft.
Local Open Scope string_scope.
Local Open Scope list_scope.
Local Open Scope Z_scope.

(** junipersrx.py:74-81 IndentList.IndentAppend, with the indent of junipersrx.py:301 *)
Definition srx_line (n : Z) (s : string) : string := (spaces (4 * n) ++ s)%string.
(** junipersrx.py:34-35 JunipersrxList *)
Definition srx_list (name : string) (data : list string) : string := (name ++ " [ " ++ join " " data ++ " ];")%string.

(** ** Large terms *)

(** policy.py:1130-1141, junipersrx.py:646-649: the weight of an address *)
Definition srx_weight (n : net) : Z := match nver n with V4 => 1 | V6 => 4 end.
(** policy.py:1119-1141 AddressesByteLength *)
Definition byte_length (vs : list ver) (t : term) : Z :=
  fold_right Z.add 0 (map srx_weight (filter (fun n => existsb (ver_eqb (nver n)) vs) (t_source_address t ++ t_destination_address t))).
(** junipersrx.py:635-651 Chunks; [cur] is the last list, [counter] its weight *)
Fixpoint srx_chunks (counter : Z) (cur l : list net) : list (list net) :=
  match l with
  | [] => [cur]
  | i :: r => if 1023 <? 2 * counter then cur :: srx_chunks (srx_weight i) [i] r else srx_chunks (counter + srx_weight i) (cur ++ [i]) r
  end.
(** junipersrx.py:659-669: the addresses of a chunk are named after the term and the chunk *)
Definition named_parent (n : net) (tok : string) : net := mkNet (nver n) (naddr n) (nlen n) (ntext n) (ntoken n) tok.
(** enumerate *)
Fixpoint numbered {A} (k : Z) (l : list A) : list (Z * A) := match l with [] => [] | x :: r => (k, x) :: numbered (k + 1) r end.
(** junipersrx.py:658-669 *)
Definition named_chunks (pre name : string) (l : list net) : list (list net) :=
  map (fun kc => map (fun n => named_parent n (pre ++ name ++ dec (fst kc))%string) (snd kc)) (numbered 0 (srx_chunks 0 [] l)).
(** junipersrx.py:655-681: one term *)
Definition fix_large_term (vs : list ver) (t : term) : list term :=
  if 1023 <? byte_length vs t then
    map (fun kp => set_name (t_name t ++ "_" ++ dec (fst kp)) (set_source_address (fst (snd kp)) (set_destination_address (snd (snd kp)) t)))%string
      (numbered 0 (list_prod (named_chunks "src_" (t_name t) (t_source_address t)) (named_chunks "dst_" (t_name t) (t_destination_address t))))
  else [t].
(** junipersrx.py:623-684 _FixLargePolices *)
Definition fix_large (vs : list ver) (terms : list term) : list term := flat_map (fix_large_term vs) terms.

(** ** The address book *)

(** zones, each with its names, each with its addresses *)
Notation srx_book := (list (string * list (string * list net))) (only parsing).
(** junipersrx.py:696-704: the loop over the addresses of a name; [all] is the whole list *)
Fixpoint book_insert (all l : list net) (a : net) : list net :=
  match l with
  | [] => all ++ [a]
  | ip :: r =>
      if supernet_of ip a then all
      else if supernet_of a ip then map (fun x => if net_eqb x ip then a else x) all
      else book_insert all r a
  end.
(** d[k] = f(d.get(k, default)), at the place the key has *)
Fixpoint update {A} (k : string) (default : A) (f : A -> A) (d : list (string * A)) : list (string * A) :=
  match d with
  | [] => [(k, f default)]
  | (k', x) :: r => if String.eqb k k' then (k', f x) :: r else (k', x) :: update k default f r
  end.
(** junipersrx.py:686-704 _BuildAddressBook *)
Definition build_address_book (zone : string) (b : srx_book) (a : net) : srx_book :=
  update zone [] (update (nptoken a) [] (fun l => book_insert l l a)) b.
(** list == list for networks *)
Fixpoint nets_eqb (a b : list net) : bool :=
  match a, b with [], [] => true | x :: a', y :: b' => net_eqb x y && nets_eqb a' b' | _, _ => false end.
(** junipersrx.py:538-546: a list that is equal to one in the book is replaced by that one *)
Definition replace_known (b : srx_book) (l : list net) : list net :=
  fold_left (fun l zone => fold_left (fun l e => if nets_eqb l (snd e) then snd e else l)
                             (py_sorted (fun x y => str_leb (fst x) (fst y)) (snd zone)) l) b l.
(** junipersrx.py:513-520, 527-534: the addresses of one side without the excluded ones *)
Definition renamed (tok : string) (n : net) : net := mkNet (nver n) (naddr n) (nlen n) (ntext n) tok tok.
(** junipersrx.py:503-534 *)
Definition srx_exclude (name suffix : string) (inc exc : list net) : res (list net) :=
  if some exc then
    let inc := if some inc then inc else [mkNet V4 0 0 (upper name) (upper name) (upper name)] in
    let! l := remove_all inc exc in
    Ok (map (renamed (upper name ++ suffix)%string) l)
  else Ok inc.

(** ** Applications *)

(** junipersrx.py:600-604: an application without its timeout *)
Record srx_app := mkApp { ap_name : string; ap_sport : list string; ap_dport : list string; ap_protocol : list pval; ap_types : list Z }.
(** protocols compared: a number is never a text *)
Definition pval_eqb (a b : pval) : bool :=
  match a, b with PName x, PName y => String.eqb x y | PNum m, PNum n => m =? n | _, _ => false end.
(** list == list *)
Fixpoint list_eqb {A} (eqb : A -> A -> bool) (a b : list A) : bool :=
  match a, b with [], [] => true | x :: a', y :: b' => eqb x y && list_eqb eqb a' b' | _, _ => false end.
(** junipersrx.py:607-608: the items of the new one are among those of the old one *)
Definition same_app (a b : srx_app) : bool :=
  list_eqb String.eqb (ap_sport a) (ap_sport b) && list_eqb String.eqb (ap_dport a) (ap_dport b)
  && list_eqb pval_eqb (ap_protocol a) (ap_protocol b) && list_eqb Z.eqb (ap_types a) (ap_types b).
(** junipersrx.py:606-615: the name of an earlier application that is the same, if there is one *)
Fixpoint find_app (new : srx_app) (apps : list srx_app) : res (option string) :=
  match apps with
  | [] => Ok None
  | a :: r =>
      if same_app a new then Ok (Some (ap_name a))
      else if String.eqb (ap_name new) (ap_name a) then Raise (Exn "ConflictingApplicationSetsError")
      else find_app new r
  end.
(** junipersrx.py:726-741 _BuildPort: as [port_text] *)
Definition build_port (l : list prange) : list string := map port_text l.
(** junipersrx.py:585-604: the application of a term; [ps] are its protocols after Term.__init__ *)
Definition srx_application (t : term) (ps : list pval) : res srx_app :=
  let af := match ps with
            | PName "icmp" :: _ => "inet"
            | PName "icmpv6" :: _ => "inet6"
            | _ => "unknown_af_icmp"
            end in
  let! types := normalize_icmp_types (t_icmp_type t) (map pval_text ps) (AfName af) in
  Ok (mkApp (t_name t) (build_port (t_source_port t)) (build_port (t_destination_port t)) (replace_first "icmpv6" "icmp6" ps)
        (match types with Some l => l | None => [] end)).

(** ** The terms of a header *)

(** What a header asks for: zones, versions, a global address book, expresspath, verbose *)
Record srx_cfg := mkSrxCfg { sc_from : string; sc_to : string; sc_vers : list ver; sc_global : bool; sc_express : bool; sc_verbose : bool }.
(** A rendered policy: the term as it was left, its protocols, the name of its application. *)
Record srx_policy := mkSrxPolicy { sp_term : term; sp_protocol : list pval; sp_app : string }.
(** address book and applications *)
Notation srx_state := (list (string * list (string * list net)) * list srx_app)%type (only parsing).
(** junipersrx.py:548-558, 562-573: the addresses of the header's families; None: there were some, but none is left *)
Definition srx_valid (vs : list ver) (l : list net) : option (list net) :=
  if some l then
    let v := filter (fun n => existsb (ver_eqb (nver n)) vs) l in
    if some v then Some v else None
  else Some [].
(** junipersrx.py:108-110: expresspath for accept.  Simplified: an action that has the word accept
    in it is accept, as no other of the supported actions has. *)
Definition express (c : srx_cfg) (l : list string) : list string :=
  if sc_express c then map (fun a => if String.eqb a "accept" then "expresspath" else a) l else l.
(** junipersrx.py:470-486: the terms that are passed over before their name is looked at *)
Definition srx_skipped (t : term) : bool :=
  (some (t_platform t) && negb (str_in "srx" (t_platform t)))
  || (some (t_platform_exclude t) && str_in "srx" (t_platform_exclude t))
  || t_stateless_reply t
  || existsb (fun o => str_in o ["established"; "tcp-established"]) (t_option t).
(** junipersrx.py:503-619: a term in force, its name being settled *)
Definition srx_term (c : srx_cfg) (st : srx_state) (t : term) : res (srx_state * list srx_policy) :=
  let (book, apps) := st in
  let! src := srx_exclude (t_name t) "_SRC_EXCLUDE" (t_source_address t) (t_source_address_exclude t) in
  let! dst := srx_exclude (t_name t) "_DST_EXCLUDE" (t_destination_address t) (t_destination_address_exclude t) in
  let src := if sc_global c then replace_known book src else src in
  let dst := if sc_global c then replace_known book dst else dst in
  match srx_valid (sc_vers c) src with
  | None => Ok ((book, apps), [])
  | Some src =>
      let book := fold_left (build_address_book (sc_from c)) src book in
      match srx_valid (sc_vers c) dst with
      | None => Ok ((book, apps), [])
      | Some dst =>
          let book := fold_left (build_address_book (sc_to c)) dst book in
          let! ps := term_protocols ["ipip"] (t_protocol t) in
          let t := set_action (express c (t_action t)) (set_source_address src (set_destination_address dst t)) in
          let! new := srx_application t ps in
          let! known := find_app new apps in
          match known with
          | Some n => Ok ((book, apps), [mkSrxPolicy t ps n])
          | None => Ok ((book, apps ++ [new]), [mkSrxPolicy t ps (t_name t)])
          end
      end
  end.
(** junipersrx.py:464-619: the loop over the terms; [seen] is term_dup_check *)
Fixpoint srx_terms (c : srx_cfg) (today : Z) (seen : list string) (st : srx_state) (terms : list term)
  : res (srx_state * list srx_policy) :=
  match terms with
  | [] => Ok (st, [])
  | t :: rest =>
      if srx_skipped t then srx_terms c today seen st rest
      else
        let! n := fix_term_length abbreviation_table (t_name t) false false cisco_name_limit in
        if str_in n seen then Raise (Exn "SRXDuplicateTermError")
        else if expired today t then srx_terms c today (n :: seen) st rest
        else
          let! (st, one) := srx_term c st (set_name n t) in
          let! (st, more) := srx_terms c today (n :: seen) st rest in
          Ok (st, one ++ more)
  end.

(** ** Headers *)

(** A header: its options for srx (None where it has no such target), its comments, groups and
    excepted groups. *)
Record srx_header := mkSrxHeader { sh_options : option (list string); sh_comment : list string; sh_groups : list string; sh_groups_except : list string }.
(** junipersrx.py:293-294 _SUPPORTED_TARGET_OPTIONS *)
Definition srx_options : list string := ["address-book-zone"; "address-book-global"; "expresspath"; "noverbose"].
(** junipersrx.py:287 _SUPPORTED_AF *)
Definition srx_families : list string := ["inet"; "inet6"; "mixed"].
(** junipersrx.py:443-462: the address family among the options, the default at the end *)
Fixpoint srx_family (found : string) (opts : list string) : res string :=
  match opts with
  | [] => Ok (if is_empty found then "mixed" else found)
  | o :: r =>
      if str_in o srx_families then if is_empty found then srx_family o r else Raise (Exn "ConflictingTargetOptionsError")
      else if str_in o srx_options then srx_family found r
      else Raise (Exn "UnsupportedHeaderError")
  end.
(** junipersrx.py:296-298 _AF_MAP *)
Definition srx_versions (family : string) : list ver :=
  if String.eqb family "inet" then [V4] else if String.eqb family "inet6" then [V6] else [V4; V6].
(** junipersrx.py:374-462: the options of a header.  [book]: whether the book is global, once a header
    has said so. *)
Definition srx_config (book : option bool) (opts : list string) (terms : list term) : res srx_cfg :=
  match opts with
  | k1 :: from :: k2 :: to :: extra =>
      if negb (String.eqb k1 "from-zone") || negb (String.eqb k2 "to-zone") || str_in from srx_options || str_in to srx_options
      then Raise (Exn "UnsupportedFilterError")
      else if negb (String.eqb from "all" && String.eqb to "all")
              && existsb (fun t => some (t_source_zone t) || some (t_destination_zone t)) terms
      then Raise (Exn "UnsupportedFilterError")
      else if str_in "address-book-zone" extra && str_in "address-book-global" extra
      then Raise (Exn "ConflictingTargetOptionsError")
      else
        let global := negb (str_in "address-book-zone" extra) in
        if match book with Some g => negb (Bool.eqb g global) | None => false end then Raise (Exn "MixedAddrBookTypesError")
        else if String.eqb from "all" && String.eqb to "all" && negb global then Raise (Exn "UnsupportedFilterError")
        else if xorb (String.eqb from "all") (String.eqb to "all") then Raise (Exn "UnsupportedFilterError")
        else
          let! family := srx_family "" extra in
          Ok (mkSrxCfg from to (srx_versions family) global (str_in "expresspath" extra) (negb (str_in "noverbose" extra)))
  | _ => Raise (Exn "UnsupportedFilterError")
  end.
(** junipersrx.py:347-621 _TranslatePolicy *)
Fixpoint srx_filters (today : Z) (book : option bool) (st : srx_state) (fs : list (srx_header * list term))
  : res (option bool * srx_state * list (srx_header * srx_cfg * list srx_policy)) :=
  match fs with
  | [] => Ok (book, st, [])
  | (h, terms) :: rest =>
      match sh_options h with
      | None => srx_filters today book st rest
      | Some opts =>
          let! c := srx_config book opts terms in
          let! (st, ps) := srx_terms c today [] st (fix_large (sc_vers c) terms) in
          let! (x, more) := srx_filters today (Some (sc_global c)) st rest in
          Ok (x, (h, c, ps) :: more)
      end
  end.

(** ** The text *)

(** junipersrx.py:94-100 ACTIONS *)
Definition srx_actions : list (string * string) :=
  [("accept", "permit"); ("deny", "deny"); ("reject", "reject"); ("count", "count"); ("log", "log");
   ("expresspath", "services-offload"); ("dscp", "dscp")].
(** junipersrx.py:215-223: the lines for the log targets *)
Definition srx_log (action target : string) : list string :=
  if String.eqb target "log-both" then [srx_line 6 "session-init;"; srx_line 6 "session-close;"]
  else if String.eqb action "accept" then [srx_line 6 "session-close;"] else [srx_line 6 "session-init;"].
(** junipersrx.py:191-232: one action *)
Definition srx_action (t : term) (action : string) : res (list string) :=
  match assoc action srx_actions with
  | None => Raise (Exn "TypeError")
  | Some w =>
      Ok ([srx_line 4 "then {"; srx_line 5 (w ++ ";")%string]
          ++ (if some (t_logging t) then [srx_line 5 "log {"] ++ flat_map (srx_log action) (t_logging t) ++ [srx_line 5 "}"] else [])
          ++ (if given (t_counter t) then [srx_line 5 "count;"] else [])
          ++ [srx_line 4 "}"; srx_line 3 "}"])
  end.
(** junipersrx.py:129-150: the address condition of one side *)
Definition srx_side (key : string) (l : list net) : string :=
  if some l then srx_line 5 (srx_list key (sorted_set (map nptoken l))) else srx_line 5 (key ++ " any;")%string.
(** junipersrx.py:116-125: the comment of a term *)
Definition srx_comment (verbose : bool) (t : term) : list string :=
  let owner := match t_owner t with Some o => if is_empty o then [] else [("Owner: " ++ o)%string] | None => [] end in
  let comments := wrap_words (t_comment t ++ if verbose then owner else []) 68 (String newline "") in
  match comments with
  | c :: _ => if negb (is_empty c) && verbose then [srx_line 3 "/*"] ++ map (srx_line 3) comments ++ [srx_line 3 "*/"] else []
  | [] => []
  end.
(** junipersrx.py:112-234 Term.__str__ *)
Definition srx_policy_lines (verbose : bool) (y : srx_policy) : res (list string) :=
  let t := sp_term y in
  let! acts := mapM (srx_action t) (t_action t) in
  Ok (srx_comment verbose t
      ++ [srx_line 3 ("policy " ++ t_name t ++ " {")%string; srx_line 4 "match {";
          srx_side "source-address" (t_source_address t); srx_side "destination-address" (t_destination_address t);
          if some (t_source_port t) || some (t_destination_port t) || some (t_icmp_type t) || some (sp_protocol y)
          then srx_line 5 ("application " ++ sp_app y ++ "-app;")%string else srx_line 5 "application any;"]
      ++ (if some (t_dscp_match t) then [srx_line 5 (srx_list "dscp" (t_dscp_match t))] else [])
      ++ (if some (t_dscp_except t) then [srx_line 5 (srx_list "dscp-except" (t_dscp_except t))] else [])
      ++ (if some (t_source_zone t) then [srx_line 5 (srx_list "from-zone" (sorted_set (t_source_zone t)))] else [])
      ++ (if some (t_destination_zone t) then [srx_line 5 (srx_list "to-zone" (sorted_set (t_destination_zone t)))] else [])
      ++ [srx_line 4 "}"] ++ concat acts).

(** junipersrx.py:757-774, 785-805: the addresses and the sets of a book *)
Definition srx_groups (groups : list (string * list net)) : list string :=
  flat_map (fun g => map (fun ka => srx_line 4 ("address " ++ fst g ++ "_" ++ dec (fst ka) ++ " " ++ prefixlen_text (snd ka) ++ ";")%string)
                       (numbered 0 (snd g))) groups
  ++ flat_map (fun g => [srx_line 4 ("address-set " ++ fst g ++ " {")%string]
                        ++ map (fun ka => srx_line 5 ("address " ++ fst g ++ "_" ++ dec (fst ka) ++ ";")%string) (numbered 0 (snd g))
                        ++ [srx_line 4 "}"]) groups.
(** sorted and collapsed (junipersrx.py:760-762, 788-790) *)
Definition srx_group (names : list (string * list net)) (g : string) : res (string * list net) :=
  let! l := collapse_addr_list (sort_addr_list (match assoc g names with Some l => l | None => [] end)) [] in Ok (g, l).
(** junipersrx.py:753-756: the addresses of all zones by name *)
Definition global_book (b : srx_book) : list (string * list net) :=
  map (fun g => (g, flat_map (fun zone => match assoc g (snd zone) with Some l => l | None => [] end) b))
    (sorted_set (flat_map (fun zone => map fst (snd zone)) b)).
(** junipersrx.py:743-810 _GenerateAddressBook *)
Definition srx_address_book (global : bool) (b : srx_book) : res (list string) :=
  if global then
    let names := global_book b in
    let! groups := mapM (srx_group names) (map fst names) in
    Ok ([srx_line 1 "replace: address-book {"; srx_line 2 "global {"] ++ srx_groups groups ++ [srx_line 2 "}"; srx_line 1 "}"])
  else
    let! zones := mapM (fun zone =>
      let! groups := mapM (srx_group (snd zone)) (sorted_set (map fst (snd zone))) in
      Ok ([srx_line 2 ("security-zone " ++ fst zone ++ " {")%string; srx_line 3 "replace: address-book {"] ++ srx_groups groups
          ++ [srx_line 3 "}"; srx_line 2 "}"])) b in
    Ok ([srx_line 1 "zones {"] ++ concat zones ++ [srx_line 1 "}"]).

(** junipersrx.py:822: there is something to say *)
Definition app_content (a : srx_app) : bool := some (ap_protocol a) || some (ap_sport a) || some (ap_dport a) || some (ap_types a).
(** junipersrx.py:824-862: an application for ICMP types; the brace at the end is missing for eight *)
Definition icmp_application (a : srx_app) : list string :=
  let n := Zlen (ap_protocol a) * Zlen (ap_types a) in
  let pairs := numbered 1 (flat_map (fun ic => map (fun q => (fst ic, snd ic, pval_text q)) (ap_protocol a)) (numbered 1 (ap_types a))) in
  let says (q : string) (code : Z) := (" protocol " ++ q ++ " " ++ q ++ "-type " ++ dec code ++ " inactivity-timeout 60;")%string in
  (if 8 <? n then [srx_line 1 ("application-set " ++ ap_name a ++ "-app {")%string]
                  ++ map (fun kp => srx_line 2 ("application " ++ ap_name a ++ "-app" ++ dec (fst kp) ++ ";")%string) pairs ++ [srx_line 1 "}"]
   else [srx_line 1 ("application " ++ ap_name a ++ "-app {")%string])
  ++ flat_map (fun kp => let '(k, (i, code, q)) := kp in
       if 8 <? n then [srx_line 1 ("application " ++ ap_name a ++ "-app" ++ dec k ++ " {")%string; srx_line 2 ("term t1" ++ says q code)%string; srx_line 1 "}"]
       else [srx_line 2 ("term t" ++ dec i ++ says q code)%string]) pairs
  ++ (if n <? 8 then [srx_line 1 "}"] else []).
(** junipersrx.py:872-881: the conditions of one application; vrrp is given by its number *)
Definition app_chunks (q : option pval) (sport dport : option string) : string :=
  (match q with Some x => " protocol " ++ (if pval_is "vrrp" x then "112" else pval_text x) | None => "" end
   ++ match sport with Some s => " source-port " ++ s | None => "" end
   ++ match dport with Some s => " destination-port " ++ s | None => "" end)%string.
(** x or [''] *)
Definition or_blank {A} (l : list A) : list (option A) := match l with [] => [None] | _ => map Some l end.
(** junipersrx.py:865-895: the conditions, numbered *)
Definition app_terms (a : srx_app) : list (Z * string) :=
  numbered 1 (filter (fun s => negb (is_empty s))
    (flat_map (fun q => flat_map (fun s => map (app_chunks q s) (or_blank (ap_dport a))) (or_blank (ap_sport a))) (or_blank (ap_protocol a)))).
(** junipersrx.py:888-894: the applications of an application set *)
Definition plain_application (a : srx_app) : list string :=
  flat_map (fun kc => [srx_line 1 ("application " ++ ap_name a ++ "-app" ++ dec (fst kc) ++ " {")%string;
                       srx_line 2 ("term t" ++ dec (fst kc) ++ snd kc ++ ";")%string; srx_line 1 "}"]) (app_terms a).
(** junipersrx.py:866-867, 885-887, 896 *)
Definition plain_set (a : srx_app) : list string :=
  [srx_line 1 ("application-set " ++ ap_name a ++ "-app {")%string]
  ++ map (fun kc => srx_line 2 ("application " ++ ap_name a ++ "-app" ++ dec (fst kc) ++ ";")%string) (app_terms a) ++ [srx_line 1 "}"].
(** junipersrx.py:812-910 _GenerateApplications.  Simplified: the test for an application that was done
    before is left out; the names are distinct, so that it never succeeds. *)
Definition srx_applications (apps : list srx_app) : list string :=
  let l := filter app_content (py_sorted (fun x y => str_leb (ap_name x) (ap_name y)) apps) in
  if some l then
    ["replace: applications {"]
    ++ flat_map (fun a => if some (ap_types a) then icmp_application a else plain_application a) l
    ++ flat_map (fun a => if some (ap_types a) then [] else plain_set a) l
    ++ ["}"; ""]
  else ["delete: applications;"].

(** junipersrx.py:927-956: the policies of one header *)
Definition srx_header_lines (x : srx_header * srx_cfg * list srx_policy) : res (list string) :=
  let '(h, c, ps) := x in
  let! policies := mapM (srx_policy_lines (sc_verbose c)) ps in
  Ok ((if sc_verbose c then [srx_line 2 "/*"] ++ map (srx_line 2) (wrap_words (sh_comment h) 71 (String newline "")) ++ [srx_line 2 "*/"] else [])
      ++ [if String.eqb (sc_from c) "all" && String.eqb (sc_to c) "all" then srx_line 2 "global {"
          else srx_line 2 ("from-zone " ++ sc_from c ++ " to-zone " ++ sc_to c ++ " {")%string]
      ++ (if some (sh_groups h) then [srx_line 3 (srx_list "apply-groups" (sh_groups h))] else [])
      ++ (if some (sh_groups_except h) then [srx_line 3 (srx_list "apply-groups-except" (sh_groups_except h))] else [])
      ++ concat policies ++ [srx_line 2 "}"]).
(** junipersrx.py:319-345 _BuildTokens *)
Definition srx_tokens : tokens := mkTokens
  (supported default_tokens ++ ["counter"; "dscp_except"; "dscp_match"; "dscp_set"; "destination_zone"; "logging"; "option"; "owner";
                                "source_zone"; "target_resources"; "timeout"; "verbatim"; "vpn"])
  [("action", ["accept"; "deny"; "reject"; "count"; "log"; "dscp"]); ("icmp_type", map fst icmp_type4 ++ map fst icmp_type6)].
(** junipersrx.py:912-963 __str__, the lines, for a policy given by its headers and terms *)
Definition srx_text (today : Z) (fs : list (srx_header * list term)) : res (list string) :=
  let! _ := check_tokens "srx" srx_tokens (map (fun f => (match sh_options (fst f) with Some _ => ["srx"] | None => [] end, snd f)) fs) in
  let! (x, headers) := srx_filters today None ([], []) fs in
  let '(book, (addresses, apps)) := x in
  let! ab := srx_address_book (match book with Some g => g | None => false end) addresses in
  let! policies := mapM srx_header_lines headers in
  Ok (["security {"] ++ ab ++ [srx_line 1 "/*"] ++ add_repository_tags (spaces 4) true true true false ++ [srx_line 1 "*/"; srx_line 1 "replace: policies {"]
      ++ concat policies ++ [srx_line 1 "}"; "}"] ++ srx_applications apps).
