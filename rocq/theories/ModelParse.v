(** Model of the parser of policy files, capirca/lib/policy.py:2173-2875, and of the objects
    it builds: Term.AddObject (policy.py:1203-1411), Header.AddObject (1807-1828), Target
    (1909-1914), ParsePolicy (3003-3043).

    The grammar is parsed by recursive descent; PLY's LALR tables resolve the grammar's
    conflicts by shifting, which makes every list as long as possible, as here.  The tokens
    are parsed first and the objects built afterwards: for a text with both a syntax error
    and an error found while building objects the model reports the syntax error, PLY
    whichever comes first. *)
From Verif Require Export ModelLex.
Local Open Scope string_scope.
Local Open Scope list_scope.
Local Open Scope Z_scope.

(** What the rules put into a VarType: the value after KEYWORD '::'. *)
Inductive value :=
  | VList (l : list string)                  (* one_or_more_strings, strings_or_ints, one_or_more_dscps *)
  | VText (s : string)                       (* one STRING, INTEGER, DSCP or DQUOTEDSTRING *)
  | VInts (l : list Z)                       (* one_or_more_ints *)
  | VRange (a : string) (b : option string)  (* INTEGER, INTEGER '-' INTEGER *)
  | VDate (y m d : Z)                        (* INTEGER '-' INTEGER '-' INTEGER *)
  | VPair (a b : string)                     (* log-limit, verbatim, vpn *)
  | VPairs (l : list (string * string)).     (* one_or_more_tuples, flex_match_key_values *)

(** The form of the value of a keyword. *)
Inductive shape :=
  | Strings | Mixed | Dscps | OneString | OneInt | OneDscp | Quoted | Ints | Range | Date
  | Limit | Verbatim | Vpn | Tuples | Flex.

(** policy.py:2229-2294, 2297-2783: the keywords a term may use *)
Definition term_shapes : list (string * shape) :=
    [("restrict-address-family", OneString); ("routing-instance", OneString); ("loss-priority", OneString);
     ("precedence", Ints); ("flexible-match-range", Flex); ("forwarding-class", Strings);
     ("forwarding-class-except", Strings); ("next-ip", OneString); ("next-interface", OneString);
     ("next-hop-group", OneString); ("encapsulate", OneString); ("decapsulate", OneString);
     ("port-mirror", OneString); ("icmp-type", Strings); ("icmp-code", Ints); ("priority", OneInt);
     ("packet-length", Range); ("fragment-offset", Range); ("hop-limit", Range); ("dscp-set", OneDscp);
     ("dscp-match", Dscps); ("dscp-except", Dscps); ("source-exclude", Strings);
     ("destination-exclude", Strings); ("address-exclude", Strings); ("protocol-except", Strings);
     ("destination-prefix", Strings); ("destination-prefix-except", Strings); ("source-prefix", Strings);
     ("source-prefix-except", Strings); ("source-address", Strings); ("destination-address", Strings);
     ("address", Strings); ("source-port", Strings); ("destination-port", Strings); ("port", Strings);
     ("protocol", Mixed); ("source-service-accounts", Strings); ("destination-tag", Strings);
     ("source-tag", Strings); ("target-resources", Tuples); ("target-service-accounts", Strings);
     ("ether-type", Strings); ("traffic-type", Strings); ("policer", OneString); ("logging", OneString);
     ("log-limit", Limit); ("log_name", Quoted); ("option", Strings); ("action", OneString);
     ("counter", OneString); ("traffic-class-count", OneString); ("expiration", Date);
     ("comment", Quoted); ("owner", OneString); ("verbatim", Verbatim); ("source-zone", Strings);
     ("destination-zone", Strings); ("vpn", Vpn); ("versa-application", Strings); ("qos", OneString);
     ("traffic-class", OneInt); ("pan-application", Strings); ("source-interface", OneString);
     ("destination-interface", OneString); ("platform", Strings); ("platform-exclude", Strings);
     ("timeout", OneInt); ("ttl", OneInt); ("filter-term", OneString)].
(** policy.py:2297-2783 *)
Definition term_shape (k : string) : option shape := assoc k term_shapes.
(** policy.py:2191-2212: the keywords of a header *)
Definition header_shapes : list (string * shape) :=
  [("target", Mixed); ("comment", Quoted); ("apply-groups", Strings); ("apply-groups-except", Strings)].
(** policy.py:2191-2212 *)
Definition header_shape (k : string) : option shape := assoc k header_shapes.

(** policy.py:2860-2875 p_error *)
Definition syntax_error {A} : res A := Raise (Exn "ParseError").

(** policy.py:2786-2797, 2844-2857, 2453-2467: the longest run of tokens of the given types *)
Fixpoint strings (ts : list token) : list string * list token :=
  match ts with Str s :: r => let q := strings r in (s :: fst q, snd q) | _ => ([], ts) end.
(** policy.py:2844-2857 strings_or_ints *)
Fixpoint mixed (ts : list token) : list string * list token :=
  match ts with
  | Str s :: r | Int s :: r => let q := mixed r in (s :: fst q, snd q)
  | _ => ([], ts)
  end.
(** policy.py:2453-2467 *)
Fixpoint dscps (ts : list token) : list string * list token :=
  match ts with
  | DscpRange s :: r | Dscp s :: r | Int s :: r => let q := dscps r in (s :: fst q, snd q)
  | _ => ([], ts)
  end.
(** policy.py:2830-2841, int() of each *)
Fixpoint integers (ts : list token) : list string * list token :=
  match ts with Int s :: r => let q := integers r in (s :: fst q, snd q) | _ => ([], ts) end.
(** policy.py:2800-2827: (STRING, STRING) repeated, with or without commas between.  A comma
    that no tuple follows makes the rule of the empty tuple raise IndexError.  Brackets are
    modelled around a whole list only (PLY also accepts them nested, and before more tuples). *)
Fixpoint tuples (fuel : nat) (ts : list token) : res (list (string * string) * list token) :=
  match fuel with
  | O => Raise OutOfFuel
  | S n =>
      match ts with
      | LParen :: Str a :: Comma :: Str b :: RParen :: r =>
          let! q := match r with
                    | Comma :: LParen :: _ => tuples n (tl r)
                    | Comma :: _ => Raise (Exn "IndexError")
                    | LParen :: _ => tuples n r
                    | _ => Ok ([], r)
                    end in
          Ok ((a, b) :: fst q, snd q)
      | _ => syntax_error
      end
  end.

(** policy.py:2324-2358 p_flex_match_key_values, for one pair *)
Definition check_flex (k v : string) : res unit :=
  if negb (str_in k ["byte-offset"; "bit-offset"; "bit-length"; "match-start"; "range"; "range-except";
                     "flexible-range-name"]) then Raise (Exn "FlexibleMatchError")
  else if (k =? "match-start")%string then
    if str_in v ["layer-3"; "layer-4"; "payload"] then Ok tt else Raise (Exn "FlexibleMatchError")
  else
    let below (n : Z) := let! i := py_int v in if i <? n then Ok tt else Raise (Exn "FlexibleMatchError") in
    if (k =? "bit-length")%string then below 33
    else if (k =? "bit-offset")%string then below 8
    else if (k =? "byte-offset")%string then below 256
    else Ok tt.

(** what iterating over the value None of an empty list raises *)
Definition listed (q : list string * list token) : res (value * list token) :=
  match fst q with [] => Raise (Exn "TypeError") | l => Ok (VList l, snd q) end.

(** The value after '::', and the tokens that follow it. *)
Definition parse_value (sh : shape) (ts : list token) : res (value * list token) :=
  match sh with
  | Strings => listed (strings ts)
  | Mixed => listed (mixed ts)
  | Dscps => match fst (dscps ts) with [] => syntax_error | l => Ok (VList l, snd (dscps ts)) end
  | Ints => let! l := mapM py_int (fst (integers ts)) in Ok (VInts l, snd (integers ts))
  | OneString => match ts with Str s :: r => Ok (VText s, r) | _ => syntax_error end
  | OneInt => match ts with Int s :: r => Ok (VText s, r) | _ => syntax_error end
  | OneDscp => match ts with Dscp s :: r | Int s :: r => Ok (VText s, r) | _ => syntax_error end
  | Quoted => match ts with DQ s :: r => Ok (VText s, r) | _ => syntax_error end
  | Range =>
      match ts with
      | Int a :: Dash :: r =>
          match r with Int b :: r' => Ok (VRange a (Some b), r') | _ => syntax_error end
      | Int a :: r => Ok (VRange a None, r)
      | _ => syntax_error
      end
  | Date =>
      match ts with
      | Int y :: Dash :: Int m :: Dash :: Int d :: r =>
          let! y := py_int y in let! m := py_int m in let! d := py_int d in Ok (VDate y m d, r)
      | _ => syntax_error
      end
  | Limit =>
      match ts with Int a :: Slash :: Str b :: r => Ok (VPair a b, r) | _ => syntax_error end
  | Verbatim =>
      match ts with Str a :: DQ b :: r | Str a :: Esc b :: r => Ok (VPair a b, r) | _ => syntax_error end
  | Vpn =>
      match ts with
      | Str a :: Str b :: r => Ok (VPair a b, r)
      | Str a :: r => Ok (VPair a "", r)
      | _ => syntax_error
      end
  | Tuples =>
      match ts with
      | LSquare :: r =>
          let! q := tuples (List.length r) r in
          match snd q with RSquare :: r' => Ok (VPairs (fst q), r') | _ => syntax_error end
      | LParen :: _ => let! q := tuples (List.length ts) ts in Ok (VPairs (fst q), snd q)
      | _ => Raise (Exn "TypeError")
      end
  | Flex =>
      match ts with
      | Str a :: Hex b :: r | Str a :: Int b :: r | Str a :: Str b :: r =>
          let! _ := check_flex a b in
          match r with Str _ :: _ => Raise (Exn "TypeError") | _ => Ok (VPairs [(a, b)], r) end
      | Str _ :: _ => syntax_error
      | _ => Raise (Exn "IndexError")
      end
  end.

(** policy.py:2191-2205, 2229-2294: KEYWORD ':' ':' value, up to the closing brace *)
Definition stmt : Type := string * value.
(** policy.py:2191-2205, 2229-2294 *)
Fixpoint parse_stmts (fuel : nat) (shapes : string -> option shape) (ts : list token)
  : res (list stmt * list token) :=
  match fuel with
  | O => Raise OutOfFuel
  | S n =>
      match ts with
      | RBrace :: r => Ok ([], r)
      | Kw k :: Colon :: Colon :: r =>
          match shapes k with
          | Some sh =>
              let! v := parse_value sh r in
              let! q := parse_stmts n shapes (snd v) in
              Ok ((k, fst v) :: fst q, snd q)
          | None => syntax_error
          end
      | _ => syntax_error
      end
  end.
(** policy.py:2215-2226 p_terms *)
Definition term_text : Type := string * list stmt.
(** policy.py:2215-2226 *)
Fixpoint parse_terms (fuel : nat) (ts : list token) : res (list term_text * list token) :=
  match fuel with
  | O => Raise OutOfFuel
  | S n =>
      match ts with
      | Kw k :: Str name :: LBrace :: r =>
          if (k =? "term")%string then
            let! b := parse_stmts (List.length r) term_shape r in
            let! q := parse_terms n (snd b) in
            Ok ((name, fst b) :: fst q, snd q)
          else Ok ([], ts)
      | _ => Ok ([], ts)
      end
  end.
(** policy.py:2173-2188 p_target, p_header *)
Definition filter_text : Type := list stmt * list term_text.
(** policy.py:2173-2188 *)
Fixpoint parse_filters (fuel : nat) (ts : list token) : res (list filter_text) :=
  match ts with
  | [] => Ok []
  | Kw k :: LBrace :: r =>
      match fuel with
      | O => Raise OutOfFuel
      | S n =>
          if (k =? "header")%string then
            let! h := parse_stmts (List.length r) header_shape r in
            let! t := parse_terms (S (List.length (snd h))) (snd h) in
            let! q := parse_filters n (snd t) in
            Ok ((fst h, fst t) :: q)
          else syntax_error
      end
  | _ => syntax_error
  end.
(** policy.py:2173-2188, with enough fuel *)
Definition parse_tokens (ts : list token) : res (list filter_text) := parse_filters (List.length ts) ts.

(** ** Objects *)

(** str.strip of double quotes; str.replace of an escaped double quote by a double quote *)
Fixpoint lstrip_dq (s : string) : string :=
  match s with String c s' => if Ascii.eqb c quote then lstrip_dq s' else s | EmptyString => "" end.
(** from the right (policy.py:1775-1783) *)
Fixpoint rstrip_dq (s : string) : string :=
  match s with
  | EmptyString => ""
  | String c s' => let r := rstrip_dq s' in if Ascii.eqb c quote && is_empty r then "" else String c r
  end.
(** from both sides (policy.py:1775-1783) *)
Definition strip_dq (s : string) : string := rstrip_dq (lstrip_dq s).
(** str.replace (policy.py:1775-1783) *)
Fixpoint unescape (s : string) : string :=
  match s with
  | String "\" (String """" s') => String """" (unescape s')
  | String c s' => String c (unescape s')
  | EmptyString => ""
  end.
(** policy.py:1775-1783 VarType.__init__ for COMMENT and LOG_NAME *)
Definition comment_value (s : string) : string :=
  join (String newline "") (map lstrip (splitlines (strip_dq s))).

(** datetime.date(y, m, d): toordinal() *)
Definition is_leap (y : Z) : bool := (y mod 4 =? 0) && (negb (y mod 100 =? 0) || (y mod 400 =? 0)).
(** datetime._days_in_month, for policy.py:2660-2670 *)
Definition days_in_month (y m : Z) : Z :=
  if m =? 2 then if is_leap y then 29 else 28
  else if memb Z.eqb m [4; 6; 9; 11] then 30 else 31.
(** datetime._days_before_year, for policy.py:2660-2670 *)
Definition days_before_year (y : Z) : Z :=
  let y := y - 1 in y * 365 + y / 4 - y / 100 + y / 400.
(** datetime._days_before_month, for policy.py:2660-2670 *)
Definition days_before_month (y m : Z) : Z :=
  fold_right Z.add 0 (map (fun i => if Z.of_nat i <? m then days_in_month y (Z.of_nat i) else 0) (seq 1 11)).
(** datetime.date(y, m, d).toordinal(), for policy.py:2660-2670 *)
Definition date_ordinal (y m d : Z) : res Z :=
  if (1 <=? y) && (y <=? 9999) && (1 <=? m) && (m <=? 12) && (1 <=? d) && (d <=? days_in_month y m)
  then Ok (days_before_year y + days_before_month y m + d)
  else Raise (Exn "ValueError").

(** The attributes of a Term that ModelTerm leaves out (policy.py:444-532). *)
Record extras := mkExtras {
  x_log_limit : option (string * string); x_log_name : option string; x_loss_priority : option string;
  x_policer : option string; x_qos : option string; x_traffic_class_count : option string;
  x_dscp_set : option string; x_flexible_match_range : list (string * string);
  x_vpn : option (string * string); x_priority : option string;
  x_source_service_accounts : list string; x_target_service_accounts : list string;
  x_target_resources : list (string * string); x_timeout : option string;
  x_pan_application : list string; x_versa_application : list string }.
(** a term while it is read (policy.py:444-532) *)
Record pterm := mkP { p_raw : raw_term; p_extra : extras }.
(** policy.py:444-532 Term.__init__ *)
Definition new_pterm (name : string) : pterm :=
  mkP (mkRaw [] [] [] (blank name))
    (mkExtras None None None None None None None [] None None [] [] [] None [] []).

(** an assignment to an attribute in ModelTerm (policy.py:1203-1411) *)
Definition on_term (f : term -> term) (p : pterm) : pterm :=
  let r := p_raw p in
  mkP (mkRaw (r_port r) (r_source_port r) (r_destination_port r) (f (r_term r))) (p_extra p).
(** its attributes in ModelTerm (policy.py:444-532) *)
Definition p_term (p : pterm) : term := r_term (p_raw p).
(** an assignment to another attribute (policy.py:1203-1411) *)
Definition on_extra (f : extras -> extras) (p : pterm) : pterm := mkP (p_raw p) (f (p_extra p)).

(** policy.py:1221-1240: the address fields; the values are looked up in the definitions *)
Definition address_field (k : string) : option ((term -> list net) * (list net -> term -> term)) :=
  assoc k
    [("source-address", (t_source_address, set_source_address));
     ("destination-address", (t_destination_address, set_destination_address));
     ("address", (t_address, set_address));
     ("source-exclude", (t_source_address_exclude, set_source_address_exclude));
     ("destination-exclude", (t_destination_address_exclude, set_destination_address_exclude));
     ("address-exclude", (t_address_exclude, set_address_exclude))].
(** policy.py:1248-1309: the fields that collect the values as they are *)
Definition list_field (k : string) : option ((term -> list string) * (list string -> term -> term)) :=
  assoc k
    [("protocol", (t_protocol, set_protocol)); ("protocol-except", (t_protocol_except, set_protocol_except));
     ("option", (t_option, set_option)); ("source-prefix", (t_source_prefix, set_source_prefix));
     ("source-prefix-except", (t_source_prefix_except, set_source_prefix_except));
     ("destination-prefix", (t_destination_prefix, set_destination_prefix));
     ("destination-prefix-except", (t_destination_prefix_except, set_destination_prefix_except));
     ("ether-type", (t_ether_type, set_ether_type)); ("traffic-type", (t_traffic_type, set_traffic_type));
     ("forwarding-class", (t_forwarding_class, set_forwarding_class));
     ("forwarding-class-except", (t_forwarding_class_except, set_forwarding_class_except));
     ("platform", (t_platform, set_platform)); ("platform-exclude", (t_platform_exclude, set_platform_exclude));
     ("dscp-match", (t_dscp_match, set_dscp_match)); ("dscp-except", (t_dscp_except, set_dscp_except));
     ("source-tag", (t_source_tag, set_source_tag)); ("destination-tag", (t_destination_tag, set_destination_tag));
     ("source-zone", (t_source_zone, set_source_zone));
     ("destination-zone", (t_destination_zone, set_destination_zone));
     ("icmp-type", (t_icmp_type, set_icmp_type))].
(** policy.py:1321-1411: the fields that hold one text *)
Definition text_field (k : string) : option (option string -> term -> term) :=
  assoc k
    [("restrict-address-family", set_restrict_address_family); ("owner", set_owner);
     ("routing-instance", set_routing_instance); ("next-interface", set_next_interface);
     ("next-hop-group", set_next_hop_group); ("counter", set_counter); ("encapsulate", set_encapsulate);
     ("decapsulate", set_decapsulate); ("port-mirror", set_port_mirror);
     ("source-interface", set_source_interface); ("destination-interface", set_destination_interface);
     ("filter-term", set_filter_term)].
(** policy.py:1339-1411: texts and lists outside ModelTerm *)
Definition extra_text (k s : string) (x : extras) : option extras :=
  match x with
  | mkExtras ll ln lp po qo tc ds fl vp pr sa ta tr ti pa ve =>
      assoc k
        [("log_name", mkExtras ll (Some (comment_value s)) lp po qo tc ds fl vp pr sa ta tr ti pa ve);
         ("loss-priority", mkExtras ll ln (Some s) po qo tc ds fl vp pr sa ta tr ti pa ve);
         ("policer", mkExtras ll ln lp (Some s) qo tc ds fl vp pr sa ta tr ti pa ve);
         ("qos", mkExtras ll ln lp po (Some s) tc ds fl vp pr sa ta tr ti pa ve);
         ("traffic-class-count", mkExtras ll ln lp po qo (Some s) ds fl vp pr sa ta tr ti pa ve);
         ("dscp-set", mkExtras ll ln lp po qo tc (Some s) fl vp pr sa ta tr ti pa ve);
         ("priority", mkExtras ll ln lp po qo tc ds fl vp (Some s) sa ta tr ti pa ve);
         ("timeout", mkExtras ll ln lp po qo tc ds fl vp pr sa ta tr (Some s) pa ve)]
  end.
(** policy.py:1203-1411: lists outside ModelTerm *)
Definition extra_list (k : string) (l : list string) (x : extras) : option extras :=
  match x with
  | mkExtras ll ln lp po qo tc ds fl vp pr sa ta tr ti pa ve =>
      assoc k
        [("source-service-accounts", mkExtras ll ln lp po qo tc ds fl vp pr (sa ++ l) ta tr ti pa ve);
         ("target-service-accounts", mkExtras ll ln lp po qo tc ds fl vp pr sa (ta ++ l) tr ti pa ve);
         ("pan-application", mkExtras ll ln lp po qo tc ds fl vp pr sa ta tr ti (pa ++ l) ve);
         ("versa-application", mkExtras ll ln lp po qo tc ds fl vp pr sa ta tr ti pa (ve ++ l))]
  end.
(** policy.py:1203-1411: lists of pairs outside ModelTerm *)
Definition extra_pairs (k : string) (l : list (string * string)) (x : extras) : option extras :=
  match x with
  | mkExtras ll ln lp po qo tc ds fl vp pr sa ta tr ti pa ve =>
      assoc k
        [("flexible-match-range", mkExtras ll ln lp po qo tc ds (fl ++ l) vp pr sa ta tr ti pa ve);
         ("target-resources", mkExtras ll ln lp po qo tc ds fl vp pr sa ta (tr ++ l) ti pa ve)]
  end.
(** policy.py:1203-1411: pairs outside ModelTerm *)
Definition extra_pair (k a b : string) (x : extras) : option extras :=
  match x with
  | mkExtras ll ln lp po qo tc ds fl vp pr sa ta tr ti pa ve =>
      assoc k
        [("log-limit", mkExtras (Some (a, b)) ln lp po qo tc ds fl vp pr sa ta tr ti pa ve);
         ("vpn", mkExtras ll ln lp po qo tc ds fl (Some (a, b)) pr sa ta tr ti pa ve)]
  end.

(** policy.py:31-33, 45 *)
Definition actions : list string := ["accept"; "count"; "deny"; "reject"; "next"; "reject-with-tcp-rst"].
(** policy.py:45 _LOGGING *)
Definition logging_values : list string := ["true"; "True"; "syslog"; "local"; "disable"; "log-both"].

(** policy.py:1408-1411 *)
Definition bad_object {A} : res A := Raise (Exn "TermObjectTypeError").
(** policy.py:1408-1411: no such attribute *)
Definition or_bad (f : extras -> option extras) (p : pterm) : res pterm :=
  match f (p_extra p) with Some x => Ok (mkP (p_raw p) x) | None => bad_object end.

Section Build.
  (** _DEFINITIONS().GetNetAddr *)
  Context (net_addr : string -> res (list net)).

  (** policy.py:1203-1411 AddObject *)
  Definition add_object (s : stmt) (p : pterm) : res pterm :=
    let k := fst s in
    match snd s with
    | VList l =>
        match address_field k with
        | Some (get, set) =>
            let! nets := mapM net_addr l in
            Ok (on_term (fun t => set (get t ++ concat nets) t) p)
        | None =>
        match list_field k with
        | Some (get, set) => Ok (on_term (fun t => set (get t ++ l) t) p)
        | None =>
            let r := p_raw p in
            if (k =? "port")%string
            then Ok (mkP (mkRaw (r_port r ++ l) (r_source_port r) (r_destination_port r) (r_term r)) (p_extra p))
            else if (k =? "source-port")%string
            then Ok (mkP (mkRaw (r_port r) (r_source_port r ++ l) (r_destination_port r) (r_term r)) (p_extra p))
            else if (k =? "destination-port")%string
            then Ok (mkP (mkRaw (r_port r) (r_source_port r) (r_destination_port r ++ l) (r_term r)) (p_extra p))
            else or_bad (extra_list k l) p
        end end
    | VText v =>
        match text_field k with
        | Some set => Ok (on_term (set (Some v)) p)
        | None =>
            if (k =? "comment")%string
            then Ok (on_term (fun t => set_comment (t_comment t ++ [comment_value v]) t) p)
            else if (k =? "next-ip")%string
            then let! nets := net_addr v in Ok (on_term (set_next_ip nets) p)
            else if (k =? "action")%string
            then if str_in v actions then Ok (on_term (fun t => set_action (t_action t ++ [v]) t) p)
                 else Raise (Exn "InvalidTermActionError")
            else if (k =? "logging")%string
            then if str_in v logging_values then Ok (on_term (fun t => set_logging (t_logging t ++ [v]) t) p)
                 else Raise (Exn "InvalidTermLoggingError")
            else if (k =? "traffic-class")%string
            then let! n := py_int v in Ok (on_term (set_traffic_class (Some n)) p)
            else if (k =? "ttl")%string
            then let! n := py_int v in Ok (on_term (set_ttl (Some n)) p)
            else or_bad (extra_text k v) p
        end
    | VInts l =>
        if (k =? "precedence")%string then Ok (on_term (set_precedence (map dec l)) p)
        else if (k =? "icmp-code")%string then
          match l with
          | [] => Raise (Exn "TypeError")
          | _ => Ok (on_term (fun t => set_icmp_code (t_icmp_code t ++ l) t) p)
          end
        else bad_object
    | VRange a b =>
        let v := match b with Some b => (a ++ "-" ++ b)%string | None => a end in
        if (k =? "packet-length")%string then Ok (on_term (set_packet_length (Some v)) p)
        else if (k =? "fragment-offset")%string then Ok (on_term (set_fragment_offset (Some v)) p)
        else if (k =? "hop-limit")%string then Ok (on_term (set_hop_limit (Some v)) p)
        else bad_object
    | VDate y m d =>
        if (k =? "expiration")%string
        then let! n := date_ordinal y m d in Ok (on_term (set_expiration (Some n)) p)
        else bad_object
    | VPair a b =>
        if (k =? "verbatim")%string
        then Ok (on_term (fun t => set_verbatim (t_verbatim t ++ [(a, unescape (strip_dq b))]) t) p)
        else or_bad (extra_pair k a b) p
    | VPairs l => or_bad (extra_pairs k l) p
    end.

  (** policy.py:1203-1411, statement by statement *)
  Fixpoint add_objects (l : list stmt) (p : pterm) : res pterm :=
    match l with
    | [] => Ok p
    | s :: l' => let! p' := add_object s p in add_objects l' p'
    end.
  (** policy.py:2215-2226, 2229-2294: a term without any statement is None, and has no name *)
  Definition build_term (t : term_text) : res pterm :=
    match snd t with
    | [] => Raise (Exn "AttributeError")
    | l => add_objects l (new_pterm (fst t))
    end.
End Build.

(** policy.py:1798-1828 Header, 1908-1913 Target *)
Record header := mkHeader {
  h_targets : list (string * list string); h_comment : list string;
  h_apply_groups : list string; h_apply_groups_except : list string }.
(** policy.py:1798-1806 *)
Definition new_header : header := mkHeader [] [] [] [].
(** policy.py:1807-1828 *)
Definition header_add (s : stmt) (h : header) : res header :=
  match h with
  | mkHeader t c a e =>
      let k := fst s in
      match snd s with
      | VList l =>
          if (k =? "target")%string
          then match l with
               | n :: o => Ok (mkHeader (t ++ [(n, o)]) c a e)
               | [] => Raise (Exn "IndexError")
               end
          else if (k =? "apply-groups")%string then Ok (mkHeader t c (a ++ l) e)
          else if (k =? "apply-groups-except")%string then Ok (mkHeader t c a (e ++ l))
          else Raise (Exn "RuntimeError")
      | VText v =>
          if (k =? "comment")%string then Ok (mkHeader t (c ++ [comment_value v]) a e) else Raise (Exn "RuntimeError")
      | _ => Raise (Exn "RuntimeError")
      end
  end.
(** policy.py:1807-1828, statement by statement *)
Fixpoint header_adds (l : list stmt) (h : header) : res header :=
  match l with
  | [] => Ok h
  | s :: l' => let! h' := header_add s h in header_adds l' h'
  end.
(** an empty header is None *)
Definition build_header (l : list stmt) : res (option header) :=
  match l with [] => Ok None | _ => let! h := header_adds l new_header in Ok (Some h) end.

(** policy.py:1830-1847 Header.platforms, FilterOptions *)
Definition platforms (h : header) : list string := map fst (h_targets h).
(** policy.py:1834-1847 *)
Definition filter_options (h : header) (platform : string) : list string :=
  match assoc platform (h_targets h) with Some o => o | None => [] end.
(** policy.py:251-262 _NeedsAddressBook *)
Definition needs_address_book (hs : list (option header)) : bool :=
  existsb (fun o => match o with
    | Some h => str_in "srx" (platforms h)
                || existsb (fun t => str_in "object-group" (filter_options h (fst t))) (h_targets h)
    | None => false end) hs.

(** A policy: its filters, each a header and translated terms (with their other attributes). *)
Definition policy : Type := list (option header * list (term * extras)).

Section Policy.
  Context (net_addr : string -> res (list net)) (fuel : nat) (services : table) (optimize shade_check : bool).

  (** policy.py:190-210, 2173-2183: the filters one after the other; [hs] are the headers so far *)
  Fixpoint build_filters (hs : list (option header)) (l : list filter_text) : res policy :=
    match l with
    | [] => Ok []
    | (h, ts) :: l' =>
        let! h := build_header h in
        let! ps := mapM (build_term net_addr) ts in
        let hs := hs ++ [h] in
        let! terms := add_filter fuel services optimize (needs_address_book hs) shade_check (map p_raw ps) in
        let! rest := build_filters hs l' in
        Ok ((h, combine terms (map p_extra ps)) :: rest)
    end.
  (** policy.py:3003-3043 ParsePolicy on a text without includes.  Without any filter the
      result of the parser is None, and has no filename.  IndexError becomes the result False
      of ParsePolicy; it is kept as an exception here. *)
  Definition parse_text (text : string) : res policy :=
    let! ts := tokenize text in
    let! l := parse_tokens ts in
    match l with
    | [] => Raise (Exn "AttributeError")
    | _ => build_filters [] l
    end.
  (** policy.py:3003-3043, with includes *)
  Definition parse_policy (fs : string -> file) (cwd base_dir data : string) : res policy :=
    let! lines := snd (preprocess fs cwd base_dir 5 data) in
    parse_text (join (String newline "") lines).
End Policy.
