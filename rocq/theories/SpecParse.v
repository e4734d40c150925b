(** The policy language as its manual describes it (README.md, policy.py:1931-2866): how
    tokens are spelled, how they may be laid out, and which sequences of tokens make a policy. *)
From Verif Require Export ModelParse SpecPolicy.
Local Open Scope string_scope.
Local Open Scope list_scope.
Local Open Scope Z_scope.

(** ** Spelling *)

(** Names of Differentiated Services code points. *)
Inductive code_name : string -> Prop :=
  | cn_be : code_name "be"
  | cn_ef : code_name "ef"
  | cn_cs d : In d ["0"; "1"; "2"; "3"; "4"; "5"; "6"; "7"] -> code_name ("cs" ++ d)
  | cn_af x y : In x ["1"; "2"; "3"; "4"] -> In y ["1"; "2"; "3"] -> code_name ("af" ++ x ++ y)
  | cn_bits w : String.length w = 6%nat -> forall_char (fun c => Ascii.eqb c "0" || Ascii.eqb c "1") w = true ->
      code_name ("b" ++ w).

Definition starts (f : ascii -> bool) (s : string) : Prop := exists c r, s = String c r /\ f c = true.
(** letters, digits and underscores; what else a name may contain after its first character *)
Definition word_char (c : ascii) : bool := is_alpha c || is_digit c || Ascii.eqb c "_".
Definition name_char (c : ascii) : bool :=
  word_char c || Ascii.eqb c "-" || Ascii.eqb c "+" || Ascii.eqb c "." || Ascii.eqb c "@" || Ascii.eqb c "/".
(** A name: no keyword, not a number, and not beginning with the name of a code point or of a
    range of code points that stands by itself. *)
Definition is_name (w : string) : Prop :=
  starts (fun c => word_char c && negb (is_digit c)) w /\ forall_char name_char w = true /\
  ~ In w ("hex" :: reserved) /\
  (forall c r, code_name c -> w = (c ++ r)%string ->
     starts (fun d => word_char d || Ascii.eqb d "-") r) /\
  (forall c d r, code_name c -> code_name d -> w = (c ++ "-" ++ d ++ r)%string -> starts word_char r).
Definition hex_digit (c : ascii) : bool :=
  has_char c "0123456789abcdefABCDEF".

(** Text between quotes with quotes escaped by a backslash. *)
Inductive escapes : string -> nat -> Prop :=
  | esc_nil : escapes "" 0
  | esc_char c s n : c <> """"%char -> c <> "\"%char -> escapes s n -> escapes (String c s) n
  | esc_quote s n : escapes s n -> escapes (String "\" (String """" s)) (S n).

Definition in_quotes (s : string) : string := ("""" ++ s ++ """")%string.
Fixpoint ends_with (c : ascii) (s : string) : bool :=
  match s with
  | EmptyString => false
  | String d EmptyString => Ascii.eqb d c
  | String _ s' => ends_with c s'
  end.

(** How a token is written. *)
Inductive spelled : token -> string -> Prop :=
  | sp_kw w : In w reserved -> spelled (Kw w) w
  | sp_str w : is_name w -> spelled (Str w) w
  | sp_int w : digits w = true -> spelled (Int w) w
  | sp_hex h : h <> "" -> forall_char hex_digit h = true -> spelled (Hex ("0x" ++ h)) ("0x" ++ h)
  | sp_dscp c : code_name c -> spelled (Dscp c) c
  | sp_range c d : code_name c -> code_name d -> spelled (DscpRange (c ++ "-" ++ d)) (c ++ "-" ++ d)
  | sp_dq s : has_char """" s = false -> ends_with "\" s = false -> spelled (DQ (in_quotes s)) (in_quotes s)
  | sp_esc s n : escapes s (S n) -> spelled (Esc (in_quotes s)) (in_quotes s)
  | sp_colon : spelled Colon ":" | sp_lbrace : spelled LBrace "{" | sp_rbrace : spelled RBrace "}"
  | sp_comma : spelled Comma "," | sp_dash : spelled Dash "-" | sp_slash : spelled Slash "/"
  | sp_lsquare : spelled LSquare "[" | sp_rsquare : spelled RSquare "]"
  | sp_lparen : spelled LParen "(" | sp_rparen : spelled RParen ")".

(** ** Layout *)

(** Blanks, line ends and comments. *)
Inductive gap : string -> Prop :=
  | gap_nil : gap ""
  | gap_blank c g : In c [" "; "009"; "010"]%char -> gap g -> gap (String c g)
  | gap_comment t g : has_char "010" t = false -> gap g -> gap ("#" ++ t ++ String "010" g).

(** What may follow a token directly. *)
Definition may_follow (t : token) (rest : string) : Prop :=
  match t with
  | Kw _ | Str _ => ~ starts name_char rest
  | Int _ | Hex _ | DscpRange _ => ~ starts word_char rest
  | Dscp _ => ~ starts (fun d => word_char d || Ascii.eqb d "-") rest
  | _ => True
  end.

(** The text consists of these tokens, in this order, with gaps between them. *)
Inductive laid_out : list token -> string -> Prop :=
  | lo_end g : gap g -> laid_out [] g
  | lo_token g t w ts rest : gap g -> spelled t w -> may_follow t rest -> laid_out ts rest ->
      laid_out (t :: ts) (g ++ w ++ rest).

(** ** Grammar *)

(** The keywords by the kind of value they take (policy.py:2310-2762). *)
Definition takes (sh : shape) : list string :=
  match sh with
  | Strings =>
      ["source-address"; "destination-address"; "address"; "source-exclude"; "destination-exclude";
       "address-exclude"; "source-port"; "destination-port"; "port"; "protocol-except"; "option";
       "source-prefix"; "source-prefix-except"; "destination-prefix"; "destination-prefix-except";
       "source-tag"; "destination-tag"; "source-zone"; "destination-zone"; "platform"; "platform-exclude";
       "ether-type"; "traffic-type"; "icmp-type"; "forwarding-class"; "forwarding-class-except";
       "source-service-accounts"; "target-service-accounts"; "pan-application"; "versa-application"]
  | OneString =>
      ["action"; "logging"; "owner"; "counter"; "traffic-class-count"; "policer"; "qos"; "loss-priority";
       "routing-instance"; "restrict-address-family"; "next-ip"; "next-interface"; "next-hop-group";
       "encapsulate"; "decapsulate"; "port-mirror"; "source-interface"; "destination-interface"; "filter-term"]
  | OneInt => ["ttl"; "timeout"; "priority"; "traffic-class"]
  | Mixed => ["protocol"]
  | Dscps => ["dscp-match"; "dscp-except"]
  | OneDscp => ["dscp-set"]
  | Quoted => ["comment"; "log_name"]
  | Ints => ["precedence"; "icmp-code"]
  | Range => ["packet-length"; "fragment-offset"; "hop-limit"]
  | Date => ["expiration"]
  | Limit => ["log-limit"]
  | Verbatim => ["verbatim"]
  | Vpn => ["vpn"]
  | Tuples => ["target-resources"]
  | Flex => ["flexible-match-range"]
  end.
Definition header_takes (sh : shape) : list string :=
  match sh with
  | Mixed => ["target"]
  | Quoted => ["comment"]
  | Strings => ["apply-groups"; "apply-groups-except"]
  | _ => []
  end.

(** lists of STRING, INTEGER and so on, by the type of their tokens *)
Definition str_or_int (t : token) (s : string) : Prop := t = Str s \/ t = Int s.
Definition dscp_or_int (t : token) (s : string) : Prop := t = Dscp s \/ t = DscpRange s \/ t = Int s.
Definition tuple_tokens (p : string * string) : list token := [LParen; Str (fst p); Comma; Str (snd p); RParen].
(** (a, b) (c, d), ... with or without commas *)
Inductive tuple_list : list token -> list (string * string) -> Prop :=
  | tl_one p : tuple_list (tuple_tokens p) [p]
  | tl_more p ts l : tuple_list ts l -> tuple_list (tuple_tokens p ++ ts) (p :: l)
  | tl_comma p ts l : tuple_list ts l -> tuple_list (tuple_tokens p ++ Comma :: ts) (p :: l).
(** the pairs flexible-match-range accepts *)
Definition flex_ok (k v : string) : Prop :=
  In k ["range"; "range-except"; "flexible-range-name"] \/
  (k = "match-start" /\ In v ["layer-3"; "layer-4"; "payload"]) \/
  exists n, numeral_value v = Some n /\
    ((k = "bit-length" /\ n <= 32) \/ (k = "bit-offset" /\ n <= 7) \/ (k = "byte-offset" /\ n <= 255)).

(** The tokens of a value. *)
Inductive value_tokens : shape -> list token -> value -> Prop :=
  | vt_strings l : l <> [] -> value_tokens Strings (map Str l) (VList l)
  | vt_mixed ts l : l <> [] -> Forall2 str_or_int ts l -> value_tokens Mixed ts (VList l)
  | vt_dscps ts l : l <> [] -> Forall2 dscp_or_int ts l -> value_tokens Dscps ts (VList l)
  | vt_string s : value_tokens OneString [Str s] (VText s)
  | vt_int s : value_tokens OneInt [Int s] (VText s)
  | vt_dscp s : value_tokens OneDscp [Dscp s] (VText s)
  | vt_dscp_int s : value_tokens OneDscp [Int s] (VText s)
  | vt_quoted s : value_tokens Quoted [DQ s] (VText s)
  | vt_ints ws l : Forall2 (fun w n => numeral_value w = Some n) ws l -> value_tokens Ints (map Int ws) (VInts l)
  | vt_number a : value_tokens Range [Int a] (VRange a None)
  | vt_range a b : value_tokens Range [Int a; Dash; Int b] (VRange a (Some b))
  | vt_date a b c y m d :
      numeral_value a = Some y -> numeral_value b = Some m -> numeral_value c = Some d ->
      value_tokens Date [Int a; Dash; Int b; Dash; Int c] (VDate y m d)
  | vt_limit a b : value_tokens Limit [Int a; Slash; Str b] (VPair a b)
  | vt_verbatim a b : value_tokens Verbatim [Str a; DQ b] (VPair a b)
  | vt_escaped a b : value_tokens Verbatim [Str a; Esc b] (VPair a b)
  | vt_vpn a b : value_tokens Vpn [Str a; Str b] (VPair a b)
  | vt_vpn1 a : value_tokens Vpn [Str a] (VPair a "")
  | vt_tuples ts l : tuple_list ts l -> value_tokens Tuples ts (VPairs l)
  | vt_bracketed ts l : tuple_list ts l -> value_tokens Tuples (LSquare :: ts ++ [RSquare]) (VPairs l)
  | vt_flex k t v : flex_ok k v -> t = Hex v \/ t = Int v \/ t = Str v ->
      value_tokens Flex [Str k; t] (VPairs [(k, v)]).

(** keyword:: value *)
Inductive stmt_tokens (grammar : shape -> list string) : list token -> stmt -> Prop :=
  | st_intro k sh ts v : In k (grammar sh) -> value_tokens sh ts v ->
      stmt_tokens grammar (Kw k :: Colon :: Colon :: ts) (k, v).
Inductive stmts_tokens (grammar : shape -> list string) : list token -> list stmt -> Prop :=
  | ss_nil : stmts_tokens grammar [] []
  | ss_cons ts s ts' l : stmt_tokens grammar ts s -> stmts_tokens grammar ts' l ->
      stmts_tokens grammar (ts ++ ts') (s :: l).
(** term NAME { statements } *)
Inductive terms_tokens : list token -> list term_text -> Prop :=
  | tt_nil : terms_tokens [] []
  | tt_cons name ts l ts' r : stmts_tokens takes ts l -> terms_tokens ts' r ->
      terms_tokens (Kw "term" :: Str name :: LBrace :: ts ++ RBrace :: ts') ((name, l) :: r).
(** header { statements } followed by its terms *)
Inductive policy_tokens : list token -> list filter_text -> Prop :=
  | pt_nil : policy_tokens [] []
  | pt_cons hs h ts l ts' r : stmts_tokens header_takes hs h -> terms_tokens ts l -> policy_tokens ts' r ->
      policy_tokens (Kw "header" :: LBrace :: hs ++ RBrace :: ts ++ ts') ((h, l) :: r).
