(** Model of the lexical analysis of policy files, capirca/lib/policy.py:2018-2167.

    PLY tries the token functions in the order of their definition (comment, escaped string,
    quoted string, newline, DSCP range, DSCP, hexadecimal number, number, word), then the
    bracket tokens, then the literal characters; blanks and tabs are skipped first; a
    character nothing matches is reported on the standard output and skipped
    (policy.py:2134-2136).  The regular expressions are written out as scanners; none of
    them needs to backtrack.  Texts are ASCII; line numbers are left out. *)
From Verif Require Export ModelPolicy ModelInclude.
Local Open Scope string_scope.
Local Open Scope list_scope.

(** policy.py:2025-2101: the reserved words.  'hex' is left out, see [word_token]. *)
Definition reserved : list string :=
  ["action"; "address"; "address-exclude"; "restrict-address-family"; "comment"; "counter"; "decapsulate";
   "destination-address"; "destination-exclude"; "destination-interface"; "destination-prefix";
   "destination-prefix-except"; "destination-port"; "destination-tag"; "destination-zone"; "dscp-except";
   "dscp-match"; "dscp-set"; "encapsulate"; "ether-type"; "expiration"; "filter-term";
   "flexible-match-range"; "forwarding-class"; "forwarding-class-except"; "fragment-offset";
   "hop-limit"; "apply-groups"; "apply-groups-except"; "header"; "icmp-type"; "icmp-code"; "logging";
   "log-limit"; "log_name"; "loss-priority"; "next-ip"; "next-interface"; "next-hop-group"; "option";
   "owner"; "packet-length"; "platform"; "platform-exclude"; "policer"; "port"; "port-mirror";
   "precedence"; "priority"; "protocol"; "protocol-except"; "qos"; "pan-application";
   "routing-instance"; "source-address"; "source-exclude"; "source-interface";
   "source-service-accounts"; "source-prefix"; "source-prefix-except"; "source-port"; "source-tag";
   "source-zone"; "target"; "target-resources"; "target-service-accounts"; "term"; "timeout";
   "traffic-class"; "traffic-class-count"; "traffic-type"; "ttl"; "verbatim"; "versa-application"; "vpn"].

(** A token with its value.  [Kw w] is a reserved word, of type reserved[w]; the last ones
    are the literal characters and LSQUARE, RSQUARE, LPAREN, RPAREN. *)
Inductive token :=
  | Kw (w : string) | Str (s : string) | Int (s : string) | Hex (s : string)
  | Dscp (s : string) | DscpRange (s : string) | DQ (s : string) | Esc (s : string)
  | Colon | LBrace | RBrace | Comma | Dash | Slash | LSquare | RSquare | LParen | RParen.

(** the longest prefix of characters satisfying [f], and what follows *)
Fixpoint span (f : ascii -> bool) (s : string) : string * string :=
  match s with
  | EmptyString => ("", "")
  | String c s' => if f c then let r := span f s' in (String c (fst r), snd r) else ("", s)
  end.

(** the double quote of policy.py:2104-2120 *)
Definition quote : ascii := """".
(** the escape of policy.py:2117-2120 *)
Definition backslash : ascii := "\".
(** policy.py:2129-2131 *)
Definition newline : ascii := "010".

(** policy.py:2117-2120: what follows the opening quote of an ESCAPEDSTRING; the text up to
    the closing quote, and the rest.  [seen] says that an escaped quote has been read. *)
Fixpoint escaped (seen : bool) (s : string) : option (string * string) :=
  match s with
  | EmptyString => None
  | String c s' =>
      if Ascii.eqb c quote then if seen then Some ("", s') else None
      else if Ascii.eqb c backslash then
        match s' with
        | String d s'' =>
            if Ascii.eqb d quote then
              option_map (fun r => (String c (String d (fst r)), snd r)) (escaped true s'')
            else None
        | EmptyString => None
        end
      else option_map (fun r => (String c (fst r), snd r)) (escaped seen s')
  end.

(** policy.py:2141, 2148: one DSCP name at the head of the text *)
Definition is_bit (c : ascii) : bool := Ascii.eqb c "0" || Ascii.eqb c "1".
(** a class of characters in a pattern (policy.py:2139-2150) *)
Definition char_between (a b : ascii) (c : ascii) : bool :=
  (nat_of_ascii a <=? nat_of_ascii c)%nat && (nat_of_ascii c <=? nat_of_ascii b)%nat.
(** policy.py:2141, 2148 *)
Definition dscp (s : string) : option (string * string) :=
  match s with
  | String a (String b r) =>
      let is (x y : ascii) := Ascii.eqb a x && Ascii.eqb b y in
      if is "b" "e" || is "e" "f" then Some (String a (String b ""), r)
      else
        match r with
        | String c r =>
            if is "c" "s" && char_between "0" "7" c then Some (String a (String b (String c "")), r)
            else
              match r with
              | String d r =>
                  if is "a" "f" && char_between "1" "4" c && char_between "1" "3" d
                  then Some (String a (String b (String c (String d ""))), r)
                  else
                    match r with
                    | String e (String f (String g r)) =>
                        if Ascii.eqb a "b" && is_bit b && is_bit c && is_bit d && is_bit e && is_bit f && is_bit g
                        then Some (String a (String b (String c (String d (String e (String f (String g "")))))), r)
                        else None
                    | _ => None
                    end
              | EmptyString => None
              end
        | EmptyString => None
        end
  | _ => None
  end%char.
(** the next character is no word character (and no dash) *)
Definition head_is (f : ascii -> bool) (s : string) : bool :=
  match s with String c _ => f c | EmptyString => false end.
(** policy.py:2139-2143 *)
Definition dscp_range (s : string) : option (string * string) :=
  match dscp s with
  | Some (a, String c r) =>
      if Ascii.eqb c "-" then
        match dscp r with
        | Some (b, r') => if head_is is_word r' then None else Some (a ++ "-" ++ b, r')%string
        | None => None
        end
      else None
  | _ => None
  end.
(** policy.py:2146-2150 *)
Definition dscp_word (s : string) : option (string * string) :=
  match dscp s with
  | Some (a, r) => if head_is word_or_dash r then None else Some (a, r)
  | None => None
  end.

(** policy.py:2163-2167: the characters of a word after its first one *)
Definition in_word (c : ascii) : bool :=
  is_word c || Ascii.eqb c "-" || Ascii.eqb c "+" || Ascii.eqb c "." || Ascii.eqb c "@" || Ascii.eqb c "/".
(** policy.py:2153-2155 *)
Definition is_hex_digit (c : ascii) : bool :=
  is_digit c || char_between "a" "f" c || char_between "A" "F" c.
(** policy.py:2153-2155 *)
Definition hex (c : ascii) (s : string) : option (string * string) :=
  match s with
  | String x s' =>
      if Ascii.eqb c "0" && Ascii.eqb x "x" && head_is is_hex_digit s'
      then let r := span is_hex_digit s' in Some (String c (String x (fst r)), snd r)
      else None
  | EmptyString => None
  end.
(** policy.py:2018-2023 *)
Definition punct (c : ascii) : option token :=
  if Ascii.eqb c ":" then Some Colon else if Ascii.eqb c "{" then Some LBrace
  else if Ascii.eqb c "}" then Some RBrace else if Ascii.eqb c "," then Some Comma
  else if Ascii.eqb c "-" then Some Dash else if Ascii.eqb c "/" then Some Slash
  else if Ascii.eqb c "[" then Some LSquare else if Ascii.eqb c "]" then Some RSquare
  else if Ascii.eqb c "(" then Some LParen else if Ascii.eqb c ")" then Some RParen
  else None.

(** policy.py:2163-2167; the reserved word hex has the type of a hexadecimal number *)
Definition word_token (w : string) : token :=
  if (w =? "hex")%string then Hex w else if str_in w reserved then Kw w else Str w.

(** the word boundary of these patterns (policy.py:2139-2160) *)
Definition ends_word (s : string) : bool :=
  match List.rev (list_ascii_of_string s) with c :: _ => is_word c | [] => false end.

(** One round of the lexer on a text that is not empty: the token read, if any, the text
    consumed and the rest.  [prev] says that the character before is a word character, for
    the \b of the DSCP expressions. *)
Definition lex_step (prev : bool) (c : ascii) (s : string) : option token * string * string :=
  let skip := (None, String c "", s) in
  let all := String c s in
  if Ascii.eqb c " " || Ascii.eqb c "009" then skip
  else if Ascii.eqb c "#" then
    let r := span (fun d => negb (Ascii.eqb d newline)) s in (None, String c (fst r), snd r)
  else if Ascii.eqb c quote then
    match escaped false s with
    | Some (b, r) => let v := String c (b ++ String quote "") in (Some (Esc v), v, r)
    | None =>
        if has_char quote s then
          let v := String c (before_char quote s ++ String quote "") in
          (Some (DQ v), v, after_char quote s)
        else skip
    end
  else if Ascii.eqb c newline then skip
  else
    match (if prev then None else dscp_range all) with
    | Some (v, r) => (Some (DscpRange v), v, r)
    | None =>
    match (if prev then None else dscp_word all) with
    | Some (v, r) => (Some (Dscp v), v, r)
    | None =>
        match hex c s with
        | Some (v, r) => (Some (Hex v), v, r)
        | None =>
        if is_digit c then let r := span is_digit s in
             let v := String c (fst r) in (Some (Int v), v, snd r)
        else if is_word c then let r := span in_word s in
             let v := String c (fst r) in (Some (word_token v), v, snd r)
        else (punct c, String c "", s)
    end end end.

(** The tokens of a text; [fuel] bounds the number of rounds. *)
Fixpoint lex (fuel : nat) (prev : bool) (s : string) : res (list token) :=
  match s with
  | EmptyString => Ok []
  | String c s' =>
      match fuel with
      | O => Raise OutOfFuel
      | S n =>
          let r := lex_step prev c s' in
          let! ts := lex n (ends_word (snd (fst r))) (snd r) in
          Ok (match fst (fst r) with Some t => t :: ts | None => ts end)
      end
  end.
(** policy.py:2018-2167 *)
Definition tokenize (s : string) : res (list token) := lex (String.length s) false s.
