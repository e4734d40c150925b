(** Properties C65-C70: the policy language. *)
From Coq Require Import Lia ZifyBool ZifyNat.
From Verif Require Import SpecSaid BaseFacts PortNameProofs LexProofs ParseProofs BuildProofs SaidProofs SaidProofs2 QuoteProofs NamingProofs LoadProofs.
Local Open Scope list_scope.
Local Open Scope string_scope.
Local Open Scope Z_scope.

(** ** A text laid out by hand *)

Ltac lay := repeat first
  [ apply gap_nil | apply gap_blank; [cbn; tauto|]
  | match goal with |- gap (String "#" ?s) => idtac end; eapply (gap_comment " web"); [reflexivity|] ].
Ltac not_code :=
  intros; repeat match goal with H : code_name _ |- _ => inversion H; subst; clear H end;
  repeat match goal with H : In _ _ |- _ => cbn in H; repeat (destruct H as [<-|H]; [|]); try destruct H end;
  match goal with E : _ = _ :> string |- _ => try discriminate E end.
Ltac sp_word := first
  [ apply sp_kw; apply str_in_spec; reflexivity
  | apply sp_str; split; [eexists _, _; split; reflexivity|]; split; [reflexivity|];
    split; [intros X; apply str_in_spec in X; discriminate X|]; split; not_code ].
Ltac follow := first [exact Logic.I | intros (x & y & E & F); first [discriminate E | injection E as <- <-; discriminate F]].
Definition demo_text : string := "header {
  target:: iptables INPUT
}
term t {
  protocol:: tcp # web
  source-address:: OFFICE
  destination-port:: HTTP
  action:: accept
}
".
Definition demo_tokens : list token :=
  [Kw "header"; LBrace; Kw "target"; Colon; Colon; Str "iptables"; Str "INPUT"; RBrace; Kw "term"; Str "t"; LBrace; Kw "protocol"; Colon; Colon; Str "tcp"; Kw "source-address"; Colon; Colon; Str "OFFICE"; Kw "destination-port"; Colon; Colon; Str "HTTP"; Kw "action"; Colon; Colon; Str "accept"; RBrace].
Lemma demo_laid_out : laid_out demo_tokens demo_text.
Proof.
  unfold demo_tokens, demo_text.
  apply (lo_token "" (Kw "header") "header" _ " {
  target:: iptables INPUT
}
term t {
  protocol:: tcp # web
  source-address:: OFFICE
  destination-port:: HTTP
  action:: accept
}
"); [lay|sp_word|follow|].
  apply (lo_token " " LBrace "{" _ "
  target:: iptables INPUT
}
term t {
  protocol:: tcp # web
  source-address:: OFFICE
  destination-port:: HTTP
  action:: accept
}
"); [lay|constructor|follow|].
  apply (lo_token "
  " (Kw "target") "target" _ ":: iptables INPUT
}
term t {
  protocol:: tcp # web
  source-address:: OFFICE
  destination-port:: HTTP
  action:: accept
}
"); [lay|sp_word|follow|].
  apply (lo_token "" Colon ":" _ ": iptables INPUT
}
term t {
  protocol:: tcp # web
  source-address:: OFFICE
  destination-port:: HTTP
  action:: accept
}
"); [lay|constructor|follow|].
  apply (lo_token "" Colon ":" _ " iptables INPUT
}
term t {
  protocol:: tcp # web
  source-address:: OFFICE
  destination-port:: HTTP
  action:: accept
}
"); [lay|constructor|follow|].
  apply (lo_token " " (Str "iptables") "iptables" _ " INPUT
}
term t {
  protocol:: tcp # web
  source-address:: OFFICE
  destination-port:: HTTP
  action:: accept
}
"); [lay|sp_word|follow|].
  apply (lo_token " " (Str "INPUT") "INPUT" _ "
}
term t {
  protocol:: tcp # web
  source-address:: OFFICE
  destination-port:: HTTP
  action:: accept
}
"); [lay|sp_word|follow|].
  apply (lo_token "
" RBrace "}" _ "
term t {
  protocol:: tcp # web
  source-address:: OFFICE
  destination-port:: HTTP
  action:: accept
}
"); [lay|constructor|follow|].
  apply (lo_token "
" (Kw "term") "term" _ " t {
  protocol:: tcp # web
  source-address:: OFFICE
  destination-port:: HTTP
  action:: accept
}
"); [lay|sp_word|follow|].
  apply (lo_token " " (Str "t") "t" _ " {
  protocol:: tcp # web
  source-address:: OFFICE
  destination-port:: HTTP
  action:: accept
}
"); [lay|sp_word|follow|].
  apply (lo_token " " LBrace "{" _ "
  protocol:: tcp # web
  source-address:: OFFICE
  destination-port:: HTTP
  action:: accept
}
"); [lay|constructor|follow|].
  apply (lo_token "
  " (Kw "protocol") "protocol" _ ":: tcp # web
  source-address:: OFFICE
  destination-port:: HTTP
  action:: accept
}
"); [lay|sp_word|follow|].
  apply (lo_token "" Colon ":" _ ": tcp # web
  source-address:: OFFICE
  destination-port:: HTTP
  action:: accept
}
"); [lay|constructor|follow|].
  apply (lo_token "" Colon ":" _ " tcp # web
  source-address:: OFFICE
  destination-port:: HTTP
  action:: accept
}
"); [lay|constructor|follow|].
  apply (lo_token " " (Str "tcp") "tcp" _ " # web
  source-address:: OFFICE
  destination-port:: HTTP
  action:: accept
}
"); [lay|sp_word|follow|].
  apply (lo_token " # web
  " (Kw "source-address") "source-address" _ ":: OFFICE
  destination-port:: HTTP
  action:: accept
}
"); [lay|sp_word|follow|].
  apply (lo_token "" Colon ":" _ ": OFFICE
  destination-port:: HTTP
  action:: accept
}
"); [lay|constructor|follow|].
  apply (lo_token "" Colon ":" _ " OFFICE
  destination-port:: HTTP
  action:: accept
}
"); [lay|constructor|follow|].
  apply (lo_token " " (Str "OFFICE") "OFFICE" _ "
  destination-port:: HTTP
  action:: accept
}
"); [lay|sp_word|follow|].
  apply (lo_token "
  " (Kw "destination-port") "destination-port" _ ":: HTTP
  action:: accept
}
"); [lay|sp_word|follow|].
  apply (lo_token "" Colon ":" _ ": HTTP
  action:: accept
}
"); [lay|constructor|follow|].
  apply (lo_token "" Colon ":" _ " HTTP
  action:: accept
}
"); [lay|constructor|follow|].
  apply (lo_token " " (Str "HTTP") "HTTP" _ "
  action:: accept
}
"); [lay|sp_word|follow|].
  apply (lo_token "
  " (Kw "action") "action" _ ":: accept
}
"); [lay|sp_word|follow|].
  apply (lo_token "" Colon ":" _ ": accept
}
"); [lay|constructor|follow|].
  apply (lo_token "" Colon ":" _ " accept
}
"); [lay|constructor|follow|].
  apply (lo_token " " (Str "accept") "accept" _ "
}
"); [lay|sp_word|follow|].
  apply (lo_token "
" RBrace "}" _ "
"); [lay|constructor|follow|].
  apply lo_end. lay.
Qed.

(** The statements of that text. *)
Definition demo_filters : list filter_text :=
  [([("target", VList ["iptables"; "INPUT"])],
    [("t", [("protocol", VList ["tcp"]); ("source-address", VList ["OFFICE"]);
            ("destination-port", VList ["HTTP"]); ("action", VText "accept")])])].

(** ** C65 *)
(** However the tokens are laid out, the text is read as these tokens. *)
Theorem C65_layout_is_free :
  forall ts text, laid_out ts text -> tokenize text = Ok ts.
Proof. exact tokenize_laid_out. Qed.
Print Assumptions C65_layout_is_free.

(** Two layouts of the same tokens give the same policy. *)
Theorem C65_layouts_agree :
  forall lookup fuel services optimize shade ts a b, laid_out ts a -> laid_out ts b ->
    parse_text lookup fuel services optimize shade a = parse_text lookup fuel services optimize shade b.
Proof. intros lookup fuel services o s ts a b A B. unfold parse_text. now rewrite (tokenize_laid_out _ _ A), (tokenize_laid_out _ _ B). Qed.
Print Assumptions C65_layouts_agree.

Example C65_example : laid_out demo_tokens demo_text /\ tokenize demo_text = Ok demo_tokens.
Proof. split; [exact demo_laid_out|vm_compute; reflexivity]. Qed.

(** ** C66 *)
(** The parser accepts exactly the token sequences of the grammar, and reads them as the
    grammar says. *)
Theorem C66_grammar_exact :
  forall ts fs, parse_tokens ts = Ok fs <-> policy_tokens ts fs.
Proof. exact parse_tokens_spec. Qed.
Print Assumptions C66_grammar_exact.

Theorem C66_grammar_unambiguous :
  forall ts fs gs, policy_tokens ts fs -> policy_tokens ts gs -> fs = gs.
Proof. intros ts fs gs A B. apply parse_tokens_spec in A, B. rewrite A in B. now injection B. Qed.
Print Assumptions C66_grammar_unambiguous.

(** Reading the tokens never fails. *)
Theorem C66_every_text_has_tokens : forall text, exists ts, tokenize text = Ok ts.
Proof. exact tokenize_total. Qed.
Print Assumptions C66_every_text_has_tokens.

(** Characters that belong to no token are passed over: a policy with a stray character is
    accepted, as if the character were not there. *)
Theorem C66_stray_characters_refuted :
  exists text, parse_text (fun _ => Raise (Exn "UndefinedAddressError")) 5 [] true false text =
      parse_text (fun _ => Raise (Exn "UndefinedAddressError")) 5 [] true false
        "header { target:: iptables } term t { protocol:: tcp action:: accept }"
    /\ text = "header { target:: iptables } term t { protocol:: !tcp; action:: accept }"
    /\ exists p, parse_text (fun _ => Raise (Exn "UndefinedAddressError")) 5 [] true false text = Ok p.
Proof. eexists. split; [|split; [reflexivity|]]; [vm_compute; reflexivity|]. eexists. vm_compute. reflexivity. Qed.
Print Assumptions C66_stray_characters_refuted.

Example C66_example : policy_tokens demo_tokens demo_filters /\ ~ exists fs, policy_tokens (tl demo_tokens) fs.
Proof.
  split; [apply C66_grammar_exact; vm_compute; reflexivity|].
  intros [fs H]. apply C66_grammar_exact in H. vm_compute in H. discriminate H.
Qed.

(** ** C67 *)
(** Every value of a keyword that may be repeated counts, in the order of the text. *)
Theorem C67_repeated_keywords_accumulate :
  forall lookup name l p k get, build_term lookup (name, l) = Ok p -> In (k, get) collected ->
    get p = words_said k l.
Proof. intros lookup name l p k get B. exact (built_collected lookup name l p B k get). Qed.
Print Assumptions C67_repeated_keywords_accumulate.

(** Of a keyword that holds one value the last one counts. *)
Theorem C67_single_keywords_last_wins :
  forall lookup name l p k get, build_term lookup (name, l) = Ok p -> In (k, get) settled ->
    get p = last_of (words_said k l).
Proof. intros lookup name l p k get B. exact (built_settled lookup name l p B k get). Qed.
Print Assumptions C67_single_keywords_last_wins.

(** Address keywords collect the networks their names stand for. *)
Theorem C67_addresses_looked_up :
  forall lookup name l p k get, build_term lookup (name, l) = Ok p -> In (k, get) networks ->
    exists nets, Forall2 (fun w ns => lookup w = Ok ns) (words_said k l) nets /\ get p = concat nets.
Proof.
  intros lookup name l p k get B H. destruct (built_networks lookup name l p B k get H) as (nets & E & G).
  exists nets. split; [now apply mapM_forall2'|exact G].
Qed.
Print Assumptions C67_addresses_looked_up.

(** The keywords with values of their own kind. *)
Theorem C67_other_keywords :
  forall lookup name l p, build_term lookup (name, l) = Ok p ->
    t_name (p_term p) = name /\
    t_comment (p_term p) = map comment_value (words_said "comment" l) /\
    t_verbatim (p_term p) = map (fun ab => (fst ab, unescape (strip_dq (snd ab)))) (pairs_said "verbatim" l) /\
    t_icmp_code (p_term p) = numbers_said "icmp-code" l /\
    t_precedence (p_term p) = match last_of (said "precedence" l) with Some v => map dec (value_numbers v) | None => [] end /\
    x_log_name (p_extra p) = option_map comment_value (last_of (words_said "log_name" l)) /\
    (forall k get, In (k, get) paired -> get p = pairs_said k l) /\
    (forall k get, In (k, get) one_pair -> get p = last_of (pairs_said k l)) /\
    match last_of (words_said "ttl" l) with
    | Some w => exists n, numeral_value w = Some n /\ t_ttl (p_term p) = Some n
    | None => t_ttl (p_term p) = None
    end /\
    match last_of (words_said "traffic-class" l) with
    | Some w => exists n, numeral_value w = Some n /\ t_traffic_class (p_term p) = Some n
    | None => t_traffic_class (p_term p) = None
    end /\
    match last_of (words_said "next-ip" l) with
    | Some w => lookup w = Ok (t_next_ip (p_term p))
    | None => t_next_ip (p_term p) = []
    end.
Proof.
  intros lookup name l p B.
  split; [exact (built_name lookup name l p B)|]. split; [exact (built_comment lookup name l p B)|].
  split; [exact (built_verbatim lookup name l p B)|]. split; [exact (built_icmp_code lookup name l p B)|].
  split; [exact (built_precedence lookup name l p B)|]. split; [exact (built_log_name lookup name l p B)|].
  split; [exact (built_paired lookup name l p B)|]. split; [exact (built_one_pair lookup name l p B)|].
  split; [exact (built_ttl lookup name l p B)|]. split; [exact (built_traffic_class lookup name l p B)|].
  exact (built_next_ip lookup name l p B).
Qed.
Print Assumptions C67_other_keywords.

(** A grammatical term is accepted iff it has statements and each of them fits. *)
Theorem C67_accepted_iff :
  forall lookup ts name l, stmts_tokens takes ts l ->
    ((exists p, build_term lookup (name, l) = Ok p) <-> l <> [] /\ Forall (fits lookup) l).
Proof. exact build_fits. Qed.
Print Assumptions C67_accepted_iff.

Theorem C67_header_collects :
  forall ts l, stmts_tokens header_takes ts l -> exists h, build_header l = Ok h /\ header_reads l h.
Proof. intros ts l H. destruct (header_fits _ _ H) as [h E]. exists h. split; [exact E|now apply build_header_spec]. Qed.
Print Assumptions C67_header_collects.

Definition demo_net : net := mkNet V4 167772160 8 "" "OFFICE" "OFFICE".
Definition demo_lookup (n : string) : res (list net) :=
  if String.eqb n "OFFICE" then Ok [demo_net]
  else if String.eqb n "NOTHING" then Ok []
  else Raise (Exn "UndefinedAddressError").
Example C67_example :
  let l := [("protocol", VList ["tcp"; "udp"]); ("source-address", VList ["OFFICE"]); ("owner", VText "ann");
            ("protocol", VList ["sctp"]); ("owner", VText "bob"); ("action", VText "deny")] in
  exists p, build_term demo_lookup ("t", l) = Ok p /\ t_protocol (p_term p) = ["tcp"; "udp"; "sctp"]%list /\
    t_owner (p_term p) = Some "bob" /\ t_source_address (p_term p) = [demo_net] /\
    build_term demo_lookup ("t", [("source-address", VList ["HOME"])]) = Raise (Exn "UndefinedAddressError").
Proof. eexists. split; [vm_compute; reflexivity|]. repeat split; vm_compute; reflexivity. Qed.

(** ** C68 *)
(** Every term of a parsed text carries the name, action, logging, options, comments and
    expiration of its text, and matches exactly the packets its text describes. *)
Theorem C68_parsed_text_means_what_it_says :
  forall lookup svc net st fuel optimize ts text fs pol, load svc net = Ok st ->
    (forall n nets, lookup n = Ok nets -> valid_list nets) ->
    laid_out ts text -> policy_tokens ts fs ->
    parse_text lookup fuel (n_services st) optimize false text = Ok pol ->
    Forall2 (fun f g => header_reads (fst f) (fst g) /\
                        Forall2 (term_reads lookup (n_services st)) (snd f) (snd g)) fs pol.
Proof.
  intros lookup svc net st fuel optimize ts text fs pol L V H1 H2 H3.
  exact (parse_text_reads lookup fuel (n_services st) optimize V (proj1 (load_wf _ _ _ L)) ts text fs pol H1 H2 H3).
Qed.
Print Assumptions C68_parsed_text_means_what_it_says.

(** A name that is defined by no network at all removes the restriction: the term matches
    every source although its text names one. *)
Theorem C68_empty_definition_matches_all_refuted :
  exists lookup l t x, (forall n nets, lookup n = Ok nets -> valid_list nets) /\
    parse_text lookup 5 [] true false
      "header { target:: iptables } term t { source-address:: NOTHING action:: accept }" = Ok [(l, [(t, x)])] /\
    (forall p, term_matches t p) /\
    (forall p, ~ text_matches lookup [] [("source-address", VList ["NOTHING"]); ("action", VText "accept")] p).
Proof.
  exists demo_lookup. eexists _, _, _. split; [|split; [vm_compute; reflexivity|split]].
  - intros n nets. unfold demo_lookup. destruct (String.eqb n "OFFICE").
    + intros H. injection H as <-. constructor; [|constructor]. split; [vm_compute; split; discriminate|]. split; [vm_compute; split; [discriminate|reflexivity]|]. exists 10. reflexivity.
    + destruct (String.eqb n "NOTHING"); [|discriminate]. intros H. injection H as <-. constructor.
  - intros p. unfold term_matches, addresses_match, protocols_match, all_ports_match, prefixes_match, options_match,
      numbers_match, icmp_match, place_matches, link_matches, either_matches, side_matches, any_or, none_of, opt_eq,
      text_range, ports_match, covered. cbn. repeat split; auto; try (intros H; destruct H as (n & [] & _)); try (intros n []).
  - intros p (A & _). destruct A as (_ & (A & _) & _). destruct A as [A|(n & nets & Hn & E & C)]; [discriminate A|].
    destruct Hn as [<-|[]]. vm_compute in E. injection E as <-. destruct C as (m & [] & _).
Qed.
Print Assumptions C68_empty_definition_matches_all_refuted.

Example C68_example :
  exists st h t x, load ["HTTP = 80/tcp"] [] = Ok st /\
    laid_out demo_tokens demo_text /\ policy_tokens demo_tokens demo_filters /\
    parse_text demo_lookup 5 (n_services st) true false demo_text = Ok [(Some h, [(t, x)])] /\
    t_destination_port t = [(80, 80)] /\ t_source_address t = [demo_net] /\ h_targets h = [("iptables", ["INPUT"])] /\
    names_nonempty demo_lookup (snd (hd ("", []) (snd (hd ([], []) demo_filters)))).
Proof.
  eexists _, _, _, _. split; [vm_compute; reflexivity|]. split; [exact demo_laid_out|].
  split; [apply C66_grammar_exact; vm_compute; reflexivity|]. split; [vm_compute; reflexivity|].
  split; [reflexivity|]. split; [reflexivity|]. split; [reflexivity|].
  intros k name _ H E. unfold demo_lookup in E. destruct (String.eqb name "OFFICE"); [discriminate E|].
  destruct (String.eqb_spec name "NOTHING") as [->|N]; [|discriminate E].
  unfold words_said, said in H. apply in_flat_map in H. destruct H as (v & Hv & Hn). apply in_map_iff in Hv.
  destruct Hv as ([k' v'] & <- & Hf). apply filter_In in Hf. destruct Hf as [Hf _]. cbn in Hf.
  repeat (destruct Hf as [Hf|Hf]; [injection Hf as <- <-; cbn in Hn; intuition discriminate|]). destruct Hf.
Qed.

(** ** C69 *)
(** A comment is kept line by line, without the indentation. *)
Theorem C69_comment_lines :
  forall s, has_char """" s = false ->
    comment_value (in_quotes s) = join (String "010" "") (map lstrip (splitlines s)).
Proof. exact comment_of_quoted. Qed.
Print Assumptions C69_comment_lines.

(** Verbatim text reaches the generator as it was meant, quotes included, unless it ends with
    a quote. *)
Theorem C69_verbatim_text_kept_partial :
  forall s, ends_with """" s = false -> unescape (strip_dq (in_quotes (escape s))) = s.
Proof. exact verbatim_of_quoted. Qed.
Print Assumptions C69_verbatim_text_kept_partial.

Theorem C69_escaped_text_is_one_token :
  forall s, has_char "\" s = false -> has_char """" s = true ->
    spelled (Esc (in_quotes (escape s))) (in_quotes (escape s)).
Proof. exact escaped_spelled. Qed.
Print Assumptions C69_escaped_text_is_one_token.

(** A text that ends with a quote loses it and keeps the backslash that escaped it. *)
Theorem C69_final_quote_refuted :
  exists s, has_char "\" s = false /\ spelled (Esc (in_quotes (escape s))) (in_quotes (escape s)) /\
    unescape (strip_dq (in_quotes (escape s))) <> s.
Proof.
  exists "say ""hi""". split; [reflexivity|]. split; [now apply escaped_spelled|]. vm_compute. discriminate.
Qed.
Print Assumptions C69_final_quote_refuted.

Example C69_example :
  comment_value (in_quotes "first line
      second line") = "first line
second line" /\
  unescape (strip_dq (in_quotes (escape "description ""web"" farm"))) = "description ""web"" farm".
Proof. split; vm_compute; reflexivity. Qed.

(** ** C70 *)
Theorem C70_dates_exist :
  forall y m d, (exists n, date_ordinal y m d = Ok n) <-> calendar_day y m d.
Proof. exact date_ordinal_ok. Qed.
Print Assumptions C70_dates_exist.

Theorem C70_dates_ordered :
  forall y m d n y' m' d' n', date_ordinal y m d = Ok n -> date_ordinal y' m' d' = Ok n' ->
    (n < n' <-> earlier_day (y, m, d) (y', m', d')).
Proof. exact date_ordinal_order. Qed.
Print Assumptions C70_dates_ordered.

(** The expiration of a term is the date its text gives. *)
Theorem C70_expiration_read :
  forall lookup name l p, build_term lookup (name, l) = Ok p ->
    match last_of (said "expiration" l) with
    | Some v => exists y m d n, v = VDate y m d /\ date_ordinal y m d = Ok n /\ t_expiration (p_term p) = Some n
    | None => t_expiration (p_term p) = None
    end.
Proof. intros lookup name l p B. exact (built_expiration lookup name l p B). Qed.
Print Assumptions C70_expiration_read.

Example C70_example :
  date_ordinal 2024 2 29 = Ok 738945 /\ date_ordinal 2024 3 1 = Ok 738946 /\ calendar_day 2024 2 29 /\
  date_ordinal 2023 2 29 = Raise (Exn "ValueError") /\ ~ calendar_day 2023 2 29.
Proof.
  split; [reflexivity|]. split; [reflexivity|]. split; [apply C70_dates_exist; eexists; reflexivity|].
  split; [reflexivity|]. intros H. apply C70_dates_exist in H. destruct H as [n H]. discriminate H.
Qed.
