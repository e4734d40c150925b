(** Theorems C23-C27, C54, C55: the code shared by all generators (aclgenerator.py). *)
From Coq Require Import Lia.
From Verif Require Import SpecGen BaseFacts PortProofs GenProofs GenProofs2 WrapProofs.
Local Open Scope string_scope.
Local Open Scope list_scope.
Local Open Scope Z_scope.

(** ** C23: term names *)

Theorem C23_name_fits :
  forall table name abbreviate truncate limit s,
    fix_term_length table name abbreviate truncate limit = Ok s -> slen s <= limit.
Proof. exact fix_term_length_fits. Qed.
Print Assumptions C23_name_fits.

Theorem C23_short_names_unchanged :
  forall table name abbreviate truncate limit,
    slen name <= limit -> fix_term_length table name abbreviate truncate limit = Ok name.
Proof. exact fix_term_length_short. Qed.
Print Assumptions C23_short_names_unchanged.

(** The only error, and when it can arise. *)
Theorem C23_error :
  forall table name abbreviate truncate limit e,
    fix_term_length table name abbreviate truncate limit = Raise e ->
    e = Exn "TermNameTooLongError" /\ limit < slen name /\ (truncate = false \/ limit < 0).
Proof. exact fix_term_length_error. Qed.
Print Assumptions C23_error.

(** Without abbreviation: the name itself or, if allowed, its first [limit] characters. *)
Theorem C23_only_truncated :
  forall table name truncate limit s,
    fix_term_length table name false truncate limit = Ok s ->
    (truncate = false /\ s = name) \/
    (truncate = true /\ exists q, name = (s ++ q)%string /\ (q <> "" -> slen s = limit)).
Proof. exact fix_term_length_truncation. Qed.
Print Assumptions C23_only_truncated.

(** With abbreviation only: the replacements of the table are done in order, and only as
    many as are needed. *)
Theorem C23_abbreviates_as_needed :
  forall table name limit s, Forall (fun e => fst e <> "") table ->
    fix_term_length table name true false limit = Ok s ->
    exists k, abbreviated (firstn k table) name s /\
      forall j m, (j < k)%nat -> abbreviated (firstn j table) name m -> limit < slen m.
Proof. exact fix_term_length_abbreviates. Qed.
Print Assumptions C23_abbreviates_as_needed.

Theorem C23_abbreviates_if_possible :
  forall table name limit k m, Forall (fun e => fst e <> "") table ->
    abbreviated (firstn k table) name m -> slen m <= limit ->
    exists s, fix_term_length table name true false limit = Ok s.
Proof. exact fix_term_length_abbreviates_enough. Qed.
Print Assumptions C23_abbreviates_if_possible.

Example C23_example :
  fix_term_length abbreviation_table "accept-internal-service" true false 20 = Ok "accept-internal-SVC" /\
  fix_term_length abbreviation_table "accept-internal-service" true false 14 = Ok "accept-INT-SVC" /\
  fix_term_length abbreviation_table "accept-internal-service" true true 5 = Ok "ACC-I" /\
  fix_term_length abbreviation_table "accept-internal-service" false false 22 = Raise (Exn "TermNameTooLongError") /\
  Forall (fun e => fst e <> "") abbreviation_table.
Proof. do 4 (split; [vm_compute; reflexivity|]). repeat constructor; discriminate. Qed.

(** ** C24: established terms *)

Theorem C24_established_gains_high_ports :
  forall g t af r, fix_high_ports g t af false = Ok r ->
    (exists o, In o (t_option t) /\ starts_with "established" o = true) ->
    (forall q, In q (if some (t_protocol t) then t_protocol t else [default_protocol g]) -> q = "tcp" \/ q = "udp") /\
    exists ports, r = set_destination_port ports t /\
      forall n, in_ports ports n <-> in_ports (t_destination_port t) n \/ 1024 <= n <= 65535.
Proof.
  intros g t af r H E. apply fix_high_ports_spec in H. destruct H as (_ & _ & [(N & _)|[(_ & D & _)|(_ & P & R)]]).
  - contradiction.
  - discriminate.
  - split; [exact P|]. eexists. split; [exact R|]. intros n.
    rewrite collapse_ports_cover, in_ports_app, in_ports_cons, in_ports_nil. unfold in_range; cbn [fst snd]. tauto.
Qed.
Print Assumptions C24_established_gains_high_ports.

(** In terms of packets; note that a term without destination ports, which matched any
    port, matches only the high ports afterwards. *)
Theorem C24_established_matches :
  forall g t af r, fix_high_ports g t af false = Ok r ->
    (exists o, In o (t_option t) /\ starts_with "established" o = true) ->
    forall p, term_matches r p <->
      term_matches (set_destination_port [] t) p /\
      (in_ports (t_destination_port t) (p_dport p) \/ 1024 <= p_dport p <= 65535).
Proof. exact fix_high_ports_matches. Qed.
Print Assumptions C24_established_matches.

Theorem C24_other_terms_unchanged :
  forall g t af st r, fix_high_ports g t af st = Ok r ->
    ~ (exists o, In o (t_option t) /\ starts_with "established" o = true) -> r = t.
Proof.
  intros g t af st r H E. apply fix_high_ports_spec in H. destruct H as (_ & _ & [(_ & R)|[(D & _)|(D & _)]]); [exact R| |]; contradiction.
Qed.
Print Assumptions C24_other_terms_unchanged.

(** If the platform tracks the state of all protocols, ports keep their meaning. *)
Theorem C24_stateful_platforms :
  forall g t af r, fix_high_ports g t af true = Ok r ->
    exists ports, (r = t \/ r = set_destination_port ports t) /\
      forall n, in_ports ports n <-> in_ports (t_destination_port t) n.
Proof.
  intros g t af r H. apply fix_high_ports_spec in H. exists (collapse_port_list (t_destination_port t)).
  split; [|intros n; apply collapse_ports_cover]. destruct H as (_ & _ & [(_ & R)|[(_ & _ & _ & R)|(_ & _ & R)]]); auto.
Qed.
Print Assumptions C24_stateful_platforms.

Theorem C24_errors :
  forall g t af st e, fix_high_ports g t af st = Raise e ->
    let protocols := if some (t_protocol t) then t_protocol t else [default_protocol g] in
    (e = Exn "UnsupportedAFError" /\ ~ In af (supported_af g)) \/
    (e = Exn "UnsupportedFilterError" /\ exists bad p, assoc af (filter_blacklist g) = Some bad /\ In p protocols /\ In p bad) \/
    (e = Exn "EstablishedError" /\ st = false /\ (exists o, In o (t_option t) /\ starts_with "established" o = true) /\
     exists p, In p protocols /\ p <> "tcp" /\ p <> "udp").
Proof. exact fix_high_ports_error. Qed.
Print Assumptions C24_errors.

Definition gen_default : gen_class := mkGen "ip" ["inet"; "inet6"] [].
Example C24_example :
  let t := set_option ["established"] (set_protocol ["tcp"; "udp"] (set_destination_port [(80, 80); (1000, 2000)] (blank "t"))) in
  (exists r, fix_high_ports gen_default t "inet" false = Ok r /\ t_destination_port r = [(80, 80); (1000, 65535)]) /\
  fix_high_ports gen_default (set_protocol ["tcp"; "icmp"] t) "inet" false = Raise (Exn "EstablishedError") /\
  fix_high_ports gen_default (set_option ["tcp-established"] t) "inet" false = Ok (set_option ["tcp-established"] t).
Proof. split; [eexists; split; vm_compute; reflexivity|]. split; vm_compute; reflexivity. Qed.

(** ** C25: unsupported keywords *)

Theorem C25_accepted_iff_keywords_known :
  forall platform k filters,
    check_tokens platform k filters = Ok tt <->
    (forall el, In el (map fst (sub_tokens k)) -> In el (supported k)) /\
    forall ps ts t, In (ps, ts) filters -> In platform ps -> In t ts -> meant_for platform t ->
      forall el v, In (el, v) (term_fields t) -> field_ok k el v.
Proof. exact check_tokens_spec. Qed.
Print Assumptions C25_accepted_iff_keywords_known.

Theorem C25_error :
  forall platform k filters e, check_tokens platform k filters = Raise e -> e = Exn "UnsupportedFilterError".
Proof. exact check_tokens_error. Qed.
Print Assumptions C25_error.

(** Match conditions that are only warned about, or whose value is zero, get through. *)
Theorem C25_no_condition_dropped_refuted :
  exists t p, meant_for "cisco" t /\ check_tokens "cisco" default_tokens [(["cisco"], [t])] = Ok tt /\
    t_source_tag t <> [] /\ ~ In "source_tag" (supported default_tokens) /\
    t_restrict_address_family t <> None /\ ~ In "restrict_address_family" (supported default_tokens) /\
    t_ttl t <> None /\ ~ In "ttl" (supported default_tokens) /\
    ~ term_matches t p /\
    term_matches (set_source_tag [] (set_restrict_address_family None (set_ttl None t))) p.
Proof.
  exists (set_action ["accept"] (set_source_tag ["web"] (set_restrict_address_family (Some "inet6") (set_ttl (Some 0) (blank "t"))))).
  exists (mkPacket (V4, 0) (V4, 0) "tcp" 1 2 "" 0 (fun _ => False) (fun _ => False) (fun _ => False) (fun _ => False)
            (fun _ => False) "" "" 0 0 0 64 "" "" "" "" "" "" "" "inet" "cisco").
  split. { split; [left; reflexivity|intros []]. }
  split; [vm_compute; reflexivity|].
  assert (N : forall s, str_in s (supported default_tokens) = false -> ~ In s (supported default_tokens)).
  { intros s H I. apply str_in_spec in I. congruence. }
  split; [discriminate|]. split; [apply N; reflexivity|].
  split; [discriminate|]. split; [apply N; reflexivity|].
  split; [discriminate|]. split; [apply N; reflexivity|].
  split.
  - intros (_ & _ & _ & _ & _ & (_ & _ & _ & T) & _). cbn in T. discriminate.
  - assert (E : forall x : ipaddr, ~ covered [] x) by (intros x (n & [] & _)).
    unfold term_matches, addresses_match, either_matches, side_matches, protocols_match, all_ports_match, ports_match,
      prefixes_match, options_match, numbers_match, icmp_match, place_matches, link_matches, any_or, none_of, opt_eq, text_range.
    cbn. repeat split; auto; try (intros ? []).
Qed.
Print Assumptions C25_no_condition_dropped_refuted.

(** All other match conditions of a term are supported by the platform if they are set. *)
Theorem C25_no_condition_dropped_partial :
  forall platform k filters ps ts t, check_tokens platform k filters = Ok tt ->
    In (ps, ts) filters -> In platform ps -> In t ts -> meant_for platform t ->
    (~ In "address" (supported k) -> t_address t = []) /\
    (~ In "address_exclude" (supported k) -> t_address_exclude t = []) /\
    (~ In "source_address" (supported k) -> t_source_address t = []) /\
    (~ In "source_address_exclude" (supported k) -> t_source_address_exclude t = []) /\
    (~ In "destination_address" (supported k) -> t_destination_address t = []) /\
    (~ In "destination_address_exclude" (supported k) -> t_destination_address_exclude t = []) /\
    (~ In "port" (supported k) -> t_port t = []) /\
    (~ In "source_port" (supported k) -> t_source_port t = []) /\
    (~ In "destination_port" (supported k) -> t_destination_port t = []) /\
    (~ In "protocol" (supported k) -> t_protocol t = []) /\
    (~ In "protocol_except" (supported k) -> t_protocol_except t = []) /\
    (~ In "option" (supported k) -> t_option t = []) /\
    (~ In "source_prefix" (supported k) -> t_source_prefix t = []) /\
    (~ In "source_prefix_except" (supported k) -> t_source_prefix_except t = []) /\
    (~ In "destination_prefix" (supported k) -> t_destination_prefix t = []) /\
    (~ In "destination_prefix_except" (supported k) -> t_destination_prefix_except t = []) /\
    (~ In "precedence" (supported k) -> t_precedence t = []) /\
    (~ In "forwarding_class" (supported k) -> t_forwarding_class t = []) /\
    (~ In "forwarding_class_except" (supported k) -> t_forwarding_class_except t = []) /\
    (~ In "icmp_type" (supported k) -> t_icmp_type t = []) /\
    (~ In "icmp_code" (supported k) -> t_icmp_code t = []) /\
    (~ In "ether_type" (supported k) -> t_ether_type t = []) /\
    (~ In "traffic_type" (supported k) -> t_traffic_type t = []) /\
    (~ In "dscp_match" (supported k) -> t_dscp_match t = []) /\
    (~ In "dscp_except" (supported k) -> t_dscp_except t = []) /\
    (~ In "source_zone" (supported k) -> t_source_zone t = []) /\
    (~ In "destination_zone" (supported k) -> t_destination_zone t = []) /\
    (~ In "ttl" (supported k) -> t_ttl t = None \/ t_ttl t = Some 0) /\
    (~ In "fragment_offset" (supported k) -> t_fragment_offset t = None \/ t_fragment_offset t = Some "") /\
    (~ In "hop_limit" (supported k) -> t_hop_limit t = None \/ t_hop_limit t = Some "") /\
    (~ In "packet_length" (supported k) -> t_packet_length t = None \/ t_packet_length t = Some "") /\
    (~ In "source_interface" (supported k) -> t_source_interface t = None \/ t_source_interface t = Some "") /\
    (~ In "destination_interface" (supported k) -> t_destination_interface t = None \/ t_destination_interface t = Some "").
Proof. exact unsupported_not_set. Qed.
Print Assumptions C25_no_condition_dropped_partial.

(** Option and action keywords are checked one by one. *)
Theorem C25_keywords_on_the_list :
  forall platform k filters ps ts t subs, check_tokens platform k filters = Ok tt ->
    In (ps, ts) filters -> In platform ps -> In t ts -> meant_for platform t -> ~ In ".*" subs ->
    (assoc "option" (sub_tokens k) = Some subs -> forall o, In o (t_option t) -> In o subs) /\
    (assoc "action" (sub_tokens k) = Some subs -> forall o, In o (t_action t) -> In o subs) /\
    (assoc "icmp_type" (sub_tokens k) = Some subs -> forall o, In o (t_icmp_type t) -> In o subs).
Proof. exact sub_tokens_listed. Qed.
Print Assumptions C25_keywords_on_the_list.

Example C25_example :
  let t := set_option ["established"] (set_protocol ["tcp"] (set_destination_port [(80, 80)] (set_action ["accept"] (blank "t")))) in
  check_tokens "cisco" default_tokens [(["cisco"], [t])] = Ok tt /\
  check_tokens "cisco" default_tokens [(["cisco"], [set_port [(1, 2)] t])] = Raise (Exn "UnsupportedFilterError") /\
  check_tokens "cisco" default_tokens [(["juniper"], [set_port [(1, 2)] t])] = Ok tt /\
  check_tokens "cisco" default_tokens [(["cisco"], [set_platform ["juniper"] (set_port [(1, 2)] t)])] = Ok tt /\
  check_tokens "cisco" default_tokens [(["cisco"], [set_option ["inactive"] t])] = Raise (Exn "UnsupportedFilterError").
Proof. repeat (split; [vm_compute; reflexivity|]). vm_compute; reflexivity. Qed.

(** ** C26: ICMP types *)

Theorem C26_icmp_types_exact :
  forall types protocols af l,
    normalize_icmp_types types protocols af = Ok (Some l) <->
    types <> [] /\ StronglySorted Z.le l /\
    exists n table nums, icmp_family protocols n table /\ family_number af n /\
      Forall2 (fun x k => In (x, k) table) types nums /\ Permutation l nums.
Proof. exact normalize_icmp_ok. Qed.
Print Assumptions C26_icmp_types_exact.

Theorem C26_no_types :
  forall types protocols af, normalize_icmp_types types protocols af = Ok None <-> types = [].
Proof. exact normalize_icmp_none. Qed.
Print Assumptions C26_no_types.

Theorem C26_errors :
  forall types protocols af e, normalize_icmp_types types protocols af = Raise e -> types <> [] /\
    ((e = Exn "UnsupportedFilterError" /\ protocols <> ["icmp"] /\ protocols <> ["icmpv6"]) \/
     (e = Exn "UnsupportedAFError" /\ forall n, ~ family_number af n) \/
     (e = Exn "MismatchIcmpInetError" /\ exists n, family_number af n /\ forall table, ~ icmp_family protocols n table) \/
     (e = Exn "UnknownIcmpTypeError" /\ exists n table x, family_number af n /\ icmp_family protocols n table /\
        In x types /\ ~ In x (map fst table))).
Proof. exact normalize_icmp_error. Qed.
Print Assumptions C26_errors.

Example C26_example :
  normalize_icmp_types ["echo-request"; "echo-reply"] ["icmp"] (AfName "inet") = Ok (Some [0; 8]) /\
  normalize_icmp_types ["echo-request"; "echo-reply"] ["icmpv6"] (AfNum 6) = Ok (Some [128; 129]) /\
  normalize_icmp_types ["echo-request"] ["icmp"] (AfName "inet6") = Raise (Exn "MismatchIcmpInetError") /\
  normalize_icmp_types ["mask-reply"] ["icmpv6"] (AfName "inet6") = Raise (Exn "UnknownIcmpTypeError") /\
  normalize_icmp_types ["echo-request"] ["icmp"; "tcp"] (AfName "inet") = Raise (Exn "UnsupportedFilterError").
Proof. repeat (split; [vm_compute; reflexivity|]). vm_compute; reflexivity. Qed.

(** ** C27: truncated comments *)

Theorem C27_limit_respected :
  forall w n, 0 <= n -> slen (truncate_words w n) <= Z.min n 126 + 2.
Proof. exact truncate_words_length. Qed.
Print Assumptions C27_limit_respected.

(** A list of comments becomes one quoted line without inner quotes. *)
Theorem C27_one_quoted_line :
  forall l n, exists c, truncate_words (Lines l) n = String dquote (c ++ String dquote "")%string /\
    has_char newline c = false /\ has_char dquote c = false.
Proof. exact truncate_words_clean. Qed.
Print Assumptions C27_one_quoted_line.

(** A single text within the limit is only quoted. *)
Theorem C27_short_texts_unchanged :
  forall s n, slen s <= Z.min n 126 -> truncate_words (Line s) n = String dquote (s ++ String dquote "")%string.
Proof. intros s n. exact (truncate_words_all (Line s) n). Qed.
Print Assumptions C27_short_texts_unchanged.

Example C27_example :
  truncate_words (Lines ["one"; "two three"]) 8 = String dquote ("one two " ++ String dquote "")%string.
Proof. reflexivity. Qed.

(** ** C54: wrapped comments *)

Theorem C54_lines_fit :
  forall comments width line, (1 <= width)%nat -> In line (wrap_words comments width nl) -> (String.length line <= width)%nat.
Proof. exact wrap_words_fit. Qed.
Print Assumptions C54_lines_fit.

Theorem C54_no_text_lost_refuted :
  exists comments width, (2 <= width)%nat /\
    concat (map ink (wrap_words comments width nl)) <> concat (map ink comments).
Proof. exists ["type is a"], 7%nat. split; [lia|]. vm_compute. discriminate. Qed.
Print Assumptions C54_no_text_lost_refuted.

Theorem C54_no_text_lost_partial :
  forall comments width, (2 <= width)%nat ->
    (forall s w, In s comments -> In w (split_ws s) -> (2 <= String.length w)%nat) ->
    concat (map ink (wrap_words comments width nl)) = concat (map ink comments).
Proof. intros comments width. exact (wrap_words_ink width comments). Qed.
Print Assumptions C54_no_text_lost_partial.

Example C54_example :
  wrap_words ["this is it"; "verylongword here"] 7 nl = ["this is"; "it"; "verylon"; "gword"; "here"] /\
  wrap_words ["type is a"] 7 nl = ["type is"].
Proof. split; vm_compute; reflexivity. Qed.

(** ** C55: protocols *)

(** Unknown protocols are refused; known ones are kept, or replaced by their number. *)
Theorem C55_protocols_known :
  forall always protocols, (forall a, In a always -> In a (map fst proto_map)) ->
    match term_protocols always protocols with
    | Ok l => Forall2 (fun s v => (exists n, protocol_number (PName s) n) /\
                         (forall n, protocol_number v n -> protocol_number (PName s) n) /\
                         (if str_in s always then exists n, v = PNum n else v = PName s)) protocols l
    | Raise e => e = Exn "UnsupportedFilterError" /\ exists s, In s protocols /\ forall n, ~ protocol_number (PName s) n
    end.
Proof. exact term_protocols_spec. Qed.
Print Assumptions C55_protocols_known.

Example C55_example :
  term_protocols ["ipip"] ["tcp"; "ipip"; "47"] = Ok [PName "tcp"; PNum 4; PName "47"] /\
  term_protocols ["ipip"] ["tcp"; "foo"] = Raise (Exn "UnsupportedFilterError") /\
  In "ipip" (map fst proto_map).
Proof. split; [vm_compute; reflexivity|]. split; [vm_compute; reflexivity|]. simpl. tauto. Qed.
